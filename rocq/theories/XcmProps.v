(** * Properties of pallets asset-registry and xcm-transactor and of primitives/xcm: C52-C56, C65. *)
From Verif Require Import Base State Env TeerdaysModel TeerexBase SgxVerifyModel TeerexModel
  EnclaveBridgeModel SidechainModel TeeracleModel ClaimsModel AssetRegistryModel XcmTransactorModel
  Runtime Frame EnvFacts Ledger Events Examples.

(** ** Examples: carol governs registry and swaps; the router delivers unless told otherwise *)
Definition is_carol (o : origin) : bool := beq (match o with Signed a => a | _ => [] end) carol.
Definition cfg_x (router : list xcm_inst -> send_error + bytes) : cfg :=
  mkCfg true 5 1000 u32_max 1000 86400000 172800000 3 64 []
        (fun _ => false) is_carol is_carol 2267 2039 2039 (fun b => b) (fun _ _ => None) router sgx_permissive.
Definition gen_x (assets : gmap N N) : genesis := mkGenesis 5000 ∅ [] [] false false assets.
Definition reg_x (i : N) (l : location) : op := OCall (Signed carol) (CAr (ArRegister i l)).
Definition unreg_x (i : N) : op := OCall (Signed carol) (CAr (ArUnregister i)).

(** ** C53 *)
(** The documented shapes *)
Definition accepted_shape (l : location) : Prop :=
  loc_interior l = [] \/
  (exists pre j, loc_interior l = pre ++ [j] /\
     match j with JAccountId32 _ _ | JAccountKey20 _ _ | JPalletInstance _ | JParachain _ => True | _ => False end) \/
  (exists pre p g, loc_interior l = pre ++ [JPalletInstance p; JGeneralIndex g]).
Lemma valid_shape l : valid_asset_location l = true <-> accepted_shape l.
Proof.
  unfold valid_asset_location, accepted_shape. destruct (rev (loc_interior l)) as [|j r] eqn:E.
  - apply (f_equal (@rev _)) in E. rewrite rev_involutive in E. cbn in E. rewrite E. tauto.
  - apply (f_equal (@rev _)) in E. rewrite rev_involutive in E. cbn in E. rewrite E. split.
    + intros H. right. destruct j; try discriminate H; try (left; eexists; eexists; split; [reflexivity|exact I]).
      destruct r as [|j' r]; [discriminate|]. destruct j'; try discriminate H. cbn [rev]. right. exists (rev r), i0, i. rewrite <- app_assoc. auto.
    + intros [H|[(pre & x & H & Hx)|(pre & p & g & H)]].
      * destruct (rev r); discriminate.
      * apply app_inj_tail in H as [_ ->]. destruct x; auto; contradiction.
      * change [JPalletInstance p; JGeneralIndex g] with ([JPalletInstance p] ++ [JGeneralIndex g]) in H.
        rewrite app_assoc in H. apply app_inj_tail in H as [H ->]. apply (f_equal (@rev _)) in H.
        rewrite rev_involutive, rev_app_distr in H. cbn in H. rewrite H. auto.
Qed.
Lemma register_ok c o i l s s' : register_asset c o i l s = Ok tt s' ->
  c_asset_origin c o = true /\ is_Some (ar_assets (rt_ar s) !! i) /\ ar_loc (rt_ar s) !! i = None /\ accepted_shape l /\
  s' = add_ev (EvReserveAssetRegistered i l)
         (set_ar (mkAr (<[i := l]> (ar_loc (rt_ar s))) (<[l := i]> (ar_id (rt_ar s))) (ar_assets (rt_ar s))) s).
Proof.
  unfold register_asset. intros H. apply bind_ok in H as (u & s1 & H1 & H). apply ensure_ok in H1 as [Ho ->].
  apply bind_ok in H as (ex & s1 & H1 & H). apply gets_ok in H1 as [-> ->].
  apply bind_ok in H as (u1 & s1 & H1 & H). apply ensure_ok in H1 as [He ->].
  apply bind_ok in H as (old & s1 & H1 & H). apply gets_ok in H1 as [-> ->].
  apply bind_ok in H as (u2 & s1 & H1 & H). apply ensure_ok in H1 as [Hn ->].
  apply bind_ok in H as (u3 & s1 & H1 & H). apply ensure_ok in H1 as [Hv ->].
  apply bind_ok in H as (u4 & s1 & H1 & H). unfold modify, deposit_event in *. inv_rt H1. inv_rt H.
  split; [auto|]. split; [destruct (ar_assets (rt_ar s) !! i); [eauto|discriminate]|].
  split; [destruct (ar_loc (rt_ar s) !! i); [discriminate|auto]|]. split; [apply valid_shape; auto|reflexivity].
Qed.
Lemma unregister_ok c o i s s' : unregister_asset c o i s = Ok tt s' ->
  c_asset_origin c o = true /\ exists l, ar_loc (rt_ar s) !! i = Some l /\
  s' = add_ev (EvReserveAssetUnregistered i l)
         (set_ar (mkAr (delete i (ar_loc (rt_ar s))) (delete l (ar_id (rt_ar s))) (ar_assets (rt_ar s))) s).
Proof.
  unfold unregister_asset. intros H. apply bind_ok in H as (u & s1 & H1 & H). apply ensure_ok in H1 as [Ho ->].
  apply bind_ok in H as (old & s1 & H1 & H). apply gets_ok in H1 as [-> ->].
  apply bind_ok in H as (l & s1 & H1 & H). apply ok_or_ok in H1 as [Hl ->].
  apply bind_ok in H as (u2 & s1 & H1 & H). unfold modify, deposit_event in *. inv_rt H1. inv_rt H. eauto.
Qed.
(** The registry changes only by calls of the pallet *)
Lemma reg_step c s x : v_reg (step c s x) = v_reg s \/
  exists o k, x = OCall o (CAr k) /\ ar_exec c o k s = Ok tt (step c s x).
Proof.
  destruct (op_may_write x PReg) eqn:Hw; [|left; exact (step_same c s x PReg Hw)].
  destruct x as [o k| | | | | | | | | |]; try discriminate Hw.
  destruct (step_call c s o k) as [(s' & E & Es)|Es]; [|left; rewrite Es; auto].
  destruct k as [x|x|x|x|x|x|x|x]; try discriminate Hw; cbn [exec] in E. right. exists o, x. rewrite Es. auto.
Qed.
(** Registration succeeds exactly for the configured origin, an existing asset, an id that is not yet
    registered and a documented shape; it then stores both directions. *)
Theorem C53_registration_accepts_exactly : forall c s o i l,
  let r := dispatch c o (CAr (ArRegister i l)) s in
  (r.1 = Success <->
   c_asset_origin c o = true /\ is_Some (ar_assets (rt_ar s) !! i) /\ get_asset_location s i = None /\ accepted_shape l) /\
  (r.1 = Success -> get_asset_location r.2 i = Some l /\ get_asset_id r.2 l = Some i /\
     (forall i', i' <> i -> get_asset_location r.2 i' = get_asset_location s i') /\
     (forall l', l' <> l -> get_asset_id r.2 l' = get_asset_id s l')) /\
  (r.1 <> Success -> r.2 = s).
Proof.
  intros c s o i l. cbn zeta. unfold get_asset_location, get_asset_id.
  destruct (run_call_cases (exec c o (CAr (ArRegister i l))) s) as [(s' & E & Er)|[E1 E2]]; unfold dispatch.
  - rewrite Er. cbn [fst snd]. cbn [exec ar_exec] in E. apply register_ok in E as (H1 & H2 & H3 & H4 & ->).
    split; [tauto|]. split; [|contradiction]. intros _. cbn [add_ev set_ar rt_ar ar_loc ar_id].
    split; [apply lookup_insert|]. split; [apply lookup_insert|]. split; intros; apply lookup_insert_ne; auto.
  - split; [|split; [contradiction|auto]]. split; [contradiction|]. intros (H1 & [m H2] & H3 & H4). exfalso. apply E1.
    unfold run_call. cbn [exec ar_exec]. unfold register_asset, bind, ensure, gets. rewrite H1. cbn [ret]. rewrite H2. cbn [ret]. rewrite H3. cbn [ret].
    apply valid_shape in H4. rewrite H4. reflexivity.
Qed.
Print Assumptions C53_registration_accepts_exactly.
(** Which error is returned otherwise, in the order of the checks. *)
Theorem C53_registration_errors : forall c s o i l,
  (dispatch c o (CAr (ArRegister i l)) s).1 =
  if negb (c_asset_origin c o) then Failed BadOrigin
  else if bool_decide (ar_assets (rt_ar s) !! i = None) then Failed AssetDoesNotExist
  else if negb (bool_decide (get_asset_location s i = None)) then Failed AssetAlreadyRegistered
  else if valid_asset_location l then Success else Failed WrongLocation.
Proof.
  intros c s o i l. unfold dispatch, run_call, get_asset_location. cbn [exec ar_exec]. unfold register_asset, bind, ensure, gets.
  destruct (c_asset_origin c o); [|reflexivity]. cbn [negb ret].
  destruct (ar_assets (rt_ar s) !! i); [rewrite bool_decide_false by discriminate|rewrite bool_decide_true by auto; reflexivity].
  cbn [ret]. destruct (ar_loc (rt_ar s) !! i); [rewrite bool_decide_false by discriminate; reflexivity|]. cbn [negb ret].
  rewrite bool_decide_true by auto. cbn [negb]. destruct (valid_asset_location l); reflexivity.
Qed.
Print Assumptions C53_registration_errors.
Example C53_example : let c := cfg_x (fun _ => inr []) in let s := genesis_state (gen_x {[ 7 := 3 ]}) in
  let t l := (dispatch c (Signed carol) (CAr (ArRegister 7 (mkLoc 1 l))) s).1 in
  t [JParachain 2000; JPalletInstance 50; JGeneralIndex 12] = Success /\ t [] = Success /\ t [JParachain 2000] = Success /\
  t [JParachain 2000; JGeneralIndex 12] = Failed WrongLocation /\ t [JGeneralIndex 12] = Failed WrongLocation /\
  t [JPalletInstance 50; JGeneralKey 2 [1;2]] = Failed WrongLocation /\
  (dispatch c (Signed alice) (CAr (ArRegister 7 (mkLoc 1 []))) s).1 = Failed BadOrigin /\
  (dispatch c (Signed carol) (CAr (ArRegister 8 (mkLoc 1 []))) s).1 = Failed AssetDoesNotExist.
Proof. vm_compute. auto 10. Qed.

(** ** C52 *)
(** Whatever the reverse lookup answers is registered under that location, and every registered
    location has an accepted shape. *)
Theorem C52_reverse_lookup_is_registered : forall c g l i loc,
  let s := run c (genesis_state g) l in
  (get_asset_id s loc = Some i -> get_asset_location s i = Some loc) /\
  (get_asset_location s i = Some loc -> accepted_shape loc).
Proof.
  intros c g l i loc. cbn zeta. unfold get_asset_id, get_asset_location. revert i loc.
  apply (run_inv' c (fun s => forall i loc, (ar_id (rt_ar s) !! loc = Some i -> ar_loc (rt_ar s) !! i = Some loc) /\
                                            (ar_loc (rt_ar s) !! i = Some loc -> accepted_shape loc))).
  2:{ intros i loc. split; intros H; vm_compute in H; discriminate. }
  intros s x IH i loc. destruct (reg_step c s x) as [E|(o & k & -> & E)].
  { unfold v_reg in E. inversion E as [[H1 H2]]. rewrite ?H1, ?H2. apply IH. }
  destruct k; cbn [ar_exec] in E.
  - apply register_ok in E as (_ & _ & Hn & Hs & ->). cbn [add_ev set_ar rt_ar ar_loc ar_id]. split.
    + destruct (decide (loc = l0)) as [->|Hd].
      * rewrite lookup_insert. intros H. inversion H; subst. apply lookup_insert.
      * rewrite lookup_insert_ne by auto. intros H. apply IH in H. rewrite lookup_insert_ne; [auto|]. intros ->. congruence.
    + destruct (decide (i = id)) as [->|Hd].
      * rewrite lookup_insert. intros H. inversion H; subst. auto.
      * rewrite lookup_insert_ne by auto. apply IH.
  - apply unregister_ok in E as (_ & l0 & Hl & ->). cbn [add_ev set_ar rt_ar ar_loc ar_id]. split.
    + intros H. apply lookup_delete_Some in H as [Hd H]. apply IH in H. rewrite lookup_delete_ne; [auto|]. intros ->. congruence.
    + intros H. apply lookup_delete_Some in H as [_ H]. apply IH in H. auto.
Qed.
Print Assumptions C52_reverse_lookup_is_registered.
(** In every reachable state two locations never resolve to one id. *)
Theorem C52_reverse_lookup_is_injective : forall c g l i loc1 loc2,
  let s := run c (genesis_state g) l in
  get_asset_id s loc1 = Some i -> get_asset_id s loc2 = Some i -> loc1 = loc2.
Proof.
  intros c g l i loc1 loc2. cbn zeta. intros H1 H2. apply C52_reverse_lookup_is_registered in H1, H2. congruence.
Qed.
Print Assumptions C52_reverse_lookup_is_injective.
(** If ids are only ever registered for locations that are not in use, both maps are inverse. *)
Definition fresh_location (s : rt) (x : op) : Prop :=
  forall o i loc, x = OCall o (CAr (ArRegister i loc)) -> forall i', get_asset_location s i' <> Some loc.
Theorem C52_inverse_if_locations_are_fresh : forall c g l,
  (forall l1 x l2, l = l1 ++ x :: l2 -> fresh_location (run c (genesis_state g) l1) x) ->
  let s := run c (genesis_state g) l in
  forall i loc, get_asset_id s loc = Some i <-> get_asset_location s i = Some loc.
Proof.
  intros c g l Hf. cbn zeta. intros i loc. split; [apply C52_reverse_lookup_is_registered|].
  revert i loc. induction l as [|x l IH] using rev_ind.
  { intros i loc H. vm_compute in H. discriminate. }
  assert (forall l1 x l2, l = l1 ++ x :: l2 -> fresh_location (run c (genesis_state g) l1) x) as Hf1.
  { intros l1 y l2 ->. apply (Hf l1 y (l2 ++ [x])). rewrite <- app_assoc. auto. }
  specialize (IH Hf1). specialize (Hf l x [] eq_refl). rewrite run_snoc. set (s := run c (genesis_state g) l) in *.
  pose proof (C52_reverse_lookup_is_registered c g l) as HR. cbn zeta in HR. fold s in HR.
  unfold get_asset_id, get_asset_location in *. intros i loc. destruct (reg_step c s x) as [E|(o & k & -> & E)].
  { unfold v_reg in E. inversion E as [[H1 H2]]. rewrite ?H1, ?H2. apply IH. }
  destruct k; cbn [ar_exec] in E.
  - apply register_ok in E as (_ & _ & Hn & _ & ->). cbn [add_ev set_ar rt_ar ar_loc ar_id].
    destruct (decide (i = id)) as [->|Hd].
    + rewrite lookup_insert. intros H. inversion H; subst. apply lookup_insert.
    + rewrite lookup_insert_ne by auto. intros H. destruct (decide (loc = l0)) as [->|Hl].
      * exfalso. eapply Hf; [reflexivity|]. exact H.
      * rewrite lookup_insert_ne by auto. apply IH. auto.
  - apply unregister_ok in E as (_ & l0 & Hl & ->). cbn [add_ev set_ar rt_ar ar_loc ar_id].
    intros H. apply lookup_delete_Some in H as [Hd H]. apply lookup_delete_Some. pose proof (IH _ _ H) as H1. split; [|auto].
    intros ->. pose proof (IH _ _ Hl). congruence.
Qed.
Print Assumptions C52_inverse_if_locations_are_fresh.
(** In general they are not: a second id takes the location over; unregistering the first one then
    makes the location unresolvable although the second id is still registered for it - even though
    the location is no longer shared. *)
Theorem C52_maps_are_inverse_refuted : exists c g i1 i2 loc,
  let s2 := run c (genesis_state g) [reg_x i1 loc; reg_x i2 loc] in
  let s3 := run c (genesis_state g) [reg_x i1 loc; reg_x i2 loc; unreg_x i1] in
  get_asset_location s2 i1 = Some loc /\ get_asset_location s2 i2 = Some loc /\ get_asset_id s2 loc = Some i2 /\
  get_asset_location s3 i1 = None /\ get_asset_location s3 i2 = Some loc /\ get_asset_id s3 loc = None.
Proof.
  exists (cfg_x (fun _ => inr [])), (gen_x {[ 7 := 3; 8 := 3 ]}), 7, 8, (mkLoc 1 [JParachain 2000]). vm_compute. auto 10.
Qed.
Print Assumptions C52_maps_are_inverse_refuted.
(** Only the configured origin changes the registry. *)
Theorem C52_only_the_origin_changes_the_registry : forall c s x i loc,
  get_asset_location (step c s x) i <> get_asset_location s i \/ get_asset_id (step c s x) loc <> get_asset_id s loc ->
  exists o, c_asset_origin c o = true /\
    ((exists i' l', x = OCall o (CAr (ArRegister i' l'))) \/ (exists i', x = OCall o (CAr (ArUnregister i')))).
Proof.
  intros c s x i loc H. destruct (reg_step c s x) as [E|(o & k & -> & E)].
  { unfold v_reg in E. inversion E as [[H1 H2]]. unfold get_asset_location, get_asset_id in H. rewrite H1, H2 in H. destruct H; contradiction. }
  exists o. destruct k; cbn [ar_exec] in E.
  - apply register_ok in E as (Ho & _). eauto.
  - apply unregister_ok in E as (Ho & _). eauto.
Qed.
Print Assumptions C52_only_the_origin_changes_the_registry.
Example C52_example : let c := cfg_x (fun _ => inr []) in let g := gen_x {[ 7 := 3; 8 := 3 ]} in
  let l := [reg_x 7 (mkLoc 1 [JParachain 2000]); reg_x 8 (mkLoc 1 []); unreg_x 7; reg_x 7 (mkLoc 1 [JParachain 2001])] in
  let s := run c (genesis_state g) l in
  get_asset_id s (mkLoc 1 [JParachain 2001]) = Some 7 /\ get_asset_id s (mkLoc 1 []) = Some 8 /\
  get_asset_id s (mkLoc 1 [JParachain 2000]) = None /\ get_asset_location s 8 = Some (mkLoc 1 []).
Proof. vm_compute. auto. Qed.

(** ** C54 *)
(** Should this fungible be trapped? A registered asset that the assets pallet does not know (any more) has no minimum. *)
Definition trapped (c : cfg) (s : rt) (x : location * N) : Prop :=
  match get_asset_id s x.1 with
  | Some i => forall m, ar_assets (rt_ar s) !! i = Some m -> m <= x.2
  | None => x.1 = mkLoc 0 [] /\ c_ed c <= x.2
  end.
Global Instance trapped_dec c s x : Decision (trapped c s x).
Proof.
  unfold trapped. destruct (get_asset_id s x.1) as [i|]; [|apply _]. destruct (ar_assets (rt_ar s) !! i) as [m|]; [|left; discriminate].
  destruct (decide (m <= x.2)) as [H|H]; [left; intros ? [= <-]; exact H|right; intros H'; exact (H (H' m eq_refl))].
Defined.
(** No asset's minimum exceeds the largest balance of the assets pallet *)
Definition minimums_fit (e : drop_env) (s : rt) : Prop := forall i m, ar_assets (rt_ar s) !! i = Some m -> m <= de_asset_max e.
Definition count {A} (P : A -> bool) (l : list A) : N := lenN (List.filter P l).
Definition registered (s : rt) (x : location * N) : bool := match get_asset_id s x.1 with Some _ => true | None => false end.
Lemma drop_loop_spec c e s : c_ed c <= c_bal_max c -> minimums_fit e s -> forall l w,
  (drop_loop c e s l w).1 = filter (trapped c s) l /\
  forall t, w_add (drop_loop c e s l w).2 t =
  w_add (w.1 + count (registered s) l * (de_fungible e).1 + count (fun x => negb (registered s x)) l * (de_native e).1,
         w.2 + count (registered s) l * (de_fungible e).2 + count (fun x => negb (registered s x)) l * (de_native e).2) t.
Proof.
  intros Hed Hmin. induction l as [|x l IH]; intros w.
  { cbn [drop_loop fst snd]. unfold count. cbn [List.filter]. change (lenN (@nil (location * N))) with 0. split; [reflexivity|]. intros t. f_equal.
    destruct w as [w1 w2]. cbn [fst snd]. f_equal; lia. }
  cbn [drop_loop]. destruct (drop_one c e s x) as [keep wx] eqn:Ed.
  specialize (IH (w_add w wx)). destruct (drop_loop c e s l (w_add w wx)) as [r' w'] eqn:El. cbn [fst snd] in *.
  destruct IH as [IH1 IH2].
  assert ((keep = true <-> trapped c s x) /\ wx = if registered s x then de_fungible e else de_native e) as [Hk ->].
  { unfold drop_one in Ed. unfold trapped, registered. destruct (get_asset_id s x.1) as [i|].
    - inversion Ed; subst. split; [|auto]. specialize (Hmin i). rewrite N.leb_le. unfold asset_min.
      destruct (ar_assets (rt_ar s) !! i) as [m|]; cbn [default from_option].
      + specialize (Hmin m eq_refl). split; [intros H ? [= <-]|intros H; specialize (H m eq_refl)]; unfold id in *; lia.
      + split; [discriminate|lia].
    - inversion Ed; subst. split; [|auto]. rewrite andb_true_iff, bool_decide_eq_true, N.leb_le.
      unfold native_location. split; intros [H1 H2]; (split; [auto|lia]). }
  split.
  - rewrite filter_cons. rewrite IH1. destruct (decide (trapped c s x)) as [Hd|Hd], keep; auto; [|tauto].
    apply Hk in Hd. discriminate.
  - intros t. rewrite IH2. unfold count. cbn [List.filter]. unfold w_add, sat_add. cbn [fst snd].
    destruct (registered s x); cbn [negb]; rewrite lenN_cons; f_equal; lia.
Qed.
(** What the trap receives: exactly the fungibles that qualify, with their amounts, in order; no
    non-fungibles. The weight is the saturated sum. *)
Theorem C54_what_is_trapped : forall c e s h, c_ed c <= c_bal_max c -> minimums_fit e s ->
  let r := drop_assets c e s h in
  h_fun r.1 = filter (trapped c s) (h_fun h) /\ h_non r.1 = [] /\
  let n := count (registered s) (h_fun h) in let m := count (fun x => negb (registered s x)) (h_fun h) in
  r.2 = (N.min ((de_default e).1 + n * (de_fungible e).1 + m * (de_native e).1 + (de_trap e r.1).1) u64_max,
         N.min ((de_default e).2 + n * (de_fungible e).2 + m * (de_native e).2 + (de_trap e r.1).2) u64_max).
Proof.
  intros c e s h H1 H2. cbn zeta. unfold drop_assets. destruct (drop_loop_spec c e s H1 H2 (h_fun h) (de_default e)) as [E1 E2].
  destruct (drop_loop c e s (h_fun h) (de_default e)) as [f w]. cbn [fst snd] in *. subst f.
  cbn [fst snd h_fun h_non]. split; [auto|]. split; [auto|]. rewrite E2. reflexivity.
Qed.
Print Assumptions C54_what_is_trapped.
(** Nothing is created: every trapped asset was held with that amount; what is held and qualifies is
    not lost. *)
Theorem C54_trap_neither_creates_nor_loses : forall c e s h x, c_ed c <= c_bal_max c -> minimums_fit e s ->
  x ∈ h_fun (drop_assets c e s h).1 <-> x ∈ h_fun h /\ trapped c s x.
Proof.
  intros c e s h x H1 H2. destruct (C54_what_is_trapped c e s h H1 H2) as (-> & _). rewrite elem_of_list_filter. tauto.
Qed.
Print Assumptions C54_trap_neither_creates_nor_loses.
(** So of an asset that is registered but has been destroyed any amount is trapped, however small *)
Theorem C54_destroyed_assets_are_trapped : forall c e s h x i, c_ed c <= c_bal_max c -> minimums_fit e s ->
  get_asset_id s x.1 = Some i -> ar_assets (rt_ar s) !! i = None -> x ∈ h_fun h -> x ∈ h_fun (drop_assets c e s h).1.
Proof.
  intros c e s h x i H1 H2 Hi Ha Hx. apply C54_trap_neither_creates_nor_loses; [auto|auto|]. split; [auto|].
  unfold trapped. rewrite Hi, Ha. discriminate.
Qed.
Print Assumptions C54_destroyed_assets_are_trapped.
Definition env_x : drop_env := mkDropEnv (10, 1) (20, 2) (1, 1) 1000000 (fun h => (100 * lenN (h_fun h), 5)).
Example C54_example : let c := cfg_x (fun _ => inr []) in
  let s := run c (genesis_state (gen_x {[ 7 := 3 ]})) [reg_x 7 (mkLoc 1 [JParachain 2000])] in
  drop_assets c env_x s (mkHolding [(mkLoc 0 [], 5); (mkLoc 1 [], 50); (mkLoc 1 [JParachain 2000], 2)] [(mkLoc 0 [], 9)]) =
    (mkHolding [(mkLoc 0 [], 5)] [], (151, 11)) /\
  (drop_assets c env_x s (mkHolding [(mkLoc 0 [], 4); (mkLoc 1 [JParachain 2000], 3)] [])).1 =
    mkHolding [(mkLoc 1 [JParachain 2000], 3)] [].
Proof. vm_compute. auto. Qed.
Example C54_example_destroyed : let c := cfg_x (fun _ => inr []) in
  let s := run c (genesis_state (gen_x {[ 7 := 3 ]})) [reg_x 7 (mkLoc 1 [JParachain 2000]); ODestroyAsset 7] in
  get_asset_id s (mkLoc 1 [JParachain 2000]) = Some 7 /\ ar_assets (rt_ar s) !! 7 = None /\
  (drop_assets c env_x s (mkHolding [(mkLoc 1 [JParachain 2000], 0)] [])).1 = mkHolding [(mkLoc 1 [JParachain 2000], 0)] [].
Proof. vm_compute. auto. Qed.

(** ** C55 *)
Theorem C55_matching_agrees_with_the_registry : forall conv s l f i b,
  matches_fungibles conv s l f = inr (i, b) <->
  exists n, f = Fungible n /\ get_asset_id s l = Some i /\ conv n = Some b.
Proof.
  intros conv s l f i b. unfold matches_fungibles. destruct f as [n|n].
  - destruct (get_asset_id s l) as [j|].
    + destruct (conv n) as [d|] eqn:E; split.
      * intros H. inversion H; subst. eauto.
      * intros (n' & H1 & H2 & H3). inversion H1; subst. congruence.
      * discriminate.
      * intros (n' & H1 & H2 & H3). inversion H1; subst. congruence.
    + split; [discriminate|]. intros (n' & _ & H & _). discriminate.
  - split; [discriminate|]. intros (n' & H & _). discriminate.
Qed.
Print Assumptions C55_matching_agrees_with_the_registry.
(** Which error, otherwise. *)
Theorem C55_matching_errors : forall conv s l f,
  (matches_fungibles conv s l f = inl AmountConversionFailed <->
     exists n i, f = Fungible n /\ get_asset_id s l = Some i /\ conv n = None) /\
  (matches_fungibles conv s l f = inl AssetNotHandled <->
     (exists n, f = NonFungible n) \/ get_asset_id s l = None).
Proof.
  intros conv s l f. unfold matches_fungibles. destruct f as [n|n].
  - destruct (get_asset_id s l) as [j|].
    + destruct (conv n) as [d|] eqn:E; split; split; try discriminate.
      * intros (n' & i & H1 & _ & H2). inversion H1; subst. congruence.
      * intros [[n' H]|H]; discriminate.
      * eauto.
      * auto.
      * intros [[n' H]|H]; discriminate.
    + split; split; try discriminate; auto. intros (n' & i & _ & H & _). discriminate.
  - split; split; try discriminate; eauto. intros (n' & i & H & _). discriminate.
Qed.
Print Assumptions C55_matching_errors.
(** In reachable states a matched id converts back to the matched location. *)
Theorem C55_matched_id_converts_back : forall conv c g l loc f i b,
  let s := run c (genesis_state g) l in
  matches_fungibles conv s loc f = inr (i, b) -> get_asset_location s i = Some loc.
Proof.
  intros conv c g l loc f i b. cbn zeta. intros H. apply C55_matching_agrees_with_the_registry in H as (n & _ & H & _).
  apply C52_reverse_lookup_is_registered in H. auto.
Qed.
Print Assumptions C55_matched_id_converts_back.
Example C55_example : let c := cfg_x (fun _ => inr []) in
  let s := run c (genesis_state (gen_x {[ 7 := 3 ]})) [reg_x 7 (mkLoc 1 [JParachain 2000])] in
  let conv n := if n <=? 100 then Some n else None in
  matches_fungibles conv s (mkLoc 1 [JParachain 2000]) (Fungible 50) = inr (7, 50) /\
  matches_fungibles conv s (mkLoc 1 [JParachain 2000]) (Fungible 101) = inl AmountConversionFailed /\
  matches_fungibles conv s (mkLoc 1 [JParachain 2000]) (NonFungible 1) = inl AssetNotHandled /\
  matches_fungibles conv s (mkLoc 1 [JParachain 2001]) (Fungible 50) = inl AssetNotHandled.
Proof. vm_compute. auto. Qed.

(** ** C56 *)
(** The message for swapping [self] and [other], sent by parachain [own] *)
Definition swap_message (own self other : N) (w : N * N) (fee : N) : list xcm_inst :=
  [ XWithdrawAsset (mkLoc 1 []) fee; XBuyExecution (mkLoc 1 []) fee;
    XTransact w (70 :: 3 :: [self mod 256; self / 256 mod 256; self / 65536 mod 256; self / 16777216 mod 256;
                             other mod 256; other / 256 mod 256; other / 65536 mod 256; other / 16777216 mod 256]);
    XRefundSurplus; XDepositAsset (mkLoc 1 [JParachain own]) ].
Lemma swap_message_eq own self other w fee :
  construct_xcm own (swap_call self other) w fee = swap_message own self other w fee.
Proof.
  unfold construct_xcm, swap_call, swap_message. cbn [le_bytes app]. rewrite !N.div_div by lia. reflexivity.
Qed.
Definition valid_swap (c : cfg) (self other : N) : Prop :=
  self <> other /\ (self = c_shell_id c /\ other = c_integritee_id c \/ self = c_integritee_id c /\ other = c_shell_id c).
Theorem C56_swap_sends_exactly_one_message : forall c s o self other w fee,
  let r := dispatch c o (CXt (XtSwap self other w fee)) s in
  (r.1 = Success <-> c_swap_origin c o = true /\ valid_swap c self other /\
                     exists h, c_router c (swap_message (c_own_para c) self other w fee) = inr h) /\
  (r.1 = Success -> rt_out r.2 = swap_message (c_own_para c) self other w fee :: rt_out s /\
     exists h, c_router c (swap_message (c_own_para c) self other w fee) = inr h /\
               rt_ev r.2 = EvSwapTransactSent self other :: EvSentXcm h :: rt_ev s) /\
  (r.1 <> Success -> r.2 = s).
Proof.
  intros c s o self other w fee. cbn zeta. unfold dispatch, run_call. cbn [exec xt_exec]. unfold send_swap_ump, bind, ensure.
  rewrite swap_message_eq. unfold valid_swap.
  destruct (c_swap_origin c o); cbn [ret fail fst snd].
  2:{ split; [|split; [discriminate|auto]]. split; [discriminate|intros [H _]; discriminate]. }
  destruct (N.eqb_spec self other) as [->|Hne]; cbn [negb ret fail fst snd].
  { split; [|split; [discriminate|auto]]. split; [discriminate|]. intros (_ & [H _] & _). contradiction. }
  destruct (N.eqb_spec self (c_shell_id c)) as [E1|E1], (N.eqb_spec self (c_integritee_id c)) as [E2|E2],
    (N.eqb_spec other (c_shell_id c)) as [E3|E3], (N.eqb_spec other (c_integritee_id c)) as [E4|E4]; cbn [orb ret fail fst snd];
  try (exfalso; congruence);
  try (split; [|split; [discriminate|auto]]; split; [discriminate|]; intros (_ & [_ [[? ?]|[? ?]]] & _); exfalso; congruence).
  all: destruct (c_router c _) as [e|h]; cbn [fst snd fail];
    [split; [|split; [discriminate|auto]]; split; [discriminate|]; intros (_ & _ & h & H); discriminate|].
  all: cbn; split; [split; [intros _|auto]; split; [auto|]; split; [split; [auto|]; solve [left; auto|right; auto]|eauto]|].
  all: split; [intros _; split; [auto|]; eauto|contradiction].
Qed.
Print Assumptions C56_swap_sends_exactly_one_message.
(** If both configured ids are the same, no swap can be sent. *)
Theorem C56_equal_configured_ids_disable_the_swap : forall c s o self other w fee,
  c_shell_id c = c_integritee_id c -> (dispatch c o (CXt (XtSwap self other w fee)) s).1 <> Success.
Proof.
  intros c s o self other w fee H. intros E. apply C56_swap_sends_exactly_one_message in E as (_ & [Hn [[? ?]|[? ?]]] & _); congruence.
Qed.
Print Assumptions C56_equal_configured_ids_disable_the_swap.
(** The errors, in the order of the checks. *)
Theorem C56_swap_errors : forall c s o self other w fee,
  let valid x := (x =? c_shell_id c) || (x =? c_integritee_id c) in
  (dispatch c o (CXt (XtSwap self other w fee)) s).1 =
  if negb (c_swap_origin c o) then Failed BadOrigin
  else if self =? other then Failed SwapIdsEqual
  else if negb (valid self && valid other) then Failed InvalidSwapIds
  else match c_router c (swap_message (c_own_para c) self other w fee) with
       | inr _ => Success
       | inl SENotApplicable => Failed XUnreachable
       | inl SETransport => Failed XTransport
       | inl SEUnroutable => Failed XUnroutable
       | inl SEDestinationUnsupported => Failed XDestinationUnsupported
       | inl SEFees => Failed XFeesNotMet
       | inl SEOther => Failed XXcmSendError
       end.
Proof.
  intros c s o self other w fee. cbn zeta. unfold dispatch, run_call. cbn [exec xt_exec]. unfold send_swap_ump, bind, ensure.
  rewrite swap_message_eq. destruct (c_swap_origin c o); [|reflexivity]. cbn [negb].
  destruct (self =? other); [reflexivity|]. cbn [negb].
  destruct ((self =? c_shell_id c) || (self =? c_integritee_id c)); [|reflexivity].
  destruct ((other =? c_shell_id c) || (other =? c_integritee_id c)); [|reflexivity]. cbn [andb negb ret].
  destruct (c_router c _) as [[]|h]; reflexivity.
Qed.
Print Assumptions C56_swap_errors.
(** Different requests have different payloads (ids are 32 bits wide). *)
Lemma le4_inj a b : a < 2 ^ 32 -> b < 2 ^ 32 -> le_bytes 4 a = le_bytes 4 b -> a = b.
Proof.
  intros Ha Hb H. cbn [le_bytes] in H. inversion H as [[H0 H1 H2 H3]].
  assert (forall x, x < 2 ^ 32 -> x = x mod 256 + 256 * (x / 256 mod 256 + 256 * (x / 256 / 256 mod 256 + 256 * (x / 256 / 256 / 256 mod 256)))) as HX.
  { intros x Hx. assert (x / 256 / 256 / 256 < 256) as Hs.
    { rewrite !N.div_div by lia. apply N.div_lt_upper_bound; lia. }
    rewrite (N.mod_small (x / 256 / 256 / 256)) by auto.
    pose proof (N.div_mod' x 256) as D0. pose proof (N.div_mod' (x / 256) 256) as D1. pose proof (N.div_mod' (x / 256 / 256) 256) as D2.
    set (q2 := x / 256 / 256) in *. set (q1 := x / 256) in *. set (q3 := q2 / 256) in *. set (r0 := x mod 256) in *.
    set (r1 := q1 mod 256) in *. set (r2 := q2 mod 256) in *. clearbody q3 r0 r1 r2. clearbody q2. clearbody q1. clear Hx Hs Ha Hb H H0 H1 H2 H3. lia. }
  rewrite (HX a Ha), (HX b Hb). congruence.
Qed.
Theorem C56_payloads_are_distinct : forall own w fee self other self' other',
  self < 2 ^ 32 -> other < 2 ^ 32 -> self' < 2 ^ 32 -> other' < 2 ^ 32 ->
  swap_message own self other w fee = swap_message own self' other' w fee -> self = self' /\ other = other'.
Proof.
  intros own w fee a b a' b' Ha Hb Ha' Hb' H. rewrite <- !swap_message_eq in H. unfold construct_xcm, swap_call in H.
  inversion H as [H1]. split; apply le4_inj; auto; cbn [le_bytes]; congruence.
Qed.
Print Assumptions C56_payloads_are_distinct.
(** Over any history, every message handed to the relay chain is a swap between the two configured ids. *)
Theorem C56_all_messages_are_swaps : forall c g l m, In m (rt_out (run c (genesis_state g) l)) ->
  exists self other w fee, m = swap_message (c_own_para c) self other w fee /\ valid_swap c self other.
Proof.
  intros c g l m. revert m.
  apply (run_inv' c (fun s => forall m, In m (rt_out s) -> exists self other w fee,
     m = swap_message (c_own_para c) self other w fee /\ valid_swap c self other)).
  2:{ intros m H. contradiction. }
  intros s x IH m Hm. destruct (op_may_write x POut) eqn:Hw.
  2:{ pose proof (step_same c s x POut Hw) as E. cbn [same] in E. rewrite E in Hm. auto. }
  destruct x as [o k| | | | | | | | | |]; try discriminate Hw. destruct k as [x|x|x|x|x|x|x|x]; try discriminate Hw. destruct x.
  cbn [step] in Hm. destruct (C56_swap_sends_exactly_one_message c s o self other w fee) as (H1 & H2 & H3).
  assert ((dispatch c o (CXt (XtSwap self other w fee)) s).1 = Success \/ (dispatch c o (CXt (XtSwap self other w fee)) s).1 <> Success) as [E|E].
  { destruct (dispatch c o (CXt (XtSwap self other w fee)) s).1; auto; right; discriminate. }
  - destruct (H2 E) as [E2 _]. rewrite E2 in Hm. destruct Hm as [<-|Hm]; [|auto]. apply H1 in E as (_ & Hv & _). eauto 6.
  - rewrite (H3 E) in Hm. auto.
Qed.
Print Assumptions C56_all_messages_are_swaps.
Example C56_example : let c := cfg_x (fun _ => inr [9]) in let s := genesis_state (gen_x ∅) in
  let r := dispatch c (Signed carol) (CXt (XtSwap 2267 2039 (10, 20) 77)) s in
  r.1 = Success /\ rt_ev r.2 = [EvSwapTransactSent 2267 2039; EvSentXcm [9]] /\
  rt_out r.2 = [[XWithdrawAsset (mkLoc 1 []) 77; XBuyExecution (mkLoc 1 []) 77;
                 XTransact (10, 20) [70;3;219;8;0;0;247;7;0;0]; XRefundSurplus; XDepositAsset (mkLoc 1 [JParachain 2039])]] /\
  (dispatch c (Signed carol) (CXt (XtSwap 2267 2267 (10, 20) 77)) s).1 = Failed SwapIdsEqual /\
  (dispatch c (Signed carol) (CXt (XtSwap 2267 1 (10, 20) 77)) s).1 = Failed InvalidSwapIds /\
  (dispatch c (Signed alice) (CXt (XtSwap 2267 2039 (10, 20) 77)) s).1 = Failed BadOrigin /\
  (dispatch (cfg_x (fun _ => inl SEFees)) (Signed carol) (CXt (XtSwap 2267 2039 (10, 20) 77)) s).1 = Failed XFeesNotMet.
Proof. vm_compute. auto 10. Qed.

(** ** C65 *)
(** XCM meaning of a relative location (staging-xcm, outside /repo): seen from consensus system [ctx]
    (its path from the universal root), [parents] steps up and then down the interior. *)
Definition absolute (ctx : list junction) (l : location) : option (list junction) :=
  if loc_parents l <=? lenN ctx
  then Some (firstn (length ctx - N.to_nat (loc_parents l)) ctx ++ loc_interior l) else None.
(** The relay chain of network [n], and parachain [p] on it *)
Definition relay (n : N) : list junction := [JGlobalConsensus n].
Definition para (n p : N) : list junction := [JGlobalConsensus n; JParachain p].
(** The instructions of the message are interpreted by the relay chain, but the fee asset and the
    beneficiary are written as the parachain sees them: read there they denote the relay chain and
    the parachain; read by the relay chain they denote neither. *)
Theorem C65_message_locations_as_seen_by_the_relay_refuted : forall n own self other w fee, exists asset benef,
  In (XWithdrawAsset asset fee) (swap_message own self other w fee) /\
  In (XBuyExecution asset fee) (swap_message own self other w fee) /\
  In (XDepositAsset benef) (swap_message own self other w fee) /\
  (absolute (para n own) asset = Some (relay n) /\ absolute (para n own) benef = Some (para n own)) /\
  absolute (relay n) asset <> Some (relay n) /\ absolute (relay n) benef <> Some (para n own).
Proof.
  intros n own self other w fee. exists (mkLoc 1 []), (mkLoc 1 [JParachain own]). unfold swap_message.
  split; [left; auto|]. split; [right; left; auto|]. split; [do 4 right; left; auto|].
  split; [split; reflexivity|]. split; cbn; intros H; inversion H.
Qed.
Print Assumptions C65_message_locations_as_seen_by_the_relay_refuted.
