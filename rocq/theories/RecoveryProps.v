(** * The authorities can always restore service: C89. *)
From Verif Require Import Base State Env TeerdaysModel TeerexBase SgxVerifyModel TeerexModel
  EnclaveBridgeModel SidechainModel TeeracleModel ClaimsModel AssetRegistryModel XcmTransactorModel
  Runtime Frame EnvFacts Examples ClaimsProofs ClaimsProps TeeracleProps RuntimeProps BridgeProofs SidechainProps
  AcceptProps EffectProps.

(** ** Plans of root *)
(** Hand a shard over: remove everybody from its list and install a configuration at once *)
Definition purge_op (sh : bytes) (a : acct) : op := OCall Root (CEb (EbPurge sh a)).
Definition takeover (s : rt) (sh : bytes) (new : scfg) : list op :=
  map (purge_op sh) (signers_of s sh) ++ [OCall Root (CEb (EbUpdateConfig sh new 0))].
(** Let an enclave report to a data source: make room for it if the list is full *)
Definition admit_to (c : cfg) (l : list bytes) (src fp : bytes) : list op :=
  if bool_decide (fp ∈ l) then []
  else (match l with
        | x :: _ => if c_max_wl c <=? lenN l then [OCall Root (CTo (ToRemove src x))] else []
        | [] => []
        end) ++ [OCall Root (CTo (ToAdd src fp))].
Definition admit_plan (c : cfg) (s : rt) (src fp : bytes) : list op :=
  admit_to c (default [] (to_wl (rt_to s) !! src)) src fp.
(** Confirm a chain of sidechain blocks one after the other *)
Fixpoint confirm_chain (a : acct) (sh : bytes) (last : sconf) (l : list sconf) : list op :=
  match l with
  | [] => []
  | x :: r => OCall (Signed a) (CSc (ScConfirm sh (Some last) x)) :: confirm_chain a sh x r
  end.
Fixpoint increasing (last : sconf) (l : list sconf) : Prop :=
  match l with [] => True | x :: r => sn_number last < sn_number x /\ increasing x r end.

(** ** Handing over a shard *)
Definition eb_only (p : part) : bool := match p with PEb | PFree | PEvents => true | _ => false end.
(** Nothing but the entries of this shard differs *)
Definition only_shard (sh : bytes) (s t : rt) : Prop :=
  (forall x, x <> sh -> eb_status (rt_eb t) !! x = eb_status (rt_eb s) !! x /\
                        eb_config (rt_eb t) !! x = eb_config (rt_eb s) !! x) /\
  eb_exec (rt_eb t) = eb_exec (rt_eb s) /\ balances_same s t /\ unchanged_outside eb_only s t.
Lemma same_trans p s t r : same p s t -> same p t r -> same p s r.
Proof. destruct p; cbn [same]; congruence. Qed.
Lemma only_refl sh s : only_shard sh s s.
Proof. repeat split; auto. intros p _. apply same_refl. Qed.
Lemma only_trans sh s t r : only_shard sh s t -> only_shard sh t r -> only_shard sh s r.
Proof.
  intros (A1 & A2 & A3 & A4) (B1 & B2 & B3 & B4). repeat split.
  - destruct (A1 x H), (B1 x H). congruence.
  - destruct (A1 x H), (B1 x H). congruence.
  - congruence.
  - intros x. rewrite B3, A3. reflexivity.
  - intros p Hp. exact (same_trans _ _ _ _ (A4 p Hp) (B4 p Hp)).
Qed.
Lemma reach_run c g s l : reachable c g s -> reachable c g (run c s l).
Proof. intros [l0 ->]. exists (l0 ++ l). rewrite run_app. reflexivity. Qed.
Lemma only_blk sh s t : only_shard sh s t -> rt_blk t = rt_blk s.
Proof. intros (_ & _ & _ & H). specialize (H PClock eq_refl). cbn in H. unfold v_clock in H. congruence. Qed.
Lemma only_tx sh s t : only_shard sh s t -> rt_tx t = rt_tx s.
Proof. intros (_ & _ & _ & H). exact (H PTx eq_refl). Qed.

Lemma purge_effect c g s sh a : reachable c g s -> is_Some (eb_status (rt_eb s) !! sh) ->
  let t := step c s (purge_op sh a) in
  eb_status (rt_eb t) !! sh = Some (List.filter (fun x => negb (bool_decide (ss_signer x = a))) (status_of s sh)) /\
  eb_config (rt_eb t) = eb_config (rt_eb s) /\ only_shard sh s t.
Proof.
  intros [l ->] Hs. cbn zeta. set (s := run c (genesis_state g) l) in *.
  assert ((dispatch c Root (CEb (EbPurge sh a)) s).1 = Success) as H.
  { apply C68_bridge_calls_accepted_exactly. cbn [eb_accepts]. auto. }
  unfold purge_op. cbn [step]. destruct (dispatch c Root (CEb (EbPurge sh a)) s) as [st t] eqn:E. cbn [fst snd] in *. subst st.
  apply C69_bridge_calls_do_exactly_this in E as [(l0 & H1 & H2 & H3 & H4 & H5 & H6) HU].
  unfold status_of. rewrite H1. cbn [default]. split; [rewrite H2; case_decide; [reflexivity|contradiction]|]. split; [auto|].
  split; [|auto]. intros x Hx. split; [rewrite H2; case_decide; [contradiction|auto]|rewrite H3; auto].
Qed.
Lemma purges_effect c g sh l : forall s, reachable c g s -> (l = [] \/ is_Some (eb_status (rt_eb s) !! sh)) ->
  let t := run c s (map (purge_op sh) l) in
  (forall x, In x (status_of t sh) <-> In x (status_of s sh) /\ ~ In (ss_signer x) l) /\
  eb_config (rt_eb t) = eb_config (rt_eb s) /\ only_shard sh s t.
Proof.
  induction l as [|a l IH]; intros s Hr Hs; cbn zeta.
  { cbn [map run fold_left]. split; [intros x; cbn; tauto|]. split; [auto|apply only_refl]. }
  destruct Hs as [|Hs]; [discriminate|]. cbn [map]. rewrite run_cons.
  destruct (purge_effect c g s sh a Hr Hs) as (P1 & P2 & P3). set (t := step c s (purge_op sh a)) in *.
  assert (reachable c g t) as Ht by (apply (reach_run c g s [purge_op sh a] Hr)).
  destruct (IH t Ht (or_intror (ex_intro _ _ P1))) as (I1 & I2 & I3).
  split; [|split; [congruence|exact (only_trans _ _ _ _ P3 I3)]].
  intros x. rewrite I1. unfold status_of at 1. rewrite P1. cbn [default]. unfold id. rewrite filter_In, negb_true_iff, bool_decide_eq_false.
  cbn [In]. split; [intros [[H1 H2] H3]; split; [auto|intros [H|H]; auto]|]. intros [H1 H2]. split; [split; [auto|]|]; intros H; apply H2; auto.
Qed.

(** From every reachable state root hands a shard over to the enclaves of a new configuration: nobody is
    listed any more, the configuration is in force now and later, and nothing but this shard's entries changed. *)
Theorem C89_root_can_hand_over_a_shard : forall c g s sh new, reachable c g s ->
  let r := run c s (takeover s sh new) in
  status_of r sh = [] /\ (forall b, rt_blk r <= b -> in_force r sh b = Some new) /\ only_shard sh s r.
Proof.
  intros c g s sh new Hr. cbn zeta. unfold takeover. rewrite run_app.
  assert (signers_of s sh = [] \/ is_Some (eb_status (rt_eb s) !! sh)) as Hs.
  { unfold signers_of, status_of. destruct (eb_status (rt_eb s) !! sh); [right; eauto|left; auto]. }
  destruct (purges_effect c g sh (signers_of s sh) s Hr Hs) as (P1 & P2 & P3).
  set (t := run c s (map (purge_op sh) (signers_of s sh))) in *.
  assert (status_of t sh = []) as Ht.
  { destruct (status_of t sh) as [|x l] eqn:E; [auto|]. exfalso. destruct (proj1 (P1 x) (or_introl eq_refl)) as [H1 H2].
    apply H2. unfold signers_of. apply in_map. exact H1. }
  assert (reachable c g t) as [l Hl] by (apply reach_run; exact Hr).
  assert ((dispatch c Root (CEb (EbUpdateConfig sh new 0)) t).1 = Success) as H.
  { rewrite Hl. apply C68_bridge_calls_accepted_exactly. cbn [eb_accepts]. auto. }
  cbn [run fold_left step]. destruct (dispatch c Root (CEb (EbUpdateConfig sh new 0)) t) as [st r] eqn:E. cbn [fst snd] in *. subst st.
  apply C69_bridge_calls_do_exactly_this in E as [(H1 & H2 & H3 & H4 & H5) HU].
  assert (only_shard sh t r) as Ho.
  { repeat split; auto; [rewrite H1; auto|rewrite H2; case_decide; [contradiction|auto]]. }
  split; [unfold status_of in *; rewrite H1; exact Ht|]. split; [|exact (only_trans _ _ _ _ P3 Ho)].
  intros b Hb. rewrite (only_blk _ _ _ Ho) in Hb. unfold in_force. rewrite H2. case_decide; [|contradiction]. cbn [fmap option_fmap option_map].
  f_equal. destruct (eb_config (rt_eb t) !! sh) as [u|]; [|reflexivity].
  unfold in_force_of. cbn [uc_pending uc_at]. destruct (N.leb_spec (N.min (rt_blk t + 0) (c_blk_max c)) b); [reflexivity|lia].
Qed.
Print Assumptions C89_root_can_hand_over_a_shard.

(** After that an enclave with the fingerprint of the configuration operates the shard. *)
Lemma takeover_operates c g s sh new a e : reachable c g s -> tx_sov (rt_tx s) !! a = Some e -> sc_fp new = en_mr_enclave e ->
  operates (run c s (takeover s sh new)) sh a.
Proof.
  intros Hr He Hn. destruct (C89_root_can_hand_over_a_shard c g s sh new Hr) as (H1 & H2 & H3). cbn zeta in *.
  set (r := run c s (takeover s sh new)) in *. exists e. rewrite (only_tx _ _ _ H3). split; [auto|].
  unfold operator. rewrite (H2 (rt_blk r)) by lia. split; [congruence|]. right. rewrite H1. reflexivity.
Qed.
(** No vault is lost as long as some enclave can be registered: whatever the vault can pay is paid by that
    enclave after root handed the shard over. *)
Theorem C89_vault_can_be_paid_out : forall c g s sh new a e b v h, reachable c g s ->
  tx_sov (rt_tx s) !! a = Some e -> sc_fp new = en_mr_enclave e ->
  eb_exec (rt_eb s) !! h = None -> payable c s sh b v ->
  let r := run c s (takeover s sh new) in let d := dispatch c (Signed a) (CEb (EbUnshield sh b v h)) r in
  d.1 = Success /\ (b <> sh -> free d.2 b = free s b + v).
Proof.
  intros c g s sh new a e b v h Hr He Hn Hh Hp. cbn zeta.
  destruct (C89_root_can_hand_over_a_shard c g s sh new Hr) as (_ & _ & H3). cbn zeta in H3.
  pose proof (takeover_operates c g s sh new a e Hr He Hn) as Ho.
  destruct (reach_run c g s (takeover s sh new) Hr) as [l Hl]. set (r := run c s (takeover s sh new)) in *.
  destruct H3 as (_ & H4 & H5 & H6).
  assert ((dispatch c (Signed a) (CEb (EbUnshield sh b v h)) r).1 = Success) as Hd.
  { rewrite Hl. apply C68_bridge_calls_accepted_exactly. rewrite <- Hl. cbn [eb_accepts]. exists a. split; [auto|]. split; [auto|]. split.
    - intros _. apply payable_view with (s := s); auto. intros x. pose proof (H6 PLocks eq_refl) as HL. cbn in HL.
      unfold frozen, locks_of. unfold v_locks in HL. rewrite HL. reflexivity.
    - intros _. unfold confirmations. rewrite H4, Hh. reflexivity. }
  split; [exact Hd|]. intros Hb. destruct (dispatch c (Signed a) (CEb (EbUnshield sh b v h)) r) as [st t] eqn:E. cbn [fst snd] in *. subst st.
  apply C69_bridge_calls_do_exactly_this in E as [(a' & e' & _ & _ & _ & _ & H) _]. rewrite H4, Hh in H.
  destruct H as (_ & evs & Hpay & _). unfold pays in Hpay. destruct (N.eqb_spec v 0) as [->|Hv]; cbn [orb] in Hpay.
  { destruct Hpay as [Hx _]. rewrite Hx, H5. lia. }
  destruct (bool_decide (sh = b)) eqn:Eb; [apply bool_decide_eq_true in Eb; congruence|].
  destruct Hpay as (_ & Hx & _). rewrite Hx. rewrite !H5. repeat case_decide; congruence.
Qed.
Print Assumptions C89_vault_can_be_paid_out.

(** ** Finality *)
(** [a] operates the shard, is first in its list (or nobody is listed), and [last] is final *)
Definition ready (s : rt) (sh : bytes) (a : acct) (last : sconf) : Prop :=
  operates s sh a /\ leads s sh a /\ rt_sc s !! sh = Some last.
Lemma in_force_upgraded u b : in_force_of (upgraded u b) b = in_force_of u b.
Proof.
  unfold upgraded, in_force_of. destruct (uc_pending u) as [p|] eqn:E1; [|rewrite E1; reflexivity].
  destruct (uc_at u) as [t|] eqn:E2; [|rewrite E1, E2; reflexivity].
  destruct (t <=? b) eqn:E3; [reflexivity|]. rewrite E1, E2, E3. reflexivity.
Qed.
Lemma ready_step c g s sh a last x : reachable c g s -> ready s sh a last -> sn_number last < sn_number x ->
  let t := step c s (OCall (Signed a) (CSc (ScConfirm sh (Some last) x))) in
  ready t sh a x /\ rt_ev t = EvFinalizedSidechainBlock sh (sn_number x) (sn_hash x) a :: rt_ev s.
Proof.
  intros [l ->] (Ho & Hl & Hs) Hn. cbn zeta. set (s := run c (genesis_state g) l) in *.
  assert ((dispatch c (Signed a) (CSc (ScConfirm sh (Some last) x)) s).1 = Success) as H.
  { apply C68_sidechain_calls_accepted_exactly. cbn [sc_accepts]. exists a. split; [auto|]. split; [auto|]. right; right.
    exists last, last. auto 10. }
  cbn [step]. destruct (dispatch c (Signed a) (CSc (ScConfirm sh (Some last) x)) s) as [st t] eqn:E. cbn [fst snd] in *. subst st.
  apply C69_sidechain_confirmation_does_exactly_this in E as (a' & e & [= <-] & He & (l' & Hl1 & Hl2) & Hu & _ & Hf & _ & HU).
  destruct (Hf Hl) as [Hsc Hev]. split; [|exact Hev].
  assert (rt_tx t = rt_tx s) as Htx by exact (HU PTx eq_refl).
  assert (rt_blk t = rt_blk s) as Hblk by (pose proof (HU PClock eq_refl) as Hc; cbn in Hc; unfold v_clock in Hc; congruence).
  assert (status_of t sh = l') as Hst by (unfold status_of; rewrite Hl2; case_decide; [reflexivity|contradiction]).
  assert (exists r, map ss_signer l' = a :: r) as [r Hr].
  { change (default [] (eb_status (rt_eb s) !! sh)) with (status_of s sh) in Hl1. unfold leads in Hl.
    change (default [] (eb_status (rt_eb s) !! sh)) with (status_of s sh) in Hl.
    destruct Hl1 as [(l1 & y & l2 & E1 & E2 & E3 & ->)|(E1 & ->)]; cbn [ss_signer] in *.
    - destruct l1 as [|z l1]; [cbn; eauto|]. exfalso. apply E3. rewrite E1 in Hl. cbn in Hl |- *. auto.
    - destruct (status_of s sh) as [|z r]; [cbn; eauto|]. exfalso. apply E1. cbn. auto. }
  split; [|split].
  - destruct Ho as (e0 & H1 & H2 & _). exists e0. rewrite Htx. split; [auto|]. split.
    + rewrite H2. unfold operator, in_force. rewrite Hblk, Hu. case_decide; [|contradiction].
      destruct (eb_config (rt_eb s) !! sh) as [u|]; [|reflexivity]. cbn [fmap option_fmap option_map].
      rewrite in_force_upgraded. reflexivity.
    + left. unfold signers_of. rewrite Hst, Hr. left. reflexivity.
  - unfold leads. change (default [] (eb_status (rt_eb t) !! sh)) with (status_of t sh). rewrite Hst.
    destruct l' as [|y l']; [auto|]. cbn in Hr. congruence.
  - rewrite Hsc. case_decide; [reflexivity|contradiction].
Qed.
Lemma chain_run c g sh a l : forall s last, reachable c g s -> ready s sh a last -> increasing last l ->
  let t := run c s (confirm_chain a sh last l) in
  rt_sc t !! sh = Some (List.last l last) /\
  rt_ev t = rev (map (fun x => EvFinalizedSidechainBlock sh (sn_number x) (sn_hash x) a) l) ++ rt_ev s.
Proof.
  induction l as [|x l IH]; intros s last Hr Hs Hi; cbn zeta.
  { destruct Hs as (_ & _ & Hs). cbn. auto. }
  destruct Hi as [Hx Hi]. cbn [confirm_chain]. rewrite run_cons.
  destruct (ready_step c g s sh a last x Hr Hs Hx) as [H1 H2].
  destruct (IH _ x (reach_run c g s [_] Hr) H1 Hi) as [H3 H4]. cbn [run fold_left] in H3, H4. fold (step c s) in *.
  split.
  - etransitivity; [exact H3|]. destruct l as [|y l]; [reflexivity|]. f_equal. clear. revert y.
    induction l as [|z l IH]; intros y; [reflexivity|]. exact (IH z).
  - etransitivity; [exact H4|]. cbn [map rev]. rewrite <- app_assoc. cbn [app]. rewrite H2. reflexivity.
Qed.
(** Finality is never lost for good: after root handed the shard over, a registered enclave of the new
    configuration finalises every chain of blocks that continues from the last final one. *)
Theorem C89_finality_can_be_restored : forall c g s sh new a e last l, reachable c g s ->
  tx_sov (rt_tx s) !! a = Some e -> sc_fp new = en_mr_enclave e -> rt_sc s !! sh = Some last -> increasing last l ->
  let r := run c s (takeover s sh new) in let t := run c r (confirm_chain a sh last l) in
  rt_sc t !! sh = Some (List.last l last) /\
  rt_ev t = rev (map (fun x => EvFinalizedSidechainBlock sh (sn_number x) (sn_hash x) a) l) ++ rt_ev r.
Proof.
  intros c g s sh new a e last l Hr He Hn Hs Hi. cbn zeta.
  destruct (C89_root_can_hand_over_a_shard c g s sh new Hr) as (H1 & _ & (_ & _ & _ & H3)). cbn zeta in *.
  apply (chain_run c g); [apply reach_run, Hr| |exact Hi]. split; [exact (takeover_operates c g s sh new a e Hr He Hn)|].
  split; [unfold leads; change (default [] (eb_status (rt_eb (run c s (takeover s sh new))) !! sh)) with (status_of (run c s (takeover s sh new)) sh); rewrite H1; exact I|].
  rewrite (H3 PSc eq_refl). exact Hs.
Qed.
Print Assumptions C89_finality_can_be_restored.

(** ** Oracles *)
Lemma filter_drop_hd (x : bytes) l : lenN (List.filter (fun y => negb (bool_decide (y = x))) (x :: l)) <= lenN l.
Proof.
  cbn [List.filter]. rewrite bool_decide_eq_true_2 by reflexivity. cbn [negb].
  induction l as [|y l IH]; [reflexivity|]. cbn [List.filter]. unfold lenN in *. destruct (negb _); cbn [length] in *; lia.
Qed.
(** Root can get every registered enclave accepted by a data source, removing at most one other, and its reports
    are then accepted. *)
Theorem C89_oracle_can_be_restored : forall c g s src a e, reachable c g s -> 0 < c_max_wl c -> lenN src <= 40 ->
  tx_sov (rt_tx s) !! a = Some e ->
  let r := run c s (admit_plan c s src (en_mr_enclave e)) in
  (forall tp v, lenN tp <= 11 -> (dispatch c (Signed a) (CTo (ToUpdateRate src tp v)) r).1 = Success) /\
  (forall name blob, lenN name <= 40 -> lenN blob <= c_max_blob c ->
     (dispatch c (Signed a) (CTo (ToUpdateOracle name src blob)) r).1 = Success) /\
  (exists x, forall fp, In fp (default [] (to_wl (rt_to s) !! src)) -> In fp (default [] (to_wl (rt_to r) !! src)) \/ fp = x).
Proof.
  intros c g s src a e Hr Hm Hsrc He. cbn zeta. set (fp := en_mr_enclave e). set (l := default [] (to_wl (rt_to s) !! src)).
  assert (lenN l <= c_max_wl c) as Hl.
  { destruct Hr as [l0 ->]. exact (proj1 (C26_whitelists_bounded_and_unique c g l0 src)). }
  set (r := run c s (admit_plan c s src fp)).
  cut (rt_tx r = rt_tx s /\ In fp (default [] (to_wl (rt_to r) !! src)) /\
       exists x, forall y, In y l -> In y (default [] (to_wl (rt_to r) !! src)) \/ y = x).
  { intros (H1 & H2 & H3). repeat split; [intros tp v Ht|intros name blob Hn Hb|exact H3].
    - apply C68_teeracle_calls_accepted_exactly. exists a, e. rewrite H1. auto.
    - apply C68_teeracle_calls_accepted_exactly. exists a, e. rewrite H1. auto 10. }
  assert (forall t : rt, lenN (default [] (to_wl (rt_to t) !! src)) < c_max_wl c -> ~ In fp (default [] (to_wl (rt_to t) !! src)) ->
    let t' := step c t (OCall Root (CTo (ToAdd src fp))) in
    rt_tx t' = rt_tx t /\ default [] (to_wl (rt_to t') !! src) = default [] (to_wl (rt_to t) !! src) ++ [fp]) as Hadd.
  { intros t H1 H2. cbn [step]. assert ((dispatch c Root (CTo (ToAdd src fp)) t).1 = Success) as H.
    { apply C68_teeracle_calls_accepted_exactly. cbn [to_accepts]. auto. }
    destruct (dispatch c Root (CTo (ToAdd src fp)) t) as [st t'] eqn:E. cbn [fst snd] in *. subst st.
    apply C69_oracle_calls_do_exactly_this in E as [(E1 & _) HU]. split; [exact (HU PTx eq_refl)|].
    rewrite E1. case_decide; [reflexivity|contradiction]. }
  subst r. change (admit_plan c s src fp) with (admit_to c l src fp). unfold admit_to. destruct (bool_decide (fp ∈ l)) eqn:Eb.
  { apply bool_decide_eq_true in Eb. cbn [run fold_left]. split; [auto|]. split; [apply elem_of_list_In; exact Eb|]. exists fp. auto. }
  apply bool_decide_eq_false in Eb. assert (~ In fp l) as Hnin by (rewrite <- elem_of_list_In; exact Eb).
  rewrite run_app. cbn [run fold_left].
  assert (forall t, default [] (to_wl (rt_to t) !! src) = l -> rt_tx t = rt_tx s -> lenN l < c_max_wl c ->
    let t' := step c t (OCall Root (CTo (ToAdd src fp))) in
    rt_tx t' = rt_tx s /\ In fp (default [] (to_wl (rt_to t') !! src)) /\
    exists x, forall y, In y l -> In y (default [] (to_wl (rt_to t') !! src)) \/ y = x) as Hroom.
  { intros t H1 H2 H3. destruct (Hadd t) as [H4 H5]; [rewrite H1; auto|rewrite H1; auto|]. cbn zeta. rewrite H4, H5, H1.
    split; [auto|]. split; [apply in_or_app; right; left; reflexivity|]. exists fp. intros y Hy. left. apply in_or_app. auto. }
  destruct l as [|x l'] eqn:El; [apply (Hroom s); auto; unfold lenN; cbn; lia|].
  destruct (N.leb_spec (c_max_wl c) (lenN (x :: l'))) as [Hfull|Hfree]; [|apply (Hroom s); auto].
  cbn [run fold_left step].
  assert ((dispatch c Root (CTo (ToRemove src x)) s).1 = Success) as H.
  { apply C68_teeracle_calls_accepted_exactly. cbn [to_accepts]. split; [auto|]. assert (In x l) as Hx by (rewrite El; left; reflexivity). exact Hx. }
  destruct (dispatch c Root (CTo (ToRemove src x)) s) as [st t] eqn:E. cbn [fst snd] in *. subst st.
  apply C69_oracle_calls_do_exactly_this in E as [(E1 & _) HU].
  assert (default [] (to_wl (rt_to t) !! src) = List.filter (fun y => negb (bool_decide (y = x))) (x :: l')) as Et.
  { rewrite E1. case_decide; [|contradiction]. rewrite <- El. reflexivity. }
  destruct (Hadd t) as [H4 H5].
  - rewrite Et. pose proof (filter_drop_hd x l'). unfold lenN in *. cbn [length] in *. lia.
  - rewrite Et, filter_In. tauto.
  - cbn [step] in H4, H5. rewrite H4, H5, Et. split; [exact (HU PTx eq_refl)|].
    split; [apply in_or_app; right; left; reflexivity|]. exists x. intros y Hy. destruct (decide (y = x)) as [->|Hn]; [auto|].
    left. apply in_or_app. left. apply filter_In. split; [auto|]. rewrite bool_decide_eq_false_2 by auto. reflexivity.
Qed.
Print Assumptions C89_oracle_can_be_restored.

(** ** Claims *)
(** The statement a claim asks for, as text *)
Definition asked_text (s : rt) (who : bytes) : bytes :=
  match cl_signing (rt_cl s) !! who with Some st => to_text st | None => [] end.
(** A claim with a schedule is never paid to an account that vests already, however often it is minted anew:
    [mint_claim] replaces a schedule but never removes one. *)
Theorem C89_minting_keeps_the_schedule : forall c s who v vs st dest sig text,
  is_Some (cl_vesting (rt_cl s) !! who) -> is_Some (rt_vest s !! dest) -> eth_signed c sig who dest text ->
  let r := step c s (OCall Root (CCl (ClMint who v vs st))) in
  is_Some (cl_vesting (rt_cl r) !! who) /\ is_Some (rt_vest r !! dest) /\
  (dispatch c NoneO (CCl (ClClaimAttest dest sig text)) r).1 <> Success /\
  (text = [] -> (dispatch c NoneO (CCl (ClClaim dest sig)) r).1 <> Success).
Proof.
  intros c s who v vs st dest sig text Hv Hd Hs. cbn zeta.
  set (r := step c s (OCall Root (CCl (ClMint who v vs st)))).
  assert (is_Some (cl_vesting (rt_cl r) !! who) /\ rt_vest r = rt_vest s) as [H1 H2].
  { subst r. cbn [step]. destruct (dispatch c Root (CCl (ClMint who v vs st)) s) as [x r] eqn:E. cbn [snd].
    assert (x = Success \/ r = s) as [->| ->].
    { unfold dispatch, run_call in E. destruct (exec c Root (CCl (ClMint who v vs st)) s) as [[] ?| |] in E; injection E as <- <-; auto. }
    2: { auto. }
    apply C69_claims_calls_do_exactly_this in E as [(_ & _ & E3 & _ & _ & _ & _ & E8 & _) _]. split; [|exact E8].
    destruct vs as [y|]; [rewrite E3; case_decide; [eauto|contradiction]|rewrite E3; exact Hv]. }
  split; [exact H1|]. split; [rewrite H2; exact Hd|].
  assert (forall d, payable_claim r who d -> d = dest -> False) as Hp.
  { intros d (due & _ & _ & Hp) ->. destruct H1 as [[[lk per] sg] H1]. destruct (Hp _ _ _ H1) as [Hx _].
    rewrite H2 in Hx. rewrite Hx in Hd. destruct Hd. discriminate. }
  assert (forall w, eth_signed c sig w dest text -> w = who) as Hw.
  { intros w Hw. apply eth_recover_signed in Hw. apply eth_recover_signed in Hs. congruence. }
  split.
  - rewrite C68_claims_calls_accepted_exactly. cbn [cl_accepts]. intros (w & _ & H3 & _ & H4).
    apply Hw in H3 as ->. exact (Hp dest H4 eq_refl).
  - intros ->. rewrite C68_claims_calls_accepted_exactly. cbn [cl_accepts]. intros (w & _ & H3 & _ & H4).
    apply Hw in H3 as ->. exact (Hp dest H4 eq_refl).
Qed.
Print Assumptions C89_minting_keeps_the_schedule.

Lemma moved_away {A} (m m' : gmap bytes A) old new : entry_moved m m' old new -> new <> old -> m' !! old = None.
Proof. unfold entry_moved. destruct (m !! old) eqn:E; [intros (_ & H & _) Hn; auto|]. intros -> _. exact E. Qed.
(** What works is to move the claim away, mint it anew without a schedule and void the moved one *)
Definition mend (s : rt) (who burn : bytes) (due : N) : list op :=
  [OCall Root (CCl (ClMove who burn None));
   OCall Root (CCl (ClMint who due None (cl_signing (rt_cl s) !! who)));
   OCall Root (CCl (ClMint burn 0 None None))].
(** Every open claim can be made payable to every destination its owner signs for, whatever kept it from
    being paid: a schedule with rate zero (C48), a destination that vests already, a pot that is too small. *)
Theorem C89_claim_can_be_repaired : forall c s who burn due,
  cl_claims (rt_cl s) !! who = Some due -> cl_claims (rt_cl s) !! burn = None ->
  cl_total (rt_cl s) + due <= c_bal_max c ->
  let r := run c s (mend s who burn due) in
  (forall dest sig, eth_signed c sig who dest (asked_text s who) ->
     (dispatch c NoneO (CCl (ClClaimAttest dest sig (asked_text s who))) r).1 = Success) /\
  (forall x, cl_claims (rt_cl r) !! x = if decide (x = burn) then Some 0 else cl_claims (rt_cl s) !! x) /\
  cl_total (rt_cl r) = cl_total (rt_cl s) + due.
Proof.
  intros c s who burn due Hc Hb Ht. cbn zeta. assert (who <> burn) as Hn by congruence.
  set (asked := cl_signing (rt_cl s) !! who).
  assert ((dispatch c Root (CCl (ClMove who burn None)) s).1 = Success) as H1.
  { apply C68_claims_calls_accepted_exactly. cbn [cl_accepts]. auto. }
  unfold mend. fold asked. rewrite !run_cons. cbn [run fold_left].
  change (step c s (OCall Root (CCl (ClMove who burn None)))) with (dispatch c Root (CCl (ClMove who burn None)) s).2.
  destruct (dispatch c Root (CCl (ClMove who burn None)) s) as [st1 s1] eqn:E1. cbn [fst snd] in *. subst st1.
  apply C69_claims_calls_do_exactly_this in E1 as [(A1 & A2 & A3 & A4 & _ & _ & _ & A8 & _) _].
  assert ((dispatch c Root (CCl (ClMint who due None asked)) s1).1 = Success) as H2.
  { apply C68_claims_calls_accepted_exactly. cbn [cl_accepts]. rewrite A4. auto. }
  change (step c s1 (OCall Root (CCl (ClMint who due None asked)))) with (dispatch c Root (CCl (ClMint who due None asked)) s1).2.
  destruct (dispatch c Root (CCl (ClMint who due None asked)) s1) as [st2 s2] eqn:E2. cbn [fst snd] in *. subst st2.
  apply C69_claims_calls_do_exactly_this in E2 as [(B1 & B2 & B3 & B4 & _ & _ & _ & B8 & _) _].
  rewrite A4 in B2. specialize (B2 Ht).
  assert ((dispatch c Root (CCl (ClMint burn 0 None None)) s2).1 = Success) as H3.
  { apply C68_claims_calls_accepted_exactly. cbn [cl_accepts]. split; [auto|]. intros _. lia. }
  change (step c s2 (OCall Root (CCl (ClMint burn 0 None None)))) with (dispatch c Root (CCl (ClMint burn 0 None None)) s2).2.
  destruct (dispatch c Root (CCl (ClMint burn 0 None None)) s2) as [st3 s3] eqn:E3. cbn [fst snd] in *. subst st3.
  apply C69_claims_calls_do_exactly_this in E3 as [(D1 & D2 & D3 & D4 & _ & _ & _ & D8 & _) _].
  assert (cl_total (rt_cl s3) = cl_total (rt_cl s) + due) as Htot by (rewrite D2; lia).
  assert (forall x, cl_claims (rt_cl s3) !! x = if decide (x = burn) then Some 0 else cl_claims (rt_cl s) !! x) as Hcl.
  { intros x. rewrite D1. case_decide; [reflexivity|]. rewrite B1. case_decide as Hx; [subst x; auto|]. unfold entry_moved in A1. rewrite Hc in A1.
    apply A1; auto. }
  split; [|split; [exact Hcl|exact Htot]].
  intros dest sig Hs. apply C68_claims_calls_accepted_exactly. cbn [cl_accepts]. exists who. split; [auto|]. split; [auto|].
  assert (cl_signing (rt_cl s3) !! who = asked) as Hsg.
  { rewrite D4. destruct asked as [x|] eqn:Ea; [rewrite B4; case_decide; [auto|contradiction]|]. rewrite B4. exact (moved_away _ _ _ _ A3 (not_eq_sym Hn)). }
  assert (cl_vesting (rt_cl s3) !! who = None) as Hvs.
  { rewrite D3, B3. exact (moved_away _ _ _ _ A2 (not_eq_sym Hn)). }
  split.
  - intros st Hst. rewrite Hsg in Hst. unfold asked_text. subst asked. rewrite Hst. reflexivity.
  - exists due. split; [rewrite Hcl; case_decide; [contradiction|auto]|]. split; [lia|]. intros lk per st Hx. congruence.
Qed.
Print Assumptions C89_claim_can_be_repaired.

(** ** Concrete cases *)
(** The stall of C24: [SidechainProps.upgraded] is stuck with alice first in the list and out of date. Root hands the shard
    over and bob finalises three blocks in a row. *)
Definition bobs_chain : list sconf := [blk 8 [6]; blk 12 [7]; blk 13 [8]].
Definition new_cfg : scfg := mkScfg (acc 8) None None false.
Example C89_stall_repaired :
  let s := SidechainProps.upgraded in let c := cfg0 in
  reachable c (gen0 [alice; bob]) s /\ (en_mr_enclave <$> tx_sov (rt_tx s) !! bob) = Some (sc_fp new_cfg) /\
  rt_sc s !! shard9 = Some (blk 7 [3]) /\ increasing (blk 7 [3]) bobs_chain /\
  rt_sc (run c s (confirm_chain bob shard9 (blk 7 [3]) bobs_chain)) !! shard9 = Some (blk 7 [3]) /\
  takeover s shard9 new_cfg = [purge_op shard9 alice; purge_op shard9 bob; OCall Root (CEb (EbUpdateConfig shard9 new_cfg 0))] /\
  rt_sc (run c (run c s (takeover s shard9 new_cfg)) (confirm_chain bob shard9 (blk 7 [3]) bobs_chain)) !! shard9 = Some (blk 13 [8]).
Proof.
  cbn zeta. split.
  { exists (sc_hist ++ [OCall Root (CEb (EbUpdateConfig shard9 (mkScfg (acc 8) None None false) 0)); register bob (acc 8)]).
    rewrite run_app. reflexivity. }
  vm_compute. repeat split.
Qed.
(** A vault whose only operator is gone: carol runs another enclave and cannot pay out; after the handover they can. *)
Example C89_vault_repaired :
  let c := cfg0 in let new := mkScfg (acc 7) None None false in
  let s := run c (genesis_state (gen0 [alice; carol]))
    [register alice (acc 9); ONextBlock 6000; call_eb alice (EbConfirm shard9 (acc 5) 1 (acc 6));
     call_eb alice (EbShield shard9 [1] 500); OCall (Signed alice) (CTx (TxUnregisterSovereign alice)); register carol (acc 7)] in
  payable c s shard9 carol 400 /\
  (dispatch c (Signed carol) (CEb (EbUnshield shard9 carol 400 (acc 4))) s).1 = Failed WrongFingerprintForShard /\
  let d := dispatch c (Signed carol) (CEb (EbUnshield shard9 carol 400 (acc 4))) (run c s (takeover s shard9 new)) in
  d.1 = Success /\ free d.2 carol = 1400 /\ free d.2 shard9 = 100.
Proof. cbn zeta. split; [right; right; vm_compute; intuition discriminate|]. vm_compute. auto. Qed.
(** A full list of data providers *)
Example C89_oracle_repaired :
  let c := cfg0 in let s := run c to_state [OCall Root (CTo (ToAdd src1 (acc 6)))] in
  whitelist s src1 = [acc 9; acc 7; acc 6] /\
  (dispatch c Root (CTo (ToAdd src1 (acc 8))) s).1 = Failed FingerprintWhitelistOverflow /\
  (dispatch c (Signed bob) (CTo (ToUpdateRate src1 [1; 2] (Some 43))) s).1 = Failed FingerprintNotWhitelisted /\
  admit_plan c s src1 (acc 8) = [OCall Root (CTo (ToRemove src1 (acc 9))); OCall Root (CTo (ToAdd src1 (acc 8)))] /\
  (dispatch c (Signed bob) (CTo (ToUpdateRate src1 [1; 2] (Some 43))) (run c s (admit_plan c s src1 (acc 8)))).1 = Success.
Proof. vm_compute. repeat split; reflexivity. Qed.
(** The panicking claim of C48, and a claim whose owner named an account that vests already *)
Example C89_claim_repaired :
  let c := cfg_cl true 5 in let k := ClClaimAttest alice (toy_sign c 1 alice []) [] in
  let s := genesis_state (gen_cl [(eth 1, 100, None, None)] [(eth 1, (50, 0, 0))]) in
  let s2 := run c (genesis_state (gen_cl [(eth 1, 100, None, None)] [(eth 1, (100, 1, 0))])) [OMint alice 50; OAddVesting alice 20 1 0] in
  eth_signed c (toy_sign c 1 alice []) (eth 1) alice (asked_text s (eth 1)) /\
  (dispatch c NoneO (CCl k) s).1 = Panicked /\ (dispatch c NoneO (CCl k) (run c s (mend s (eth 1) (eth 2) 100))).1 = Success /\
  (dispatch c NoneO (CCl k) s2).1 = Failed VestedBalanceExists /\
  (dispatch c NoneO (CCl k) (step c s2 (OCall Root (CCl (ClMint (eth 1) 100 (Some (0, 1, 0)) None))))).1 = Failed VestedBalanceExists /\
  (dispatch c NoneO (CCl k) (run c s2 (mend s2 (eth 1) (eth 2) 100))).1 = Success.
Proof. cbn zeta. split; [apply eth_recover_signed|]; vm_compute; auto 10. Qed.
