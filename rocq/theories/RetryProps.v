(** * C103: what submitting a call again does
    An accepted call is submitted a second time, unchanged, before anything else happens: for every
    call what the second submission is answered and what it changes. And, along a history, what must
    happen between two accepted submissions of a call that is refused the second time. *)
From Coq Require Import String.
From Verif Require Import Base State Env TeerdaysModel TeerexBase SgxVerifyModel TeerexModel
  EnclaveBridgeModel SidechainModel TeeracleModel ClaimsModel AssetRegistryModel XcmTransactorModel
  MigrationsModel Runtime ScaleModel StorageModel Frame EnvFacts TeerdaysProofs BridgeProofs TeerexProofs TeeracleProps ClaimsProofs Examples BridgeProps
  SidechainProps ClaimsProps AttestationProps Footprint TeerexProps AcceptProps EffectProps ErrorProps SgxErrorProps ProvenanceProps FootprintProps
  HistoryProps AccessProps.

(** Every entry but those in [L] is the same, and so are the messages sent; events may be added *)
Definition same_but (L : list cell) (s t : rt) : Prop := (forall y, y ∉ L -> same_at y s t) /\ rt_out t = rt_out s.

(** What the second submission of the call [k] of [o] does, which was accepted in [s] and led to [s1] *)
Definition second (c : cfg) (o : origin) (k : call) (s s1 : rt) : Prop :=
  let st := (dispatch c o k s1).1 in
  let s2 := (dispatch c o k s1).2 in
  let refused e := st = Failed e in
  let settled := st = Success /\ same_but [] s1 s2 in
  match k with
  | CTd (TdBond _) => refused AlreadyBonded
  | CTd (TdBondExtra v) => exists a b1 b2, o = Signed a /\ st = Success /\
      td_bonds (rt_td s1) !! a = Some b1 /\ td_bonds (rt_td s2) !! a = Some b2 /\
      bd_value b2 = N.min (bd_value b1 + N.min v (free s1 a - bd_value b1)) (c_bal_max c) /\
      bd_tt b2 = bd_tt b1 /\ bd_last b2 = bd_last b1 /\ same_but [XE (KBonds a); XLocks a] s1 s2
  | CTd (TdUnbond _) => refused PendingUnlock
  | CTd (TdUpdateOther _) => settled
  | CTd TdWithdrawUnbonded => refused NotUnlocking
  | CEb (EbInvoke _ _) | CEb (EbConfirm _ _ _ _) | CEb (EbPublish _ _ _) | CEb (EbPurge _ _) => settled
  | CEb (EbShield sh i v) => exists a, o = Signed a /\ (st = Success <-> payable c s1 a sh v) /\
      (st = Success -> exists evs, pays c s1 s2 a sh v evs /\ emits s1 s2 (EvShieldFunds sh i v :: evs))
  | CEb (EbUnshield _ _ _ h) =>
      (confirmations s1 h < u64_max -> st = Success /\ confirmations s2 h = confirmations s1 h + 1) /\
      (st = Success -> same_but [XE (KExec h)] s1 s2 /\ rt_ev s2 = rt_ev s1)
  | CEb (EbUpdateConfig sh new d) =>
      (st = Success \/
       exists a e x, o = Signed a /\ tx_sov (rt_tx s1) !! a = Some e /\ in_force s1 sh (rt_blk s1) = Some x /\
         sc_fp x <> en_mr_enclave e /\ refused WrongFingerprintForShard) /\
      (st = Success -> same_but [XE (KConfig sh)] s1 s2 /\
         forall b, rt_blk s1 <= b -> in_force s2 sh b = in_force s1 sh b)
  | CSc (ScConfirm sh anc _) => exists a, o = Signed a /\
      (leads s sh a -> refused (if anc then FinalizationCandidateIsOutdated else AncestorMissing)) /\
      (~ leads s sh a -> settled)
  | CTo (ToAdd _ _) => refused FingerprintAlreadyWhitelisted
  | CTo (ToRemove _ _) => refused FingerprintNotWhitelisted
  | CTo (ToUpdateOracle _ _ _) | CTo (ToUpdateRate _ _ _) => settled
  | CTx (TxUnregisterSovereign _) | CTx (TxUnregisterProxied _) => refused EnclaveIsNotRegistered
  | CTx (TxRegister _ _ _) | CTx (TxRegisterQe _ _ _) | CTx (TxRegisterTcb _ _ _) | CTx (TxSetFlags _ _) => settled
  | CCl (ClClaim _ _) | CCl (ClClaimAttest _ _ _) => refused SignerHasNoClaim
  | CCl (ClAttest _) => refused SenderHasNoClaim
  | CCl (ClMint _ v _ _) =>
      (cl_total (rt_cl s1) + v <= c_bal_max c -> st = Success /\ cl_total (rt_cl s2) = cl_total (rt_cl s1) + v) /\
      (st = Success -> same_but [XE KTotal] s1 s2)
  | CCl (ClMove _ _ _) => settled
  | CAr (ArRegister _ _) => refused AssetAlreadyRegistered
  | CAr (ArUnregister _) => refused AssetIsNotRegistered
  | CXt (XtSwap _ _ _ _) => st = Success /\ (forall y, same_at y s1 s2) /\
      exists m, rt_out s1 = m :: rt_out s /\ rt_out s2 = m :: rt_out s1
  end.

(** ** Calls that do not read what they write *)
Lemma out_same c s o k : may_write k POut = false -> rt_out (step c s (OCall o k)) = rt_out s.
Proof. intros H. exact (step_same c s (OCall o k) POut H). Qed.
Lemma now_same c s o k : rt_now (step c s (OCall o k)) = rt_now s.
Proof.
  assert (may_write k PClock = false) as H by (destruct k; reflexivity).
  pose proof (step_same c s (OCall o k) PClock H) as X. unfold same, v_clock in X. congruence.
Qed.
Lemma again_cells c s x : ends c s x = Success -> apart (op_writes c x s) (op_reads c x s) ->
  ends c (step c s x) x = Success /\ forall y, same_at y (step c s x) (step c (step c s x) x).
Proof.
  intros Hs Ha. destruct (C86_operations_depend_only_on_their_reads c x s (step c s x)) as [He HD].
  - intros y Hy. apply (proj1 (C86_operations_change_only_their_writes c x s)). intros Hw. exact (Ha y Hw Hy).
  - split; [congruence|]. intros y. destruct (ds_cells _ _ _ _ HD y) as [[_ H]|H]; exact H.
Qed.
Lemma apart_settles c s o k : (dispatch c o k s).1 = Success -> may_write k POut = false ->
  apart (writes c o k s) (reads c o k s) ->
  let s1 := step c s (OCall o k) in (dispatch c o k s1).1 = Success /\ same_but [] s1 (dispatch c o k s1).2.
Proof.
  intros Hs Ho Ha s1. destruct (again_cells c s (OCall o k) Hs Ha) as [H1 H2]. fold s1 in H1, H2.
  split; [exact H1|]. split; [intros y _; apply H2|]. exact (out_same c s1 o k Ho).
Qed.
Ltac in_cases H :=
  lazymatch type of H with
  | _ ∈ [] => inversion H
  | _ ∈ _ :: _ => apply elem_of_cons in H as [H|H]; [|in_cases H]
  | _ ∈ _ ++ _ => apply elem_of_app in H as [H|H]; in_cases H
  | _ => idtac
  end.
Ltac apart_tac := let y := fresh "y" in let Hw := fresh "Hw" in let Hr := fresh "Hr" in
  intros y Hw Hr; in_cases Hw; in_cases Hr; subst; discriminate.

(** ** teerdays *)
Lemma sat_tt m x : sat_add m (sat_add m x 0) 0 = sat_add m x 0.
Proof. unfold sat_add. lia. Qed.
Lemma td_second c o k s : (dispatch c o (CTd k) s).1 = Success -> second c o (CTd k) s (step c s (OCall o (CTd k))).
Proof.
  intros H. pose proof (success_exec _ _ _ _ H) as E. set (s1 := step c s (OCall o (CTd k))) in *.
  pose proof (proj1 (C68_teerdays_calls_accepted_exactly c s o k) H) as (a & -> & HA). cbn [exec] in E.
  destruct k as [v|v|v|w|]; cbn [td_exec] in E; unfold second; cbv zeta.
  - apply bond_ok in E as (? & [= <-] & _ & _ & Eb & _). clearbody s1. apply C70_teerdays_answers. cbn.
    rewrite Eb, lookup_insert. left. split; [eauto|]. right. split; [discriminate|auto].
  - apply bond_extra_ok in E as (? & b & [= <-] & Hb & Hp & Hv & E). cbv zeta in E. destruct E as (Eb & Ep & _).
    assert ((dispatch c (Signed a) (CTd (TdBondExtra v)) s1).1 = Success) as H1.
    { apply C68_teerdays_calls_accepted_exactly. exists a. split; [auto|]. rewrite Eb, Ep, lookup_insert. split; [eauto|]. split; [exact Hp|exact Hv]. }
    pose proof (success_exec _ _ _ _ H1) as E1. cbn [exec td_exec] in E1.
    change ((dispatch c (Signed a) (CTd (TdBondExtra v)) s1).2) with (step c s1 (OCall (Signed a) (CTd (TdBondExtra v)))) in *.
    set (s2 := step c s1 _) in *.
    apply bond_extra_ok in E1 as (? & b1 & [= <-] & Hb1 & _ & _ & E1). cbv zeta in E1. destruct E1 as (Eb1 & _).
    exists a, b1. eexists. split; [auto|]. split; [auto|]. split; [exact Hb1|]. rewrite Eb1, lookup_insert. split; [reflexivity|].
    pose proof (now_same c s (Signed a) (CTd (TdBondExtra v))) as Hn. fold s1 in Hn.
    unfold TeerdaysProofs.bond_of in Hb1. rewrite Eb, lookup_insert in Hb1. injection Hb1 as <-. cbn [bd_value bd_tt bd_last bond_update].
    split; [reflexivity|]. rewrite Hn. unfold sat_sub. rewrite N.sub_diag. split; [|split; [auto|]].
    + unfold sat_add, sat_mul. rewrite N.mul_0_r. lia.
    + split; [|exact (out_same c s1 (Signed a) (CTd (TdBondExtra v)) eq_refl)].
      intros y Hy. apply (proj1 (C86_operations_change_only_their_writes c (OCall (Signed a) (CTd (TdBondExtra v))) s1)). cbn. rewrite elem_of_list_In in *. cbn in *. tauto.
  - apply unbond_ok in E as (? & b & due & [= <-] & _ & _ & _ & E). cbv zeta in E. destruct E as (_ & _ & Ep & _).
    clearbody s1. apply C70_teerdays_answers. cbn. rewrite Ep, lookup_insert. left. split; [eauto|]. right. split; [discriminate|auto].
  - apply update_other_ok in E as (? & b & [= <-] & Hb & Eb & _).
    assert ((dispatch c (Signed a) (CTd (TdUpdateOther w)) s1).1 = Success) as H1.
    { apply C68_teerdays_calls_accepted_exactly. exists a. split; [auto|]. rewrite Eb, lookup_insert. eauto. }
    split; [exact H1|].
    pose proof (success_exec _ _ _ _ H1) as E1. cbn [exec td_exec] in E1.
    change ((dispatch c (Signed a) (CTd (TdUpdateOther w)) s1).2) with (step c s1 (OCall (Signed a) (CTd (TdUpdateOther w)))) in *.
    split; [|exact (out_same c s1 (Signed a) (CTd (TdUpdateOther w)) eq_refl)].
    pose proof (proj1 (C86_operations_change_only_their_writes c (OCall (Signed a) (CTd (TdUpdateOther w))) s1)) as Hc.
    set (s2 := step c s1 _) in *. intros y _.
    pose proof (now_same c s (Signed a) (CTd (TdUpdateOther w))) as Hn. fold s1 in Hn.
    apply update_other_ok in E1 as (? & b1 & _ & Hb1 & Eb1 & _). clearbody s2. clearbody s1.
    destruct (decide (y = XE (KBonds w))) as [->|Hy].
    + cbn. rewrite Eb1. unfold TeerdaysProofs.bond_of in Hb1. rewrite Eb, lookup_insert in Hb1. injection Hb1 as <-.
      rewrite Eb, !lookup_insert. f_equal. rewrite Hn. unfold bond_update, sat_sub. cbn. rewrite N.sub_diag. f_equal.
      unfold sat_add, sat_mul. rewrite N.mul_0_r. lia.
    + apply Hc. cbn. intros Hi. in_cases Hi; congruence.
  - apply withdraw_unbonded_ok in E as (? & due & amt & [= <-] & _ & _ & E). cbv zeta in E. destruct E as (_ & Ep & _).
    clearbody s1. apply C70_teerdays_answers. cbn. rewrite Ep, lookup_delete. left. split; [eauto|]. right. split; [intros [? ?]; discriminate|auto].
Qed.
(** ** teeracle, teerex, registry, swap *)
Lemma to_second c o k s : (dispatch c o (CTo k) s).1 = Success -> second c o (CTo k) s (step c s (OCall o (CTo k))).
Proof.
  intros H. pose proof (success_exec _ _ _ _ H) as E. cbn [exec] in E.
  destruct k as [src fp|src fp|name src blob|src tp v]; cbn [to_exec] in E; unfold second; cbv zeta; set (s1 := step c s _) in *.
  - apply add_wl_ok in E as (-> & Hl & _ & _ & Es). clearbody s1. apply C70_teeracle_answers. cbn. rewrite Es. cbn. rewrite lookup_insert. cbn.
    left. split; [auto|]. left. split; [auto|]. right. split; [|auto]. intros Hn. apply Hn, in_or_app. right. left. auto.
  - apply remove_wl_ok in E as (-> & Hl & Es). clearbody s1. apply C70_teeracle_answers. cbn. rewrite Es. cbn. rewrite lookup_insert. cbn.
    left. split; [auto|]. right. split; [|auto]. intros Hn%elem_of_list_In. apply elem_of_list_filter in Hn as [Hn _]. auto.
  - apply apart_settles; [exact H|reflexivity|]. apply update_oracle_ok in E as (a & e & -> & _). cbn. apart_tac.
  - apply apart_settles; [exact H|reflexivity|]. apply update_rate_ok in E as (a & e & -> & _). cbn. apart_tac.
Qed.
Lemma tx_apart c a p u m s : apart (writes c (Signed a) (CTx (TxRegister p u m)) s) (reads c (Signed a) (CTx (TxRegister p u m)) s).
Proof.
  unfold writes, reads. destruct m as [[]| |[]]; cbn [writes_signed reads_signed writes_other reads_other]; try solve [apart_tac].
  all: destruct (extract_tcb_info_from_raw (c_sgx c) p) as [[f ?]|?|]; cbv beta iota; apart_tac.
Qed.
Lemma tx_second c o k s : (dispatch c o (CTx k) s).1 = Success -> second c o (CTx k) s (step c s (OCall o (CTx k))).
Proof.
  intros H. pose proof (success_exec _ _ _ _ H) as E. cbn [exec] in E.
  destruct k as [p u m|w|w|doc sig chain|doc sig chain|sk d]; cbn [tx_exec] in E; unfold second; cbv zeta; set (s1 := step c s _) in *.
  - apply apart_settles; [exact H|reflexivity|]. apply register_ok in E as (a & e & -> & _). apply tx_apart.
  - apply unreg_sov_ok in E as (a & e & -> & _ & _ & Es). clearbody s1. unfold dispatch, run_call. cbn [exec tx_exec].
    unfold unregister_sovereign, bind, ensure_signed, gets, ok_or, get_sovereign_enclave. rewrite Es. cbn. rewrite lookup_delete. reflexivity.
  - apply unreg_prox_ok in E as (a & e & -> & _ & _ & Es). clearbody s1. unfold dispatch, run_call. cbn [exec tx_exec].
    unfold unregister_proxied, bind, ensure_signed, gets, ok_or. rewrite Es. cbn. rewrite lookup_delete. reflexivity.
  - apply apart_settles; [exact H|reflexivity|]. apply reg_qe_ok in E as (a & e & -> & _). cbn. apart_tac.
  - apply apart_settles; [exact H|reflexivity|]. apply reg_tcb_ok in E as (a & e & -> & _). cbn. destruct (or_json_tcb _ _); cbn; apart_tac.
  - apply apart_settles; [exact H|reflexivity|]. apply set_flags_ok in E as (-> & _). cbn. apart_tac.
Qed.
Lemma ar_second c o k s : (dispatch c o (CAr k) s).1 = Success -> second c o (CAr k) s (step c s (OCall o (CAr k))).
Proof.
  intros H. pose proof (success_exec _ _ _ _ H) as E. cbn [exec] in E.
  destruct k as [i l|i]; cbn [ar_exec] in E; unfold second; cbv zeta; set (s1 := step c s _) in *.
  - apply XcmProps.register_ok in E as (Ho & Hi & _ & _ & Es). clearbody s1. apply C70_registry_answers. cbn. rewrite Es. cbn. rewrite lookup_insert.
    left. split; [auto|]. left. split; [auto|]. right. split; [discriminate|auto].
  - apply XcmProps.unregister_ok in E as (Ho & l & _ & Es). clearbody s1. apply C70_registry_answers. cbn. rewrite Es. cbn. rewrite lookup_delete.
    left. split; [auto|]. right. split; [intros [? ?]; discriminate|auto].
Qed.
Lemma xt_second c o k s : (dispatch c o (CXt k) s).1 = Success -> second c o (CXt k) s (step c s (OCall o (CXt k))).
Proof.
  intros H. destruct k as [self other w fee]. unfold second. cbv zeta. set (k := CXt _) in *.
  destruct (again_cells c s (OCall o k)) as [H1 H2]; [exact H|cbn; destruct o; cbn; apart_tac|]. set (s1 := step c s (OCall o k)) in *.
  split; [exact H1|]. split; [exact H2|].
  pose proof (dispatch_step c o k s H) as E. apply C69_swap_does_exactly_this in E as (h & E). cbv zeta in E.
  pose proof (dispatch_step c o k s1 H1) as E1. apply C69_swap_does_exactly_this in E1 as (h1 & E1). cbv zeta in E1.
  eexists. split; [apply E|]. apply E1.
Qed.
(** ** enclave-bridge and sidechain *)
Lemma blk_same c s o k : rt_blk (step c s (OCall o k)) = rt_blk s.
Proof.
  assert (may_write k PClock = false) as H by (destruct k; reflexivity).
  pose proof (step_same c s (OCall o k) PClock H) as X. unfold same, v_clock in X. congruence.
Qed.
Lemma touch_again x l : touch_list x (touch_list x l) = touch_list x l.
Proof.
  induction l as [|y r IH]; cbn.
  - rewrite beq_refl. reflexivity.
  - destruct (beq (ss_signer y) (ss_signer x)) eqn:E; cbn; [rewrite beq_refl; reflexivity|]. rewrite E, IH. reflexivity.
Qed.
Lemma touch_listed x l : In (ss_signer x) (map ss_signer (touch_list x l)).
Proof.
  induction l as [|y r IH]; cbn; [auto|]. destruct (beq (ss_signer y) (ss_signer x)); cbn; auto.
Qed.
Lemma enact_again sh b s s1 : eb_config (rt_eb s1) = eb_config (rt_eb (enact sh b s)) ->
  eb_config (rt_eb (enact sh b s1)) = eb_config (rt_eb s1).
Proof.
  intros E. assert (match eb_config (rt_eb s1) !! sh with
    | Some u => forall p t, uc_pending u = Some p -> uc_at u = Some t -> b < t | None => True end) as H.
  { rewrite E. unfold enact. destruct (eb_config (rt_eb s) !! sh) as [[act [p|] [t|]]|] eqn:E1; cbn; rewrite ?E1; cbn; try (intros; discriminate); auto.
    destruct (N.leb_spec t b); cbn; [rewrite lookup_insert; cbn; intros; discriminate|]. rewrite E1. cbn. congruence. }
  unfold enact. destruct (eb_config (rt_eb s1) !! sh) as [[act [p|] [t|]]|]; try reflexivity. cbn in *.
  destruct (N.leb_spec t b); [|reflexivity]. specialize (H p t eq_refl eq_refl). lia.
Qed.
(** The state after an operator was seen at work *)
Record seen_work (s s1 : rt) (sh : bytes) (a : acct) (fp : bytes) : Prop := mkSeen {
  sw_blk : rt_blk s1 = rt_blk s;
  sw_tx : rt_tx s1 = rt_tx s;
  sw_status : status_of s1 sh = touch_list (mkSstat a fp (rt_blk s)) (status_of s sh);
  sw_config : eb_config (rt_eb s1) = eb_config (rt_eb (enact sh (rt_blk s) s)) }.
Lemma seen_touched s sh a fp : seen_work s (touched sh a fp s) sh a fp.
Proof.
  split.
  - unfold touched. cbn. apply (enact_other _ rt_blk). reflexivity.
  - unfold touched. cbn. apply (enact_other _ rt_tx). reflexivity.
  - unfold touched, status_of. cbn. rewrite lookup_insert. reflexivity.
  - reflexivity.
Qed.
Lemma seen_view s s1 s2 sh a fp : seen_work s s1 sh a fp -> rt_blk s2 = rt_blk s1 -> rt_tx s2 = rt_tx s1 ->
  eb_status (rt_eb s2) = eb_status (rt_eb s1) -> eb_config (rt_eb s2) = eb_config (rt_eb s1) -> seen_work s s2 sh a fp.
Proof.
  intros [H1 H2 H3 H4] E1 E2 E3 E4. split; [congruence|congruence| |congruence]. unfold status_of in *. rewrite E3. exact H3.
Qed.
Lemma seen_force s s1 sh a fp sh' b : seen_work s s1 sh a fp -> rt_blk s <= b -> in_force s1 sh' b = in_force s sh' b.
Proof. intros [_ _ _ H] Hb. rewrite <- (enact_in_force sh (rt_blk s) s sh' b Hb). apply in_force_view, H. Qed.
Lemma seen_operator s s1 sh a fp : seen_work s s1 sh a fp -> operator s1 sh (rt_blk s1) = operator s sh (rt_blk s).
Proof. intros H. unfold operator. rewrite (sw_blk _ _ _ _ _ H), (seen_force _ _ _ _ _ sh (rt_blk s) H); [auto|lia]. Qed.
Lemma seen_listable s s1 sh a fp : seen_work s s1 sh a fp -> listable s1 sh a.
Proof. intros H. left. unfold signers_of. rewrite (sw_status _ _ _ _ _ H). apply (touch_listed (mkSstat a fp (rt_blk s))). Qed.
Lemma seen_operates s s1 sh a e : seen_work s s1 sh a (fingerprint e) -> BridgeProofs.authorised s sh a e -> operates s1 sh a.
Proof.
  intros H [H1 H2]. exists e. rewrite (sw_tx _ _ _ _ _ H), (seen_operator _ _ _ _ _ H). split; [auto|]. split; [auto|]. eapply seen_listable, H.
Qed.
(** Being seen again in the same block changes neither the list nor the configuration *)
Lemma seen_again s s1 s2 sh a fp : seen_work s s1 sh a fp -> seen_work s1 s2 sh a fp ->
  status_of s2 sh = status_of s1 sh /\ eb_config (rt_eb s2) = eb_config (rt_eb s1).
Proof.
  intros H1 H2. split.
  - rewrite (sw_status _ _ _ _ _ H2), (sw_blk _ _ _ _ _ H1), (sw_status _ _ _ _ _ H1). apply touch_again.
  - rewrite (sw_config _ _ _ _ _ H2), (sw_blk _ _ _ _ _ H1). apply (enact_again sh (rt_blk s) s s1), (sw_config _ _ _ _ _ H1).
Qed.
Lemma status_at s1 s2 sh : is_Some (eb_status (rt_eb s1) !! sh) -> is_Some (eb_status (rt_eb s2) !! sh) ->
  status_of s2 sh = status_of s1 sh -> same_at (XE (KStatus sh)) s1 s2.
Proof. unfold status_of. cbn. intros [l1 ->] [l2 ->]. cbn. congruence. Qed.
Lemma touched_some s sh a fp : is_Some (eb_status (rt_eb (touched sh a fp s)) !! sh).
Proof. unfold touched. cbn. rewrite lookup_insert. eauto. Qed.
(** From the writes of a call to all entries *)
Lemma cells_but c o k s L : may_write k POut = false ->
  (forall y, y ∈ writes c o k s -> y ∉ L -> same_at y s (step c s (OCall o k))) -> same_but L s (step c s (OCall o k)).
Proof.
  intros Ho H. split; [|apply out_same, Ho]. intros y Hy.
  destruct (decide (y ∈ writes c o k s)) as [Hw|Hw]; [auto|].
  apply (proj1 (C86_operations_change_only_their_writes c (OCall o k) s)), Hw.
Qed.
Lemma config_at s1 s2 sh : eb_config (rt_eb s2) = eb_config (rt_eb s1) -> same_at (XE (KConfig sh)) s1 s2.
Proof. cbn. intros ->. reflexivity. Qed.
Lemma config_again c s s1 s2 sh new d : rt_blk s1 = rt_blk s ->
  eb_config (rt_eb s1) !! sh = Some (new_config c s sh new d) -> eb_config (rt_eb s2) !! sh = Some (new_config c s1 sh new d) ->
  forall b, rt_blk s1 <= b -> in_force s2 sh b = in_force s1 sh b.
Proof.
  intros Hb E1 E2 b Hle. unfold in_force at 1 2. rewrite E1, E2. cbn [fmap option_fmap option_map]. f_equal.
  unfold new_config. unfold in_force at 1. rewrite E1, Hb. cbn [fmap option_fmap option_map]. unfold new_config.
  rewrite Hb in Hle. destruct (in_force s sh (rt_blk s)) as [old|]; unfold in_force_of; cbn [uc_pending uc_at uc_active].
  - destruct (N.leb_spec (N.min (rt_blk s + d) (c_blk_max c)) (rt_blk s)); destruct (N.leb_spec (N.min (rt_blk s + d) (c_blk_max c)) b); try reflexivity; lia.
  - destruct (_ <=? _); reflexivity.
Qed.
Lemma transfer_frame c a b v s s' : transfer c a b v s = Ok tt s' -> rt_eb s' = rt_eb s /\ rt_tx s' = rt_tx s /\ rt_blk s' = rt_blk s.
Proof.
  intros H. split; [|split].
  - assert (pres rt_eb (transfer c a b v)) as P by (unfold_env; pres_tac). exact (P _ _ _ H).
  - assert (pres rt_tx (transfer c a b v)) as P by (unfold_env; pres_tac). exact (P _ _ _ H).
  - assert (pres rt_blk (transfer c a b v)) as P by (unfold_env; pres_tac). exact (P _ _ _ H).
Qed.
Lemma leads_head s sh a e first r : touch_list (mkSstat a e (rt_blk s)) (status_of s sh) = first :: r -> leads s sh a <-> a = ss_signer first.
Proof.
  intros E. unfold leads. change (default [] (eb_status (rt_eb s) !! sh)) with (status_of s sh).
  destruct (touch_list_hd (mkSstat a e (rt_blk s)) (status_of s sh)) as (y & r' & E' & Hy). rewrite E in E'. injection E' as <- <-.
  rewrite Hy. destruct (status_of s sh); cbn; [tauto|]. split; congruence.
Qed.
Section Bridge.
Context (c : cfg) (g : genesis) (l : list op).
Let s := after c g l.
Lemma after_snoc x : step c s x = after c g (l ++ [x]).
Proof. unfold s, run. rewrite fold_left_app. reflexivity. Qed.
Lemma eb_second o k : (dispatch c o (CEb k) s).1 = Success -> second c o (CEb k) s (step c s (OCall o (CEb k))).
Proof.
  intros H. pose proof (success_exec _ _ _ _ H) as E. cbn [exec] in E.
  pose proof (after_snoc (OCall o (CEb k))) as Hr.
  assert (forall st, (dispatch c o (CEb k) (step c s (OCall o (CEb k)))).1 = st <-> answers (eb_demands c (step c s (OCall o (CEb k))) o k) st) as HB.
  { intros st. rewrite Hr. apply C70_bridge_answers. }
  assert ((dispatch c o (CEb k) (step c s (OCall o (CEb k)))).1 = Success <-> eb_accepts c (step c s (OCall o (CEb k))) o k) as HS.
  { rewrite Hr. apply C68_bridge_calls_accepted_exactly. }
  clear Hr. pose proof (blk_same c s o (CEb k)) as Hblk.
  destruct k as [sh y|sh h n r|sh i v|sh b v h|h t d|sh new d|sh a]; cbn [eb_exec] in E; unfold second; cbv zeta;
    match goal with |- context [dispatch c o ?k0 (step c s ?x0)] =>
      change ((dispatch c o k0 (step c s x0)).2) with (step c (step c s x0) x0) end; set (s1 := step c s _) in *.
  - apply apart_settles; [exact H|reflexivity|]. unfold writes, reads. destruct o; cbn; apart_tac.
  - apply confirm_processed_ok in E as (a & e & -> & Ha & _ & Es).
    assert (seen_work s s1 sh a (fingerprint e)) as W by (eapply seen_view; [apply seen_touched|rewrite Es; reflexivity..]).
    assert ((dispatch c (Signed a) (CEb (EbConfirm sh h n r)) s1).1 = Success) as H1.
    { apply HS. exists a. split; [auto|]. eapply seen_operates; eauto. }
    split; [exact H1|]. apply cells_but; [reflexivity|].
    pose proof (success_exec _ _ _ _ H1) as E1. cbn [exec eb_exec] in E1. set (s2 := step c s1 _) in *.
    apply confirm_processed_ok in E1 as (a1 & e1 & [= <-] & Ha1 & _ & Es2).
    assert (e1 = e) as ->. { destruct Ha, Ha1. rewrite (sw_tx _ _ _ _ _ W) in *. congruence. }
    assert (seen_work s1 s2 sh a (fingerprint e)) as W1 by (eapply seen_view; [apply seen_touched|rewrite Es2; reflexivity..]).
    destruct (seen_again _ _ _ _ _ _ W W1) as [X1 X2].
    intros y Hy _. unfold writes, writes_signed, shard_writes in Hy. cbn [app writes_other] in Hy. in_cases Hy; subst y.
    + apply config_at, X2.
    + apply status_at; [rewrite Es; apply touched_some|rewrite Es2; apply touched_some|exact X1].
  - pose proof (proj1 (C68_bridge_calls_accepted_exactly c g l o (EbShield sh i v)) H) as (a & -> & _).
    exists a. split; [auto|]. split.
    + rewrite HS. cbn. split; [intros (? & [= <-] & ?); auto|eauto].
    + intros H1. pose proof (dispatch_step _ _ _ _ H1) as E1.
      apply C69_bridge_calls_do_exactly_this in E1 as [(? & evs & [= <-] & _ & Hp & He) _]. eauto.
  - apply unshield_ok in E as (a & e & -> & Ha & _ & Ed).
    assert (exists n, eb_exec (rt_eb s1) !! h = Some n /\ seen_work s s1 sh a (fingerprint e) /\ is_Some (eb_status (rt_eb s1) !! sh)) as (n & Hn & W & Hsome).
    { destruct Ed as [(_ & t & Ht & Es)|(n & n1 & _ & _ & _ & Es)].
      - exists 1. split; [rewrite Es; cbn; apply lookup_insert|]. apply transfer_frame in Ht as (X1 & X2 & X3). split.
        + eapply seen_view; [apply seen_touched|rewrite Es; cbn [rt_eb rt_tx rt_blk eb_status eb_config put_exec add_ev set_eb]; rewrite ?X1, ?X2, ?X3; reflexivity..].
        + rewrite Es. cbn [rt_eb eb_status put_exec add_ev set_eb]. rewrite X1. apply touched_some.
      - exists n1. split; [rewrite Es; cbn; apply lookup_insert|].
        split; [eapply seen_view; [apply seen_touched|rewrite Es; reflexivity..]|]. rewrite Es. apply touched_some. }
    assert (confirmations s1 h = n) as Hc by (unfold confirmations; rewrite Hn; reflexivity).
    assert ((dispatch c (Signed a) (CEb (EbUnshield sh b v h)) s1).1 = Success ->
      same_but [XE (KExec h)] s1 (step c s1 (OCall (Signed a) (CEb (EbUnshield sh b v h)))) /\
      (n < u64_max -> confirmations (step c s1 (OCall (Signed a) (CEb (EbUnshield sh b v h)))) h = n + 1) /\
      rt_ev (step c s1 (OCall (Signed a) (CEb (EbUnshield sh b v h)))) = rt_ev s1) as HD.
    { intros H1. pose proof (success_exec _ _ _ _ H1) as E1. cbn [exec eb_exec] in E1.
      split; [apply cells_but; [reflexivity|]|]; set (s2 := step c s1 _) in *;
        apply unshield_ok in E1 as (a1 & e1 & [= <-] & Ha1 & _ & [(X & _)|(n0 & n1 & X & Hn1 & _ & Es2)]); try congruence;
        assert (n0 = n) as -> by congruence.
      - assert (e1 = e) as ->. { destruct Ha, Ha1. rewrite (sw_tx _ _ _ _ _ W) in *. congruence. }
        assert (seen_work s1 s2 sh a (fingerprint e)) as W1 by (eapply seen_view; [apply seen_touched|rewrite Es2; reflexivity..]).
        destruct (seen_again _ _ _ _ _ _ W W1) as [X1 X2].
        intros y Hy HL. assert (rt_bal s2 = rt_bal s1) as Eb.
        { rewrite Es2. unfold touched. cbn. apply (enact_other _ rt_bal). reflexivity. }
        unfold writes, writes_signed, shard_writes in Hy. cbn [app writes_other] in Hy. in_cases Hy; subst y.
        + apply config_at, X2.
        + apply status_at; [exact Hsome|rewrite Es2; apply touched_some|exact X1].
        + destruct HL. left.
        + unfold same_at, free. rewrite Eb. reflexivity.
        + unfold same_at, free. rewrite Eb. reflexivity.
      - split.
        + intros Hlt. unfold confirmations. rewrite Es2. cbn. rewrite lookup_insert. cbn. apply Hn1. lia.
        + rewrite Es2. unfold touched. cbn. apply (enact_other _ rt_ev). reflexivity. }
    rewrite Hc. split; [|intros H1; split; apply HD; exact H1].
    intros Hlt. assert ((dispatch c (Signed a) (CEb (EbUnshield sh b v h)) s1).1 = Success) as H1.
    { apply HS. exists a. split; [auto|]. split; [eapply seen_operates; eauto|]. split; [congruence|]. rewrite Hc. auto. }
    split; [exact H1|]. apply HD; auto.
  - apply publish_ok in E as (a & e & -> & He & Ht & Hd & _ & Es). set (sh := fingerprint e) in *.
    assert (status_of s1 sh = touch_list (mkSstat a sh (rt_blk s)) (status_of s sh)) as HS1.
    { unfold status_of at 1. rewrite Es. cbn. rewrite lookup_insert. reflexivity. }
    assert (rt_tx s1 = rt_tx s) as Etx by (rewrite Es; reflexivity).
    assert ((dispatch c (Signed a) (CEb (EbPublish h t d)) s1).1 = Success) as H1.
    { apply HS. exists a, e. rewrite Etx. repeat (split; [auto; fail|]). split; [|auto]. left. unfold signers_of.
      change (en_mr_enclave e) with sh. rewrite HS1. apply (touch_listed (mkSstat a sh (rt_blk s))). }
    split; [exact H1|]. apply cells_but; [reflexivity|].
    pose proof (success_exec _ _ _ _ H1) as E1. cbn [exec eb_exec] in E1. set (s2 := step c s1 _) in *.
    apply publish_ok in E1 as (a1 & e1 & [= <-] & He1 & _ & _ & _ & Es2). rewrite Etx, He in He1. injection He1 as <-. fold sh in Es2.
    intros y Hy _. unfold writes, writes_signed in Hy. rewrite Etx, He in Hy. cbn [app writes_other opt] in Hy. in_cases Hy; subst y.
    change (en_mr_enclave e) with sh. apply status_at; [rewrite Es; cbn; rewrite lookup_insert; eauto|rewrite Es2; cbn; rewrite lookup_insert; eauto|].
    unfold status_of at 1. rewrite Es2. cbn [eb_status rt_eb add_ev put_status set_eb]. rewrite lookup_insert. cbn [default from_option]. unfold id.
    rewrite HS1, Hblk. apply touch_again.
  - assert (forall H1 : (dispatch c o (CEb (EbUpdateConfig sh new d)) s1).1 = Success,
      same_but [XE (KConfig sh)] s1 (step c s1 (OCall o (CEb (EbUpdateConfig sh new d)))) /\
      forall b, rt_blk s1 <= b -> in_force (step c s1 (OCall o (CEb (EbUpdateConfig sh new d)))) sh b = in_force s1 sh b) as HD.
    { intros H1. pose proof (success_exec _ _ _ _ H1) as E1. cbn [exec eb_exec] in E1.
      split; [apply cells_but; [reflexivity|]|]; set (s2 := step c s1 _) in *;
      apply update_config_ok in E as [(-> & Es)|(a & e & -> & He & _ & _ & Es)]; apply update_config_ok in E1 as [(X & Es2)|(a1 & e1 & X & He1 & _ & _ & Es2)]; try discriminate X.
      - intros y Hy HL. unfold writes, writes_root in Hy. cbn [app writes_other] in Hy. in_cases Hy; subst y. destruct HL. left.
      - injection X as <-. assert (rt_tx s1 = rt_tx s) as Etx by (rewrite Es; reflexivity). rewrite Etx, He in He1. injection He1 as <-.
        intros y Hy HL. unfold writes, writes_signed, shard_writes in Hy. cbn [app writes_other] in Hy. in_cases Hy; subst y; [destruct HL; left|].
        assert (status_of s1 sh = touch_list (mkSstat a (fingerprint e) (rt_blk s)) (status_of s sh)) as HS1.
        { unfold status_of at 1. rewrite Es. cbn. rewrite lookup_insert. reflexivity. }
        apply status_at; [rewrite Es; cbn; rewrite lookup_insert; eauto|rewrite Es2; cbn; rewrite lookup_insert; eauto|].
        unfold status_of at 1. rewrite Es2. cbn [eb_status rt_eb add_ev put_status put_config set_eb]. rewrite lookup_insert. cbn [default from_option]. unfold id.
        rewrite HS1, Hblk. apply touch_again.
      - apply (config_again c s s1 s2 sh new d Hblk); [rewrite Es|rewrite Es2]; cbn; apply lookup_insert.
      - apply (config_again c s s1 s2 sh new d Hblk); [rewrite Es|rewrite Es2]; cbn [eb_config rt_eb add_ev put_status put_config set_eb]; apply lookup_insert. }
    split; [|exact HD].
    apply update_config_ok in E as [(-> & Es)|(a & e & -> & He & _ & _ & Es)]; [left; apply HS; left; auto|].
    assert (rt_tx s1 = rt_tx s) as Etx by (rewrite Es; reflexivity).
    assert (listable s1 sh a) as Hl.
    { left. unfold signers_of, status_of. rewrite Es. cbn [eb_status rt_eb add_ev put_status put_config set_eb]. rewrite lookup_insert. cbn [default from_option]. unfold id.
      apply (touch_listed (mkSstat a (fingerprint e) (rt_blk s))). }
    assert (exists x, in_force s1 sh (rt_blk s1) = Some x) as [x Hx].
    { unfold in_force. rewrite Es. cbn. rewrite lookup_insert. eauto. }
    destruct (decide (sc_fp x = en_mr_enclave e)) as [Hf|Hf].
    + left. apply HS. right. exists a, e. rewrite Etx. split; [auto|]. split; [auto|]. split; [auto|]. rewrite Hx. intros z [= <-]. exact Hf.
    + right. exists a, e, x. split; [auto|]. split; [rewrite Etx; auto|]. split; [auto|]. split; [auto|].
      apply HB. cbn [eb_demands answers or_err]. rewrite Etx, He, Hx. left. split; [discriminate|]. left. split; [eauto|]. right. split; [|auto].
      intros X. apply Hf. apply (X e x); auto.
  - apply purge_ok in E as (-> & ls & Hls & Es).
    assert (eb_status (rt_eb s1) !! sh = Some (filter (fun x => ss_signer x <> a) ls)) as HS1 by (rewrite Es; cbn; apply lookup_insert).
    assert ((dispatch c Root (CEb (EbPurge sh a)) s1).1 = Success) as H1.
    { apply HS. split; [auto|]. rewrite HS1. eauto. }
    split; [exact H1|]. apply cells_but; [reflexivity|].
    pose proof (success_exec _ _ _ _ H1) as E1. cbn [exec eb_exec] in E1. set (s2 := step c s1 _) in *.
    apply purge_ok in E1 as (_ & ls1 & Hls1 & Es2). rewrite HS1 in Hls1. injection Hls1 as <-.
    intros y Hy _. unfold writes, writes_root in Hy. cbn [app writes_other] in Hy. in_cases Hy; subst y.
    change (eb_status (rt_eb s1) !! sh = eb_status (rt_eb s2) !! sh). rewrite HS1, Es2. cbn. rewrite lookup_insert. f_equal.
    symmetry. rewrite list_filter_filter. apply list_filter_iff. tauto.
Qed.
Lemma sc_second o k : (dispatch c o (CSc k) s).1 = Success -> second c o (CSc k) s (step c s (OCall o (CSc k))).
Proof.
  intros H. pose proof (success_exec _ _ _ _ H) as E. cbn [exec] in E.
  pose proof (after_snoc (OCall o (CSc k))) as Hr.
  assert (forall st, (dispatch c o (CSc k) (step c s (OCall o (CSc k)))).1 = st <-> answers (sc_demands (step c s (OCall o (CSc k))) o k) st) as HB.
  { intros st. rewrite Hr. apply C70_sidechain_answers. }
  assert ((dispatch c o (CSc k) (step c s (OCall o (CSc k)))).1 = Success <-> sc_accepts (step c s (OCall o (CSc k))) o k) as HS.
  { rewrite Hr. apply C68_sidechain_calls_accepted_exactly. }
  clear Hr. destruct k as [sh anc cand]; cbn [sc_exec] in E; unfold second; cbv zeta;
    match goal with |- context [dispatch c o ?k0 (step c s ?x0)] =>
      change ((dispatch c o k0 (step c s x0)).2) with (step c (step c s x0) x0) end; set (s1 := step c s _) in *.
  apply confirm_sidechain_ok in E as (a & e & first & r & -> & Ha & Et & _ & Ed). exists a. split; [auto|].
  pose proof (leads_head s sh a (fingerprint e) first r Et) as Hlead.
  assert (seen_work s s1 sh a (fingerprint e) /\ is_Some (eb_status (rt_eb s1) !! sh)) as [W Hsome].
  { destruct Ed as [[_ Es]|(_ & _ & Es)]; (split; [eapply seen_view; [apply seen_touched|rewrite Es; reflexivity..]|rewrite Es; apply touched_some]). }
  pose proof (seen_operates _ _ _ _ _ W Ha) as Hop. pose proof (sw_status _ _ _ _ _ W) as HS1. rewrite Et in HS1.
  split; intros HL.
  - apply Hlead in HL as Hf. destruct Ed as [[X _]|(_ & _ & Es)]; [contradiction|].
    assert (rt_sc s1 !! sh = Some cand) as Hlast. { rewrite Es. cbn. apply lookup_insert. }
    assert (leads s1 sh a) as HL1. { unfold leads. change (default [] (eb_status (rt_eb s1) !! sh)) with (status_of s1 sh). rewrite HS1. auto. }
    destruct Hop as (e1 & He1 & Hop & Hli).
    apply HB. cbn [sc_demands operator_demands app answers or_err].
    left. split; [eauto|]. left. split; [eauto|]. left. split; [intros e2 He2; rewrite He1 in He2; injection He2 as <-; exact Hop|].
    left. split; [exact Hli|]. destruct anc as [p|].
    + left. split; [eauto|]. right. split; [|auto]. intros X. specialize (X HL1 cand Hlast). lia.
    + right. split; [|auto]. intros X. destruct (X HL1 cand Hlast). discriminate.
  - assert (a <> ss_signer first) as Hf by (rewrite <- Hlead; exact HL).
    assert ((dispatch c (Signed a) (CSc (ScConfirm sh anc cand)) s1).1 = Success) as H1.
    { apply HS. exists a. split; [auto|]. split; [exact Hop|]. left. exists (ss_signer first), (map ss_signer r).
      unfold signers_of. rewrite HS1. split; [reflexivity|auto]. }
    split; [exact H1|]. apply cells_but; [reflexivity|].
    pose proof (success_exec _ _ _ _ H1) as E1. cbn [exec sc_exec] in E1. set (s2 := step c s1 _) in *.
    apply confirm_sidechain_ok in E1 as (a1 & e1 & first1 & r1 & [= <-] & Ha1 & Et1 & _ & Ed1).
    assert (e1 = e) as ->. { destruct Ha, Ha1. rewrite (sw_tx _ _ _ _ _ W) in *. congruence. }
    assert (first1 = first) as ->.
    { rewrite (sw_status _ _ _ _ _ W), (sw_blk _ _ _ _ _ W), touch_again, Et in Et1. congruence. }
    destruct Ed1 as [[_ Es2]|(X & _)]; [|contradiction].
    assert (seen_work s1 s2 sh a (fingerprint e)) as W1 by (rewrite Es2; apply seen_touched).
    destruct (seen_again _ _ _ _ _ _ W W1) as [X1 X2].
    intros y Hy _. unfold writes, writes_signed, shard_writes in Hy. cbn [app writes_other] in Hy. in_cases Hy; subst y.
    + apply config_at, X2.
    + apply status_at; [exact Hsome|rewrite Es2; apply touched_some|exact X1].
    + unfold same_at. rewrite Es2. unfold touched. cbn [rt_sc put_status set_eb]. rewrite (enact_other _ rt_sc) by reflexivity. reflexivity.
Qed.
End Bridge.

(** ** claims *)
Lemma move_again {A} (old new : bytes) (m : gmap bytes A) : move_key old new (move_key old new m) = move_key old new m.
Proof.
  unfold move_key. destruct (m !! old) as [x|] eqn:E; [|rewrite E; reflexivity].
  destruct (decide (old = new)) as [->|Hn].
  - rewrite lookup_insert, !insert_delete_insert, insert_insert. reflexivity.
  - rewrite lookup_insert_ne, lookup_delete by auto. reflexivity.
Qed.
Lemma cl_second c o k s : (dispatch c o (CCl k) s).1 = Success -> second c o (CCl k) s (step c s (OCall o (CCl k))).
Proof.
  intros H. pose proof (success_exec _ _ _ _ H) as E. cbn [exec] in E.
  pose proof (proj1 (C68_claims_calls_accepted_exactly c s o k) H) as HA.
  destruct k as [d sig|w v vs st|d sig text|text|old new pre]; cbn [cl_exec] in E; unfold second; cbv zeta;
    match goal with |- context [dispatch c o ?k0 (step c s ?x0)] =>
      try change ((dispatch c o k0 (step c s x0)).2) with (step c (step c s x0) x0) end; set (s1 := step c s _) in *.
  - apply claim_ok in E as (-> & w & Hw & _ & E). apply process_ok in E as (due & _ & _ & _ & _ & Es & _).
    assert (eth_signed c sig w d []) as HW by (apply claimant_signed; exact Hw).
    assert (forall w', eth_signed c sig w' d [] -> w' = w) as HU. { intros w' X%claimant_signed. apply claimant_signed in HW. congruence. }
    clearbody s1. apply C70_claims_answers. cbn. rewrite Es. cbn.
    left. split; [auto|]. left. split; [eauto|]. left. split; [intros w' ->%HU; apply lookup_delete|].
    right. split; [|auto]. intros X. destruct (X w HW) as [z Hz]. rewrite lookup_delete in Hz. discriminate.
  - apply mint_ok in E as (-> & t & _ & Es).
    assert ((dispatch c Root (CCl (ClMint w v vs st)) s1).1 = Success ->
      same_but [XE KTotal] s1 (step c s1 (OCall Root (CCl (ClMint w v vs st)))) /\
      (cl_total (rt_cl s1) + v <= c_bal_max c -> cl_total (rt_cl (step c s1 (OCall Root (CCl (ClMint w v vs st))))) = cl_total (rt_cl s1) + v)) as HD.
    { intros H1. pose proof (success_exec _ _ _ _ H1) as E1. cbn [exec cl_exec] in E1.
      split; [apply cells_but; [reflexivity|]|]; set (s2 := step c s1 _) in *; apply mint_ok in E1 as (_ & t2 & Ht & Es2).
      - intros y Hy HL. unfold writes, writes_root in Hy. cbn [app writes_other] in Hy. in_cases Hy; subst y; [destruct HL; left|..];
          unfold same_at; rewrite Es2; clear Es2 s2; rewrite Es; destruct vs, st; cbn; rewrite ?lookup_insert; reflexivity.
      - intros Hle. rewrite Es2. cbn. destruct Ht as [[_ ->]|[X _]]; [reflexivity|]. lia. }
    split; [|intros H1; apply HD; exact H1]. intros Hle.
    assert ((dispatch c Root (CCl (ClMint w v vs st)) s1).1 = Success) as H1.
    { apply C68_claims_calls_accepted_exactly. cbn. auto. }
    split; [exact H1|]. apply HD; auto.
  - apply claim_attest_ok in E as (-> & w & Hw & _ & E). apply process_ok in E as (due & _ & _ & _ & _ & Es & _).
    assert (eth_signed c sig w d text) as HW by (apply claimant_signed; exact Hw).
    assert (forall w', eth_signed c sig w' d text -> w' = w) as HU. { intros w' X%claimant_signed. apply claimant_signed in HW. congruence. }
    clearbody s1. apply C70_claims_answers. cbn. rewrite Es. cbn.
    left. split; [auto|]. left. split; [eauto|]. left. split; [|right; split; [|auto]].
    + intros w' ->%HU. unfold statement_met. rewrite Es. cbn. intros z Hz. rewrite lookup_delete in Hz. discriminate.
    + intros X. destruct (X w HW) as [z Hz]. rewrite lookup_delete in Hz. discriminate.
  - apply attest_ok in E as (a & w & t & -> & _ & _ & E & Es). clearbody s1. apply C70_claims_answers. cbn. rewrite Es. cbn.
    left. split; [eauto|]. right. split; [|auto]. intros [z Hz]. rewrite lookup_delete in Hz. discriminate.
  - apply move_ok in E as (Ho & Es).
    assert ((dispatch c o (CCl (ClMove old new pre)) s1).1 = Success) as H1.
    { apply C68_claims_calls_accepted_exactly. exact HA. }
    split; [exact H1|]. apply cells_but; [reflexivity|].
    pose proof (success_exec _ _ _ _ H1) as E1. cbn [exec cl_exec] in E1. set (s2 := step c s1 _) in *. apply move_ok in E1 as (_ & Es2).
    assert (rt_cl s2 = rt_cl s1) as Ecl.
    { rewrite Es2. clear Es2 s2. rewrite Es. cbn. rewrite !move_again. f_equal. destruct pre as [p|]; [|reflexivity].
      destruct (cl_preclaims (rt_cl s) !! p) as [x|] eqn:Ep; [|rewrite Ep; reflexivity].
      destruct (beq x old) eqn:Eb; [|rewrite Ep, Eb; reflexivity]. rewrite lookup_insert.
      destruct (beq new old); [apply insert_insert|reflexivity]. }
    clearbody s2. intros y Hy _.
    assert (y ∈ [XE (KClaims old); XE (KVesting old); XE (KSigning old); XE (KClaims new); XE (KVesting new); XE (KSigning new)]
      ++ opt pre (fun p => [XE (KPreclaims p)])) as Hy'.
    { unfold writes in Hy. apply elem_of_app in Hy as [Hy|Hy]; [|exact Hy]. destruct o; inversion Hy. }
    destruct pre; cbn [opt] in Hy'; in_cases Hy'; subst y; unfold same_at; rewrite Ecl; reflexivity.
Qed.

(** Every accepted call, submitted again at once *)
Theorem C103_what_a_second_submission_does : forall c g l o k, let s := after c g l in
  (dispatch c o k s).1 = Success -> second c o k s (step c s (OCall o k)).
Proof.
  intros c g l o k s H. destruct k.
  - apply td_second, H.
  - apply eb_second, H.
  - apply sc_second, H.
  - apply to_second, H.
  - apply tx_second, H.
  - apply cl_second, H.
  - apply ar_second, H.
  - apply xt_second, H.
Qed.
Print Assumptions C103_what_a_second_submission_does.

(** ** What must happen before a call is accepted again *)
(** After the call [k] of [o] was accepted, the call [k2] of [o2] is refused until a call described by
    the last argument was accepted *)
Inductive shut_until (c : cfg) : origin -> call -> origin -> call -> (origin -> call -> Prop) -> Prop :=
| su_bond a v w : shut_until c (Signed a) (CTd (TdBond v)) (Signed a) (CTd (TdBond w))
    (fun o k => o = Signed a /\ exists u, k = CTd (TdUnbond u))
| su_bonded a v w : shut_until c (Signed a) (CTd (TdBondExtra v)) (Signed a) (CTd (TdBond w))
    (fun o k => o = Signed a /\ exists u, k = CTd (TdUnbond u))
| su_unbond a v w : shut_until c (Signed a) (CTd (TdUnbond v)) (Signed a) (CTd (TdUnbond w))
    (fun o k => o = Signed a /\ k = CTd TdWithdrawUnbonded)
| su_extra a v w : shut_until c (Signed a) (CTd (TdUnbond v)) (Signed a) (CTd (TdBondExtra w))
    (fun o k => o = Signed a /\ k = CTd TdWithdrawUnbonded)
| su_withdraw a : shut_until c (Signed a) (CTd TdWithdrawUnbonded) (Signed a) (CTd TdWithdrawUnbonded)
    (fun o k => o = Signed a /\ exists u, k = CTd (TdUnbond u))
| su_list src fp : shut_until c Root (CTo (ToAdd src fp)) Root (CTo (ToAdd src fp))
    (fun o k => o = Root /\ k = CTo (ToRemove src fp))
| su_strike src fp : shut_until c Root (CTo (ToRemove src fp)) Root (CTo (ToRemove src fp))
    (fun o k => o = Root /\ k = CTo (ToAdd src fp))
| su_sovereign o o2 w : shut_until c o (CTx (TxUnregisterSovereign w)) o2 (CTx (TxUnregisterSovereign w))
    (fun o k => o = Signed w /\ exists p u m, k = CTx (TxRegister p u m))
| su_proxied o o2 w : shut_until c o (CTx (TxUnregisterProxied w)) o2 (CTx (TxUnregisterProxied w))
    (fun o k => o = Signed w.1.2 /\ exists p u m, k = CTx (TxRegister p u m))
| su_preclaim a t t2 : shut_until c (Signed a) (CCl (ClAttest t)) (Signed a) (CCl (ClAttest t2)) (fun _ _ => False)
| su_asset o o2 i l l2 : shut_until c o (CAr (ArRegister i l)) o2 (CAr (ArRegister i l2))
    (fun o k => c_asset_origin c o = true /\ k = CAr (ArUnregister i))
| su_no_asset o o2 i : shut_until c o (CAr (ArUnregister i)) o2 (CAr (ArUnregister i))
    (fun o k => c_asset_origin c o = true /\ exists l, k = CAr (ArRegister i l)).

(** In the history [m] after [l], a call described by [P] was accepted *)
Definition accepted_in (c : cfg) (g : genesis) (l m : list op) (P : rt -> origin -> call -> Prop) : Prop :=
  exists ma o k mb, m = ma ++ OCall o k :: mb /\ P (after c g (l ++ ma)) o k /\
  (dispatch c o k (after c g (l ++ ma))).1 = Success.

Lemma must_happen c g (Q : rt -> Prop) (P : rt -> origin -> call -> Prop) : 
  (forall l x, let s := after c g l in Q s -> Q (step c s x) \/
     exists o k, x = OCall o k /\ P s o k /\ (dispatch c o k s).1 = Success) ->
  forall l m, Q (after c g l) -> Q (after c g (l ++ m)) \/ accepted_in c g l m P.
Proof.
  intros HQ l m. revert l. induction m as [|x m IH]; intros l Hl; [rewrite app_nil_r; auto|].
  destruct (HQ l x Hl) as [H|(o & k & -> & HP & HA)].
  - rewrite after_snoc in H. destruct (IH _ H) as [H1|(ma & o & k & mb & -> & HP & HA)].
    + left. rewrite <- app_assoc in H1. exact H1.
    + right. exists (x :: ma), o, k, mb. rewrite <- app_assoc in HP, HA. auto.
  - right. exists [], o, k, m. rewrite app_nil_r. auto.
Qed.
(** An operation keeps a fact about an entry, or it is one that may change the entry and was accepted *)
Lemma changed c g l x y (Q : rt -> Prop) : let s := after c g l in
  (forall s t, same_at y s t -> Q s -> Q t) -> Decision (Q (step c s x)) -> Q s ->
  Q (step c s x) \/ (~ Q (step c s x) /\ may_change c s y x /\ ends c s x = Success).
Proof.
  intros s HQ [H|H] Hs; [left; exact H|right]. split; [exact H|]. split.
  - apply C102_who_can_change_an_entry. intros X. apply H. eapply HQ; eauto.
  - destruct (ends c s x) eqn:E; [reflexivity|..]; destruct H; rewrite (proj2 (C86_operations_change_only_their_writes c x s)); auto; congruence.
Qed.

Lemma success_ends c o k s : ends c s (OCall o k) = Success -> exec c o k s = Ok tt (step c s (OCall o k)).
Proof. exact (success_exec c o k s). Qed.
Section Shut.
Context (c : cfg) (g : genesis).
Lemma stays_bonded a l m : is_Some (td_bonds (rt_td (after c g l)) !! a) ->
  is_Some (td_bonds (rt_td (after c g (l ++ m))) !! a) \/
  accepted_in c g l m (fun _ o k => o = Signed a /\ exists u, k = CTd (TdUnbond u)).
Proof.
  apply (must_happen c g (fun s => is_Some (td_bonds (rt_td s) !! a))). clear l m. intros l x s Hs.
  destruct (changed c g l x (XE (KBonds a)) (fun s => is_Some (td_bonds (rt_td s) !! a))) as [H|(Hn & Hc & He)]; [|apply _|exact Hs|left; exact H|].
  { cbn. intros ? ? ->. auto. }
  fold s in Hn, Hc, He. cbn [may_change] in Hc. right.
  destruct Hc as [(v & [->|[->| ->]])|(b & ->)].
  1, 2, 4: exfalso; apply Hn; apply success_ends in He as E; cbn [exec td_exec] in E; set (s' := step c s _) in *.
  - apply bond_ok in E as (? & [= <-] & _ & _ & E & _). rewrite E, lookup_insert. eauto.
  - apply bond_extra_ok in E as (? & b & [= <-] & _ & _ & _ & E). cbv zeta in E. destruct E as [E _]. rewrite E, lookup_insert. eauto.
  - apply update_other_ok in E as (? & b' & [= <-] & _ & E & _). rewrite E, lookup_insert. eauto.
  - eexists _, _. split; [reflexivity|]. split; [eauto|exact He].
Qed.
Lemma stays_pending a l m : is_Some (td_pending (rt_td (after c g l)) !! a) ->
  is_Some (td_pending (rt_td (after c g (l ++ m))) !! a) \/
  accepted_in c g l m (fun _ o k => o = Signed a /\ k = CTd TdWithdrawUnbonded).
Proof.
  apply (must_happen c g (fun s => is_Some (td_pending (rt_td s) !! a))). clear l m. intros l x s Hs.
  destruct (changed c g l x (XE (KPending a)) (fun s => is_Some (td_pending (rt_td s) !! a))) as [H|(Hn & Hc & He)]; [|apply _|exact Hs|left; exact H|].
  { cbn. intros ? ? ->. auto. }
  fold s in Hn, Hc, He. cbn [may_change] in Hc. right. destruct Hc as [(v & ->)| ->].
  - exfalso. apply (proj1 (C68_teerdays_calls_accepted_exactly c s (Signed a) (TdUnbond v))) in He as (? & [= <-] & _ & E & _).
    rewrite E in Hs. destruct Hs. discriminate.
  - eexists _, _. split; [reflexivity|]. split; [eauto|exact He].
Qed.
Lemma stays_idle a l m : td_pending (rt_td (after c g l)) !! a = None ->
  td_pending (rt_td (after c g (l ++ m))) !! a = None \/
  accepted_in c g l m (fun _ o k => o = Signed a /\ exists u, k = CTd (TdUnbond u)).
Proof.
  apply (must_happen c g (fun s => td_pending (rt_td s) !! a = None)). clear l m. intros l x s Hs.
  destruct (changed c g l x (XE (KPending a)) (fun s => td_pending (rt_td s) !! a = None)) as [H|(Hn & Hc & He)]; [|apply _|exact Hs|left; exact H|].
  { cbn. intros ? ? ->. auto. }
  fold s in Hn, Hc, He. cbn [may_change] in Hc. right. destruct Hc as [(v & ->)| ->].
  - eexists _, _. split; [reflexivity|]. split; [eauto|exact He].
  - exfalso. apply (proj1 (C68_teerdays_calls_accepted_exactly c s (Signed a) TdWithdrawUnbonded)) in He as (? & [= <-] & ? & ? & E & _). congruence.
Qed.
Lemma stays_listed src fp l m : fp ∈ whitelist (after c g l) src ->
  fp ∈ whitelist (after c g (l ++ m)) src \/ accepted_in c g l m (fun _ o k => o = Root /\ k = CTo (ToRemove src fp)).
Proof.
  apply (must_happen c g (fun s => fp ∈ whitelist s src)). clear l m. intros l x s Hs.
  destruct (changed c g l x (XE (KWhitelist src)) (fun s => fp ∈ whitelist s src)) as [H|(Hn & Hc & He)]; [|apply _|exact Hs|left; exact H|].
  { cbn. unfold whitelist. intros ? ? ->. auto. }
  fold s in Hn, Hc, He. cbn [may_change] in Hc. right. destruct Hc as (fp' & [->| ->]).
  - exfalso. apply Hn. apply success_ends in He as E. cbn [exec to_exec] in E. set (s' := step c s _) in *.
    apply add_wl_ok in E as (_ & _ & _ & _ & Es). unfold whitelist at 1. rewrite Es. cbn. rewrite lookup_insert. cbn.
    apply elem_of_app. left. exact Hs.
  - destruct (decide (fp' = fp)) as [->|Hne]; [eexists _, _; split; [reflexivity|]; split; [eauto|exact He]|].
    exfalso. apply Hn. apply success_ends in He as E. cbn [exec to_exec] in E. set (s' := step c s _) in *.
    apply remove_wl_ok in E as (_ & _ & Es). unfold whitelist at 1. rewrite Es. cbn. rewrite lookup_insert. cbn.
    apply elem_of_list_filter. auto.
Qed.
Lemma stays_unlisted src fp l m : ~ fp ∈ whitelist (after c g l) src ->
  ~ fp ∈ whitelist (after c g (l ++ m)) src \/ accepted_in c g l m (fun _ o k => o = Root /\ k = CTo (ToAdd src fp)).
Proof.
  apply (must_happen c g (fun s => ~ fp ∈ whitelist s src)). clear l m. intros l x s Hs.
  destruct (changed c g l x (XE (KWhitelist src)) (fun s => ~ fp ∈ whitelist s src)) as [H|(Hn & Hc & He)]; [|apply _|exact Hs|left; exact H|].
  { cbn. unfold whitelist. intros ? ? ->. auto. }
  fold s in Hn, Hc, He. cbn [may_change] in Hc. right. destruct Hc as (fp' & [->| ->]).
  - destruct (decide (fp' = fp)) as [->|Hne]; [eexists _, _; split; [reflexivity|]; split; [eauto|exact He]|].
    exfalso. apply Hn. apply success_ends in He as E. cbn [exec to_exec] in E. set (s' := step c s _) in *.
    apply add_wl_ok in E as (_ & _ & _ & _ & Es). unfold whitelist at 1. rewrite Es. cbn. rewrite lookup_insert. cbn.
    intros [X|X%elem_of_list_singleton]%elem_of_app; [exact (Hs X)|congruence].
  - exfalso. apply Hn. apply success_ends in He as E. cbn [exec to_exec] in E. set (s' := step c s _) in *.
    apply remove_wl_ok in E as (_ & _ & Es). unfold whitelist at 1. rewrite Es. cbn. rewrite lookup_insert. cbn.
    intros [_ X]%elem_of_list_filter. exact (Hs X).
Qed.
Lemma stays_unregistered w l m : tx_sov (rt_tx (after c g l)) !! w = None ->
  tx_sov (rt_tx (after c g (l ++ m))) !! w = None \/
  accepted_in c g l m (fun _ o k => o = Signed w /\ exists p u m, k = CTx (TxRegister p u m)).
Proof.
  apply (must_happen c g (fun s => tx_sov (rt_tx s) !! w = None)). clear l m. intros l x s Hs.
  destruct (changed c g l x (XE (KSov w)) (fun s => tx_sov (rt_tx s) !! w = None)) as [H|(Hn & Hc & He)]; [| |exact Hs|left; exact H|].
  { cbn. intros ? ? ->. auto. }
  { destruct (tx_sov (rt_tx (step c (after c g l) x)) !! w); [right; discriminate|left; reflexivity]. }
  fold s in Hn, Hc, He. cbn [may_change] in Hc. right. destruct Hc as [(p & u & m & e & -> & _)|(b & e & -> & E & _)]; [|congruence].
  eexists _, _. split; [reflexivity|]. split; [eauto 6|exact He].
Qed.
Lemma stays_unproxied w l m : tx_prox (rt_tx (after c g l)) !! w = None ->
  tx_prox (rt_tx (after c g (l ++ m))) !! w = None \/
  accepted_in c g l m (fun _ o k => o = Signed w.1.2 /\ exists p u m, k = CTx (TxRegister p u m)).
Proof.
  apply (must_happen c g (fun s => tx_prox (rt_tx s) !! w = None)). clear l m. intros l x s Hs.
  destruct (changed c g l x (XE (KProx w)) (fun s => tx_prox (rt_tx s) !! w = None)) as [H|(Hn & Hc & He)]; [| |exact Hs|left; exact H|].
  { intros s0 t0 E Hq. transitivity (tx_prox (rt_tx s0) !! w); [symmetry; exact E|exact Hq]. }
  { destruct (tx_prox (rt_tx (step c (after c g l) x)) !! w); [right; discriminate|left; reflexivity]. }
  fold s in Hn, Hc, He. cbn [may_change] in Hc. right. destruct Hc as [(a & p & u & m & e & -> & _ & _ & -> & _)|(b & e & -> & E & _)]; [|exfalso; discriminate (eq_trans (eq_sym Hs) E)].
  eexists _, _. split; [reflexivity|]. split; [cbn; eauto 6|exact He].
Qed.
Lemma stays_unasked a l m : cl_preclaims (rt_cl (after c g l)) !! a = None -> cl_preclaims (rt_cl (after c g (l ++ m))) !! a = None.
Proof.
  intros H0. destruct (must_happen c g (fun s => cl_preclaims (rt_cl s) !! a = None) (fun _ _ _ => False)) with l m as [H|(? & ? & ? & ? & _ & [] & _)];
    [clear H0 l m|exact H0|exact H]. intros l x s Hs.
  destruct (changed c g l x (XE (KPreclaims a)) (fun s => cl_preclaims (rt_cl s) !! a = None)) as [H|(Hn & Hc & He)]; [|apply _|exact Hs|left; exact H|].
  { cbn. intros ? ? ->. auto. }
  fold s in Hn, Hc, He. cbn [may_change] in Hc. exfalso. apply Hn.
  destruct Hc as [(text & w & -> & _)|(o & old & new & -> & _)]; apply success_ends in He as E; cbn [exec cl_exec] in E; set (s' := step c s _) in *.
  - apply attest_ok in E as (a' & w' & t & [= <-] & E & _). congruence.
  - apply move_ok in E as (_ & Es). rewrite Es. cbn. rewrite Hs. exact Hs.
Qed.
Lemma stays_located i l m : is_Some (ar_loc (rt_ar (after c g l)) !! i) ->
  is_Some (ar_loc (rt_ar (after c g (l ++ m))) !! i) \/
  accepted_in c g l m (fun _ o k => c_asset_origin c o = true /\ k = CAr (ArUnregister i)).
Proof.
  apply (must_happen c g (fun s => is_Some (ar_loc (rt_ar s) !! i))). clear l m. intros l x s Hs.
  destruct (changed c g l x (XE (KAssetLoc i)) (fun s => is_Some (ar_loc (rt_ar s) !! i))) as [H|(Hn & Hc & He)]; [|apply _|exact Hs|left; exact H|].
  { cbn. intros ? ? ->. auto. }
  fold s in Hn, Hc, He. cbn [may_change] in Hc. right. destruct Hc as (o & Ho & [(lo & ->)| ->]).
  - exfalso. apply success_ends in He as E. cbn [exec ar_exec] in E. apply XcmProps.register_ok in E as (_ & _ & E & _). rewrite E in Hs. destruct Hs. discriminate.
  - eexists _, _. split; [reflexivity|]. split; [eauto|exact He].
Qed.
Lemma stays_unlocated i l m : ar_loc (rt_ar (after c g l)) !! i = None ->
  ar_loc (rt_ar (after c g (l ++ m))) !! i = None \/
  accepted_in c g l m (fun _ o k => c_asset_origin c o = true /\ exists lo, k = CAr (ArRegister i lo)).
Proof.
  apply (must_happen c g (fun s => ar_loc (rt_ar s) !! i = None)). clear l m. intros l x s Hs.
  destruct (changed c g l x (XE (KAssetLoc i)) (fun s => ar_loc (rt_ar s) !! i = None)) as [H|(Hn & Hc & He)]; [|apply _|exact Hs|left; exact H|].
  { cbn. intros ? ? ->. auto. }
  fold s in Hn, Hc, He. cbn [may_change] in Hc. right. destruct Hc as (o & Ho & [(lo & ->)| ->]).
  - eexists _, _. split; [reflexivity|]. split; [eauto|exact He].
  - exfalso. apply success_ends in He as E. cbn [exec ar_exec] in E. apply XcmProps.unregister_ok in E as (_ & lo & E & _). congruence.
Qed.
(** The claim of [w] comes (back) only by a grant or a move *)
Definition brings_claim (w : bytes) (k : call) : Prop :=
  (exists v vs st, k = CCl (ClMint w v vs st)) \/ (exists old pre, k = CCl (ClMove old w pre)).
Lemma stays_unclaimed w l m : cl_claims (rt_cl (after c g l)) !! w = None ->
  cl_claims (rt_cl (after c g (l ++ m))) !! w = None \/
  accepted_in c g l m (fun _ o k => (o = Root \/ c_move_origin c o = true) /\ brings_claim w k).
Proof.
  apply (must_happen c g (fun s => cl_claims (rt_cl s) !! w = None)). clear l m. intros l x s Hs.
  destruct (changed c g l x (XE (KClaims w)) (fun s => cl_claims (rt_cl s) !! w = None)) as [H|(Hn & Hc & He)]; [|apply _|exact Hs|left; exact H|].
  { cbn. intros ? ? ->. auto. }
  fold s in Hn, Hc, He. cbn [may_change] in Hc. right. destruct Hc as [(v & vs & st & ->)|[(o & old & new & pre & -> & Ho & _)|(d & [z Hz] & _)]]; [| |congruence].
  - eexists _, _. split; [reflexivity|]. split; [|exact He]. split; [auto|]. left. eauto.
  - destruct (decide (new = w)) as [->|Hne].
    + eexists _, _. split; [reflexivity|]. split; [|exact He]. split; [auto|]. right. eauto.
    + exfalso. apply Hn. apply success_ends in He as E. cbn [exec cl_exec] in E. set (s' := step c s _) in *.
      apply move_ok in E as (_ & Es). rewrite Es. cbn. unfold move_key. destruct (cl_claims (rt_cl s) !! old) eqn:Eo; [|exact Hs].
      rewrite lookup_insert_ne by auto. rewrite lookup_delete_None. auto.
Qed.
End Shut.

Ltac ex H := cbn [exec td_exec to_exec tx_exec cl_exec ar_exec] in H.
Theorem C103_between_two_submissions_something_undoes_the_first : forall c g l o k m o2 k2 P,
  shut_until c o k o2 k2 P -> (dispatch c o k (after c g l)).1 = Success ->
  (dispatch c o2 k2 (after c g (l ++ OCall o k :: m))).1 = Success ->
  accepted_in c g (l ++ [OCall o k]) m (fun _ => P).
Proof.
  intros c g l o k m o2 k2 P HP H1 H2. apply success_exec in H1 as E. rewrite after_snoc in E. set (l1 := l ++ [OCall o k]) in *.
  replace (l ++ OCall o k :: m) with (l1 ++ m) in H2 by (unfold l1; rewrite <- app_assoc; reflexivity).
  destruct HP; cbn [exec] in E.
  - destruct (stays_bonded c g a l1 m) as [X|X]; [|exfalso|exact X].
    + ex E. apply bond_ok in E as (? & [= <-] & _ & _ & E & _). rewrite E, lookup_insert. eauto.
    + apply C68_teerdays_calls_accepted_exactly in H2 as (? & [= <-] & X2 & _). rewrite X2 in X. destruct X. discriminate.
  - destruct (stays_bonded c g a l1 m) as [X|X]; [|exfalso|exact X].
    + ex E. apply bond_extra_ok in E as (? & ? & [= <-] & _ & _ & _ & E). cbv zeta in E. destruct E as [E _]. rewrite E, lookup_insert. eauto.
    + apply C68_teerdays_calls_accepted_exactly in H2 as (? & [= <-] & X2 & _). rewrite X2 in X. destruct X. discriminate.
  - destruct (stays_pending c g a l1 m) as [X|X]; [|exfalso|exact X].
    + ex E. apply unbond_ok in E as (? & b & due & [= <-] & _ & _ & _ & E). cbv zeta in E. destruct E as (_ & _ & E & _). rewrite E, lookup_insert. eauto.
    + apply C68_teerdays_calls_accepted_exactly in H2 as (? & [= <-] & _ & X2 & _). rewrite X2 in X. destruct X. discriminate.
  - destruct (stays_pending c g a l1 m) as [X|X]; [|exfalso|exact X].
    + ex E. apply unbond_ok in E as (? & b & due & [= <-] & _ & _ & _ & E). cbv zeta in E. destruct E as (_ & _ & E & _). rewrite E, lookup_insert. eauto.
    + apply C68_teerdays_calls_accepted_exactly in H2 as (? & [= <-] & _ & X2 & _). rewrite X2 in X. destruct X. discriminate.
  - destruct (stays_idle c g a l1 m) as [X|X]; [|exfalso|exact X].
    + ex E. apply withdraw_unbonded_ok in E as (? & due & amt & [= <-] & _ & _ & E). cbv zeta in E. destruct E as (_ & E & _). rewrite E. apply lookup_delete.
    + apply C68_teerdays_calls_accepted_exactly in H2 as (? & [= <-] & due & amt & X2 & _). congruence.
  - destruct (stays_listed c g src fp l1 m) as [X|X]; [|exfalso|exact X].
    + ex E. apply add_wl_ok in E as (_ & _ & _ & _ & ->). unfold whitelist at 1. cbn. rewrite lookup_insert. cbn. apply elem_of_app. right. left.
    + apply success_exec in H2. ex H2. apply add_wl_ok in H2 as (_ & _ & X2 & _). auto.
  - destruct (stays_unlisted c g src fp l1 m) as [X|X]; [|exfalso|exact X].
    + ex E. apply remove_wl_ok in E as (_ & _ & ->). unfold whitelist at 1. cbn. rewrite lookup_insert. cbn. intros [Y _]%elem_of_list_filter. auto.
    + apply success_exec in H2. ex H2. apply remove_wl_ok in H2 as (_ & X2 & _). auto.
  - destruct (stays_unregistered c g w l1 m) as [X|X]; [|exfalso|exact X].
    + ex E. apply unreg_sov_ok in E as (? & ? & _ & _ & _ & ->). cbn. apply lookup_delete.
    + apply success_exec in H2. ex H2. apply unreg_sov_ok in H2 as (? & ? & _ & X2 & _). congruence.
  - destruct (stays_unproxied c g w l1 m) as [X|X]; [|exfalso|exact X].
    + ex E. apply unreg_prox_ok in E as (? & ? & _ & _ & _ & ->). cbn. apply lookup_delete.
    + apply success_exec in H2. ex H2. apply unreg_prox_ok in H2 as (? & ? & _ & X2 & _). discriminate (eq_trans (eq_sym X) X2).
  - exfalso. apply success_exec in H2. ex H2. apply attest_ok in H2 as (? & w & ? & [= <-] & X2 & _).
    rewrite (stays_unasked c g a l1 m) in X2; [discriminate|]. ex E. apply attest_ok in E as (? & ? & ? & [= <-] & _ & _ & _ & ->). cbn. apply lookup_delete.
  - destruct (stays_located c g i l1 m) as [X|X]; [|exfalso|exact X].
    + ex E. apply XcmProps.register_ok in E as (_ & _ & _ & _ & ->). cbn. rewrite lookup_insert. eauto.
    + apply success_exec in H2. ex H2. apply XcmProps.register_ok in H2 as (_ & _ & X2 & _). rewrite X2 in X. destruct X. discriminate.
  - destruct (stays_unlocated c g i l1 m) as [X|X]; [|exfalso|exact X].
    + ex E. apply XcmProps.unregister_ok in E as (_ & lo & _ & ->). cbn. apply lookup_delete.
    + apply success_exec in H2. ex H2. apply XcmProps.unregister_ok in H2 as (_ & lo & X2 & _). congruence.
Qed.
Print Assumptions C103_between_two_submissions_something_undoes_the_first.

(** Whoever submits it and by whichever call: a claim is paid again only after it was granted anew or
    another one was moved to its address *)
Theorem C103_claims_are_paid_once_per_grant : forall c g l w d x m d2 x2,
  claim_paid c (after c g l) w d x -> ends c (after c g l) x = Success ->
  claim_paid c (after c g (l ++ x :: m)) w d2 x2 ->
  accepted_in c g (l ++ [x]) m (fun _ o k => (o = Root \/ c_move_origin c o = true) /\ brings_claim w k).
Proof.
  intros c g l w d x m d2 x2 [_ Hp] Hs [[z Hz] _].
  destruct (stays_unclaimed c g w (l ++ [x]) m) as [X|X]; [|exfalso|exact X].
  - rewrite <- after_snoc. set (s := after c g l) in *.
    assert (forall s', process_claim c w d s = Ok tt s' -> cl_claims (rt_cl s') !! w = None) as HP.
    { intros s' E. apply process_ok in E as (? & _ & _ & _ & _ & -> & _). cbn. apply lookup_delete. }
    destruct Hp as [(sig & -> & Hw & _)|[(sig & text & -> & Hw & _)|(text & -> & Hw & _)]]; apply success_ends in Hs as E;
      cbn [exec cl_exec] in E; set (s' := step c s _) in *.
    + apply claim_ok in E as (_ & w' & Hw' & _ & E). assert (w' = w) as -> by (apply claimant_signed in Hw; unfold claimant, eth_recover in *; congruence). auto.
    + apply claim_attest_ok in E as (_ & w' & Hw' & _ & E). assert (w' = w) as -> by (apply claimant_signed in Hw; unfold claimant, eth_recover in *; congruence). auto.
    + apply attest_ok in E as (a & w' & t & [= <-] & Hw' & _ & E & ->). rewrite Hw in Hw'. injection Hw' as <-. cbn. auto.
  - rewrite <- app_assoc in X. cbn in X. cbn in Hz. congruence.
Qed.
Print Assumptions C103_claims_are_paid_once_per_grant.

(** ** Concrete cases *)
(** Both submissions, for every call; those of enclave [bob] on the shard [acc 9] *)
Definition twice (c : cfg) (g : genesis) (l : list op) (o : origin) (k : call) : list status :=
  endings c (after c g l) [OCall o k; OCall o k].
Example C103_example_refused :
  let g := gen0 [alice; bob] in let b := OCall (Signed bob) in let r := OCall Root in
  let loc := mkLoc 1 [JParachain 7] in
  twice cfg0 g [] (Signed alice) (CTd (TdBond 100)) = [Success; Failed AlreadyBonded] /\
  twice cfg0 g [call_td alice (TdBond 100)] (Signed alice) (CTd (TdUnbond 50)) = [Success; Failed PendingUnlock] /\
  twice cfg0 g [call_td alice (TdBond 100); call_td alice (TdUnbond 50); ONextBlock 1000] (Signed alice) (CTd TdWithdrawUnbonded) = [Success; Failed NotUnlocking] /\
  twice cfg0 g [] Root (CTo (ToAdd [1] (acc 9))) = [Success; Failed FingerprintAlreadyWhitelisted] /\
  twice cfg0 g [r (CTo (ToAdd [1] (acc 9)))] Root (CTo (ToRemove [1] (acc 9))) = [Success; Failed FingerprintNotWhitelisted] /\
  twice cfg0 g [register bob (acc 9); ONextBlock 200000000] (Signed alice) (CTx (TxUnregisterSovereign bob)) = [Success; Failed EnclaveIsNotRegistered] /\
  twice cfg0 (gen0 []) [r (CCl (ClMint (zeros 20) 500 None None))] NoneO (CCl (ClClaim alice (zeros 65))) = [Success; Failed SignerHasNoClaim] /\
  twice cfg0 (gen_cl [(zeros 20, 500, Some alice, Some StSaft)] []) [] (Signed alice) (CCl (ClAttest (to_text StSaft))) = [Success; Failed SenderHasNoClaim] /\
  twice cfg0 g [OCreateAsset 5 1] Root (CAr (ArRegister 5 loc)) = [Success; Failed AssetAlreadyRegistered] /\
  twice cfg0 g [OCreateAsset 5 1; r (CAr (ArRegister 5 loc))] Root (CAr (ArUnregister 5)) = [Success; Failed AssetIsNotRegistered] /\
  twice cfg0 g [register bob (acc 9)] (Signed bob) (CSc (ScConfirm (acc 9) None (mkSconf 4 [5]))) = [Success; Failed AncestorMissing] /\
  twice cfg0 g [register bob (acc 9)] (Signed bob) (CSc (ScConfirm (acc 9) (Some (mkSconf 3 [4])) (mkSconf 4 [5]))) = [Success; Failed FinalizationCandidateIsOutdated].
Proof. vm_compute. repeat split; reflexivity. Qed.
(** The calls of which the answer to the second submission depends on the state *)
Example C103_example_depends :
  let g := gen0 [alice; bob] in let up m := CEb (EbUpdateConfig (acc 9) (mkScfg m None None false) 0) in
  twice cfg0 g [] (Signed alice) (CEb (EbShield (acc 9) [1] 300)) = [Success; Success] /\
  twice cfg0 g [] (Signed alice) (CEb (EbShield (acc 9) [1] 600)) = [Success; Failed FundsUnavailable] /\
  twice cfg0 g [register bob (acc 9)] (Signed bob) (up (acc 9)) = [Success; Success] /\
  twice cfg0 g [register bob (acc 9)] (Signed bob) (up (acc 8)) = [Success; Failed WrongFingerprintForShard] /\
  twice cfg0 g [register bob (acc 9)] Root (up (acc 8)) = [Success; Success] /\
  twice cfg0 g [register bob (acc 9); register alice (acc 9); call_eb alice (EbConfirm (acc 9) [] 0 [])]
    (Signed bob) (CSc (ScConfirm (acc 9) None (mkSconf 4 [5]))) = [Success; Success].
Proof. vm_compute. repeat split; reflexivity. Qed.
(** The calls that take effect again: the bond grows, the shard is paid again, the total of the claims
    grows though the claim does not, the call is counted but not paid, the message goes out again; and
    the update of a configuration that replaces it is written differently the second time *)
Example C103_example_again :
  let g := gen0 [alice; bob] in
  let after2 l o k := after cfg0 g (l ++ [OCall o k; OCall o k]) in
  let up := CEb (EbUpdateConfig (acc 9) (mkScfg (acc 9) None None false) 0) in
  td_bonds (rt_td (after2 [call_td alice (TdBond 100)] (Signed alice) (CTd (TdBondExtra 50)))) !! alice = Some (mkBond 200 5000 0) /\
  free (after2 [] (Signed alice) (CEb (EbShield (acc 9) [1] 300))) (acc 9) = 600 /\
  (let s := after2 [] Root (CCl (ClMint (zeros 20) 500 None None)) in cl_total (rt_cl s) = 1000 /\ cl_claims (rt_cl s) !! zeros 20 = Some 500) /\
  (let s := after2 [OMint (acc 9) 500; register bob (acc 9)] (Signed bob) (CEb (EbUnshield (acc 9) carol 100 [7])) in
    confirmations s [7] = 2 /\ free s carol = 100) /\
  length (rt_out (after2 [] Root (CXt (XtSwap 2267 2039 (1, 2) 3)))) = 2%nat /\
  eb_config (rt_eb (after cfg0 g [OCall Root up])) !! acc 9 = Some (mkUscfg (mkScfg (acc 9) None None false) None None) /\
  eb_config (rt_eb (after cfg0 g [OCall Root up; OCall Root up])) !! acc 9 =
    Some (mkUscfg (mkScfg (acc 9) None None false) (Some (mkScfg (acc 9) None None false)) (Some 0)).
Proof. vm_compute. repeat split; reflexivity. Qed.
(** Each of the calls is accepted again once the other one was *)
Example C103_example_between :
  let run_all g l := endings cfg0 (genesis_state g) l in let g := gen0 [alice; bob] in
  let r k := OCall Root k in let loc := mkLoc 1 [JParachain 7] in
  let prox := (acc 9, bob, inl (bob ++ zeros 34)) : eaddr in
  let all n := replicate n Success in
  run_all g [call_td alice (TdBond 100); call_td alice (TdUnbond 100); call_td alice (TdBond 50)] = all 3%nat /\
  run_all g [call_td alice (TdBond 100); call_td alice (TdUnbond 50); ONextBlock 1000; call_td alice TdWithdrawUnbonded;
    call_td alice (TdUnbond 50); ONextBlock 1000; call_td alice TdWithdrawUnbonded] = all 7%nat /\
  run_all g [call_td alice (TdBond 100); call_td alice (TdUnbond 50); ONextBlock 1000; call_td alice TdWithdrawUnbonded; call_td alice (TdBondExtra 50)] = all 5%nat /\
  run_all g [r (CTo (ToAdd [1] (acc 9))); r (CTo (ToRemove [1] (acc 9))); r (CTo (ToAdd [1] (acc 9))); r (CTo (ToRemove [1] (acc 9)))] = all 4%nat /\
  run_all g [register bob (acc 9); ONextBlock 200000000; OCall (Signed alice) (CTx (TxUnregisterSovereign bob));
    register bob (acc 9); ONextBlock 400000000; OCall (Signed alice) (CTx (TxUnregisterSovereign bob))] = all 6%nat /\
  run_all g [OCall (Signed bob) (CTx (TxRegister (acc 9) None (MSkip true))); ONextBlock 200000000; OCall (Signed alice) (CTx (TxUnregisterProxied prox));
    OCall (Signed bob) (CTx (TxRegister (acc 9) None (MSkip true))); ONextBlock 400000000; OCall (Signed alice) (CTx (TxUnregisterProxied prox))] = all 6%nat /\
  run_all g [OCreateAsset 5 1; r (CAr (ArRegister 5 loc)); r (CAr (ArUnregister 5)); r (CAr (ArRegister 5 loc)); r (CAr (ArUnregister 5))] = all 5%nat /\
  run_all g [r (CCl (ClMint (zeros 20) 500 None None)); OCall NoneO (CCl (ClClaim alice (zeros 65)));
    r (CCl (ClMint (zeros 20) 300 None None)); OCall NoneO (CCl (ClClaim bob (zeros 65)));
    r (CCl (ClMint (replicate 20 1) 200 None None)); r (CCl (ClMove (replicate 20 1) (zeros 20) None)); OCall NoneO (CCl (ClClaim alice (zeros 65)))] = all 7%nat.
Proof. vm_compute. repeat split; reflexivity. Qed.
