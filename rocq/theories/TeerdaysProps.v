(** * Properties of TEERdays: C01-C08, C59, C60 (first part), C61.

    Observables used in the statements ([TeerdaysProofs]): [bonded s a] is the bonded value of account
    [a], [pending_of s a] its pending unlock (due time, amount), [unbonding s a] the amount of it,
    [td_lock s a] the amount of its TEERdays lock, [free s a] its free balance. *)
From Verif Require Import Base State Env TeerdaysModel TeerexBase SgxVerifyModel TeerexModel
  EnclaveBridgeModel SidechainModel TeeracleModel ClaimsModel AssetRegistryModel XcmTransactorModel
  Runtime Frame EnvFacts Panic TeerdaysProofs Examples.

(** ** C01 *)
(** [careful c s l]: along [l] no account calls [bond] while it has an unlock pending. *)
Theorem C01_bonded_and_unbonding_stay_locked : forall c g l,
  careful c (genesis_state g) l ->
  forall a, let s := run c (genesis_state g) l in bonded s a + unbonding s a <= td_lock s a.
Proof. intros c g l Hc a. exact (fully_locked_run c _ l (fully_locked_genesis g) Hc a). Qed.
Print Assumptions C01_bonded_and_unbonding_stay_locked.

Definition hist1 : list op :=
  [call_td alice (TdBond 300); ONextBlock 6000; call_td alice (TdBondExtra 100); ONextBlock 6000;
   call_td alice (TdUnbond 150); call_td bob (TdBond 50)].
Example C01_example : careful cfg0 (genesis_state (gen0 [alice; bob])) hist1 /\
  let s := run cfg0 (genesis_state (gen0 [alice; bob])) hist1 in
  (bonded s alice, unbonding s alice, td_lock s alice, free s alice) = (250, 150, 400, 1000).
Proof.
  split; [|vm_compute; reflexivity].
  repeat split; intros (a & v & E & Hp); inversion E; subst; vm_compute in Hp; apply Hp; reflexivity.
Qed.

(** ** C02 *)
(** The unlock period can be skipped: unbond everything, bond the minimum again, spend. *)
Theorem C02_unlock_period_can_be_skipped_refuted : exists c g l a due amt,
  let s := run c (genesis_state g) l in
  pending_of s a = Some (due, amt) /\ rt_now s < due /\ td_lock s a < amt /\ free s a < amt.
Proof.
  exists cfg0, (gen0 [alice; bob]),
    [call_td alice (TdBond 900); ONextBlock 6000; call_td alice (TdUnbond 900);
     call_td alice (TdBond 10); OTransfer alice bob 900], alice, 12000, 900.
  vm_compute. repeat split; reflexivity.
Qed.
Print Assumptions C02_unlock_period_can_be_skipped_refuted.

(** Without bonding during a pending unlock the unbonding tokens stay pending, locked and on the
    account until the due time. *)
Theorem C02_unbonding_tokens_stay_until_due : forall c g l1 l2 a due amt,
  careful c (genesis_state g) (l1 ++ l2) ->
  let s1 := run c (genesis_state g) l1 in
  let s2 := run c s1 l2 in
  pending_of s1 a = Some (due, amt) -> rt_now s2 < due ->
  pending_of s2 a = Some (due, amt) /\ bonded s2 a + amt <= td_lock s2 a /\ td_lock s2 a <= free s2 a.
Proof.
  intros c g l1 l2 a due amt Hc s1 s2 Hp Hn.
  pose proof (pending_run c s1 l2 a due amt Hp Hn) as Hp2. fold s2 in Hp2. split; [exact Hp2|].
  destruct (careful_run c (genesis_state g) (l1 ++ l2) (locks_wf_genesis g) (fully_locked_genesis g)
              (lock_covered_genesis g) Hc) as (_ & H2 & H3).
  rewrite run_app in H2, H3. fold s1 in H2, H3. fold s2 in H2, H3.
  specialize (H2 a). specialize (H3 a). unfold unbonding in H2. rewrite Hp2 in H2. auto.
Qed.
Print Assumptions C02_unbonding_tokens_stay_until_due.
Example C02_example :
  let s1 := run cfg0 (genesis_state (gen0 [alice; bob])) hist1 in
  let s2 := run cfg0 s1 [OTransfer alice bob 700; OTransfer alice bob 600; ONextBlock 500] in
  pending_of s1 alice = Some (18000, 150) /\ rt_now s2 < 18000 /\ free s2 alice = 400.
Proof. vm_compute. repeat split; reflexivity. Qed.

(** ** C03 *)
Theorem C03_withdraw_only_what_is_due : forall c o s s',
  dispatch c o (CTd TdWithdrawUnbonded) s = (Success, s') ->
  exists a due amt w, o = Signed a /\ pending_of s a = Some (due, amt) /\ due <= rt_now s /\
  rt_ev s' = EvWithdrawn a w :: rt_ev s /\ w <= amt /\ td_lock s' a + w = td_lock s a /\
  pending_of s' a = None /\ (forall x, bond_of s' x = bond_of s x) /\
  (forall x, x <> a -> pending_of s' x = pending_of s x /\ td_lock s' x = td_lock s x) /\
  (forall x, free s' x = free s x).
Proof.
  intros c o s s' H. apply run_call_ok in H. cbn [exec] in H. pose proof (td_free _ _ _ _ _ H) as Hf.
  cbn [td_exec] in H. apply withdraw_unbonded_ok in H as (a & due & amt & -> & H1 & H2 & H3 & H4 & H5 & H6).
  cbv zeta in *. exists a, due, amt, (N.min amt (td_lock s a)).
  repeat split; auto.
  - lia.
  - rewrite H5. destruct (decide (a = a)); [lia|contradiction].
  - rewrite (pending_of_delete _ _ _ H4). destruct (decide (a = a)); [auto|contradiction].
  - apply bond_of_eq, H3.
  - rewrite (pending_of_delete _ _ _ H4). destruct (decide (x = a)); [contradiction|auto].
  - rewrite H5. destruct (decide (x = a)); [contradiction|auto].
Qed.
Print Assumptions C03_withdraw_only_what_is_due.

(** It does succeed once the due time is reached. *)
Theorem C03_withdraw_succeeds_when_due : forall c s a due amt,
  pending_of s a = Some (due, amt) -> due <= rt_now s ->
  (dispatch c (Signed a) (CTd TdWithdrawUnbonded) s).1 = Success.
Proof.
  intros c s a due amt Hp Hd. unfold pending_of in Hp.
  unfold dispatch, run_call. cbn [exec td_exec].
  unfold td_withdraw_unbonded, try_withdraw_unbonded, bind, gets, ok_or, ensure_signed, ret, modify, deposit_event.
  rewrite Hp. destruct (N.ltb_spec (rt_now s) due); [lia|].
  unfold remove_lock, set_lock, modify. destruct (_ =? _); reflexivity.
Qed.
Print Assumptions C03_withdraw_succeeds_when_due.

(** The due time is the time of the unbond plus the unlock period, the amount min(value, bond). *)
Theorem C03_due_time_of_unbond : forall c o v s s',
  dispatch c o (CTd (TdUnbond v)) s = (Success, s') -> rt_now s + c_unlock c <= u64_max ->
  exists a, o = Signed a /\ pending_of s a = None /\
  pending_of s' a = Some (rt_now s + c_unlock c, N.min v (bonded s a)).
Proof.
  intros c o v s s' H Hu. apply run_call_ok in H. cbn [exec] in H.
  destruct (td_effect _ _ _ _ _ H) as (a & -> & b & due & Hb & Hp & Hd & _ & Hq & _). exists a. split; [auto|].
  split; [auto|]. rewrite Hq. destruct (decide (a = a)); [|contradiction]. rewrite (Hd Hu).
  unfold bonded. rewrite Hb. repeat f_equal. lia.
Qed.
Print Assumptions C03_due_time_of_unbond.
Example C03_example :
  let s := run cfg0 (genesis_state (gen0 [alice; bob])) (hist1 ++ [ONextBlock 1000]) in
  (dispatch cfg0 (Signed alice) (CTd TdWithdrawUnbonded) s).1 = Success /\
  td_lock (dispatch cfg0 (Signed alice) (CTd TdWithdrawUnbonded) s).2 alice = 250 /\
  (dispatch cfg0 (Signed alice) (CTd TdWithdrawUnbonded) (run cfg0 (genesis_state (gen0 [alice; bob])) hist1)).1
    = Failed PendingUnlock.
Proof. vm_compute. repeat split; reflexivity. Qed.

(** ** C04 *)
(** [exposure c s l a] sums, over the steps of the history, the bonded value before the step times the
    time that passes in it. The history may contain any operations of anybody except an unbond by
    the account itself. *)
Theorem C04_token_time_is_the_integral : forall c s l a b,
  bond_of s a = Some b -> bd_last b = rt_now s -> bd_tt b = 0 ->
  Forall (no_unbond a) l ->
  exists b', bond_of (run c s l) a = Some b' /\
  (bd_last b' = rt_now (run c s l) -> bd_tt b' = N.min (c_bal_max c) (exposure c s l a)).
Proof.
  intros c s l a b Hb Hl Ht Hf.
  destruct (exposure_run c s l a b Hf Hb) as (b' & Hb' & Hl' & He); [lia|].
  exists b'. split; [auto|]. intros Hu. unfold accrued in He. rewrite Hu, Hl, Ht in He.
  rewrite !N.sub_diag, !N.mul_0_r in He.
  destruct (exposure_run c s l a b Hf Hb) as (b2 & Hb2 & _ & _); [lia|].
  assert (bd_tt b' <= c_bal_max c \/ c_bal_max c < bd_tt b') as [Hle|Hgt] by lia; [lia|].
  (* a stored token-time above the type's maximum never arises *)
  exfalso. clear He Hb2. revert Hgt. apply N.le_ngt.
  assert (forall l s, (forall b, bond_of s a = Some b -> bd_tt b <= c_bal_max c) ->
    forall b, bond_of (run c s l) a = Some b -> bd_tt b <= c_bal_max c) as HI.
  { clear. induction l as [|x l IH]; intros s Hs b Hb; [eauto|]. rewrite run_cons in Hb. eapply (IH (step c s x)); eauto.
    clear b Hb. intros b Hb.
    destruct (td_step c s x) as [(o & y & s' & -> & H & E)|[E1 E2]].
    2: { unfold bond_of in *. rewrite E1 in Hb. eauto. }
    rewrite E in Hb. destruct (td_effect _ _ _ _ _ H) as (z & -> & Heff).
    destruct y as [v|v|v|w|].
    - destruct Heff as (_ & _ & Hq & _). rewrite Hq in Hb. destruct (decide (a = z)); [|eauto].
      injection Hb as <-. cbn. lia.
    - destruct Heff as (b0 & _ & _ & Hq & _). rewrite Hq in Hb. destruct (decide (a = z)); [|eauto].
      injection Hb as <-. cbn. unfold sat_add. lia.
    - destruct Heff as (b0 & due & _ & _ & _ & Hq & _). rewrite Hq in Hb. destruct (decide (a = z)); [|eauto].
      destruct (_ <? _); [discriminate|]. injection Hb as <-. cbn. unfold sat_mul. lia.
    - destruct Heff as (b0 & _ & Hq & _). rewrite Hq in Hb. destruct (decide (a = w)); [|eauto].
      injection Hb as <-. cbn. unfold sat_add. lia.
    - destruct Heff as (due & amt & _ & _ & Hq & _). rewrite Hq in Hb. eauto. }
  eapply (HI l s); eauto. intros b0 Hb0. assert (b0 = b) as -> by congruence. lia.
Qed.
Print Assumptions C04_token_time_is_the_integral.

(** How often anybody updates does not matter: only the value over time does. *)
Theorem C04_update_frequency_irrelevant : forall c s l1 l2 a b b1 b2,
  bond_of s a = Some b -> bd_last b = rt_now s -> bd_tt b = 0 ->
  Forall (no_unbond a) l1 -> Forall (no_unbond a) l2 ->
  exposure c s l1 a = exposure c s l2 a ->
  bond_of (run c s l1) a = Some b1 -> bd_last b1 = rt_now (run c s l1) ->
  bond_of (run c s l2) a = Some b2 -> bd_last b2 = rt_now (run c s l2) ->
  bd_tt b1 = bd_tt b2.
Proof.
  intros c s l1 l2 a b b1 b2 Hb Hl Ht H1 H2 He Hb1 Hl1 Hb2 Hl2.
  destruct (C04_token_time_is_the_integral c s l1 a b Hb Hl Ht H1) as (x & Hx & Ex).
  destruct (C04_token_time_is_the_integral c s l2 a b Hb Hl Ht H2) as (y & Hy & Ey).
  assert (x = b1) as -> by congruence. assert (y = b2) as -> by congruence.
  rewrite (Ex Hl1), (Ey Hl2), He. reflexivity.
Qed.
Print Assumptions C04_update_frequency_irrelevant.
Definition bonded_state : rt := run cfg0 (genesis_state (gen0 [alice; bob])) [call_td alice (TdBond 300)].
Example C04_example :
  let l1 := [ONextBlock 100; call_td bob (TdUpdateOther alice); ONextBlock 50; call_td alice (TdBondExtra 100);
             ONextBlock 10; call_td bob (TdUpdateOther alice)] in
  let l2 := [ONextBlock 150; call_td alice (TdBondExtra 100); ONextBlock 10; call_td bob (TdUpdateOther alice)] in
  bond_of bonded_state alice = Some (mkBond 300 5000 0) /\
  bond_of (run cfg0 bonded_state l1) alice = Some (mkBond 400 5160 49000) /\
  bond_of (run cfg0 bonded_state l2) alice = Some (mkBond 400 5160 49000) /\
  exposure cfg0 bonded_state l1 alice = 49000.
Proof. vm_compute. repeat split; reflexivity. Qed.

(** ** C05 *)
(** [old] is the token-time at the moment of the unbond. *)
Theorem C05_unbond_burns_pro_rata : forall c o v s s' a b,
  dispatch c o (CTd (TdUnbond v)) s = (Success, s') -> o = Signed a -> bond_of s a = Some b ->
  let old := accrued (c_bal_max c) b (rt_now s) in
  let new := match bond_of s' a with Some b' => bd_tt b' | None => 0 end in
  let rest := bonded s' a in
  new <= old /\
  new * bd_value b <= old * rest /\
  (0 < rest -> old * rest < (new + rest) * bd_value b) /\
  exists unb burned, rt_ev s' = EvUnbonded a unb burned :: EvTokenTimeUpdated a (mkBond (bd_value b) (rt_now s) old) :: rt_ev s /\
    (bond_of s' a <> None -> burned = old - new) /\ burned <= old - new.
Proof.
  intros c o v s s' a b H -> Hb. apply run_call_ok in H. cbn [exec td_exec] in H.
  apply unbond_ok in H as (a' & b' & due & E & Hb' & Hp & Hv & Hd & Hbs & Hps & _ & Hev).
  inversion E; subst a'. assert (b' = b) as -> by congruence. clear E Hb'. cbv zeta in *.
  set (old := accrued (c_bal_max c) b (rt_now s)).
  assert (bd_tt (bond_update c b (rt_now s)) = old) as Eold by apply accrued_update.
  assert (tt_quot (bond_update c b (rt_now s)) = if bd_value b =? 0 then 0 else old / bd_value b) as Eq.
  { unfold tt_quot. rewrite Eold. reflexivity. }
  rewrite Eq in *. rewrite Eold in Hev. clear Eq.
  assert (old <= c_bal_max c) as Hmx by (unfold old, accrued; lia).
  set (rest := bd_value b - v) in *. set (q := if bd_value b =? 0 then 0 else old / bd_value b) in *.
  assert (q * bd_value b <= old) as Hq.
  { unfold q. destruct (N.eqb_spec (bd_value b) 0); [lia|]. rewrite N.mul_comm. apply N.mul_div_le; auto. }
  assert (0 < rest -> old < (q + 1) * bd_value b) as Hq2.
  { intros Hr. unfold q. destruct (N.eqb_spec (bd_value b) 0); [lia|].
    pose proof (N.mul_succ_div_gt old (bd_value b)). lia. }
  assert (rest <= bd_value b) as Hrv by lia.
  assert (q * rest <= old) as Hqr by nia.
  assert (sat_mul (c_bal_max c) q rest = q * rest) as Es by (unfold sat_mul; lia).
  rewrite Es in *.
  assert (Hbu : bond_update c b (rt_now s) = mkBond (bd_value b) (rt_now s) old).
  { unfold old. rewrite <- accrued_update. reflexivity. }
  rewrite Hbu in Hev.
  unfold bonded. unfold bond_of in *. rewrite Hbs.
  destruct (rest <? c_ed c).
  - rewrite lookup_delete. split; [lia|]. split; [lia|]. split; [lia|].
    exists (bd_value b - rest), (old - q * rest). split; [exact Hev|]. split; [congruence|lia].
  - rewrite lookup_insert. cbn [bd_tt bd_value]. split; [lia|]. split; [nia|]. split; [intros Hr; specialize (Hq2 Hr); nia|].
    exists (bd_value b - rest), (old - q * rest). split; [exact Hev|]. split; [auto|lia].
Qed.
Print Assumptions C05_unbond_burns_pro_rata.
Example C05_example :
  let s := run cfg0 bonded_state [ONextBlock 777] in
  let s' := (dispatch cfg0 (Signed alice) (CTd (TdUnbond 101)) s).2 in
  bond_of s alice = Some (mkBond 300 5000 0) /\ bond_of s' alice = Some (mkBond 199 5777 154623) /\
  hd_error (rt_ev s') = Some (EvUnbonded alice 101 78477).
Proof. vm_compute. repeat split; reflexivity. Qed.

(** When the remainder is dust, the event understates the burn: all token-time is gone. *)
Theorem C05_event_understates_burn_on_dust_refuted : exists c g l v s' unb burned,
  let s := run c (genesis_state g) l in
  dispatch c (Signed alice) (CTd (TdUnbond v)) s = (Success, s') /\
  hd_error (rt_ev s') = Some (EvUnbonded alice unb burned) /\
  exists b, bond_of s alice = Some b /\ bond_of s' alice = None /\
  burned < accrued (c_bal_max c) b (rt_now s).
Proof.
  exists cfg0, (gen0 [alice]), [call_td alice (TdBond 300); ONextBlock 777], 295.
  eexists. eexists. eexists. split; [vm_compute; reflexivity|]. split; [vm_compute; reflexivity|].
  eexists. split; [vm_compute; reflexivity|]. split; [vm_compute; reflexivity|]. vm_compute. reflexivity.
Qed.
Print Assumptions C05_event_understates_burn_on_dust_refuted.

(** ** C06 *)
Theorem C06_bond_within_free_balance : forall c o v s s',
  dispatch c o (CTd (TdBond v)) s = (Success, s') ->
  exists a amount, o = Signed a /\ bond_of s a = None /\ c_ed c <= v /\
  amount = N.min v (free s a) /\ bonded s' a = amount /\
  rt_ev s' = EvBonded a amount :: rt_ev s /\
  (0 < amount -> td_lock s' a = amount).
Proof.
  intros c o v s s' H. apply run_call_ok in H. cbn [exec td_exec] in H.
  apply bond_ok in H as (a & -> & H1 & H2 & H3 & H4 & H5 & H6).
  exists a, (N.min v (free s a)). repeat split; auto.
  - unfold bonded. rewrite (bond_of_insert _ _ _ _ H3). destruct (decide (a = a)); [auto|contradiction].
  - intros Hp. rewrite H5. destruct (decide (a = a)); [|contradiction]. unfold lock_after.
    destruct (N.eqb_spec (N.min v (free s a)) 0); lia.
Qed.
Print Assumptions C06_bond_within_free_balance.

Definition genesis_bounded (c : cfg) (g : genesis) : Prop := forall a, default 0 (g_bal g !! a) <= c_bal_max c.
Lemma free_bounded_genesis c g : genesis_bounded c g -> free_bounded c (genesis_state g).
Proof. intros H a. exact (H a). Qed.
Lemma bounded_run c g l : genesis_bounded c g ->
  free_bounded c (run c (genesis_state g) l) /\ td_bounded c (run c (genesis_state g) l).
Proof.
  intros Hg. apply (run_inv' c (fun s => free_bounded c s /\ td_bounded c s)).
  - intros s x [H1 H2]. split; [apply free_bounded_step, H1|apply td_bounded_step; auto].
  - split; [apply free_bounded_genesis, Hg|apply td_bounded_genesis].
Qed.

Theorem C06_bond_extra_within_free_balance : forall c g l o v s',
  genesis_bounded c g ->
  let s := run c (genesis_state g) l in
  dispatch c o (CTd (TdBondExtra v)) s = (Success, s') ->
  exists a amount, o = Signed a /\ pending_of s a = None /\ bond_of s a <> None /\ c_ed c <= v /\
  amount <= v /\ bonded s' a = bonded s a + amount /\
  bonded s' a <= N.max (bonded s a) (free s a) /\
  (exists b, rt_ev s' = EvBonded a amount :: EvTokenTimeUpdated a b :: rt_ev s) /\
  (0 < bonded s' a -> td_lock s' a = bonded s' a).
Proof.
  intros c g l o v s' Hg s H. destruct (bounded_run c g l Hg) as [Hfb [Htb _]]. fold s in Hfb, Htb.
  apply run_call_ok in H. cbn [exec td_exec] in H.
  apply bond_extra_ok in H as (a & b & -> & H1 & H2 & H0 & H3 & H4 & H5 & H6). cbv zeta in *.
  destruct (Htb _ _ H1) as [Hv _]. pose proof (Hfb a) as Hf.
  assert (bonded s' a = bonded s a + N.min v (free s a - bd_value b)) as Ebd.
  { unfold bonded. rewrite (bond_of_insert _ _ _ _ H3), H1. destruct (decide (a = a)); [|contradiction].
    cbn [bd_value]. unfold sat_add. lia. }
  assert (bonded s a = bd_value b) as Eb by (unfold bonded; rewrite H1; auto).
  exists a, (N.min v (free s a - bd_value b)).
  split; [auto|]. split; [auto|]. split; [congruence|]. split; [auto|]. split; [lia|]. split; [auto|].
  split; [lia|]. split; [eauto|]. intros Hp. rewrite H5. destruct (decide (a = a)); [|contradiction].
  assert (sat_add (c_bal_max c) (bd_value b) (N.min v (free s a - bd_value b)) = bonded s' a) as ->.
  { unfold sat_add. lia. }
  unfold lock_after. destruct (N.eqb_spec (bonded s' a) 0); lia.
Qed.
Print Assumptions C06_bond_extra_within_free_balance.
Example C06_example :
  genesis_bounded cfg0 (gen0 [alice; bob]) /\
  let s := bonded_state in
  let s' := (dispatch cfg0 (Signed alice) (CTd (TdBondExtra 5000)) s).2 in
  (dispatch cfg0 (Signed alice) (CTd (TdBondExtra 5000)) s).1 = Success /\ bonded s' alice = 1000 /\
  (dispatch cfg0 (Signed bob) (CTd (TdBond 5000)) s).1 = Success /\
  bonded (dispatch cfg0 (Signed bob) (CTd (TdBond 5000)) s).2 bob = 1000.
Proof.
  split; [|vm_compute; repeat split; reflexivity]. intros a. unfold gen0. cbn [g_bal].
  destruct (list_to_map _ !! a) as [v|] eqn:E; [|cbn; lia].
  apply elem_of_list_to_map_2, elem_of_list_In in E. cbn in E.
  destruct E as [E|[E|[]]]; inversion E; subst; vm_compute; discriminate.
Qed.

(** ** C07 *)
Theorem C07_unbond_conserves_the_bond : forall c o v s s',
  dispatch c o (CTd (TdUnbond v)) s = (Success, s') ->
  exists a, o = Signed a /\ c_ed c <= v /\ unbonding s a = 0 /\ unbonding s' a = N.min v (bonded s a) /\
  td_lock s' a = td_lock s a /\
  (c_ed c <= bonded s a - v -> bonded s' a + unbonding s' a = bonded s a) /\
  (bonded s a - v < c_ed c -> bond_of s' a = None).
Proof.
  intros c o v s s' H. apply run_call_ok in H. cbn [exec td_exec] in H.
  apply unbond_ok in H as (a & b & due & -> & H1 & H2 & H0 & H3 & H4 & H5 & H6 & _). cbv zeta in *.
  exists a. assert (bonded s a = bd_value b) as Eb by (unfold bonded; rewrite H1; auto). rewrite Eb.
  assert (unbonding s' a = bd_value b - (bd_value b - v)) as Eu.
  { unfold unbonding. rewrite (pending_of_insert _ _ _ _ H5). destruct (decide (a = a)); [auto|contradiction]. }
  split; [auto|]. split; [auto|]. split; [unfold unbonding; rewrite H2; auto|]. split; [lia|].
  split; [apply locked_view, H6|]. split.
  - intros Hr. destruct (N.ltb_spec (bd_value b - v) (c_ed c)); [lia|].
    assert (bonded s' a = bd_value b - v) as ->; [|lia].
    unfold bonded. rewrite (bond_of_insert _ _ _ _ H4). destruct (decide (a = a)); [auto|contradiction].
  - intros Hr. destruct (N.ltb_spec (bd_value b - v) (c_ed c)); [|lia].
    rewrite (bond_of_delete _ _ _ H4). destruct (decide (a = a)); [auto|contradiction].
Qed.
Print Assumptions C07_unbond_conserves_the_bond.
(** The dust remains locked although nothing is bonded or pending any more. *)
Theorem C07_dust_stays_locked_refuted : exists c g l a,
  let s := run c (genesis_state g) l in
  bond_of s a = None /\ pending_of s a = None /\ 0 < td_lock s a /\ careful c (genesis_state g) l.
Proof.
  exists cfg0, (gen0 [alice]),
    [call_td alice (TdBond 300); ONextBlock 777; call_td alice (TdUnbond 295); ONextBlock 2000;
     call_td alice TdWithdrawUnbonded], alice.
  split; [vm_compute; reflexivity|]. split; [vm_compute; reflexivity|]. split; [vm_compute; reflexivity|].
  repeat split; intros (a & v & E & Hp); inversion E; subst; vm_compute in Hp; apply Hp; reflexivity.
Qed.
Print Assumptions C07_dust_stays_locked_refuted.

(** ** C08 *)
Theorem C08_only_the_owner_changes_a_bond : forall c s x a,
  (forall y, x <> OCall (Signed a) (CTd y)) ->
  let s' := step c s x in
  bonded s' a = bonded s a /\ pending_of s' a = pending_of s a /\ td_lock s' a = td_lock s a /\
  (bond_of s' a = bond_of s a \/
   exists b, bond_of s a = Some b /\
   bond_of s' a = Some (mkBond (bd_value b) (rt_now s) (accrued (c_bal_max c) b (rt_now s)))).
Proof.
  intros c s x a Hx s'. destruct (td_step c s x) as [(o & y & t & -> & H & E)|[E1 E2]].
  2: { unfold bonded, bond_of, pending_of. fold s' in E1, E2. rewrite E1. auto. }
  unfold s'. rewrite E. destruct (td_effect _ _ _ _ _ H) as (z & -> & Heff).
  assert (a <> z) as Hn by (intros ->; eapply Hx; eauto).
  assert (forall A (p q : A), (if decide (a = z) then p else q) = q) as Hd
    by (intros; destruct (decide (a = z)); [contradiction|auto]).
  destruct y as [v|v|v|w|].
  - destruct Heff as (_ & _ & Hb & Hp & HL). unfold bonded. rewrite Hb, Hp, HL, !Hd. auto.
  - destruct Heff as (b & _ & _ & Hb & Hp & HL). cbv zeta in *. unfold bonded. rewrite Hb, Hp, HL, !Hd. auto.
  - destruct Heff as (b & due & _ & _ & _ & Hb & Hp & HL). unfold bonded. rewrite Hb, Hp, HL, !Hd. auto.
  - destruct Heff as (b & HbS & Hb & Hp & HL). unfold bonded. rewrite Hb, Hp, HL.
    destruct (decide (a = w)) as [->|]; [|auto]. rewrite HbS. repeat split; auto. right. exists b.
    rewrite <- accrued_update. auto.
  - destruct Heff as (due & amt & _ & _ & Hb & Hp & HL). unfold bonded. rewrite Hb, Hp, HL, !Hd. auto.
Qed.
Print Assumptions C08_only_the_owner_changes_a_bond.
Example C08_example :
  let s := run cfg0 bonded_state [ONextBlock 777] in
  let s' := step cfg0 s (call_td bob (TdUpdateOther alice)) in
  bond_of s alice = Some (mkBond 300 5000 0) /\ bond_of s' alice = Some (mkBond 300 5777 233100).
Proof. vm_compute. repeat split; reflexivity. Qed.

(** ** C59 *)
(** Whatever is done, the free balance does not fall below the TEERdays lock if it was not below. *)
Theorem C59_spending_respects_the_lock : forall c g l x a,
  let s := run c (genesis_state g) l in
  td_lock s a <= free s a -> td_lock s a <= free (step c s x) a.
Proof.
  intros c g l x a s H. destruct (is_td x) eqn:Ht.
  - destruct x as [o k| | | | | | | | | |]; try discriminate Ht. destruct k; try discriminate Ht.
    rewrite (free_view _ _ (step_same c s (OCall o (CTd x)) PFree eq_refl)). auto.
  - assert (locks_wf s) as Hw by (apply (run_inv' c locks_wf); [apply locks_wf_step|apply locks_wf_genesis]).
    pose proof (covered_step c s x a Ht Hw H). unfold td_lock in *. rewrite (td_lock_step c s x a Ht) in *. auto.
Qed.
Print Assumptions C59_spending_respects_the_lock.
(** Hence, without bonding during an unlock, the lock is always covered by the balance. *)
Theorem C59_lock_always_covered : forall c g l a, careful c (genesis_state g) l ->
  let s := run c (genesis_state g) l in td_lock s a <= free s a.
Proof.
  intros c g l a Hc s. destruct (careful_run c (genesis_state g) l (locks_wf_genesis g) (fully_locked_genesis g)
              (lock_covered_genesis g) Hc) as (_ & _ & H3). apply H3.
Qed.
Print Assumptions C59_lock_always_covered.
Example C59_example :
  let s := run cfg0 (genesis_state (gen0 [alice; bob])) hist1 in
  td_lock s alice = 400 /\
  (dispatch cfg0 (Signed alice) (CEb (EbShield (acc 9) [] 601)) s).1 = Failed Frozen /\
  (dispatch cfg0 (Signed alice) (CEb (EbShield (acc 9) [] 600)) s).1 = Success.
Proof. vm_compute. repeat split; reflexivity. Qed.

(** ** C60, first part *)
Theorem C60_teerdays_amounts_bounded : forall c g l, genesis_bounded c g ->
  let s := run c (genesis_state g) l in
  (forall a, free s a <= c_bal_max c) /\
  (forall a b, bond_of s a = Some b -> bd_value b <= c_bal_max c /\ bd_tt b <= c_bal_max c) /\
  (forall a due amt, pending_of s a = Some (due, amt) -> amt <= c_bal_max c).
Proof.
  intros c g l Hg s. destruct (bounded_run c g l Hg) as [H1 [H2 H3]]. repeat split; eauto.
  - eapply H2; eauto.
  - eapply H2; eauto.
  - intros a due amt Hp. apply (H3 a (due, amt) Hp).
Qed.
Print Assumptions C60_teerdays_amounts_bounded.
Theorem C60_teerdays_panics_only_on_clock_overflow : forall c o y s,
  (dispatch c o (CTd y) s).1 = Panicked ->
  c_ovf c = true /\ u64_max < rt_now s + c_unlock c /\ exists v, y = TdUnbond v.
Proof.
  intros c o y s H. assert (td_exec c o y s = Panic) as HP.
  { unfold dispatch, run_call in H. cbn [exec] in H. destruct (td_exec c o y s); try discriminate; auto. }
  clear H. destruct y; cbn [td_exec] in HP.
  1, 2, 4, 5: exfalso; revert HP; match goal with |- ?m ?z = Panic -> _ => enough (np m) as Hnp by exact (Hnp z) end;
    unfold td_bond, td_bond_extra, td_update_other, td_withdraw_unbonded, try_withdraw_unbonded, do_update_teerdays; np_tac.
  unfold td_unbond in HP. inv_panic HP.
  match goal with Hx : do_update_teerdays _ _ ?s1 = Ok ?b _ |- _ =>
    assert (bd_last b = rt_now s1) as El;
      [unfold do_update_teerdays in Hx; inv_rt Hx; reflexivity|rewrite El in HP] end.
  unfold plain_add, ret, panic in HP.
  match type of HP with context [?p <=? u64_max] => destruct (N.leb_spec p u64_max); [discriminate|] end.
  destruct (c_ovf c); [|discriminate]. eauto.
Qed.
Print Assumptions C60_teerdays_panics_only_on_clock_overflow.
Example C60_example :
  let c := mk_cfg true 10 u64_max in
  let s := run c (genesis_state (gen0 [alice])) [call_td alice (TdBond 300)] in
  (dispatch c (Signed alice) (CTd (TdUnbond 100)) s).1 = Panicked /\
  (dispatch (mk_cfg true 10 1000) (Signed alice) (CTd (TdUnbond 100)) s).1 = Success.
Proof. vm_compute. repeat split; reflexivity. Qed.

(** ** C61 *)
(** Bonded tokens need not be locked: unbond, bond again during the unlock, withdraw. The account keeps
    accruing token-time on a bond although all its tokens are spendable - and even after they are gone. *)
Theorem C61_token_time_accrues_on_unlocked_tokens_refuted : exists c g l a,
  let s := run c (genesis_state g) l in
  bonded s a = 900 /\ pending_of s a = None /\ td_lock s a = 0 /\ free s a = 0 /\
  match bond_of s a with Some b => 0 < bd_tt b | None => False end.
Proof.
  exists cfg0, (gen0 [alice; bob]),
    [call_td alice (TdBond 900); ONextBlock 6000; call_td alice (TdUnbond 900);
     call_td alice (TdBond 900); ONextBlock 6000; call_td alice TdWithdrawUnbonded;
     OTransfer alice bob 1000; ONextBlock 6000; call_td bob (TdUpdateOther alice)], alice.
  vm_compute. repeat split; reflexivity.
Qed.
Print Assumptions C61_token_time_accrues_on_unlocked_tokens_refuted.
