(** * C78: bonded tokens can always be taken out again, and nobody else can prevent or delay it. *)
From Verif Require Import Base State Env TeerdaysModel TeerexBase SgxVerifyModel TeerexModel
  EnclaveBridgeModel SidechainModel TeeracleModel ClaimsModel AssetRegistryModel XcmTransactorModel
  Runtime Frame EnvFacts Panic TeerdaysProofs Examples TeerdaysProps AcceptProps.

(** ** The lock never exceeds what is bonded and unbonding *)
Definition not_overlocked (s : rt) : Prop :=
  forall a, 0 < bonded s a -> td_lock s a <= bonded s a + unbonding s a.
Lemma not_overlocked_step c s x : not_overlocked s -> not_overlocked (step c s x).
Proof.
  intros Hs. destruct (td_step c s x) as [(o & y & s' & -> & H & ->)|[E1 E2]].
  2: { intros a. specialize (Hs a). unfold bonded, unbonding, bond_of, pending_of in *. rewrite E1, E2. auto. }
  destruct (td_effect _ _ _ _ _ H) as (a & -> & Heff). clear H.
  intros z. pose proof (Hs z) as Hz. unfold bonded, unbonding in *.
  destruct y as [v|v|v|w|].
  - destruct Heff as (HbN & _ & Hb & Hp & HL). rewrite Hb, Hp, HL.
    destruct (decide (z = a)) as [->|]; [|auto]. cbn [bd_value]. unfold lock_after.
    intros H. destruct (N.eqb_spec (N.min v (free s a)) 0); lia.
  - destruct Heff as (b & HbS & HpN & Hb & Hp & HL). rewrite Hb, Hp, HL.
    destruct (decide (z = a)) as [->|]; [|auto]. cbn [bd_value]. unfold lock_after.
    intros H. destruct (N.eqb_spec (sat_add (c_bal_max c) (bd_value b) (N.min v (free s a - bd_value b))) 0); lia.
  - destruct Heff as (b & due & HbS & HpN & _ & Hb & Hp & HL). rewrite Hb, Hp, HL.
    destruct (decide (z = a)) as [->|]; [|auto]. rewrite HbS, HpN in Hz. cbn [snd].
    destruct (N.ltb_spec (bd_value b - v) (c_ed c)); cbn [bd_value]; lia.
  - destruct Heff as (b & HbS & Hb & Hp & HL). rewrite Hb, Hp, HL.
    destruct (decide (z = w)) as [->|]; [|auto]. rewrite HbS in Hz. cbn [bd_value bond_update]. auto.
  - destruct Heff as (due & amt & HpS & _ & Hb & Hp & HL). rewrite Hb, Hp, HL.
    destruct (decide (z = a)) as [->|]; [|auto]. rewrite HpS in Hz. cbn [snd] in Hz. lia.
Qed.
Lemma not_overlocked_run c g l : not_overlocked (run c (genesis_state g) l).
Proof.
  apply (run_inv' c not_overlocked); [intros; apply not_overlocked_step; auto|].
  intros a. unfold bonded, bond_of. cbn. rewrite lookup_empty. lia.
Qed.

(** ** What the calls of others leave alone *)
Definition own_td (a : acct) (x : op) : Prop := exists y, x = OCall (Signed a) (CTd y).
Lemma others_leave_alone c s l a : Forall (fun x => ~ own_td a x) l ->
  let s' := run c s l in
  bonded s' a = bonded s a /\ pending_of s' a = pending_of s a /\ td_lock s' a = td_lock s a.
Proof.
  intros Hl. revert s. induction Hl as [|x l Hx Hl IH]; intros s; [auto|]. cbn zeta. rewrite run_cons.
  destruct (IH (step c s x)) as (E1 & E2 & E3). rewrite E1, E2, E3.
  destruct (C08_only_the_owner_changes_a_bond c s x a) as (F1 & F2 & F3 & _); [|auto].
  intros y ->. apply Hx. exists y. reflexivity.
Qed.

Lemma step_td_ok c s o k : (dispatch c o (CTd k) s).1 = Success ->
  td_exec c o k s = Ok tt (step c s (OCall o (CTd k))).
Proof.
  unfold step, dispatch, run_call. cbn [exec]. destruct (td_exec c o k s) as [[] s'|e s'|]; cbn; congruence.
Qed.

(** ** Leaving *)
Lemma taken_out : forall c s a v l1, not_overlocked s ->
  0 < bonded s a -> pending_of s a = None ->
  bonded s a <= v -> c_ed c <= v -> rt_now s + c_unlock c <= u64_max ->
  Forall (fun x => ~ own_td a x) l1 ->
  let s1 := step c s (OCall (Signed a) (CTd (TdUnbond v))) in
  let s2 := run c s1 l1 in
  let s3 := step c s2 (OCall (Signed a) (CTd TdWithdrawUnbonded)) in
  (dispatch c (Signed a) (CTd (TdUnbond v)) s).1 = Success /\
  pending_of s2 a = Some (rt_now s + c_unlock c, bonded s a) /\
  (rt_now s + c_unlock c <= rt_now s2 ->
   (dispatch c (Signed a) (CTd TdWithdrawUnbonded) s2).1 = Success /\
   bonded s3 a = 0 /\ pending_of s3 a = None /\ td_lock s3 a = 0 /\ free s3 a = free s2 a).
Proof.
  intros c s a v l1 Hno Hb Hp Hv Hed Hclk Hl1 s1 s2 s3.
  assert ((dispatch c (Signed a) (CTd (TdUnbond v)) s).1 = Success) as HU.
  { apply C68_teerdays_calls_accepted_exactly. exists a. split; [auto|]. split.
    - unfold bonded, bond_of in Hb. destruct (td_bonds (rt_td s) !! a); [eauto|lia].
    - auto. }
  split; [exact HU|]. apply step_td_ok in HU. fold s1 in HU.
  destruct (td_effect _ _ _ _ _ HU) as (a' & [= <-] & b & due & HbS & _ & Hdue & Hb1 & Hp1 & HL1).
  specialize (Hdue Hclk). subst due.
  assert (bonded s a = bd_value b) as Eb by (unfold bonded; rewrite HbS; auto).
  destruct (others_leave_alone c s1 l1 a Hl1) as (E1 & E2 & E3). fold s2 in E1, E2, E3.
  assert (pending_of s2 a = Some (rt_now s + c_unlock c, bonded s a)) as Hp2.
  { rewrite E2, Hp1. destruct (decide (a = a)); [|contradiction]. rewrite Eb. do 2 f_equal. lia. }
  split; [exact Hp2|]. intros Hw.
  assert ((dispatch c (Signed a) (CTd TdWithdrawUnbonded) s2).1 = Success) as HW
    by (eapply C03_withdraw_succeeds_when_due; eauto).
  split; [exact HW|]. apply step_td_ok in HW. fold s3 in HW. pose proof (td_free _ _ _ _ _ HW a) as Hf.
  destruct (td_effect _ _ _ _ _ HW) as (a' & [= <-] & due' & amt & HpS & _ & Hb3 & Hp3 & HL3).
  rewrite Hp2 in HpS. injection HpS as <- <-.
  assert (bonded s1 a = 0) as E0.
  { unfold bonded. rewrite Hb1. destruct (decide (a = a)); [|contradiction].
    destruct (_ <? _); cbn [bd_value]; lia. }
  split; [unfold bonded in *; rewrite Hb3; lia|].
  split; [rewrite Hp3; destruct (decide (a = a)); [auto|contradiction]|].
  split; [|exact Hf]. rewrite HL3. destruct (decide (a = a)); [|contradiction].
  rewrite E3, HL1. pose proof (Hno a Hb) as Ho.
  unfold unbonding in Ho. rewrite Hp in Ho. lia.
Qed.
Theorem C78_the_bond_can_always_be_taken_out : forall c g l a v l1,
  let s := run c (genesis_state g) l in
  0 < bonded s a -> pending_of s a = None ->
  bonded s a <= v -> c_ed c <= v -> rt_now s + c_unlock c <= u64_max ->
  Forall (fun x => ~ own_td a x) l1 ->
  let s1 := step c s (OCall (Signed a) (CTd (TdUnbond v))) in
  let s2 := run c s1 l1 in
  let s3 := step c s2 (OCall (Signed a) (CTd TdWithdrawUnbonded)) in
  (dispatch c (Signed a) (CTd (TdUnbond v)) s).1 = Success /\
  pending_of s2 a = Some (rt_now s + c_unlock c, bonded s a) /\
  (rt_now s + c_unlock c <= rt_now s2 ->
   (dispatch c (Signed a) (CTd TdWithdrawUnbonded) s2).1 = Success /\
   bonded s3 a = 0 /\ pending_of s3 a = None /\ td_lock s3 a = 0 /\ free s3 a = free s2 a).
Proof. intros. apply taken_out; auto. apply not_overlocked_run. Qed.
Print Assumptions C78_the_bond_can_always_be_taken_out.

Lemma others_wait a d : ~ own_td a (ONextBlock d).
Proof. intros [y E]. discriminate. Qed.
Lemma next_block_td c s d a :
  let s' := step c s (ONextBlock d) in
  bond_of s' a = bond_of s a /\ pending_of s' a = pending_of s a /\ td_lock s' a = td_lock s a /\ free s' a = free s a.
Proof. cbn [step]. unfold next_block. destruct (_ <=? _); auto. Qed.
Lemma next_block_reaches c s t : rt_blk s + 1 <= c_blk_max c -> t <= u64_max ->
  let s' := step c s (ONextBlock (t - rt_now s)) in
  rt_now s' = N.max (rt_now s) t /\ rt_blk s' = rt_blk s + 1.
Proof.
  intros Hb Ht. cbn [step]. unfold next_block. destruct (N.leb_spec (rt_blk s + 1) (c_blk_max c)); [|lia].
  cbn. split; [lia|auto].
Qed.
Lemma td_call_clock c s o k :
  let s' := step c s (OCall o (CTd k)) in rt_now s' = rt_now s /\ rt_blk s' = rt_blk s.
Proof.
  cbn zeta. destruct (step_call c s o (CTd k)) as [(s' & E & ->)| ->]; [|auto]. exact (call_clock c o (CTd k) s s' E).
Qed.
Lemma td_call_free c s o k a : free (step c s (OCall o (CTd k))) a = free s a.
Proof. apply free_view. exact (step_same c s (OCall o (CTd k)) PFree eq_refl). Qed.

(** [way_out c s a l]: with [l], consisting of own calls and of waiting, [a] leaves *)
Definition own_or_wait (a : acct) (x : op) : Prop := own_td a x \/ exists d, x = ONextBlock d.
Definition out (s : rt) (a : acct) : Prop := bonded s a = 0 /\ pending_of s a = None /\ td_lock s a = 0.
Lemma leave_bonded c s a : not_overlocked s -> 0 < bonded s a -> pending_of s a = None ->
  rt_blk s + 1 <= c_blk_max c -> rt_now s + c_unlock c <= u64_max ->
  exists l1, Forall (own_or_wait a) l1 /\ out (run c s l1) a /\ free (run c s l1) a = free s a.
Proof.
  intros Hno Hb Hp Hblk Hclk. set (v := N.max (bonded s a) (c_ed c)).
  set (x1 := OCall (Signed a) (CTd (TdUnbond v))).
  set (x2 := ONextBlock (rt_now s + c_unlock c - rt_now (step c s x1))).
  exists [x1; x2; OCall (Signed a) (CTd TdWithdrawUnbonded)].
  split.
  { constructor; [left; eexists; reflexivity|]. constructor; [right; eexists; reflexivity|].
    constructor; [left; eexists; reflexivity|constructor]. }
  destruct (td_call_clock c s (Signed a) (TdUnbond v)) as [Ec1 Ec2]. fold x1 in Ec1, Ec2.
  destruct (next_block_reaches c (step c s x1) (rt_now s + c_unlock c)) as [En _]; [lia|lia|]. fold x2 in En.
  destruct (taken_out c s a v [x2] Hno Hb Hp) as (_ & _ & H); [lia|lia|auto|repeat constructor; apply others_wait|].
  fold x1 in H. change (run c (step c s x1) [x2]) with (step c (step c s x1) x2) in H.
  destruct H as (_ & H1 & H2 & H3 & H4); [lia|]. rewrite !run_cons. change (run c ?z []) with z.
  split; [repeat split; auto|]. rewrite H4. destruct (next_block_td c (step c s x1) (rt_now s + c_unlock c - rt_now (step c s x1)) a) as (_ & _ & _ & Ef).
  fold x2 in Ef. rewrite Ef. apply td_call_free.
Qed.
Lemma leave_idle c s a : not_overlocked s -> 0 < free s a -> 0 < c_bal_max c -> pending_of s a = None ->
  rt_blk s + 1 <= c_blk_max c -> rt_now s + c_unlock c <= u64_max ->
  exists l1, Forall (own_or_wait a) l1 /\ out (run c s l1) a /\ free (run c s l1) a = free s a.
Proof.
  intros Hno Hf Hm Hp Hblk Hclk. destruct (decide (0 < bonded s a)) as [Hb|Hb]; [apply leave_bonded; auto|].
  set (v := N.max 1 (c_ed c)).
  assert (exists x1, own_td a x1 /\ 0 < bonded (step c s x1) a /\ pending_of (step c s x1) a = None) as (x1 & [y ->] & Hb1 & Hp1).
  { destruct (bond_of s a) as [b|] eqn:Eb.
    - exists (OCall (Signed a) (CTd (TdBondExtra v))). split; [eexists; reflexivity|].
      assert ((dispatch c (Signed a) (CTd (TdBondExtra v)) s).1 = Success) as HU.
      { apply C68_teerdays_calls_accepted_exactly. exists a. split; [auto|]. unfold bond_of in Eb. rewrite Eb.
        split; [eauto|]. split; [exact Hp|lia]. }
      apply step_td_ok in HU. destruct (td_effect _ _ _ _ _ HU) as (a' & [= <-] & b' & HbS & _ & H1 & H2 & _).
      rewrite H2. split; [|auto]. unfold bonded in *. rewrite H1. destruct (decide (a = a)); [|contradiction].
      cbn [bd_value]. rewrite Eb in HbS, Hb. injection HbS as <-. unfold sat_add. lia.
    - exists (OCall (Signed a) (CTd (TdBond v))). split; [eexists; reflexivity|].
      assert ((dispatch c (Signed a) (CTd (TdBond v)) s).1 = Success) as HU.
      { apply C68_teerdays_calls_accepted_exactly. exists a. split; [auto|]. unfold bond_of in Eb. rewrite Eb.
        split; [auto|lia]. }
      apply step_td_ok in HU. destruct (td_effect _ _ _ _ _ HU) as (a' & [= <-] & _ & _ & H1 & H2 & _).
      rewrite H2. split; [|auto]. unfold bonded in *. rewrite H1. destruct (decide (a = a)); [|contradiction].
      cbn [bd_value]. lia. }
  destruct (td_call_clock c s (Signed a) y) as [Ec1 Ec2].
  destruct (leave_bonded c (step c s (OCall (Signed a) (CTd y))) a) as (l1 & H1 & H2 & H3); auto.
  - apply not_overlocked_step, Hno.
  - lia.
  - lia.
  - exists (OCall (Signed a) (CTd y) :: l1). rewrite run_cons. split; [|split; [auto|]].
    + constructor; [left; eexists; reflexivity|auto].
    + rewrite H3. apply td_call_free.
Qed.

(** From every state an account with a positive balance can free itself entirely of its TEERdays lock
    (also of dust left behind by an earlier unbond, C07) by own calls and waiting, keeping its balance. *)
Theorem C78_nobody_is_locked_in : forall c g l a,
  let s := run c (genesis_state g) l in
  0 < free s a -> 0 < c_bal_max c -> rt_blk s + 2 <= c_blk_max c -> rt_now s + c_unlock c <= u64_max ->
  (forall due amt, pending_of s a = Some (due, amt) -> due + c_unlock c <= u64_max) ->
  exists l1, Forall (own_or_wait a) l1 /\
  let s' := run c s l1 in
  td_lock s' a = 0 /\ bonded s' a = 0 /\ pending_of s' a = None /\ free s' a = free s a.
Proof.
  intros c g l a s Hf Hm Hblk Hclk Hdue. pose proof (not_overlocked_run c g l) as Hno. fold s in Hno.
  enough (exists l1, Forall (own_or_wait a) l1 /\ out (run c s l1) a /\ free (run c s l1) a = free s a)
    as (l1 & H1 & (H2 & H3 & H4) & H5) by (exists l1; cbn zeta; auto).
  destruct (pending_of s a) as [[due amt]|] eqn:Hp; [|apply leave_idle; auto; lia].
  specialize (Hdue due amt eq_refl). set (x1 := ONextBlock (due - rt_now s)).
  destruct (next_block_reaches c s due) as [En Eb]; [lia|lia|]. fold x1 in En, Eb.
  destruct (next_block_td c s (due - rt_now s) a) as (_ & Ep & _ & Ef). fold x1 in Ep, Ef.
  set (x2 := OCall (Signed a) (CTd TdWithdrawUnbonded)).
  assert ((dispatch c (Signed a) (CTd TdWithdrawUnbonded) (step c s x1)).1 = Success) as HW
    by (eapply C03_withdraw_succeeds_when_due; [rewrite Ep; exact Hp|lia]).
  apply step_td_ok in HW. fold x2 in HW.
  destruct (td_effect _ _ _ _ _ HW) as (a' & [= <-] & due' & amt' & _ & _ & _ & Hp3 & _).
  destruct (td_call_clock c (step c s x1) (Signed a) TdWithdrawUnbonded) as [Ec1 Ec2]. fold x2 in Ec1, Ec2.
  pose proof (td_call_free c (step c s x1) (Signed a) TdWithdrawUnbonded a) as Ef2. fold x2 in Ef2.
  destruct (leave_idle c (step c (step c s x1) x2) a) as (l1 & H1 & H2 & H3); auto; try lia.
  - apply not_overlocked_step, not_overlocked_step, Hno.
  - rewrite Hp3. destruct (decide (a = a)); [auto|contradiction].
  - exists (x1 :: x2 :: l1). rewrite !run_cons. split; [|split; [auto|congruence]].
    constructor; [right; eexists; reflexivity|]. constructor; [left; eexists; reflexivity|auto].
Qed.
Print Assumptions C78_nobody_is_locked_in.

(** Without any other lock the whole balance is then spendable *)
Lemma lock_amounts_zero (ls : list (lock_id * N)) : (forall id, lock_amount id ls = 0) -> max_lock ls = 0.
Proof.
  induction ls as [|[i x] ls IH]; intros H; [auto|].
  change (max_lock ((i, x) :: ls)) with (N.max x (max_lock ls)).
  assert (forall id, (if decide (i = id) then x + lock_amount id ls else lock_amount id ls) = 0) as H' by exact H.
  assert (x = 0) as ->. { specialize (H' i). destruct (decide (i = i)); [lia|contradiction]. }
  rewrite IH; [lia|]. intros id. specialize (H' id). destruct (decide (i = id)); lia.
Qed.
Theorem C78_unlocked_means_spendable : forall c s a,
  td_lock s a = 0 -> (forall id, id <> LTeerdays -> locked s id a = 0) -> spendable c s a = free s a.
Proof.
  intros c s a H0 Hid. unfold spendable, untouchable, frozen. rewrite lock_amounts_zero; [change (0 =? 0) with true; cbv iota; lia|].
  intros id. destruct (decide (id = LTeerdays)) as [->|]; [exact H0|apply Hid; auto].
Qed.
Print Assumptions C78_unlocked_means_spendable.
(** ... and it still holds the bond, if nobody bonded during an unlock *)
Theorem C78_leaving_returns_the_bond : forall c g l a v l1,
  let s := run c (genesis_state g) l in
  let u := OCall (Signed a) (CTd (TdUnbond v)) in
  careful c (genesis_state g) (l ++ u :: l1) ->
  0 < bonded s a -> pending_of s a = None ->
  bonded s a <= v -> c_ed c <= v -> rt_now s + c_unlock c <= u64_max ->
  Forall (fun x => ~ own_td a x) l1 ->
  let s2 := run c (step c s u) l1 in
  rt_now s + c_unlock c <= rt_now s2 ->
  let s3 := step c s2 (OCall (Signed a) (CTd TdWithdrawUnbonded)) in
  td_lock s3 a = 0 /\ bonded s a <= free s3 a.
Proof.
  intros c g l a v l1 s u Hc Hb Hp Hv Hed Hclk Hl1 s2 Hw s3.
  destruct (C78_the_bond_can_always_be_taken_out c g l a v l1 Hb Hp Hv Hed Hclk Hl1) as (_ & Hp2 & H).
  fold s in Hp2, H. fold u in Hp2, H. fold s2 in Hp2, H. destruct (H Hw) as (_ & _ & _ & H3 & H4). fold s3 in H3, H4.
  split; [exact H3|]. rewrite H4.
  destruct (careful_run c (genesis_state g) (l ++ u :: l1) (locks_wf_genesis g) (fully_locked_genesis g)
              (lock_covered_genesis g) Hc) as (_ & H5 & H6).
  rewrite run_app, run_cons in H5, H6. fold s in H5, H6. fold s2 in H5, H6. specialize (H5 a). specialize (H6 a).
  unfold unbonding in H5. rewrite Hp2 in H5. cbn [snd] in H5. lia.
Qed.
Print Assumptions C78_leaving_returns_the_bond.

(** Not by a single unbond of the bond's rest, however: what an unbond leaves below the existential deposit
    is neither bonded nor unbonding, and no withdrawal frees it (C07); it takes a fresh bond to get it out. *)
Example C78_example_dust :
  let s := run cfg0 (genesis_state (gen0 [alice]))
    [call_td alice (TdBond 300); ONextBlock 777; call_td alice (TdUnbond 295); ONextBlock 2000;
     call_td alice TdWithdrawUnbonded] in
  (bond_of s alice, pending_of s alice, td_lock s alice, spendable cfg0 s alice) = (None, None, 5, 990) /\
  (dispatch cfg0 (Signed alice) (CTd (TdUnbond 10)) s).1 = Failed NoBond /\
  (dispatch cfg0 (Signed alice) (CTd TdWithdrawUnbonded) s).1 = Failed NotUnlocking /\
  let s' := run cfg0 s [call_td alice (TdBond 10); call_td alice (TdUnbond 10); ONextBlock 1000; call_td alice TdWithdrawUnbonded] in
  (td_lock s' alice, spendable cfg0 s' alice, free s' alice) = (0, 1000, 1000).
Proof. vm_compute. repeat split; reflexivity. Qed.
Example C78_example :
  let l := [call_td alice (TdBond 300); ONextBlock 777] in
  let l1 := [call_td bob (TdUpdateOther alice); OTransfer bob alice 50; ONextBlock 1000] in
  let u := call_td alice (TdUnbond 300) in
  let s := run cfg0 (genesis_state (gen0 [alice; bob])) l in
  let s2 := run cfg0 (step cfg0 s u) l1 in
  careful cfg0 (genesis_state (gen0 [alice; bob])) (l ++ u :: l1) /\
  Forall (fun x => ~ own_td alice x) l1 /\
  (bonded s alice, pending_of s alice, rt_now s + c_unlock cfg0 <=? rt_now s2) = (300, None, true) /\
  (td_lock s2 alice, spendable cfg0 s2 alice) = (300, 750) /\
  spendable cfg0 (step cfg0 s2 (call_td alice TdWithdrawUnbonded)) alice = 1050.
Proof.
  cbn zeta. split; [|split; [|vm_compute; repeat split; reflexivity]].
  - repeat split; intros (x & w & E & Hx); inversion E; subst; apply Hx; vm_compute; reflexivity.
  - repeat constructor; intros [y E]; inversion E.
Qed.
