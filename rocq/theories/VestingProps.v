(** * Claims with a vesting schedule: C64. *)
From Verif Require Import Base State Env TeerdaysModel TeerexBase SgxVerifyModel TeerexModel
  EnclaveBridgeModel SidechainModel TeeracleModel ClaimsModel AssetRegistryModel XcmTransactorModel
  Runtime Frame EnvFacts Panic Examples ClaimsProofs ClaimsProps.

(** What a schedule (amount, per block, first block) still locks at block [b] *)
Definition still_locked (amount per start b : N) : N := amount - (b - start) * per.

(** ** The lock lasts *)
Definition kept (sch : N * N * N) (a : acct) (s : rt) : Prop :=
  locked_at sch (rt_blk s) = 0 \/
  (sch ∈ default [] (rt_vest s !! a) /\ locked_at sch (rt_blk s) <= locked s LVesting a).
Lemma kept_view sch a s s' : v_locks s' = v_locks s -> rt_vest s' = rt_vest s -> rt_blk s' = rt_blk s ->
  kept sch a s -> kept sch a s'.
Proof. unfold kept. intros H1 H2 H3. rewrite H2, H3, (locked_view _ _ H1). auto. Qed.
Lemma locked_at_sum sch (l : list (N * N * N)) b : sch ∈ l -> locked_at sch b <= foldr (fun x acc => locked_at x b + acc) 0 l.
Proof. induction 1; cbn [foldr]; lia. Qed.
Lemma write_vesting_ok a l s u s' : write_vesting a l s = Ok u s' ->
  let keep := filter (fun x => locked_at x (rt_blk s) <> 0) l in
  rt_blk s' = rt_blk s /\
  (forall b, rt_vest s' !! b = if decide (a = b) then match keep with [] => None | _ => Some keep end else rt_vest s !! b) /\
  (forall b, b <> a -> locks_of s' b = locks_of s b) /\
  locked s' LVesting a = foldr (fun x acc => locked_at x (rt_blk s) + acc) 0 keep /\
  frozen s' a <= N.max (frozen s a) (foldr (fun x acc => locked_at x (rt_blk s) + acc) 0 keep).
Proof.
  unfold write_vesting. intros H. apply bind_ok in H as (blk & s1 & H1 & H). apply gets_ok in H1 as [-> ->].
  apply bind_ok in H as (u1 & s1 & H1 & H). cbv zeta. set (keep := filter _ _) in *.
  set (tot := foldr _ 0 keep) in *. unfold modify in H1. injection H1 as <-.
  assert (forall b, rt_vest s1 !! b = if decide (a = b) then match keep with [] => None | _ => Some keep end else rt_vest s !! b) as Hv.
  { intros b. rewrite <- H0. cbn [rt_vest set_vest]. destruct (decide (a = b)) as [<-|Hn].
    - destruct keep; [apply (lookup_delete (rt_vest s) a)|apply (lookup_insert (rt_vest s) a)].
    - destruct keep; [apply (lookup_delete_ne (rt_vest s) a b); auto|apply (lookup_insert_ne (rt_vest s) a b); auto]. }
  assert (rt_blk s1 = rt_blk s /\ forall b, locks_of s1 b = locks_of s b) as [Hb Hl] by (rewrite <- H0; split; reflexivity).
  assert (forall id (l : list (lock_id * N)), max_lock (filter (fun x => x.1 <> id) l) <= max_lock l) as Hmf.
  { intros id ls. induction ls as [|[i x] r IH]; [cbn; lia|]. rewrite filter_cons. destruct (decide _); cbn [max_lock foldr snd] in *;
      fold (max_lock r) in *; try fold (max_lock (filter (fun x => x.1 <> id) r)); lia. }
  destruct (N.eqb_spec tot 0) as [Ht|Ht].
  - pose proof (locked_remove_lock _ _ _ _ _ H) as HL. apply remove_lock_ok in H. subst s'.
    split; [auto|]. split; [exact Hv|]. split.
    { intros b Hn. rewrite locks_of_put. destruct (decide (a = b)); [congruence|auto]. }
    split; [lia|]. unfold frozen. rewrite locks_of_put, decide_True by auto. rewrite Hl. etransitivity; [apply Hmf|]. lia.
  - pose proof (locked_set_lock _ _ _ _ _ _ H Ht) as HL. apply set_lock_ok in H. rewrite (proj2 (N.eqb_neq _ _) Ht) in H. subst s'.
    split; [auto|]. split; [exact Hv|]. split.
    { intros b Hn. rewrite locks_of_put. destruct (decide (a = b)); [congruence|auto]. }
    split; [exact HL|]. unfold frozen. rewrite locks_of_put, decide_True by auto. rewrite Hl.
    clear -Hmf. induction (locks_of s a) as [|[i x] r IH]; cbn [replace_lock].
    + cbn. lia.
    + destruct (decide (i = LVesting)).
      * rewrite replace_none_filter. cbn [max_lock foldr snd]. specialize (Hmf LVesting r). unfold max_lock in Hmf. lia.
      * cbn [max_lock foldr snd] in *. unfold max_lock in IH. lia.
Qed.
Lemma kept_write sch a b l s u s' : (a = b -> locked_at sch (rt_blk s) <> 0 -> sch ∈ l) ->
  kept sch a s -> write_vesting b l s = Ok u s' -> kept sch a s'.
Proof.
  intros Hin Hk H. apply write_vesting_ok in H as (H1 & H2 & H3 & H4 & _). unfold kept in *. rewrite H1, H2.
  destruct Hk as [Hk|[Hk1 Hk2]]; [auto|]. destruct (decide (locked_at sch (rt_blk s) = 0)) as [|Hn]; [auto|]. right.
  destruct (decide (b = a)) as [->|Hne].
  - assert (sch ∈ filter (fun x => locked_at x (rt_blk s) <> 0) l) as Hf by (apply elem_of_list_filter; auto).
    rewrite H4. split; [|apply locked_at_sum, Hf]. destruct (filter _ _); [exact Hf|exact Hf].
  - unfold locked in *. rewrite H3 by auto. auto.
Qed.
Lemma kept_add sch a b l pb st : keepsP (kept sch a) (add_vesting_schedule b l pb st).
Proof.
  intros s u s' Hk. unfold add_vesting_schedule. destruct (l =? 0); [intros H; inv_rt H; auto|].
  destruct (pb =? 0); [intros H; inv_rt H; auto|]. intros H. apply bind_ok in H as (old & s1 & H1 & H). apply gets_ok in H1 as [-> ->].
  apply bind_ok in H as (u1 & s1 & H1 & H). inv_rt H. eapply kept_write; [|exact Hk|exact H1].
  intros -> Hn. apply elem_of_app. left. destruct Hk as [Hk|[Hk _]]; [congruence|auto].
Qed.
Lemma kept_vest sch a b : keepsP (kept sch a) (vest b).
Proof.
  intros s u s' Hk. unfold vest. intros H. apply bind_ok in H as (old & s1 & H1 & H). apply gets_ok in H1 as [-> ->].
  destruct (rt_vest s !! b) as [l|] eqn:E; [|discriminate H]. eapply kept_write; [|exact Hk|exact H].
  intros -> Hn. destruct Hk as [Hk|[Hk _]]; [congruence|]. rewrite E in Hk. exact Hk.
Qed.
Lemma kept_lock sch a id b v : id <> LVesting -> keepsP (kept sch a) (set_lock id b v).
Proof.
  intros Hid s u s' Hk H. pose proof (locked_set_lock_other id b v s u s' LVesting a H) as E.
  assert (locked s' LVesting a = locked s LVesting a) as E' by (apply E; auto).
  apply set_lock_ok in H. unfold kept in *. rewrite E'. subst. destruct (v =? 0); exact Hk.
Qed.
Lemma kept_unlock sch a id b : id <> LVesting -> keepsP (kept sch a) (remove_lock id b).
Proof.
  intros Hid s u s' Hk H. pose proof (locked_remove_lock_other id b s u s' LVesting a H) as E.
  assert (locked s' LVesting a = locked s LVesting a) as E' by (apply E; auto).
  apply remove_lock_ok in H. unfold kept in *. rewrite E'. subst. exact Hk.
Qed.
Ltac kpt := first
  [ apply kept_add | apply kept_vest | apply kept_lock; discriminate | apply kept_unlock; discriminate
  | apply (keepsP_modify (kept _ _)); intros ? Hkp; refine (kept_view _ _ _ _ _ _ _ Hkp); reflexivity
  | keepsP_step ].
Lemma kept_step sch a c s x : kept sch a s -> kept sch a (step c s x).
Proof.
  intros Hk. destruct (op_may_write x PClock) eqn:Hc.
  { destruct x; try discriminate Hc; [destruct k; discriminate Hc|]. cbn [step]. unfold next_block. destruct (_ <=? _); [|auto].
    unfold kept in *. cbn [rt_blk set_clock rt_vest]. change (locked (set_clock ?p ?q s) LVesting a) with (locked s LVesting a).
    assert (locked_at sch (rt_blk s + 1) <= locked_at sch (rt_blk s)) as Hle.
    { destruct sch as [[l pb] st]. unfold locked_at. assert ((rt_blk s - st) * N.max pb 1 <= (rt_blk s + 1 - st) * N.max pb 1); [|lia].
      apply N.mul_le_mono_r. lia. }
    destruct Hk as [Hk|[H1 H2]]; [left; lia|]. right. split; [auto|lia]. }
  pose proof (step_same c s x PClock Hc) as Eb.
  destruct (op_may_write x PLocks || op_may_write x PVest) eqn:Hw.
  2: { apply orb_false_iff in Hw as [Hw1 Hw2]. pose proof (step_same c s x PLocks Hw1) as E1. pose proof (step_same c s x PVest Hw2) as E2.
       refine (kept_view _ _ s _ E1 E2 _ Hk). cbn in Eb. inversion Eb. reflexivity. }
  destruct x as [o k| | | | | | | | | |]; try discriminate Hw; cbn [step]; [unfold dispatch|..];
    (apply run_call_keepsP; [|exact Hk]).
  - destruct k as [x| | | | |x| |]; try discriminate Hw; cbn [exec].
    + destruct x; cbn [td_exec];
      unfold td_bond, td_bond_extra, td_unbond, td_update_other, td_withdraw_unbonded,
        try_withdraw_unbonded, do_update_teerdays, deposit_event, ensure_signed; repeat kpt.
    + destruct x; cbn [cl_exec]; unfold claim, mint_claim, claim_attest, attest, move_claim, process_claim,
        deposit_creating, deposit_event, ensure_signed, ensure_root, ensure_none; repeat kpt.
  - kpt.
  - repeat kpt.
  - kpt.
  - kpt.
Qed.

(** ** What a payout does *)
Lemma claim_process c s x evs dest signer due : rt_ev (step c s x) = evs ++ rt_ev s -> EvClaimed dest signer due ∈ evs ->
  exists s1, process_claim c signer dest s = Ok tt s1 /\ rt_bal (step c s x) = rt_bal s1 /\ rt_vest (step c s x) = rt_vest s1 /\
  rt_blk (step c s x) = rt_blk s1.
Proof.
  intros H1 H2. destruct (claimed_step c s x evs dest signer due H1 H2) as (o & k & -> & H3 & H4). clear H1 H2.
  set (s' := step c s (OCall o (CCl k))) in *. clearbody s'.
  assert (forall d sg s1, process_claim c sg d s = Ok tt s1 -> rt_ev s1 = rt_ev s' -> d = dest /\ sg = signer) as Hev.
  { intros d sg s1 H He. apply process_ok in H as (du & _ & _ & _ & _ & _ & _ & E & _). rewrite He, H4 in E. inversion E. auto. }
  destruct k; cbn [cl_exec] in H3.
  - apply claim_ok in H3 as (_ & sg & _ & _ & E). destruct (Hev _ _ _ E eq_refl) as [<- <-]. exists s'. auto.
  - apply mint_ok in H3 as (_ & t & _ & ->). change (rt_ev (upd_cl ?f ?t)) with (rt_ev t) in H4. apply (f_equal length) in H4. cbn in H4. rewrite app_length in H4. lia.
  - apply claim_attest_ok in H3 as (_ & sg & _ & _ & E). destruct (Hev _ _ _ E eq_refl) as [<- <-]. exists s'. auto.
  - apply attest_ok in H3 as (a & sg & s1 & _ & _ & _ & E & ->). destruct (Hev _ _ _ E eq_refl) as [<- <-]. exists s1. auto.
  - apply move_ok in H3 as (_ & ->). change (rt_ev (upd_cl ?f ?t)) with (rt_ev t) in H4. apply (f_equal length) in H4. cbn in H4. rewrite app_length in H4. lia.
Qed.
(** After the payout the account's vesting lock is what the schedule still locks, however much is paid. *)
Theorem C64_vesting_claim_locks_the_schedule : forall c s x dest signer due evs amount per start,
  cl_vesting (rt_cl s) !! signer = Some (amount, per, start) -> amount <> 0 ->
  rt_ev (step c s x) = evs ++ rt_ev s -> EvClaimed dest signer due ∈ evs ->
  locked (step c s x) LVesting dest = still_locked amount per start (rt_blk s).
Proof.
  intros c s x dest signer due evs amount per start Hv Ha H1 H2.
  destruct (claim_process c s x evs dest signer due H1 H2) as (s1 & H & Hb & _). unfold locked, locks_of. rewrite Hb.
  apply process_ok in H as (du & _ & _ & _ & H3 & _ & _ & _ & H4). destruct (H4 _ _ _ Hv Ha) as [H5 _].
  unfold locked, locks_of in H5. rewrite H5. unfold locked_at, still_locked.
  destruct (decide (per = 0)) as [->|]; [apply H3 in Hv; congruence|]. rewrite N.max_l by lia. reflexivity.
Qed.
Print Assumptions C64_vesting_claim_locks_the_schedule.

(** Whatever happens afterwards, at every later block at least the part that has not vested by then
    is locked; this does not depend on anybody calling [vest]. *)
Theorem C64_unvested_part_stays_locked : forall c s x dest signer due evs amount per start l,
  cl_vesting (rt_cl s) !! signer = Some (amount, per, start) ->
  rt_ev (step c s x) = evs ++ rt_ev s -> EvClaimed dest signer due ∈ evs ->
  let s' := run c (step c s x) l in
  still_locked amount per start (rt_blk s') <= locked s' LVesting dest.
Proof.
  intros c s x dest signer due evs amount per start l Hv H1 H2 s'.
  destruct (decide (amount = 0)) as [->|Ha]; [unfold still_locked; lia|].
  destruct (claim_process c s x evs dest signer due H1 H2) as (s1 & H & Hb & Hve & Hbl).
  assert (rt_blk s1 = rt_blk s) as Hbs.
  { assert (pres rt_blk (process_claim c signer dest)) as Hp by (unfold process_claim; unfold_env; pres_tac). exact (Hp _ _ _ H). }
  assert (per <> 0) as Hper.
  { intros ->. apply process_ok in H as (du & _ & _ & _ & H3 & _). apply H3 in Hv. congruence. }
  assert (kept (amount, per, start) dest s') as Hk.
  { apply run_inv'; [intros; apply kept_step; auto|]. apply process_ok in H as (du & _ & _ & _ & _ & _ & _ & _ & H4).
    destruct (H4 _ _ _ Hv Ha) as [H5 H6]. unfold kept. rewrite Hbl, Hve, Hbs, H6.
    destruct (N.eqb_spec (locked_at (amount, per, start) (rt_blk s)) 0) as [He|He]; [auto|]. right.
    split; [apply elem_of_list_here|]. unfold locked, locks_of in *. rewrite Hb, H5. reflexivity. }
  assert (still_locked amount per start (rt_blk s') = locked_at (amount, per, start) (rt_blk s')) as ->.
  { unfold locked_at, still_locked. rewrite N.max_l by lia. reflexivity. }
  destruct Hk as [Hk|[_ Hk]]; lia.
Qed.
Print Assumptions C64_unvested_part_stays_locked.
Lemma process_frozen c signer dest s s1 : process_claim c signer dest s = Ok tt s1 ->
  frozen s1 dest <= N.max (frozen s dest) (match cl_vesting (rt_cl s) !! signer with Some (l, _, _) => l | None => 0 end).
Proof.
  unfold process_claim. intros H. apply bind_ok in H as (oc & s2 & H1 & H). apply gets_ok in H1 as [-> ->].
  apply bind_ok in H as (due & s2 & H1 & H). apply ok_or_ok in H1 as [Hdue ->].
  apply bind_ok in H as (tot & s2 & H1 & H). apply gets_ok in H1 as [-> ->].
  apply bind_ok in H as (u1 & s2 & H1 & H). apply ensure_ok in H1 as [Hle ->].
  apply bind_ok in H as (vs & s2 & H1 & H). apply gets_ok in H1 as [-> ->].
  apply bind_ok in H as (hv & s2 & H1 & H). apply gets_ok in H1 as [-> ->].
  apply bind_ok in H as (u2 & s2 & H1 & H). apply ensure_ok in H1 as [Hv ->].
  apply bind_ok in H as (u3 & s2 & H1 & H). apply deposit_paid in H1 as (_ & _ & _ & HV & HL & _).
  apply bind_ok in H as (u4 & s3 & H1 & H).
  assert (frozen s1 dest = frozen s3 dest) as ->.
  { apply bind_ok in H as (u5 & s4 & H2 & H). unfold modify in H2. inv_rt H2. unfold deposit_event in H. inv_rt H. reflexivity. }
  assert (frozen s2 dest = frozen s dest) as Hf by (unfold frozen, locks_of, v_locks in *; rewrite HL; reflexivity).
  destruct (cl_vesting (rt_cl s) !! signer) as [[[l pb] st]|] eqn:Ev; [|inv_rt H1; lia].
  apply bind_ok in H1 as (b & s4 & H1 & H2). destruct b; [|discriminate H2]. inv_rt H2.
  unfold add_vesting_schedule in H1. destruct (l =? 0); [inv_rt H1; lia|]. destruct (pb =? 0); [inv_rt H1|].
  apply bind_ok in H1 as (old & s5 & H2 & H1). apply gets_ok in H2 as [-> ->].
  apply bind_ok in H1 as (u5 & s5 & H2 & H1). inv_rt H1.
  apply write_vesting_ok in H2 as (_ & _ & _ & _ & H2). rewrite Hf in H2. etransitivity; [exact H2|].
  assert (rt_vest s2 !! dest = None) as ->.
  { rewrite HV. unfold has_vesting in Hv. destruct (rt_vest s !! dest); [discriminate|auto]. }
  cbn [default app]. apply N.max_le_compat_l. rewrite filter_cons, filter_nil. unfold locked_at.
  destruct (decide _); cbn [foldr]; lia.
Qed.
(** If the schedule locks no more than the claim pays, and the claim is worth the existential deposit,
    the recipient can spend at least what could be spent before: a payout freezes nobody's own funds. *)
Theorem C64_payout_freezes_no_own_funds : forall c s x dest signer due evs,
  rt_ev (step c s x) = evs ++ rt_ev s -> EvClaimed dest signer due ∈ evs ->
  (forall amount per start, cl_vesting (rt_cl s) !! signer = Some (amount, per, start) -> amount <= due) ->
  c_ed c <= due -> free s dest + due <= c_bal_max c ->
  spendable c s dest <= spendable c (step c s x) dest.
Proof.
  intros c s x dest signer due evs H1 H2 Hv Hed Hmax.
  destruct (claim_process c s x evs dest signer due H1 H2) as (s1 & H & Hb & _).
  assert (spendable c (step c s x) dest = spendable c s1 dest) as ->.
  { unfold spendable, untouchable, frozen, locks_of, free. rewrite Hb. reflexivity. }
  pose proof (process_frozen _ _ _ _ _ H) as Hf.
  assert (frozen s1 dest <= N.max (frozen s dest) due) as Hf'.
  { etransitivity; [exact Hf|]. apply N.max_le_compat_l. destruct (cl_vesting _ !! _) as [[[l pb] st]|]; [|lia]. apply (Hv _ _ _ eq_refl). }
  destruct (C43_payout_consumes_the_claim c s x dest signer due evs H1 H2) as (Hdue & _).
  apply process_ok in H as (du & Hd & _ & _ & _ & _ & HF & _). assert (du = due) as -> by congruence.
  specialize (HF dest). rewrite decide_True in HF by auto. rewrite C44_amount_arrives in HF by auto.
  unfold spendable, untouchable. rewrite HF. destruct (N.eqb_spec (frozen s dest) 0), (N.eqb_spec (frozen s1 dest) 0); lia.
Qed.
Print Assumptions C64_payout_freezes_no_own_funds.

(** A larger schedule does: whoever owns the Ethereum key of such a claim can freeze the funds of any
    account without a vesting schedule, because the claim names the destination and needs no consent. *)
Theorem C64_large_schedule_freezes_own_funds_refuted : exists c g l x,
  let s := run c (genesis_state g) l in let s' := step c s x in
  rt_ev s' = [EvClaimed bob (eth 1) 50; EvDeposit bob 50] ++ rt_ev s /\
  (exists sig, x = OCall NoneO (CCl (ClClaim bob sig))) /\
  free s bob = 900 /\ spendable c s bob = 900 /\ free s' bob = 950 /\ spendable c s' bob = 150.
Proof.
  exists (cfg_cl true 5), (mkGenesis 5000 {[bob := 900]} [] [] false false ∅),
    [OCall Root (CCl (ClMint (eth 1) 50 (Some (800, 1, 0)) None))], (do_claim true 5 1 bob).
  cbv zeta. split; [vm_compute; reflexivity|]. split; [eexists; reflexivity|]. vm_compute. repeat split; reflexivity.
Qed.
Print Assumptions C64_large_schedule_freezes_own_funds_refuted.

(** A claim of 100 of which 80 vest by 20 a block *)
Example C64_example : let c := cfg_cl true 5 in
  let s := run c (genesis_state (gen_cl [] [])) [OCall Root (CCl (ClMint (eth 1) 100 (Some (80, 20, 0)) None)); ONextBlock 1] in
  let x := do_claim true 5 1 alice in let s' := step c s x in
  rt_ev s' = [EvClaimed alice (eth 1) 100; EvDeposit alice 100] ++ rt_ev s /\ rt_blk s = 1 /\
  locked s' LVesting alice = 60 /\ spendable c s' alice = 40 /\
  (let t := run c s' [ONextBlock 1; ONextBlock 1] in rt_blk t = 3 /\ locked t LVesting alice = 60 /\ still_locked 80 20 0 3 = 20) /\
  (let t := run c s' [ONextBlock 1; ONextBlock 1; OVest alice] in locked t LVesting alice = 20) /\
  (let t := run c s' [ONextBlock 1; ONextBlock 1; ONextBlock 1; OVest alice] in locked t LVesting alice = 0).
Proof. vm_compute. repeat split; reflexivity. Qed.
