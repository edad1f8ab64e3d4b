(** * TEERdays as a whole: how much token-time a given supply can produce: C90. *)
From Verif Require Import Base State Env TeerdaysModel TeerexBase SgxVerifyModel TeerexModel
  EnclaveBridgeModel SidechainModel TeeracleModel ClaimsModel AssetRegistryModel XcmTransactorModel
  Runtime Frame EnvFacts Examples TeerdaysProofs TeerdaysProps ClaimsProofs ClaimsProps RuntimeProps AcceptProps EffectProps
  IssuanceProps.

(** The token-time of a bond at a moment, in whole units (what an update would store, but for the range of the type) *)
Definition worth (now : N) (b : bond) : N := bd_tt b + bd_value b * (now - bd_last b).
Definition power (s : rt) (a : acct) : N := match bond_of s a with Some b => worth (rt_now s) b | None => 0 end.
Definition all_power (s : rt) : N := map_fold (fun _ b acc => worth (rt_now s) b + acc) 0 (td_bonds (rt_td s)).
(** What the whole supply would accrue if all of it were bonded all the time *)
Fixpoint supply_time (c : cfg) (s : rt) (l : list op) : N :=
  match l with
  | [] => 0
  | x :: r => issuance s * (rt_now (step c s x) - rt_now s) + supply_time c (step c s x) r
  end.

(** ** Sums *)
Definition asum {A} (f : A -> N) (m : gmap acct A) : N := map_fold (fun _ b acc => f b + acc) 0 m.
Definition val {A} (f : A -> N) (o : option A) : N := match o with Some b => f b | None => 0 end.
Lemma asum_insert {A} (f : A -> N) (m : gmap acct A) k b : m !! k = None -> asum f (<[k := b]> m) = f b + asum f m.
Proof. intros H. unfold asum. rewrite map_fold_insert_L; auto. intros. lia. Qed.
Lemma asum_delete {A} (f : A -> N) (m : gmap acct A) k : asum f m = val f (m !! k) + asum f (delete k m).
Proof.
  destruct (m !! k) as [v|] eqn:E; cbn [val].
  - rewrite <- (insert_delete m k v E) at 1. apply asum_insert, lookup_delete.
  - rewrite delete_notin by auto. lia.
Qed.
Lemma asum_le {A} (f g h : A -> N) (d : N) (m m1 : gmap acct A) :
  (forall k, val f (m !! k) <= val g (m1 !! k) + d * val h (m1 !! k)) -> asum f m <= asum g m1 + d * asum h m1.
Proof.
  revert m1. induction m as [|k b m Hk IH] using map_ind; intros m1 H.
  { unfold asum at 1. rewrite map_fold_empty. apply N.le_0_l. }
  rewrite asum_insert, (asum_delete g m1 k), (asum_delete h m1 k) by auto.
  assert (asum f m <= asum g (delete k m1) + d * asum h (delete k m1)) as HI.
  { apply IH. intros j. specialize (H j). destruct (decide (j = k)) as [->|Hn].
    - rewrite Hk. cbn [val]. lia.
    - rewrite lookup_insert_ne in H by auto. rewrite !lookup_delete_ne by auto. exact H. }
  specialize (H k). rewrite lookup_insert in H. cbn [val] in H. lia.
Qed.

(** ** One step *)
Lemma worth_later now now' b : worth now' b <= worth now b + bd_value b * (now' - now).
Proof.
  unfold worth. rewrite <- N.add_assoc, <- N.mul_add_distr_l. apply N.add_le_mono_l, N.mul_le_mono_l. lia.
Qed.
Lemma token_time_worth mx b t : token_time mx b t <= worth t b.
Proof. unfold token_time, worth. apply N.le_min_r. Qed.
Lemma div_mul_le a b r : r <= b -> a / b * r <= a.
Proof.
  intros H. destruct (N.eq_dec b 0) as [->|Hb]; [replace r with 0 by lia; lia|].
  etransitivity; [apply N.mul_le_mono_l; exact H|]. rewrite N.mul_comm. apply N.mul_div_le, Hb.
Qed.
Lemma power_step c s x a : power (step c s x) a <= power s a + (rt_now (step c s x) - rt_now s) * bonded s a.
Proof.
  assert (forall t, bond_of t a = bond_of s a -> power t a <= power s a + (rt_now t - rt_now s) * bonded s a) as Hsame.
  { intros t H. unfold power, bonded. rewrite H. destruct (bond_of s a) as [b|]; [|lia].
    pose proof (worth_later (rt_now s) (rt_now t) b). lia. }
  assert ((exists o k, x = OCall o (CTd k)) \/ ~ (exists o k, x = OCall o (CTd k))) as [(o & k & ->)|Hn].
  { destruct x as [o []| | | | | | | | | |]; eauto; right; intros (? & ? & ?); discriminate. }
  2: { apply Hsame. unfold bond_of. assert (op_may_write x PTd = false) as Hw.
       { destruct x as [o []| | | | | | | | | |]; cbn; auto. exfalso. eauto. }
       pose proof (step_same c s x PTd Hw) as H. cbn in H. rewrite H. reflexivity. }
  cbn [step]. destruct (dispatch c o (CTd k) s) as [st t] eqn:E. cbn [snd].
  assert (st = Success \/ t = s) as [->| ->]; [| |apply Hsame; reflexivity].
  { unfold dispatch, run_call in E. destruct (exec c o (CTd k) s) as [[] ?| |] in E; injection E as <- <-; auto. }
  apply C69_teerdays_calls_do_exactly_this in E as (w & -> & H & HU).
  assert (rt_now t = rt_now s) as Hnow by (pose proof (HU PClock eq_refl) as Hc; cbn in Hc; unfold v_clock in Hc; congruence).
  assert (forall k v, entry_set (td_bonds (rt_td s)) (td_bonds (rt_td t)) k v -> val (worth (rt_now s)) v <= power s k -> power t a <= power s a + (rt_now t - rt_now s) * bonded s a) as Hset.
  { intros w' v He Hv. unfold power at 1, bond_of. rewrite He, Hnow. case_decide as Ha; [subst w'; unfold val in Hv; lia|].
    unfold power, bond_of. lia. }
  destruct k as [v|v|v|u|]; cbn [td_does] in H.
  - destruct H as (H & _). refine (Hset _ _ H _). cbn [val]. unfold worth. cbn [bd_tt bd_value bd_last]. rewrite N.sub_diag. lia.
  - destruct H as (b & Hb & H & _). refine (Hset _ _ H _). cbn [val]. unfold power, bond_of. rewrite Hb.
    unfold worth at 1. cbn [bd_tt bd_value bd_last]. rewrite N.sub_diag, N.mul_0_r, N.add_0_r. apply token_time_worth.
  - destruct H as (b & due & Hb & _ & H & _). refine (Hset _ _ H _). destruct (_ <? c_ed c); cbn [val]; [lia|].
    unfold power, bond_of. rewrite Hb. unfold worth at 1. cbn [bd_tt bd_value bd_last]. rewrite N.sub_diag, N.mul_0_r, N.add_0_r.
    etransitivity; [apply N.le_min_r|]. etransitivity; [apply div_mul_le; lia|apply token_time_worth].
  - destruct H as (b & Hb & H & _). refine (Hset _ _ H _). cbn [val]. unfold power, bond_of. rewrite Hb.
    unfold worth at 1. cbn [bd_tt bd_value bd_last]. rewrite N.sub_diag, N.mul_0_r, N.add_0_r. apply token_time_worth.
  - destruct H as (due & amt & _ & H & _). apply Hsame. unfold bond_of. rewrite H. reflexivity.
Qed.
Lemma all_power_step c s x : all_power (step c s x) <= all_power s + (rt_now (step c s x) - rt_now s) * all_bonded s.
Proof.
  change (asum (worth (rt_now (step c s x))) (td_bonds (rt_td (step c s x))) <=
    asum (worth (rt_now s)) (td_bonds (rt_td s)) + (rt_now (step c s x) - rt_now s) * asum bd_value (td_bonds (rt_td s))).
  apply asum_le. exact (power_step c s x).
Qed.

(** ** The bound *)
Lemma power_run c s l : locks_wf s -> fully_locked s -> lock_covered s -> careful c s l ->
  all_power (run c s l) <= all_power s + supply_time c s l.
Proof.
  revert s. induction l as [|x l IH]; intros s H1 H2 H3 Hc; [cbn; lia|]. destruct Hc as [Hx Hc]. rewrite run_cons.
  cbn [supply_time]. specialize (IH (step c s x) (locks_wf_step c s x H1) (fully_locked_step c s x H2 Hx) (lock_covered_step c s x H1 H2 H3 Hx) Hc).
  pose proof (all_power_step c s x) as Hp. pose proof (stakes_backed s H2 H3) as Hb.
  assert ((rt_now (step c s x) - rt_now s) * all_bonded s <= issuance s * (rt_now (step c s x) - rt_now s)) as Hm.
  { rewrite N.mul_comm. apply N.mul_le_mono_r. lia. }
  lia.
Qed.
(** As long as nobody bonds while unbonding, all accounts together never have more token-time than the
    whole supply would have accrued: no interleaving of bonding, unbonding, transfers, claims and updates gains any. *)
Theorem C90_token_time_is_bounded_by_the_supply : forall c g l, careful c (genesis_state g) l ->
  all_power (run c (genesis_state g) l) <= supply_time c (genesis_state g) l.
Proof.
  intros c g l Hc. pose proof (power_run c (genesis_state g) l (locks_wf_genesis g) (fully_locked_genesis g) (lock_covered_genesis g) Hc) as H.
  exact H.
Qed.
Print Assumptions C90_token_time_is_bounded_by_the_supply.
(** Hence at most the cap on the supply (C88) times the age of the chain. *)
Lemma supply_time_le c K l : forall s, (forall l1 l2, l = l1 ++ l2 -> issuance (run c s l1) <= K) ->
  supply_time c s l <= K * (rt_now (run c s l) - rt_now s).
Proof.
  induction l as [|x l IH]; intros s H; [cbn; lia|]. cbn [supply_time]. rewrite run_cons.
  assert (supply_time c (step c s x) l <= K * (rt_now (run c (step c s x) l) - rt_now (step c s x))) as HI.
  { apply IH. intros l1 l2 ->. specialize (H (x :: l1) l2 eq_refl). rewrite run_cons in H. exact H. }
  specialize (H [] (x :: l) eq_refl). cbn [run fold_left] in H.
  pose proof (proj1 (clock_step c s x)) as H1. pose proof (proj1 (clock_run c (step c s x) l)) as H2.
  replace (rt_now (run c (step c s x) l) - rt_now s) with ((rt_now (step c s x) - rt_now s) + (rt_now (run c (step c s x) l) - rt_now (step c s x))) by lia.
  rewrite N.mul_add_distr_l. apply N.add_le_mono; [apply N.mul_le_mono_r; exact H|exact HI].
Qed.
Theorem C90_token_time_is_capped : forall c g l, careful c (genesis_state g) l -> no_wrap c g l ->
  let s := run c (genesis_state g) l in
  all_power s <= supply_cap c g l * (rt_now s - g_now g) /\
  forall a b, bond_of s a = Some b -> bd_tt b <= supply_cap c g l * (rt_now s - g_now g).
Proof.
  intros c g l Hc Hw. cbn zeta.
  assert (all_power (run c (genesis_state g) l) <= supply_cap c g l * (rt_now (run c (genesis_state g) l) - g_now g)) as H.
  { etransitivity; [apply (C90_token_time_is_bounded_by_the_supply c g l Hc)|]. apply (supply_time_le c _ l (genesis_state g)).
    intros l1 l2 ->. unfold supply_cap. rewrite minted_app, env_mints_app.
    assert (no_wrap c g l1) as Hw1 by (unfold no_wrap in *; rewrite minted_app in Hw; destruct Hw; [auto|right; lia]).
    destruct (C88_supply_is_capped c g l1 Hw1) as [H _]. unfold supply_cap in H. lia. }
  split; [exact H|]. intros a b Hb. etransitivity; [|exact H]. set (s := run c (genesis_state g) l) in *.
  change (all_power s) with (asum (worth (rt_now s)) (td_bonds (rt_td s))). rewrite (asum_delete _ _ a).
  unfold bond_of in Hb. rewrite Hb. cbn [val]. unfold worth. rewrite <- !N.add_assoc. apply N.le_add_r.
Qed.
Print Assumptions C90_token_time_is_capped.

(** ** Farming *)
(** Bond, unbond, bond again, wait, withdraw, pass the tokens on *)
Definition farm (c : cfg) (v : N) (a b : acct) : list op :=
  [call_td a (TdBond v); call_td a (TdUnbond v); call_td a (TdBond v); ONextBlock (c_unlock c);
   call_td a TdWithdrawUnbonded; OTransfer a b v].
Fixpoint farm_all (c : cfg) (v : N) (a : acct) (l : list acct) : list op :=
  match l with [] => [] | b :: r => farm c v a b ++ farm_all c v b r end.
(** No bond, no unlock pending, nothing locked *)
Definition idle (s : rt) (a : acct) : Prop :=
  bond_of s a = None /\ pending_of s a = None /\ forall i, locked s i a = 0.
Definition td_same (s t : rt) (a : acct) : Prop :=
  bond_of t a = bond_of s a /\ pending_of t a = pending_of s a /\ forall i, locked t i a = locked s i a.

Lemma td_do c s a k : td_accepts c s (Signed a) k ->
  let t := step c s (call_td a k) in
  td_does c a k s t /\ rt_now t = rt_now s /\ rt_blk t = rt_blk s /\ (forall x, free t x = free s x) /\ issuance t = issuance s.
Proof.
  intros H. apply C68_teerdays_calls_accepted_exactly in H. cbn zeta. unfold call_td. cbn [step].
  destruct (dispatch c (Signed a) (CTd k) s) as [st t] eqn:E. cbn [fst snd] in *. subst st.
  apply C69_teerdays_calls_do_exactly_this in E as (a' & [= <-] & H & HU). split; [exact H|].
  pose proof (HU PClock eq_refl) as Hc. pose proof (HU PFree eq_refl) as Hf. cbn in Hc, Hf. unfold v_clock in Hc.
  split; [congruence|]. split; [congruence|]. split; [|apply issuance_same; exact Hf].
  intros x. unfold free. unfold v_free in Hf. rewrite Hf. reflexivity.
Qed.
Lemma unlocked_unfrozen s a : (forall i, locked s i a = 0) -> frozen s a = 0.
Proof.
  unfold locked, frozen. induction (locks_of s a) as [|[i v] l IH]; intros H; [reflexivity|].
  cbn [max_lock foldr snd]. assert (v = 0) as ->.
  { specialize (H i). cbn in H. rewrite decide_True in H by auto. lia. }
  fold (max_lock l). rewrite IH; [reflexivity|]. intros j. specialize (H j). cbn in H. fold (lock_amount j l) in H.
  destruct (decide (i = j)); lia.
Qed.
Lemma farm_step c s v a b : idle s a -> free s a = v -> a <> b -> 0 < c_ed c -> c_ed c <= v -> free s b + v <= c_bal_max c ->
  rt_now s + c_unlock c <= u64_max -> rt_blk s + 1 <= c_blk_max c ->
  let t := run c s (farm c v a b) in
  bond_of t a = Some (mkBond v (rt_now s) 0) /\ pending_of t a = None /\ (forall i, locked t i a = 0) /\
  (forall x, x <> a -> td_same s t x) /\
  (forall x, free t x = if decide (x = a) then 0 else if decide (x = b) then free s b + v else free s x) /\
  rt_now t = rt_now s + c_unlock c /\ rt_blk t = rt_blk s + 1 /\ issuance t = issuance s.
Proof.
  intros (Hb & Hp & Hl) Hf Hab Hv He Hm Hn Hk. cbn zeta. unfold farm. rewrite !run_cons. cbn [run fold_left].
  unfold bond_of, pending_of in Hb, Hp.
  (* bond *)
  destruct (td_do c s a (TdBond v)) as (D1 & N1 & K1 & F1 & I1); [exists a; auto|].
  set (s1 := step c s (call_td a (TdBond v))) in *. clearbody s1. cbn [td_does] in D1. rewrite Hf, N.min_id in D1.
  destruct D1 as (B1 & P1 & L1 & _). destruct (N.eqb_spec v 0); [lia|].
  (* unbond *)
  assert (td_bonds (rt_td s1) !! a = Some (mkBond v (rt_now s) 0)) as Hb1 by (rewrite B1; case_decide; [auto|contradiction]).
  destruct (td_do c s1 a (TdUnbond v)) as (D2 & N2 & K2 & F2 & I2).
  { exists a. split; [auto|]. rewrite Hb1, P1, Hp, N1. repeat split; eauto. }
  set (s2 := step c s1 (call_td a (TdUnbond v))) in *. clearbody s2. cbn [td_does] in D2.
  destruct D2 as (b2 & due & E2 & Hdue & B2 & P2 & L2 & _). rewrite Hb1 in E2. injection E2 as <-. cbn [bd_value] in *.
  rewrite N.sub_diag, N.min_id in *. destruct (N.ltb_spec 0 (c_ed c)) as [_|?]; [|lia].
  rewrite N1 in Hdue. specialize (Hdue Hn). subst due.
  (* bond again *)
  assert (td_bonds (rt_td s2) !! a = None) as Hb2 by (rewrite B2; case_decide; [auto|contradiction]).
  destruct (td_do c s2 a (TdBond v)) as (D3 & N3 & K3 & F3 & I3); [exists a; auto|].
  set (s3 := step c s2 (call_td a (TdBond v))) in *. clearbody s3. cbn [td_does] in D3. rewrite F2, F1, Hf, N.min_id in D3.
  destruct D3 as (B3 & P3 & L3 & _). destruct (N.eqb_spec v 0); [lia|].
  (* wait *)
  set (s4 := step c s3 (ONextBlock (c_unlock c))).
  assert (s4 = set_clock (rt_now s + c_unlock c) (rt_blk s + 1) s3) as E4.
  { subst s4. cbn [step]. unfold next_block. rewrite K3, K2, K1. destruct (N.leb_spec (rt_blk s + 1) (c_blk_max c)); [|lia].
    f_equal. rewrite N3, N2, N1. lia. }
  assert (rt_td s4 = rt_td s3) as T4 by (rewrite E4; reflexivity).
  assert (forall i x, locked s4 i x = locked s3 i x) as L4 by (rewrite E4; reflexivity).
  assert (forall x, free s4 x = free s3 x) as F4 by (rewrite E4; reflexivity).
  assert (issuance s4 = issuance s3) as I4 by (rewrite E4; reflexivity).
  assert (rt_now s4 = rt_now s + c_unlock c) as N4 by (rewrite E4; reflexivity).
  assert (rt_blk s4 = rt_blk s + 1) as K4 by (rewrite E4; reflexivity). clear E4. clearbody s4.
  (* withdraw *)
  assert (td_pending (rt_td s4) !! a = Some (rt_now s + c_unlock c, v)) as Hp4.
  { rewrite T4, P3, P2. case_decide; [auto|contradiction]. }
  destruct (td_do c s4 a TdWithdrawUnbonded) as (D5 & N5 & K5 & F5 & I5).
  { exists a. split; [auto|]. exists (rt_now s + c_unlock c), v. split; [exact Hp4|lia]. }
  set (s5 := step c s4 (call_td a TdWithdrawUnbonded)) in *. clearbody s5. cbn [td_does] in D5.
  destruct D5 as (due & amt & E5 & B5 & P5 & L5 & _). rewrite Hp4 in E5. injection E5 as <- <-.
  assert (forall i x, locked s5 i x = if decide (x = a) then 0 else locked s i x) as HL.
  { intros i x. rewrite L5. case_decide as Hx.
    - destruct Hx as [-> ->]. rewrite decide_True by auto. rewrite L4, L3. rewrite decide_True by auto. lia.
    - rewrite L4, L3. rewrite decide_False by auto. rewrite L2, L1. rewrite decide_False by auto.
      case_decide as Hxa; [subst x; apply Hl|reflexivity]. }
  assert (forall x, free s5 x = free s x) as HF by (intros x; rewrite F5, F4, F3, F2, F1; reflexivity).
  (* pass on *)
  cbn [step]. assert (succ (transfer c a b v) s5) as ([] & t & Ht).
  { apply transfer_succ. right. right. rewrite !HF, (unlocked_unfrozen s5 a).
    - rewrite decide_True by auto. lia.
    - intros i. rewrite HL. case_decide; [auto|contradiction]. }
  unfold run_call. rewrite Ht. cbn [snd].
  assert (same PTd s5 t /\ same PLocks s5 t /\ same PClock s5 t) as (ST & SL & SC).
  { pose proof (fun p H => step_same c s5 (OTransfer a b v) p H) as HS. cbn [step] in HS. unfold run_call in HS. rewrite Ht in HS. cbn [snd] in HS.
    repeat split; apply HS; reflexivity. }
  cbn in ST, SL, SC. unfold v_clock in SC.
  assert (forall i x, locked t i x = if decide (x = a) then 0 else locked s i x) as HLt.
  { intros i x. rewrite <- HL. unfold locked, locks_of. unfold v_locks in SL. rewrite SL. reflexivity. }
  pose proof (issuance_transfer _ _ _ _ _ _ _ Ht) as HI.
  apply transfer_ok in Ht as [[[?|?] _]|(_ & _ & _ & _ & _ & _ & HFt & Hev)]; [lia|contradiction|].
  assert (td_bonds (rt_td t) = td_bonds (rt_td s3)) as TB by (rewrite ST, B5, T4; reflexivity).
  assert (forall x, free t x = if decide (x = a) then 0 else if decide (x = b) then free s b + v else free s x) as HF'.
  { intros x. rewrite HFt, !HF, Hf, N.sub_diag. unfold after_dust. destruct (N.ltb_spec 0 (c_ed c)); [|lia]. repeat case_decide; auto; lia. }
  split; [unfold bond_of; rewrite TB, B3; case_decide; [|contradiction]; rewrite N2, N1; reflexivity|].
  split; [unfold pending_of; rewrite ST, P5; case_decide; [auto|contradiction]|].
  split; [intros i; rewrite HLt; case_decide; [auto|contradiction]|].
  split. { intros x Hx. split; [unfold bond_of; rewrite TB, B3, B2, B1; repeat (case_decide; [contradiction|]); auto|].
    split; [unfold pending_of; rewrite ST, P5, T4, P3, P2, P1; repeat (case_decide; [contradiction|]); auto|].
    intros i. rewrite HLt. case_decide; [contradiction|auto]. }
  split; [exact HF'|]. split; [congruence|]. split; [congruence|].
  assert (issuance s5 = issuance s) as HI5 by congruence.
  destruct HI as [[? _]|(_ & _ & HI & _)]; [lia|]. rewrite HF, Hf, N.sub_diag in HI. unfold after_dust in HI.
  destruct (N.ltb_spec 0 (c_ed c)); lia.
Qed.
Lemma idle_same s t a : td_same s t a -> idle s a -> idle t a.
Proof. intros (H1 & H2 & H3) (I1 & I2 & I3). split; [congruence|]. split; [congruence|]. intros i. rewrite H3. apply I3. Qed.
Lemma last_shift (a b : acct) r : List.last (b :: r) a = List.last r b.
Proof. revert a b. induction r as [|x r IH]; intros a b; [reflexivity|]. change (List.last (x :: r) a = List.last (x :: r) b). rewrite !IH. reflexivity. Qed.
Lemma farm_loop c v r : forall a s, NoDup (a :: r) -> (forall x, x ∈ a :: r -> idle s x) ->
  free s a = v -> (forall x, x ∈ r -> free s x = 0) -> 0 < c_ed c -> c_ed c <= v -> v <= c_bal_max c ->
  rt_now s + N.of_nat (length r) * c_unlock c <= u64_max -> rt_blk s + N.of_nat (length r) <= c_blk_max c ->
  let t := run c s (farm_all c v a r) in
  (forall x, x ∈ removelast (a :: r) -> (exists since, since <= rt_now t /\ bond_of t x = Some (mkBond v since 0)) /\
     pending_of t x = None /\ (forall i, locked t i x = 0) /\ free t x = 0) /\
  (forall x, x ∉ removelast (a :: r) -> td_same s t x) /\
  (forall x, x ∉ a :: r -> free t x = free s x) /\
  free t (List.last r a) = v /\
  rt_now t = rt_now s + N.of_nat (length r) * c_unlock c /\ rt_blk t = rt_blk s + N.of_nat (length r) /\ issuance t = issuance s.
Proof.
  induction r as [|b r IH]; intros a s Hnd Hi Hf Hz H1 H2 H3 Hn Hk; cbn zeta.
  { cbn [farm_all run fold_left removelast List.last length N.of_nat]. split; [intros x Hx; inversion Hx|].
    split; [intros x _; repeat split|]. rewrite N.mul_0_l, !N.add_0_r. auto. }
  apply NoDup_cons in Hnd as [Ha Hnd]. cbn [farm_all]. rewrite run_app.
  cbn [length] in Hn, Hk. rewrite Nat2N.inj_succ in Hn, Hk. rewrite N.mul_succ_l in Hn.
  assert (a <> b) as Hab by (intros ->; apply Ha; left).
  destruct (farm_step c s v a b) as (B & P & L & S & F & T & K & I); auto.
  { apply Hi. left. } { rewrite Hz by left. lia. } { lia. } { lia. }
  set (s1 := run c s (farm c v a b)) in *. clearbody s1.
  assert (free s b = 0) as Hb0 by (apply Hz; left).
  apply NoDup_cons in Hnd as [Hb Hnd'].
  destruct (IH b s1) as (J1 & J2 & J3 & J4 & J5 & J6 & J7); auto.
  { apply NoDup_cons; auto. }
  { intros x Hx. apply (idle_same s); [apply S; intros ->; contradiction|]. apply Hi. right. exact Hx. }
  { rewrite F. case_decide; [congruence|]. case_decide; [lia|contradiction]. }
  { intros x Hx. rewrite F. case_decide; [reflexivity|]. case_decide; [subst x; contradiction|]. apply Hz. right. exact Hx. }
  { rewrite T. lia. } { rewrite K. lia. }
  set (t := run c s1 (farm_all c v b r)) in *. clearbody t.
  change (removelast (a :: b :: r)) with (a :: removelast (b :: r)).
  assert (forall x, x ∈ removelast (b :: r) -> x ∈ b :: r) as Hrem.
  { clear. intros x Hx. rewrite (app_removelast_last b (l := b :: r)) by discriminate. apply elem_of_app. left. exact Hx. }
  assert (a ∉ removelast (b :: r)) as Har by (intros H; apply Ha, Hrem, H).
  split.
  { intros x Hx. apply elem_of_cons in Hx as [->|Hx]; [|apply J1, Hx].
    destruct (J2 a Har) as (Q1 & Q2 & Q3). split; [exists (rt_now s); split; [lia|congruence]|].
    split; [congruence|]. split; [intros i; rewrite Q3; apply L|]. rewrite J3 by exact Ha. rewrite F. case_decide; [auto|contradiction]. }
  split.
  { intros x Hx. apply not_elem_of_cons in Hx as [Hxa Hx]. destruct (J2 x Hx) as (Q1 & Q2 & Q3). destruct (S x Hxa) as (R1 & R2 & R3).
    split; [congruence|]. split; [congruence|]. intros i. rewrite Q3. apply R3. }
  split.
  { intros x Hx. apply not_elem_of_cons in Hx as [Hxa Hx]. rewrite J3 by exact Hx. rewrite F. case_decide; [contradiction|].
    case_decide as Hxb; [subst x; exfalso; apply Hx; left|reflexivity]. }
  split; [rewrite last_shift; exact J4|]. cbn [length]. rewrite Nat2N.inj_succ, N.mul_succ_l. repeat split; [lia|lia|congruence].
Qed.
Lemma asum_many {A} (f : A -> N) (p : N) (l : list acct) : forall m : gmap acct A, NoDup l ->
  (forall x, x ∈ l -> p <= val f (m !! x)) -> N.of_nat (length l) * p <= asum f m.
Proof.
  induction l as [|x l IH]; intros m Hnd H; [cbn; lia|]. apply NoDup_cons in Hnd as [Hx Hnd].
  rewrite (asum_delete f m x). cbn [length]. rewrite Nat2N.inj_succ, N.mul_succ_l.
  assert (N.of_nat (length l) * p <= asum f (delete x m)).
  { apply IH; [exact Hnd|]. intros y Hy. rewrite lookup_delete_ne by congruence. apply H. right. exact Hy. }
  specialize (H x (elem_of_list_here _ _)). lia.
Qed.
Lemma removelast_facts (a : acct) r : NoDup (a :: r) -> NoDup (removelast (a :: r)) /\ length (removelast (a :: r)) = length r.
Proof.
  intros H. pose proof (app_removelast_last a (l := a :: r) ltac:(discriminate)) as E. split.
  - rewrite E in H. apply NoDup_app in H as (H & _). exact H.
  - apply (f_equal (@length acct)) in E. rewrite app_length in E. cbn [length] in E. cbn [length]. lia.
Qed.
(** Bonding while unbonding breaks the bound without limit: the same [v] tokens, passed through [n] accounts, leave a
    bond of [v] behind in each of them although nothing is locked there and the balance is zero; the tokens
    themselves end, free, with the last account. From then on all these bonds accrue. *)
Theorem C90_power_can_be_farmed : forall c s v a r d,
  NoDup (a :: r) -> (forall x, x ∈ a :: r -> idle s x) -> free s a = v -> (forall x, x ∈ r -> free s x = 0) ->
  0 < c_ed c -> c_ed c <= v -> v <= c_bal_max c ->
  let n := N.of_nat (length r) in
  rt_now s + n * c_unlock c + d <= u64_max -> rt_blk s + n + 1 <= c_blk_max c ->
  let t := run c s (farm_all c v a r) in
  let u := step c t (ONextBlock d) in
  (forall x, x ∈ removelast (a :: r) -> bonded t x = v /\ free t x = 0 /\ (forall i, locked t i x = 0)) /\
  free t (List.last r a) = v /\ issuance t = issuance s /\ n * v <= all_bonded t /\ n * (v * d) <= all_power u.
Proof.
  intros c s v a r d Hnd Hi Hf Hz H1 H2 H3 n Hn Hk t u.
  destruct (farm_loop c v r a s) as (J1 & J2 & J3 & J4 & J5 & J6 & J7); auto; [fold n; lia|fold n; lia|]. fold t in J1, J2, J3, J4, J5, J6, J7.
  fold n in J5, J6. destruct (removelast_facts a r Hnd) as [Hnd' Hlen].
  split; [|split; [exact J4|split; [exact J7|]]].
  { intros x Hx. destruct (J1 x Hx) as ((since & _ & Hb) & _ & Hl & Hfr). unfold bonded. rewrite Hb. auto. }
  assert (rt_td u = rt_td t /\ rt_now u = rt_now t + d) as [Eu Nu].
  { subst u. cbn [step]. unfold next_block. destruct (N.leb_spec (rt_blk t + 1) (c_blk_max c)); [|lia]. split; [reflexivity|].
    change (rt_now (set_clock ?x ?y t)) with x. lia. }
  subst n. rewrite <- Hlen. split.
  - change (all_bonded t) with (asum bd_value (td_bonds (rt_td t))). apply asum_many; [exact Hnd'|].
    intros x Hx. destruct (J1 x Hx) as ((since & _ & Hb) & _). unfold bond_of in Hb. rewrite Hb. cbn. lia.
  - change (all_power u) with (asum (worth (rt_now u)) (td_bonds (rt_td u))). rewrite Eu, Nu. apply asum_many; [exact Hnd'|].
    intros x Hx. destruct (J1 x Hx) as ((since & Hs & Hb) & _). unfold bond_of in Hb. rewrite Hb. cbn [val]. unfold worth. cbn [bd_tt bd_value bd_last].
    rewrite N.add_0_l. apply N.mul_le_mono_l. lia.
Qed.
Print Assumptions C90_power_can_be_farmed.
Definition farmers : list acct := [acc 11; acc 12; acc 13].
Example C90_example_farm :
  let s := genesis_state (gen0 [alice]) in
  let t := run cfg0 s (farm_all cfg0 1000 alice farmers) in
  bool_decide (NoDup (alice :: farmers)) = true /\ free s alice = 1000 /\ map (free s) farmers = [0; 0; 0] /\
  map (bond_of s) (alice :: farmers) = [None; None; None; None] /\
  map (bonded t) (alice :: farmers) = [1000; 1000; 1000; 0] /\ map (free t) (alice :: farmers) = [0; 0; 0; 1000] /\
  issuance t = 1000 /\ all_bonded t = 3000 /\ all_power t = 6000000 /\
  all_power (step cfg0 t (ONextBlock 5000)) = 21000000 /\
  supply_time cfg0 s (farm_all cfg0 1000 alice farmers ++ [ONextBlock 5000]) = 8000000.
Proof. vm_compute. repeat split; reflexivity. Qed.
(** So the bound does not hold of all histories. *)
Theorem C90_token_time_is_bounded_by_the_supply_refuted : exists c g l,
  supply_time c (genesis_state g) l < all_power (run c (genesis_state g) l).
Proof.
  exists cfg0, (gen0 [alice]), (farm_all cfg0 1000 alice farmers ++ [ONextBlock 5000]). vm_compute. reflexivity.
Qed.
Print Assumptions C90_token_time_is_bounded_by_the_supply_refuted.
Example C90_example : careful cfg0 (genesis_state (gen0 [alice; bob])) (hist1 ++ [ONextBlock 1000]) /\
  let s := genesis_state (gen0 [alice; bob]) in
  let t := run cfg0 s (hist1 ++ [ONextBlock 1000]) in
  issuance s = 2000 /\ power t alice = 2875000 /\ all_power t = 2925000 /\
  supply_time cfg0 s (hist1 ++ [ONextBlock 1000]) = 26000000.
Proof.
  split; [|vm_compute; repeat split; reflexivity].
  repeat split; intros (a & v & E & Hp); inversion E; subst; vm_compute in Hp; apply Hp; reflexivity.
Qed.
