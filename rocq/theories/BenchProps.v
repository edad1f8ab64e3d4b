(** * The benchmarks: which runtimes they pass on, and what they measure: C92. *)
From Coq Require Import String.
From Verif Require Import Base State Env TeerdaysModel TeerexBase SgxVerifyModel TeerexModel
  EnclaveBridgeModel SidechainModel TeeracleModel ClaimsModel AssetRegistryModel XcmTransactorModel
  Runtime Frame EnvFacts Panic Examples BridgeProofs TeerexProofs TeeracleProps XcmProps
  AttestationProps RuntimeProps AcceptProps EffectProps WeightsModel WeightProps
  CollateralModel TextModel TestData SerialModel BenchmarksModel.

Lemma passes_after c e g b o k s0 : setup c e b (genesis_state g) = Ok (o, k) s0 ->
  passes c e g b <-> exists s', dispatch c o k (first_block s0) = (Success, s') /\ verify c e b s'.
Proof.
  intros H. unfold passes, measures. split.
  - intros (o' & k' & s & s' & s0' & H0 & -> & H1 & H2). rewrite H in H0. injection H0 as <- <- <-. eauto.
  - intros (s' & H1 & H2). exists o, k, (first_block s0), s', s0. auto.
Qed.
Lemma passes_never c e g b : (forall x s0, setup c e b (genesis_state g) <> Ok x s0) -> ~ passes c e g b.
Proof. intros H (o & k & s & s' & s0 & H0 & _). exact (H _ _ H0). Qed.
Lemma accepted c o k s : (dispatch c o k s).1 = Success <-> exists s', dispatch c o k s = (Success, s').
Proof.
  destruct (dispatch c o k s) as [st s'] eqn:E. cbn. split; [intros ->; eauto|]. intros (x & H). congruence.
Qed.
Lemma first_block_view {A} (f : rt -> A) s : (forall x n, f (no_events (set_clock (rt_now x) n x)) = f x) -> f (first_block s) = f s.
Proof. intros H. unfold first_block. destruct (_ =? _); auto. Qed.
Ltac fb := rewrite ?(first_block_view (fun s => rt_now s)), ?(first_block_view (fun s => rt_td s)), ?(first_block_view (fun s => rt_eb s)),
  ?(first_block_view (fun s => rt_tx s)), ?(first_block_view (fun s => rt_bal s)), ?(first_block_view (fun s => rt_to s)),
  ?(first_block_view (fun s => rt_ar s)), ?(first_block_view (fun s => rt_sc s)) by reflexivity.

(** ** TEERdays *)
Lemma make_free_eq c a v s : exists s1, make_free_balance_be c a v s = Ok tt s1 /\
  (c_ed c <= v -> s1 = put_free a v s) /\
  rt_now s1 = rt_now s /\ rt_blk s1 = rt_blk s /\ rt_td s1 = rt_td s /\ rt_eb s1 = rt_eb s /\ rt_tx s1 = rt_tx s /\
  b_locks (rt_bal s1) = b_locks (rt_bal s) /\ (v < c_ed c -> free s1 a = 0) /\ (forall x, x <> a -> free s1 x = free s x).
Proof.
  unfold make_free_balance_be, bind, gets, ret, modify. destruct (N.ltb_spec v (c_ed c)) as [Hlt|Hge].
  - destruct (N.eqb_spec (free s a) 0) as [E|E]; eexists; (split; [reflexivity|]); (split; [intros; lia|]); do 6 (split; [reflexivity|]).
    + split; [auto|]. auto.
    + split; [|intros x Hx]; rewrite free_put_free; destruct (decide _); congruence.
  - eexists. split; [reflexivity|]. split; [auto|]. do 6 (split; [reflexivity|]). split; [intros; lia|].
    intros x Hx. rewrite free_put_free. destruct (decide _); congruence.
Qed.
Lemma free_put a v s x : free (put_free a v s) x = if decide (x = a) then v else free s x.
Proof. rewrite free_put_free. destruct (decide (a = x)), (decide (x = a)); congruence. Qed.

(** A benchmark of TEERdays passes exactly on runtimes whose existential deposit is at most what it
    bonds and unbonds; with overflow checks the unlock period must be a u64. *)
Theorem C92_teerdays_benchmarks_pass_iff : forall c e g,
  (passes c e g BnBond <-> c_ed c <= 2000000000) /\
  (passes c e g BnUnbond <-> c_ed c <= 1000000000 /\ (c_ovf c = true -> c_unlock c <= u64_max)) /\
  (passes c e g BnUpdateOther <-> c_ed c <= 1000000000) /\
  passes c e g BnWithdraw.
Proof.
  intros c e g. set (a := be_alice e).
  assert (forall v, exists s1, (do! set_timestamp 0 in make_free_balance_be c a 4000000000) (genesis_state g) = Ok tt s1 /\
     rt_now s1 = 0 /\ rt_td s1 = mkTd ∅ ∅ /\ (c_ed c <= v -> v <= 4000000000 -> free s1 a = 4000000000)) as HS.
  { intros v. set (s := set_clock 0 0 (genesis_state g)). destruct (make_free_eq c a 4000000000 s) as (s1 & H1 & H2 & H3 & _ & H4 & _).
    exists s1. split; [exact H1|]. split; [rewrite H3; reflexivity|]. split; [rewrite H4; reflexivity|]. intros Hv Hv'. rewrite H2 by lia.
    rewrite free_put. destruct (decide _); [auto|tauto]. }
  assert (forall v, exists s1, rt_now s1 = 0 /\ rt_td s1 = mkTd ∅ ∅ /\ (c_ed c <= v -> v <= 4000000000 -> free s1 a = 4000000000) /\
     forall (k : RM (origin * call)), (do! set_timestamp 0 in do! make_free_balance_be c a 4000000000 in k) (genesis_state g) = k s1) as HK.
  { intros v. destruct (HS v) as (s1 & H1 & H2 & H3 & H4). exists s1. split; [auto|]. split; [auto|]. split; [auto|].
    intros k. revert H1. unfold set_timestamp, bind, modify. destruct (make_free_balance_be _ _ _ _); intros [=]. subst. auto. }
  assert (forall v s1, rt_now s1 = 0 -> rt_td s1 = mkTd ∅ ∅ -> c_ed c <= v -> v <= 4000000000 -> free s1 a = 4000000000 ->
     exists s2, exec c (Signed a) (CTd (TdBond v)) s1 = Ok tt s2 /\ rt_now s2 = 0 /\ rt_td s2 = mkTd {[a := mkBond v 0 0]} ∅) as HB.
  { intros v s1 Hn Ht Hv Hm Hf.
    assert ((dispatch c (Signed a) (CTd (TdBond v)) s1).1 = Success) as Hd.
    { apply C68_teerdays_calls_accepted_exactly. exists a. split; [auto|]. rewrite Ht. split; [apply lookup_empty|auto]. }
    apply accepted in Hd as (s2 & Hd). exists s2. split; [apply dispatch_iff, Hd|].
    apply C69_teerdays_calls_do_exactly_this in Hd as (a' & [= <-] & (H1 & H2 & _) & HU).
    pose proof (HU PClock eq_refl) as HC. cbn [same] in HC. unfold v_clock in HC. injection HC as HC _.
    split; [rewrite HC; auto|]. rewrite Ht, Hf, Hn in *. cbn [td_bonds td_pending] in *.
    destruct (rt_td s2) as [bs ps]. cbn [td_bonds td_pending] in *. f_equal; [|auto].
    apply map_eq. intros x. rewrite H1, N.min_l by lia. destruct (decide (x = a)) as [->|Hx].
    - rewrite lookup_singleton. reflexivity.
    - rewrite lookup_singleton_ne by auto. apply lookup_empty. }
  split; [|split; [|split]].
  - destruct (HK 2000000000) as (s1 & Hn & Ht & Hf & Hs). rewrite passes_after by (cbn [setup]; fold a; rewrite Hs; reflexivity). split.
    + intros (s' & H & _). assert ((dispatch c (Signed a) (CTd (TdBond 2000000000)) (first_block s1)).1 = Success) as Hd by (rewrite H; auto).
      apply C68_teerdays_calls_accepted_exactly in Hd as (a' & _ & _ & Hd). exact Hd.
    + intros Hv. assert ((dispatch c (Signed a) (CTd (TdBond 2000000000)) (first_block s1)).1 = Success) as Hd.
      { apply C68_teerdays_calls_accepted_exactly. exists a. split; [auto|]. fb. rewrite Ht. split; [apply lookup_empty|auto]. }
      apply accepted in Hd as (s2 & Hd). exists s2. split; [auto|].
      apply C69_teerdays_calls_do_exactly_this in Hd as (a' & [= <-] & (H1 & _) & _). cbn [verify]. fold a. rewrite H1.
      destruct (decide (a = a)); [eauto|tauto].
  - destruct (HK 2000000000) as (s1 & Hn & Ht & Hf & Hs).
    destruct (N.leb_spec (c_ed c) 2000000000) as [Hv|Hv].
    + destruct (HB 2000000000 s1 Hn Ht Hv ltac:(lia) (Hf Hv ltac:(lia))) as (s2 & Hb & Hn2 & Ht2).
      rewrite passes_after by (cbn [setup]; fold a; rewrite Hs; cbv zeta; rewrite (bind_fw _ _ _ _ _ Hb); reflexivity). split.
      * intros (s' & H & _). assert ((dispatch c (Signed a) (CTd (TdUnbond 1000000000)) (first_block s2)).1 = Success) as Hd by (rewrite H; auto).
        apply C68_teerdays_calls_accepted_exactly in Hd as (a' & _ & _ & _ & H1 & H2). split; [exact H1|]. revert H2. fb. rewrite Hn2. auto.
      * intros (Hv1 & Ho). assert ((dispatch c (Signed a) (CTd (TdUnbond 1000000000)) (first_block s2)).1 = Success) as Hd.
        { apply C68_teerdays_calls_accepted_exactly. exists a. split; [auto|]. fb. rewrite Ht2, Hn2. cbn [td_bonds td_pending].
          rewrite lookup_singleton. split; [eauto|]. split; [apply lookup_empty|]. auto. }
        apply accepted in Hd as (s3 & Hd). exists s3. split; [auto|].
        apply C69_teerdays_calls_do_exactly_this in Hd as (a' & [= <-] & (b & due & H1 & _ & H2 & _) & _). cbn [verify]. fold a. rewrite H2.
        revert H1. fb. rewrite Ht2. cbn [td_bonds]. rewrite lookup_singleton. intros [= <-]. cbn [bd_value].
        destruct (decide (a = a)); [|tauto]. destruct (N.ltb_spec (2000000000 - 1000000000) (c_ed c)) as [Hx|Hx]; [|eauto].
        exfalso. change (2000000000 - 1000000000) with 1000000000 in Hx. lia.
    + split; [|lia]. intros HP. exfalso. revert HP. apply passes_never. intros x s0. cbn [setup]. fold a. rewrite Hs. cbv zeta. intros H.
      apply bind_ok in H as ([] & s2 & H & _). apply dispatch_iff in H.
      assert ((dispatch c (Signed a) (CTd (TdBond 2000000000)) s1).1 = Success) as Hd by (rewrite H; auto).
      apply C68_teerdays_calls_accepted_exactly in Hd as (a' & _ & _ & Hd). lia.
  - destruct (HK 1000000000) as (s1 & Hn & Ht & Hf & Hs).
    destruct (N.leb_spec (c_ed c) 1000000000) as [Hv|Hv].
    + split; [auto|]. intros _. destruct (HB 1000000000 s1 Hn Ht Hv ltac:(lia) (Hf Hv ltac:(lia))) as (s2 & Hb & Hn2 & Ht2).
      rewrite passes_after by (cbn [setup]; fold a; rewrite Hs; cbv zeta; rewrite (bind_fw _ _ _ _ _ Hb); reflexivity).
      assert ((dispatch c (Signed a) (CTd (TdUpdateOther a)) (first_block s2)).1 = Success) as Hd.
      { apply C68_teerdays_calls_accepted_exactly. exists a. split; [auto|]. fb. rewrite Ht2. cbn [td_bonds]. rewrite lookup_singleton. eauto. }
      apply accepted in Hd as (s3 & Hd). exists s3. split; [auto|].
      apply C69_teerdays_calls_do_exactly_this in Hd as (a' & [= <-] & (b & H1 & H2 & _) & _). cbn [verify]. fold a. rewrite H2.
      destruct (decide (a = a)); [eauto|tauto].
    + split; [|lia]. intros HP. exfalso. revert HP. apply passes_never. intros x s0. cbn [setup]. fold a. rewrite Hs. cbv zeta. intros H.
      apply bind_ok in H as ([] & s2 & H & _). apply dispatch_iff in H.
      assert ((dispatch c (Signed a) (CTd (TdBond 1000000000)) s1).1 = Success) as Hd by (rewrite H; auto).
      apply C68_teerdays_calls_accepted_exactly in Hd as (a' & _ & _ & Hd). lia.
  - set (s := set_clock 42 0 (genesis_state g)). destruct (make_free_eq c a 4000000000 s) as (s1 & H1 & _ & H3 & _ & H4 & _).
    assert (exists s2, set_lock LTeerdays a 1000000000 s1 = Ok tt s2 /\ rt_now s2 = 42 /\ rt_td s2 = mkTd ∅ ∅) as (s2 & H5 & H6 & H7).
    { unfold set_lock, modify. eexists. split; [reflexivity|]. cbn [N.eqb]. split; [exact H3|exact H4]. }
    rewrite passes_after.
    2:{ cbn [setup]. fold a. cbv zeta. rewrite (bind_fw _ _ _ tt s) by reflexivity. rewrite (bind_fw _ _ _ _ _ H1), (bind_fw _ _ _ _ _ H5). reflexivity. }
    match goal with |- exists s', dispatch c ?o ?k ?st = _ /\ _ => assert ((dispatch c o k st).1 = Success) as Hd end.
    { apply C68_teerdays_calls_accepted_exactly. exists a. split; [auto|]. fb. cbn [put_pending rt_now rt_td set_td td_pending].
      rewrite H6. exists 42, 1000000000. split; [apply lookup_insert|lia]. }
    apply accepted in Hd as (s3 & Hd). exists s3. split; [auto|].
    apply C69_teerdays_calls_do_exactly_this in Hd as (a' & [= <-] & (due & amt & H8 & H9 & H10 & _) & _). cbn [verify]. fold a. rewrite H10.
    destruct (decide (a = a)); [auto|tauto].
Qed.
Print Assumptions C92_teerdays_benchmarks_pass_iff.

(** ** The bridge *)
Lemma first_block_free s x : free (first_block s) x = free s x.
Proof. unfold first_block. destruct (_ =? _); reflexivity. Qed.
Lemma first_block_num s : rt_blk s = 0 -> rt_blk (first_block s) = 1 /\ rt_ev (first_block s) = [].
Proof. unfold first_block. intros ->. split; reflexivity. Qed.
Lemma first_block_locks s : b_locks (rt_bal (first_block s)) = b_locks (rt_bal s).
Proof. unfold first_block. destruct (_ =? _); reflexivity. Qed.
Lemma operates_new s a e fp : rt_eb s = mkEb ∅ ∅ ∅ -> tx_sov (rt_tx s) !! a = Some e -> en_mr_enclave e = fp -> operates s fp a.
Proof.
  intros Hs He Hm. exists e. split; [auto|]. split.
  - unfold operator, in_force. rewrite Hs, Hm. cbn [eb_config]. rewrite lookup_empty. reflexivity.
  - right. unfold status_of. rewrite Hs. cbn [eb_status]. rewrite lookup_empty. reflexivity.
Qed.
Lemma status_none s : eb_status (rt_eb s) = ∅ -> forall sh, lenN (status_of s sh) <= max_signers.
Proof. intros H sh. unfold status_of. rewrite H, lookup_empty. cbn. unfold max_signers, lenN. cbn. lia. Qed.

Lemma frozen_none s a : b_locks (rt_bal s) = ∅ -> frozen s a = 0.
Proof. intros H. unfold frozen, locks_of. rewrite H, lookup_empty. reflexivity. Qed.
Lemma quarter_div c : quarter c = c_bal_max c / 4.
Proof. unfold quarter. rewrite N.shiftr_div_pow2. reflexivity. Qed.
Lemma payable_half c s src dst q : src <> dst -> b_locks (rt_bal s) = ∅ -> free s dst = 0 -> 4 * q <= c_bal_max c ->
  (c_ed c <= 2 * q -> free s src = 2 * q) -> (2 * q < c_ed c -> free s src = 0) ->
  payable c s src dst q <-> q = 0 \/ c_ed c <= q.
Proof.
  intros Hn Hl Hd Hm H1 H2. unfold payable. rewrite (frozen_none _ _ Hl), Hd. destruct (decide (0 = 0)); [|tauto]. split.
  - intros [?|[?|(Ha & _ & _ & Hb)]]; [auto|tauto|]. right. lia.
  - intros [->|Hq]; [auto|]. right. right. rewrite H1 by lia. lia.
Qed.
Lemma paid_half c s s' src dst q evs : src <> dst -> free s dst = 0 -> pays c s s' src dst q evs -> q = free s' dst.
Proof.
  intros Hn Hd. unfold pays. rewrite bool_decide_eq_false_2 by auto. rewrite orb_false_r. destruct (N.eqb_spec q 0) as [->|].
  - intros [H _]. rewrite H, Hd. reflexivity.
  - intros (_ & H & _). rewrite H. destruct (decide (dst = src)); [congruence|]. destruct (decide _); [lia|tauto].
Qed.
Lemma genesis_free g (x : acct) : g_bal g !! x = None -> free (genesis_state g) x = 0.
Proof. intros H. unfold free. cbn [genesis_state rt_bal b_free]. rewrite H. reflexivity. Qed.
Lemma zeros_len n : lenN (zeros n) = n.
Proof. unfold zeros, lenN. rewrite replicate_length. lia. Qed.
Lemma bench_topics_ok e t s : t <= 5 -> exists l, bench_topics e t s = Ok l s /\ lenN l = t.
Proof.
  intros H. unfold bench_topics. destruct (N.leb_spec t 5); [|lia]. eexists. split; [reflexivity|].
  unfold takeN, lenN. rewrite take_length, map_length. cbn. lia.
Qed.

(** The benchmarks of the bridge pass on every runtime; the two that move money need a quarter of the
    largest balance to be an admissible balance. [publish_hash] is measured up to its own limits. *)
Theorem C92_bridge_benchmarks_pass_iff : forall c e g, let v : acct := zeros 32 in let q := c_bal_max c / 4 in
  be_caller e <> v -> be_dummy e 0 <> v -> g_bal g !! v = None -> g_bal g !! be_dummy e 0 = None ->
  passes c e g BnInvoke /\ passes c e g BnConfirm /\
  (passes c e g BnShield <-> q = 0 \/ c_ed c <= q) /\
  (passes c e g BnUnshield <-> q = 0 \/ c_ed c <= q) /\
  (forall l t, passes c e g (BnPublish l t) <-> l <= 100 /\ t <= 5) /\
  passes c e g BnUpdateConfig /\ passes c e g BnPurge /\ passes c e g BnSidechain.
Proof.
  intros c e g v q Hc Hd Hv Hg. set (d := be_dummy e 0) in *. set (s := genesis_state g).
  assert (4 * q <= c_bal_max c) as Hq by (unfold q; apply N.mul_div_le; lia).
  assert (forall a, add_operator a s = Ok tt (put_sov a (with_pubkey test_enclave a) s)) as HA by (intros a; reflexivity).
  assert (forall b k s0, setup c e b s = Ok (Signed d, CEb k) s0 -> eb_status (rt_eb s0) = ∅ ->
    eb_accepts c (first_block s0) (Signed d) k ->
    (forall s', eb_does c (Signed d) k (first_block s0) s' -> verify c e b s') -> passes c e g b) as HP.
  { intros b k s0 H0 Hs Ha Hw. rewrite passes_after by exact H0.
    apply bridge_accepts in Ha; [|apply status_none; fb; auto]. apply accepted in Ha as (s' & Ha). exists s'. split; [auto|].
    apply C69_bridge_calls_do_exactly_this in Ha as [Ha _]. auto. }
  split; [|split; [|split; [|split; [|split; [|split; [|split]]]]]].
  - eapply HP; [reflexivity|reflexivity|cbn [eb_accepts]; eauto|intros; exact I].
  - eapply HP; [cbn [setup]; fold d; cbv zeta; rewrite (bind_fw _ _ _ _ _ (HA d)); reflexivity|reflexivity| |intros; exact I].
    cbn [eb_accepts]. exists d. split; [auto|]. eapply operates_new; [fb; reflexivity|fb; cbn [put_sov set_tx rt_tx tx_sov]; apply lookup_insert|reflexivity].
  - destruct (make_free_eq c (be_caller e) (2 * q) s) as (s1 & H1 & H2 & _ & _ & _ & H3 & _ & H4 & H5 & H6).
    assert (free s1 v = 0) as Hf by (rewrite H6 by auto; apply genesis_free, Hv).
    rewrite passes_after.
    2:{ cbn [setup]. rewrite quarter_div. fold q. cbv zeta. rewrite (bind_fw _ _ _ _ _ H1). reflexivity. }
    fold v.
    assert (payable c (first_block s1) (be_caller e) v q <-> q = 0 \/ c_ed c <= q) as HQ.
    { apply payable_half; rewrite ?first_block_locks, ?first_block_free; auto.
      intros Hx. rewrite H2 by auto. rewrite free_put. destruct (decide _); tauto. }
    rewrite <- HQ. assert (forall sh, lenN (status_of (first_block s1) sh) <= max_signers) as HL by (apply status_none; fb; rewrite H3; reflexivity).
    split.
    + intros (s' & H & _). assert ((dispatch c (Signed (be_caller e)) (CEb (EbShield v (zeros 4096) q)) (first_block s1)).1 = Success) as Ha by (rewrite H; auto).
      apply bridge_accepts in Ha as (a & [= <-] & Ha); auto.
    + intros Ha. assert ((dispatch c (Signed (be_caller e)) (CEb (EbShield v (zeros 4096) q)) (first_block s1)).1 = Success) as Hx.
      { apply bridge_accepts; [auto|]. exists (be_caller e). auto. }
      apply accepted in Hx as (s' & Hx). exists s'. split; [auto|].
      apply C69_bridge_calls_do_exactly_this in Hx as [(a & evs & [= <-] & _ & Hp & _) _]. cbn [verify]. rewrite quarter_div. fold q. fold v.
      eapply paid_half; [exact Hc| |exact Hp]. rewrite first_block_free. auto.
  - set (s0 := put_sov (be_caller e) (with_pubkey test_enclave (be_caller e)) s).
    destruct (make_free_eq c v (2 * q) s0) as (s1 & H1 & H2 & _ & _ & _ & H3 & H3' & H4 & H5 & H6).
    assert (free s1 d = 0) as Hf by (rewrite H6 by auto; apply genesis_free, Hg).
    rewrite passes_after.
    2:{ cbn [setup]. rewrite quarter_div. fold q. cbv zeta. fold d. rewrite (bind_fw _ _ _ _ _ (HA _)). fold s0. unfold vault. fold v. rewrite (bind_fw _ _ _ _ _ H1). reflexivity. }
    fold v.
    assert (payable c (first_block s1) v d q <-> q = 0 \/ c_ed c <= q) as HQ.
    { apply payable_half; rewrite ?first_block_locks, ?first_block_free; auto.
      intros Hx. rewrite H2 by auto. rewrite free_put. destruct (decide _); tauto. }
    rewrite <- HQ. assert (rt_eb (first_block s1) = mkEb ∅ ∅ ∅) as HE by (fb; rewrite H3; reflexivity).
    assert (forall sh, lenN (status_of (first_block s1) sh) <= max_signers) as HL by (apply status_none; rewrite HE; reflexivity).
    split.
    + intros (s' & H & _). assert ((dispatch c (Signed (be_caller e)) (CEb (EbUnshield v d q v)) (first_block s1)).1 = Success) as Ha by (rewrite H; auto).
      apply bridge_accepts in Ha as (a & _ & _ & Ha & _); [|auto]. apply Ha. rewrite HE. apply lookup_empty.
    + intros Ha. assert ((dispatch c (Signed (be_caller e)) (CEb (EbUnshield v d q v)) (first_block s1)).1 = Success) as Hx.
      { apply bridge_accepts; [auto|]. exists (be_caller e). split; [auto|]. split; [|split; [auto|]].
        - eapply operates_new; [auto|fb; rewrite H3'; unfold s0; cbn [put_sov set_tx rt_tx tx_sov]; apply lookup_insert|reflexivity].
        - intros _. unfold confirmations. rewrite HE. cbn [eb_exec]. rewrite lookup_empty. reflexivity. }
      apply accepted in Hx as (s' & Hx). exists s'. split; [auto|].
      apply C69_bridge_calls_do_exactly_this in Hx as [(a & x & [= <-] & _ & _ & _ & Hp) _]. cbn [verify]. rewrite quarter_div. fold q. fold d.
      rewrite HE in Hp. cbn [eb_exec] in Hp. rewrite lookup_empty in Hp. destruct Hp as (_ & evs & Hp & _).
      eapply paid_half; [|  |exact Hp]; [auto|]. rewrite first_block_free. auto.
  - intros l t.
    assert (t <= 5 -> exists tp s0, setup c e (BnPublish l t) s = Ok (Signed d, CEb (EbPublish (replicate 32 1) tp (zeros l))) s0 /\ lenN tp = t /\
      rt_blk s0 = 1 /\ rt_ev s0 = [] /\ rt_eb s0 = mkEb ∅ ∅ ∅ /\ tx_sov (rt_tx s0) !! d = Some (with_pubkey test_enclave d)) as HS.
    { intros Ht. set (s1 := put_sov d (with_pubkey test_enclave d) (no_events (set_clock (rt_now s) 1 s))).
      destruct (bench_topics_ok e t s1 Ht) as (tp & H1 & H2). exists tp, s1. split; [|repeat (split; [auto; reflexivity|])].
      - cbn [setup]. cbv zeta. fold d. rewrite (bind_fw _ _ _ tt (set_clock (rt_now s) 1 s)) by reflexivity.
        rewrite (bind_fw _ _ _ tt (no_events (set_clock (rt_now s) 1 s))) by reflexivity. rewrite (bind_fw _ _ _ tt s1) by reflexivity.
        rewrite (bind_fw _ _ _ _ _ H1). reflexivity.
      - unfold s1. cbn [put_sov set_tx rt_tx tx_sov]. apply lookup_insert. }
    split.
    + destruct (N.leb_spec t 5) as [Ht|Ht].
      * destruct (HS Ht) as (tp & s0 & H0 & Htp & Hb & He & HE & Hx). rewrite passes_after by exact H0. intros (s' & H & _).
        assert ((dispatch c (Signed d) (CEb (EbPublish (replicate 32 1) tp (zeros l))) (first_block s0)).1 = Success) as Ha by (rewrite H; auto).
        apply bridge_accepts in Ha as (a & x & _ & _ & _ & _ & Ha); [|apply status_none; fb; rewrite HE; auto]. rewrite zeros_len in Ha. auto.
      * intros HX. exfalso. revert HX. apply passes_never. intros x s0. fold s. cbn [setup]. cbv zeta. intros H.
        apply bind_ok in H as (? & ? & _ & H). apply bind_ok in H as (? & ? & _ & H). apply bind_ok in H as (? & ? & _ & H).
        apply bind_ok in H as (? & ? & H & _). unfold bench_topics in H. destruct (N.leb_spec t 5); [lia|discriminate].
    + intros [Hl Ht]. destruct (HS Ht) as (tp & s0 & H0 & Htp & Hb & He & HE & Hx).
      assert (first_block s0 = s0) as HB by (unfold first_block; rewrite Hb; reflexivity).
      eapply HP; [exact H0|rewrite HE; reflexivity| |].
      * rewrite HB. cbn [eb_accepts]. exists d, (with_pubkey test_enclave d). split; [auto|]. split; [auto|]. rewrite Htp, zeros_len. split; [|auto].
        right. unfold status_of. rewrite HE. cbn [eb_status]. rewrite lookup_empty. reflexivity.
      * rewrite HB. intros s' (a & x & _ & _ & _ & _ & _ & _ & Hev). cbn [verify]. rewrite Hev, He. reflexivity.
  - set (s0 := put_config v (from_scfg (new_scfg v)) (put_sov d (with_pubkey test_enclave d) s)).
    eapply (HP _ _ s0); [reflexivity|reflexivity| |].
    + cbn [eb_accepts]. right. exists d, (with_pubkey test_enclave d). split; [auto|]. fb. split; [unfold s0; cbn [put_config set_eb put_sov set_tx rt_tx tx_sov]; apply lookup_insert|].
      split.
      * right. unfold status_of. fb. unfold s0. cbn [put_config set_eb rt_eb eb_status]. change (rt_eb (put_sov _ _ _)) with (mkEb ∅ ∅ ∅). cbn [eb_status]. rewrite lookup_empty. reflexivity.
      * intros x. unfold in_force. fb. unfold s0. cbn [put_config set_eb rt_eb eb_config]. rewrite lookup_insert. intros [= <-]. reflexivity.
    + intros s' (_ & _ & _ & _ & Hev). cbn [verify]. rewrite Hev. rewrite (proj2 (first_block_num s0 eq_refl)). reflexivity.
  - set (s1 := put_sov d (with_pubkey test_enclave d) s). set (k0 := EbUpdateConfig v (new_scfg v) 0).
    assert ((dispatch c (Signed d) (CEb k0) s1).1 = Success) as Hx.
    { apply bridge_accepts; [apply status_none; reflexivity|]. right. exists d, (with_pubkey test_enclave d). split; [auto|].
      split; [unfold s1; cbn [put_sov set_tx rt_tx tx_sov]; apply lookup_insert|]. split.
      - right. reflexivity.
      - intros x Hx. unfold in_force in Hx. change (eb_config (rt_eb s1)) with (∅ : gmap bytes uscfg) in Hx. rewrite lookup_empty in Hx. discriminate. }
    apply accepted in Hx as (s2 & Hx). rewrite passes_after.
    2:{ cbn [setup]. cbv zeta. fold d. rewrite (bind_fw _ _ _ _ _ (HA d)). fold s1. cbv [bind modify]. fold v. unfold k0 in Hx. rewrite Hx. cbn [snd]. reflexivity. }
    apply C69_bridge_calls_do_exactly_this in Hx as [((x & _ & l & Hl & He) & _) _].
    change (eb_status (rt_eb s1)) with (∅ : gmap bytes (list sstat)) in Hl, He. rewrite lookup_empty in Hl. cbn [default] in Hl.
    assert (lenN l = 1) as Hn.
    { destruct Hl as [(l1 & y & l2 & H & _)|(_ & ->)]; [destruct l1; discriminate|reflexivity]. }
    set (s3 := first_block (put_config v (from_scfg (new_scfg v)) s2)).
    assert (eb_status (rt_eb s3) = eb_status (rt_eb s2)) as HE by (unfold s3; fb; reflexivity).
    assert ((dispatch c Root (CEb (EbPurge v d)) s3).1 = Success) as Hy.
    { apply bridge_accepts.
      - intros sh. unfold status_of. rewrite HE, He. destruct (decide (sh = v)); [cbn; rewrite Hn; unfold max_signers; lia|].
        rewrite lookup_empty. unfold lenN, max_signers. cbn. lia.
      - split; [auto|]. rewrite HE, He. destruct (decide (v = v)); [eauto|tauto]. }
    apply accepted in Hy as (s' & Hy). exists s'. split; [exact Hy|exact I].
  - set (x := with_mr_enclave (with_pubkey test_enclave d) test4_mrenclave). set (s0 := put_sov d x s).
    rewrite (passes_after c e g BnSidechain _ _ s0) by reflexivity. fold d.
    match goal with |- exists s', dispatch c ?o (CSc ?k) ?st = _ /\ _ => assert ((dispatch c o (CSc k) st).1 = Success) as Hx end.
    { apply sidechain_accepts; [apply status_none; fb; reflexivity|]. exists d. split; [auto|]. split.
      - eapply operates_new; [fb; reflexivity|fb; unfold s0; cbn [put_sov set_tx rt_tx tx_sov]; apply lookup_insert|reflexivity].
      - right. left. fb. apply lookup_empty. }
    apply accepted in Hx as (s' & Hx). exists s'. split; [exact Hx|].
    apply C69_sidechain_confirmation_does_exactly_this in Hx as (a & y & [= <-] & _ & (l & Hl & He) & _). cbn [verify]. fold d.
    replace (eb_status (rt_eb (first_block s0))) with (∅ : gmap bytes (list sstat)) in Hl, He by (fb; reflexivity).
    rewrite lookup_empty in Hl. cbn [default] in Hl. unfold most_recent. rewrite He. destruct (decide _); [|tauto].
    destruct Hl as [(l1 & z & l2 & H & _)|(_ & ->)]; [destruct l1; discriminate|]. eexists. split; [reflexivity|reflexivity].
Qed.
Print Assumptions C92_bridge_benchmarks_pass_iff.

(** ** Whitelist, registry upkeep, assets *)
Theorem C92_upkeep_benchmarks_pass_iff : forall c e g,
  (passes c e g BnAddWl <-> 1 <= c_max_wl c) /\ (passes c e g BnRemoveWl <-> 1 <= c_max_wl c) /\
  (passes c e g BnUnregSovereign <-> c_renewal c <= 1588072585000) /\
  (be_first e <= 2 -> passes c e g BnUnregProxied <-> c_renewal c <= 1588072585000) /\
  passes c e g BnFlags.
Proof.
  intros c e g. set (s := genesis_state g).
  assert (forall s0, rt_to s0 = mkTo ∅ ∅ ∅ -> (dispatch c Root (CTo (ToAdd coingecko_src test4_mrenclave)) s0).1 = Success <-> 1 <= c_max_wl c) as HW.
  { intros s0 H0. rewrite C68_teeracle_calls_accepted_exactly. unfold to_accepts. rewrite H0. cbn [to_wl]. rewrite lookup_empty. cbn [default].
    change (lenN (@nil bytes)) with 0. split; [lia|]. intros H. split; [auto|]. split; [vm_compute; discriminate|]. split; [intros []|lia]. }
  split; [|split; [|split; [|split]]].
  - rewrite passes_after by reflexivity. rewrite <- (HW (first_block s)) by (fb; reflexivity). rewrite accepted. split.
    + intros (s' & H & _). eauto.
    + intros (s' & H). exists s'. split; [exact H|]. apply C69_oracle_calls_do_exactly_this in H as [(H & _) _]. cbn [verify]. unfold whitelist.
      rewrite H. destruct (decide _); [|tauto]. fb. reflexivity.
  - rewrite <- (HW s) by reflexivity. rewrite accepted. split.
    + intros (o & k & s1 & s' & s0 & H & _). cbn [setup] in H. apply bind_ok in H as ([] & s2 & H & _). fold s in H. apply dispatch_iff in H. eauto.
    + intros (s1 & H). rewrite passes_after by (cbn [setup]; fold s; rewrite (bind_fw _ _ s tt s1) by (apply dispatch_iff, H); reflexivity).
      apply C69_oracle_calls_do_exactly_this in H as [(H & _) _].
      assert (to_wl (rt_to s1) !! coingecko_src = Some [test4_mrenclave]) as Hw.
      { rewrite H. destruct (decide _); [reflexivity|tauto]. }
      assert ((dispatch c Root (CTo (ToRemove coingecko_src test4_mrenclave)) (first_block s1)).1 = Success) as Hx.
      { apply C68_teeracle_calls_accepted_exactly. split; [auto|]. fb. rewrite Hw. left. auto. }
      apply accepted in Hx as (s' & Hx). exists s'. split; [exact Hx|]. apply C69_oracle_calls_do_exactly_this in Hx as [(Hx & _) _].
      cbn [verify]. unfold whitelist. rewrite Hx. destruct (decide _); [|tauto]. fb. rewrite Hw. vm_compute. reflexivity.
  - set (s0 := set_clock (test4_time + bench_silence + 1) 0 (put_sov (be_dummy e 2) (with_mr_enclave test_enclave test4_mrenclave)
      (put_sov (be_dummy e 1) (with_mr_enclave test_enclave test4_mrenclave) (put_sov (be_dummy e 0) (with_mr_enclave test_enclave test4_mrenclave) s)))).
    rewrite (passes_after c e g BnUnregSovereign _ _ s0) by reflexivity.
    assert (tx_sov (rt_tx s0) !! be_dummy e 0 = Some (with_mr_enclave test_enclave test4_mrenclave)) as Hl.
    { unfold s0. cbn [set_clock put_sov set_tx rt_tx tx_sov]. destruct (decide (be_dummy e 2 = be_dummy e 0)) as [->|H2]; [apply lookup_insert|].
      rewrite lookup_insert_ne by auto. destruct (decide (be_dummy e 1 = be_dummy e 0)) as [->|H1]; [apply lookup_insert|].
      rewrite lookup_insert_ne by auto. apply lookup_insert. }
    assert ((dispatch c (Signed (be_dummy e 0)) (CTx (TxUnregisterSovereign (be_dummy e 0))) (first_block s0)).1 = Success <-> c_renewal c <= 1588072585000) as Hx.
    { rewrite C68_removals_accepted_exactly by reflexivity. cbn [misc_accepts]. fb. rewrite Hl. change (rt_now s0) with 1588072585001. split.
      - intros (a & x & _ & [= <-] & H). cbn [en_timestamp with_mr_enclave test_enclave] in H. lia.
      - intros H. do 2 eexists. split; [reflexivity|]. split; [reflexivity|]. cbn [en_timestamp with_mr_enclave test_enclave]. lia. }
    rewrite <- Hx, accepted. split; [intros (s' & H & _); eauto|]. intros (s' & H). exists s'. split; [exact H|].
    destruct (C69_registry_upkeep_does_exactly_this c (Signed (be_dummy e 0)) (first_block s0) s') as (HH & _). apply HH in H as [H _].
    cbn [verify]. rewrite H. destruct (decide _); [reflexivity|tauto].
  - intros Hfst. set (s0 := set_clock (test4_time + bench_silence + 1) 0 (put_prox (proxied_key (be_dummy e 2)) proxied_enclave
      (put_prox (proxied_key (be_dummy e 1)) proxied_enclave (put_prox (proxied_key (be_dummy e 0)) proxied_enclave s)))).
    rewrite (passes_after c e g BnUnregProxied _ _ s0) by reflexivity. set (w := proxied_key (be_dummy e (be_first e))).
    assert (tx_prox (rt_tx s0) !! w = Some proxied_enclave) as Hl.
    { unfold s0. cbn [set_clock put_prox set_tx rt_tx tx_prox]. destruct (decide (proxied_key (be_dummy e 2) = w)) as [->|H2]; [apply lookup_insert|].
      rewrite lookup_insert_ne by auto. destruct (decide (proxied_key (be_dummy e 1) = w)) as [->|H1]; [apply lookup_insert|].
      rewrite lookup_insert_ne by auto. assert (be_first e = 0) as Hz.
      { destruct (N.eq_dec (be_first e) 1) as [E|]; [exfalso; apply H1; unfold w; rewrite E; reflexivity|].
        destruct (N.eq_dec (be_first e) 2) as [E|]; [exfalso; apply H2; unfold w; rewrite E; reflexivity|]. lia. }
      unfold w. rewrite Hz. apply lookup_insert. }
    assert ((dispatch c (Signed (be_dummy e 0)) (CTx (TxUnregisterProxied w)) (first_block s0)).1 = Success <-> c_renewal c <= 1588072585000) as Hx.
    { rewrite C68_removals_accepted_exactly by reflexivity. cbn [misc_accepts]. fb. rewrite Hl. change (rt_now s0) with 1588072585001. split.
      - intros (a & x & _ & [= <-] & H). change (en_timestamp proxied_enclave) with 0 in H. lia.
      - intros H. do 2 eexists. split; [reflexivity|]. split; [reflexivity|]. change (en_timestamp proxied_enclave) with 0. lia. }
    rewrite <- Hx, accepted. split; [intros (s' & H & _); eauto|]. intros (s' & H). exists s'. split; [exact H|].
    destruct (C69_registry_upkeep_does_exactly_this c (Signed (be_dummy e 0)) (first_block s0) s') as (_ & HH & _). apply HH in H as [H _].
    cbn [verify]. fold w. rewrite H. destruct (decide _); [reflexivity|tauto].
  - rewrite passes_after by reflexivity.
    assert ((dispatch c Root (CTx (TxSetFlags false true)) (first_block s)).1 = Success) as Hx by (apply C68_removals_accepted_exactly; reflexivity).
    apply accepted in Hx as (s' & Hx). exists s'. split; [exact Hx|].
    destruct (C69_registry_upkeep_does_exactly_this c Root (first_block s) s') as (_ & _ & HH & _). apply HH in Hx as [H _].
    cbn [verify]. rewrite H. split; reflexivity.
Qed.
Print Assumptions C92_upkeep_benchmarks_pass_iff.

Theorem C92_asset_benchmarks_pass_iff : forall c e g,
  let ready := c_asset_origin c Root = true /\ is_Some (g_assets g !! be_asset e) in
  (passes c e g BnAssetRegister <-> ready) /\ (passes c e g BnAssetUnregister <-> ready).
Proof.
  intros c e g ready. set (s := genesis_state g). set (i := be_asset e).
  assert (forall s0, rt_ar s0 = mkAr ∅ ∅ (g_assets g) ->
    ((exists s', exec c Root (CAr (ArRegister i bench_location)) s0 = Ok tt s') <-> ready)) as HR.
  { intros s0 H0. split.
    - intros (s' & H). cbn [exec ar_exec] in H. apply XcmProps.register_ok in H as (H1 & H2 & _). rewrite H0 in H2. split; [exact H1|exact H2].
    - intros (H1 & x & H2). cbn [exec ar_exec]. unfold register_asset, bind, ensure, gets, modify. rewrite H1. cbv beta iota delta [ret]. rewrite H0. cbn [ar_assets ar_loc].
      fold i in H2. rewrite H2. cbv beta iota delta [ret]. rewrite ?H0. cbn [ar_loc]. rewrite lookup_empty. cbv beta iota delta [ret]. change (valid_asset_location bench_location) with true. eexists. reflexivity. }
  split.
  - rewrite passes_after by reflexivity. rewrite <- (HR (first_block s)) by (fb; reflexivity). split.
    + intros (s' & H & _). apply dispatch_iff in H. eauto.
    + intros (s' & H). exists s'. apply dispatch_iff in H. split; [exact H|].
      destruct (C69_asset_registry_calls_do_exactly_this c Root (first_block s) s') as (HH & _). apply HH in H as [H _].
      cbn [verify]. fold i. rewrite H. destruct (decide _); [reflexivity|tauto].
  - rewrite <- (HR s) by reflexivity. split.
    + intros (o & k & s1 & s' & s0 & H & _). cbn [setup] in H. apply bind_ok in H as ([] & s2 & H & _). eauto.
    + intros (s1 & H). rewrite passes_after by (cbn [setup]; fold s i; rewrite (bind_fw _ _ s tt s1) by exact H; reflexivity).
      cbn [exec ar_exec] in H. apply XcmProps.register_ok in H as (H1 & _ & _ & _ & H). fold i.
      assert ((dispatch c Root (CAr (ArUnregister i)) (first_block s1)).1 = Success) as Hx.
      { apply C68_removals_accepted_exactly; [reflexivity|]. split; [exact H1|]. fb. rewrite H. cbn [add_ev rt_ar set_ar ar_loc]. rewrite lookup_insert. eauto. }
      apply accepted in Hx as (s' & Hx). exists s'. split; [exact Hx|].
      destruct (C69_asset_registry_calls_do_exactly_this c Root (first_block s1) s') as (_ & HH & _). apply HH in Hx as (l & _ & Hx & _).
      cbn [verify]. fold i. rewrite Hx. destruct (decide _); [reflexivity|tauto].
Qed.
Print Assumptions C92_asset_benchmarks_pass_iff.

(** ** The documents of the benchmarks *)
Definition ias_good (O : sgx_oracles) (cert signer : bytes) (at_ : N) : bool :=
  match verify_ias_report O cert with
  | ROk r => (vr_timestamp r =? at_) && beq (takeN 32 (vr_report_data r)) signer &&
      bool_decide (vr_build_mode r = MDebug) && (lenN cert <=? max_proof_len)
  | _ => false
  end.
Lemma ias_good_is O cert signer at_ : ias_good O cert signer at_ = true ->
  exists r, verify_ias_report O cert = ROk r /\ vr_timestamp r = at_ /\
  takeN 32 (vr_report_data r) = signer /\ vr_build_mode r = MDebug /\ lenN cert <= max_proof_len.
Proof.
  unfold ias_good. intros H. destruct (verify_ias_report O cert) as [r| |]; try discriminate. exists r.
  apply andb_true_iff in H as [H H4]. apply andb_true_iff in H as [H H3]. apply andb_true_iff in H as [H1 H2].
  apply N.eqb_eq in H1. apply beq_true in H2. apply bool_decide_eq_true in H3. apply N.leb_le in H4. auto.
Qed.
Definition leaf_of (O : sgx_oracles) (chain : bytes) (now : N) : res bytes :=
  match extract_certs O chain with
  | leaf :: ((_ :: _) as inter) =>
      rdo rensure (or_ee_parse O leaf) SLeafCertificateParsingError in
      rdo verify_certificate_chain O leaf inter now in
      ROk leaf
  | _ => RErr SCertificateChainIsTooShort
  end.
Definition dcap_good (O : sgx_oracles) (qt qs qc tt ts tc quote f : bytes) (signer : acct) (now : N) : bool :=
  match leaf_of O qc now, leaf_of O tc now with
  | ROk l1, ROk l2 =>
      match deserialize_enclave_identity O qt qs l1, deserialize_tcb_info O tt ts l2 with
      | ROk i, ROk t => identity_is_valid i (Z.of_N now) && tcb_is_valid t (Z.of_N now) &&
          match to_quoting_enclave i, to_chain_tcb_info t with
          | ROk q, ROk (f1, ti) => (q_prodid q =? 1) && (ti_next ti =? 1681649132000) && beq f1 f &&
              match verify_dcap_quote O quote now q with
              | ROk (f2, tcb, r) => beq f2 f && beq (takeN 32 (vr_report_data r)) signer && bool_decide (vr_build_mode r = MDebug) &&
                  (match tcb_verify ti tcb with Some _ => true | None => false end) && (lenN quote <=? max_proof_len)
              | _ => false
              end
          | _, _ => false
          end
      | _, _ => false
      end
  | _, _ => false
  end.
Lemma dcap_good_is O qt qs qc tt ts tc quote f signer now : now <= i64_max -> dcap_good O qt qs qc tt ts tc quote f signer now = true ->
  exists q ti tcb r st,
  (forall c s, c_sgx c = O -> rt_now s = now -> verify_quoting_enclave c qt qs qc s = Ok q s) /\
  (forall c s, c_sgx c = O -> rt_now s = now -> verify_tcb_info c tt ts tc s = Ok (f, ti) s) /\
  q_prodid q = 1 /\ ti_next ti = 1681649132000 /\
  verify_dcap_quote O quote now q = ROk (f, tcb, r) /\ takeN 32 (vr_report_data r) = signer /\
  vr_build_mode r = MDebug /\ tcb_verify ti tcb = Some st /\ lenN quote <= max_proof_len.
Proof.
  intros Hnow H. unfold dcap_good in H.
  assert (time_i64 now = ROk (Z.of_N now)) as HT by (unfold time_i64; apply N.leb_le in Hnow; rewrite Hnow; reflexivity).
  assert (forall c chain, c_sgx c = O -> collateral_leaf c chain now = leaf_of O chain now) as HL.
  { intros c chain Hc. unfold collateral_leaf, leaf_of. rewrite Hc. reflexivity. }
  destruct (leaf_of O qc now) as [l1| |] eqn:E1; try discriminate.
  destruct (leaf_of O tc now) as [l2| |] eqn:E2; try discriminate.
  destruct (deserialize_enclave_identity O qt qs l1) as [i| |] eqn:E3; try discriminate.
  destruct (deserialize_tcb_info O tt ts l2) as [t| |] eqn:E4; try discriminate.
  apply andb_true_iff in H as [H H0]. apply andb_true_iff in H as [V1 V2].
  destruct (to_quoting_enclave i) as [q| |] eqn:E5; try discriminate. destruct (to_chain_tcb_info t) as [[f1 ti]| |] eqn:E6; try discriminate.
  apply andb_true_iff in H0 as [H H0]. apply andb_true_iff in H as [H H3]. apply andb_true_iff in H as [H1 H2].
  apply N.eqb_eq in H1, H2. apply beq_true in H3. subst f1.
  destruct (verify_dcap_quote O quote now q) as [[[f2 tcb] r]| |] eqn:E7; try discriminate.
  apply andb_true_iff in H0 as [H H8]. apply andb_true_iff in H as [H H7]. apply andb_true_iff in H as [H H6]. apply andb_true_iff in H as [H4 H5].
  apply beq_true in H4, H5. apply bool_decide_eq_true in H6. apply N.leb_le in H8. subst f2.
  destruct (tcb_verify ti tcb) as [st|] eqn:E8; [|discriminate].
  exists q, ti, tcb, r, st. split; [|split].
  - intros c s Hc Hn. unfold verify_quoting_enclave, bind, gets. cbv beta iota. rewrite Hn, (HL c _ Hc), E1, Hc. cbv beta iota delta [lift_res ret].
    rewrite E3. cbv beta iota. rewrite HT. cbv beta iota. unfold ensure. rewrite V1. cbv beta iota delta [ret]. rewrite E5. reflexivity.
  - intros c s Hc Hn. unfold verify_tcb_info, bind, gets. cbv beta iota. rewrite Hn, (HL c _ Hc), E2, Hc. cbv beta iota delta [lift_res ret].
    rewrite E4. cbv beta iota. rewrite HT. cbv beta iota. unfold ensure. rewrite V2. cbv beta iota delta [ret]. rewrite E6. reflexivity.
  - repeat (split; [assumption|]). assumption.
Qed.

Lemma ias_document : ias_good real_oracles ias_cert4 ias_signer4 test4_time = true.
Proof. vm_compute. reflexivity. Qed.
Lemma dcap_documents : dcap_good real_oracles qe_identity_text qe_identity_sig qe_identity_chain tcb_info_text tcb_info_sig tcb_info_chain
  quote1 (hx "00906ea10000") dcap_signer collateral_time = true.
Proof. vm_compute. reflexivity. Qed.

Local Opaque quote1 ias_cert4 ias_signer4 qe_identity_text qe_identity_sig qe_identity_chain tcb_info_text tcb_info_sig tcb_info_chain
  real_oracles verify_ias_report verify_dcap_quote verify_quoting_enclave verify_tcb_info test_url dcap_signer max_proof_len.

Lemma exec_qe c a i sg ch s q : verify_quoting_enclave c i sg ch s = Ok q s ->
  exec c (Signed a) (CTx (TxRegisterQe i sg ch)) s = Ok tt (add_ev (EvSgxQuotingEnclaveRegistered q) (put_qe q s)).
Proof. intros H. cbn [exec tx_exec]. unfold register_quoting_enclave, bind. cbn [ensure_signed]. unfold ret. rewrite H. reflexivity. Qed.
Lemma exec_tcb c a i sg ch s f ti : verify_tcb_info c i sg ch s = Ok (f, ti) s ->
  exec c (Signed a) (CTx (TxRegisterTcb i sg ch)) s = Ok tt (add_ev (EvSgxTcbInfoRegistered f ti) (put_tcb f ti s)).
Proof. intros H. cbn [exec tx_exec]. unfold register_tcb_info, bind. cbn [ensure_signed]. unfold ret. rewrite H. reflexivity. Qed.
Definition registering (c : cfg) (a : acct) (proof : bytes) (m : att_method) : RM enclave :=
  match m with MIas => reg_ias c a proof | MDcap p => reg_dcap c a proof p | MSkip p => reg_skip a proof p end.
Lemma exec_reg c a proof url m s e : lenN proof <= max_proof_len -> lenN url <= 256 ->
  registering c a proof m s = Ok e s -> is_proxied e = false -> en_build_mode e = MDebug ->
  exec c (Signed a) (CTx (TxRegister proof (Some url) m)) s =
  if tx_allow_debug (rt_tx s) then Ok tt (add_ev (EvAddedSgxEnclave a (Some url) (en_status e) (en_method e)) (put_sov a (with_url e (Some url)) s))
  else Err SgxModeIsNotAllowed s.
Proof.
  intros H1 H2 H3 H4 H5. cbn [exec tx_exec]. unfold register_sgx_enclave. unfold bind at 1. cbn [ensure_signed]. unfold ret at 1.
  apply N.leb_le in H1. assert (lenN url <=? max_url_len = true) as H2' by (apply N.leb_le; exact H2).
  unfold bind at 1. unfold ensure at 1. rewrite H1. unfold ret at 1. unfold bind at 1. unfold ensure at 1. rewrite H2'. unfold ret at 1.
  unfold bind at 1. fold (registering c a proof m). rewrite H3. unfold bind at 1, gets at 1. unfold bind at 1, ensure at 1.
  rewrite (bool_decide_eq_true_2 _ H5). cbn [negb]. rewrite orb_false_r. destruct (tx_allow_debug (rt_tx s)); [|reflexivity].
  unfold ret at 1. unfold add_enclave. replace (is_proxied (with_url e (Some url))) with false by (rewrite <- H4; reflexivity). reflexivity.
Qed.

(** An enclave registers with the documents of the repository exactly where debug enclaves are allowed. *)
Theorem C92_registration_benchmarks_pass_iff : forall c e g, c_sgx c = real_oracles ->
  (passes c e g BnRegister <-> g_debug g = true) /\ passes c e g BnRegisterQe /\ passes c e g BnRegisterTcb.
Proof.
  intros c e g Hc. set (s := set_clock collateral_time 0 (genesis_state g)).
  assert (collateral_time <= i64_max) as Hi by (vm_compute; discriminate).
  pose proof (dcap_good_is real_oracles qe_identity_text qe_identity_sig qe_identity_chain tcb_info_text tcb_info_sig tcb_info_chain
    quote1 (hx "00906ea10000") dcap_signer collateral_time Hi dcap_documents) as HH.
  destruct HH as (q & ti & tcb & r & st & HQ & HT & H1 & H2 & H3 & H4 & H5 & H6 & H7).
  set (f := hx "00906ea10000") in *. set (s1 := add_ev (EvSgxQuotingEnclaveRegistered q) (put_qe q s)).
  set (s2 := add_ev (EvSgxTcbInfoRegistered f ti) (put_tcb f ti s1)).
  assert (exec c (Signed dcap_signer) register_qe_call s = Ok tt s1) as X1 by (apply exec_qe, HQ; [exact Hc|reflexivity]).
  assert (exec c (Signed dcap_signer) register_tcb_call s1 = Ok tt s2) as X2 by (apply exec_tcb, HT; [exact Hc|reflexivity]).
  split; [|split].
  - rewrite (passes_after c e g BnRegister (Signed dcap_signer) (CTx (TxRegister quote1 (Some test_url) (MDcap false))) s2).
    2:{ cbn [setup]. rewrite (bind_fw _ _ _ tt s) by reflexivity. rewrite (bind_fw _ _ _ _ _ X1), (bind_fw _ _ _ _ _ X2). reflexivity. }
    set (s3 := first_block s2).
    set (x := new_enclave (vr_report_data r) (vr_mr_enclave r) (vr_mr_signer r) (vr_timestamp r) (vr_build_mode r) st (MDcap false)).
    assert (rt_tx s3 = mkTx ∅ ∅ q {[f := ti]} (g_debug g) (g_skip g)) as HX by (unfold s3; fb; reflexivity).
    assert (rt_now s3 = collateral_time) as HN by (unfold s3; fb; reflexivity).
    assert (registering c dcap_signer quote1 (MDcap false) s3 = Ok x s3) as X3.
    { cbn [registering]. unfold reg_dcap, bind, gets. cbv beta iota. rewrite HN, HX, Hc. cbn [tx_qe]. rewrite H3. cbv beta iota delta [lift_res ret].
      rewrite H4. unfold ensure. rewrite beq_refl. cbn [negb]. cbv beta iota delta [ret]. rewrite HX. cbn [tx_tcb]. rewrite lookup_singleton. cbn [ok_or]. cbv beta iota delta [ret].
      rewrite H6. reflexivity. }
    assert (lenN test_url <= 256) as HU by (vm_compute; discriminate).
    pose proof (exec_reg c dcap_signer quote1 test_url (MDcap false) s3 x H7 HU X3 eq_refl H5) as X4. rewrite HX in X4. cbn [tx_allow_debug] in X4. split.
    + intros (s' & H & _). apply dispatch_iff in H. pose proof (eq_trans (eq_sym X4) H) as HE. destruct (g_debug g); [reflexivity|discriminate].
    + intros HD. rewrite HD in X4. eexists. split; [apply dispatch_iff; exact X4|]. cbn [verify add_ev put_sov set_tx rt_tx tx_sov]. rewrite HX. cbn [tx_sov].
      rewrite map_size_insert_None by apply lookup_empty. rewrite map_size_empty. reflexivity.
  - rewrite (passes_after c e g BnRegisterQe (Signed dcap_signer) register_qe_call s) by reflexivity.
    eexists. split; [apply dispatch_iff; apply exec_qe, HQ; [exact Hc|fb; reflexivity]|]. exact H1.
  - rewrite (passes_after c e g BnRegisterTcb (Signed dcap_signer) register_tcb_call s1).
    2:{ cbn [setup]. rewrite (bind_fw _ _ _ tt s) by reflexivity. rewrite (bind_fw _ _ _ _ _ X1). reflexivity. }
    eexists. split; [apply dispatch_iff; apply exec_tcb, HT; [exact Hc|fb; reflexivity]|]. exists ti. split; [|exact H2].
    fold f. cbn [add_ev put_tcb set_tx rt_tx tx_tcb]. apply lookup_insert.
Qed.
Print Assumptions C92_registration_benchmarks_pass_iff.

Lemma oracle_enclave_is c g (src : bytes) : c_sgx c = real_oracles -> lenN src <= 40 ->
  (g_debug g = true /\ 0 < c_day c /\ 1 <= c_max_wl c -> exists s x, oracle_enclave c src (genesis_state g) = Ok tt s /\
     tx_sov (rt_tx s) !! ias_signer4 = Some x /\ to_wl (rt_to s) !! src = Some [en_mr_enclave x]) /\
  (forall s, oracle_enclave c src (genesis_state g) = Ok tt s -> g_debug g = true /\ 0 < c_day c /\ 1 <= c_max_wl c).
Proof.
  intros Hc Hsrc. destruct (ias_good_is _ _ _ _ ias_document) as (r & H1 & H2 & H3 & H4 & H5).
  set (s := set_clock test4_time 0 (genesis_state g)).
  set (x := new_enclave (vr_report_data r) (vr_mr_enclave r) (vr_mr_signer r) (vr_timestamp r) (vr_build_mode r) (vr_status r) MIas).
  assert (lenN test_url <= 256) as HU by (vm_compute; discriminate).
  assert (registering c ias_signer4 ias_cert4 MIas s = if 0 <? c_day c then Ok x s else Err RemoteAttestationIsTooOld s) as X1.
  { cbn [registering]. unfold reg_ias. unfold bind at 1. rewrite Hc, H1. cbn [lift_res]. unfold ret at 1. unfold ensure_within_24h. unfold bind, gets, ensure. cbv beta iota.
    rewrite H2. change (rt_now s) with test4_time. rewrite N.leb_refl. cbv beta iota delta [ret]. rewrite N.sub_diag. destruct (0 <? c_day c); [|reflexivity].
    rewrite H3, beq_refl. unfold x. rewrite H2. reflexivity. }
  assert (forall s0, rt_to s0 = mkTo ∅ ∅ ∅ -> (dispatch c Root (CTo (ToAdd src (en_mr_enclave x))) s0).1 = Success <-> 1 <= c_max_wl c) as HW.
  { intros s0 H0. rewrite C68_teeracle_calls_accepted_exactly. unfold to_accepts. rewrite H0. cbn [to_wl]. rewrite lookup_empty. cbn [default].
    change (lenN (@nil bytes)) with 0. split; [lia|]. intros H. split; [auto|]. split; [auto|]. split; [intros []|lia]. }
  assert (forall s0, oracle_enclave c src (genesis_state g) = Ok tt s0 <->
    exists s1, exec c (Signed ias_signer4) (CTx (TxRegister ias_cert4 (Some test_url) MIas)) s = Ok tt s1 /\
    match tx_sov (rt_tx s1) !! ias_signer4 with Some y => exec c Root (CTo (ToAdd src (fingerprint y))) s1 = Ok tt s0 | None => False end) as HO.
  { intros s0. unfold oracle_enclave. rewrite (bind_fw _ _ _ tt s) by reflexivity. split.
    - intros H. apply bind_ok in H as ([] & s1 & Ha & H). exists s1. split; [exact Ha|]. apply bind_ok in H as (y & s2 & Hb & H). apply gets_ok in Hb as [-> ->].
      destruct (tx_sov (rt_tx s1) !! ias_signer4); [exact H|discriminate].
    - intros (s1 & Ha & H). rewrite (bind_fw _ _ _ _ _ Ha). unfold bind, gets. destruct (tx_sov (rt_tx s1) !! ias_signer4); [exact H|destruct H]. }
  assert (0 < c_day c -> exec c (Signed ias_signer4) (CTx (TxRegister ias_cert4 (Some test_url) MIas)) s =
    if g_debug g then Ok tt (add_ev (EvAddedSgxEnclave ias_signer4 (Some test_url) (en_status x) (en_method x)) (put_sov ias_signer4 (with_url x (Some test_url)) s))
    else Err SgxModeIsNotAllowed s) as X2.
  { intros Hd. apply N.ltb_lt in Hd. rewrite Hd in X1. apply (exec_reg c _ _ _ _ _ _ H5 HU X1 eq_refl H4). }
  set (s1 := add_ev (EvAddedSgxEnclave ias_signer4 (Some test_url) (en_status x) (en_method x)) (put_sov ias_signer4 (with_url x (Some test_url)) s)) in *.
  assert (tx_sov (rt_tx s1) !! ias_signer4 = Some (with_url x (Some test_url))) as HS by (unfold s1; cbn [add_ev put_sov set_tx rt_tx tx_sov]; apply lookup_insert).
  split.
  - intros (Hd & Hday & Hw). apply (HW s1 eq_refl), accepted in Hw as (s0 & Hw). exists s0, (with_url x (Some test_url)). specialize (X2 Hday). rewrite Hd in X2. split; [|].
    + apply HO. exists s1. split; [exact X2|]. rewrite HS. apply dispatch_iff, Hw.
    + apply C69_oracle_calls_do_exactly_this in Hw as [(Hw & _) HUn]. pose proof (HUn PTx eq_refl) as HC. cbn [same] in HC. split.
      * rewrite HC. exact HS.
      * rewrite Hw. destruct (decide _); [|tauto]. change (rt_to s1) with (mkTo ∅ ∅ ∅). reflexivity.
  - intros s0 H. apply HO in H as (s1' & Ha & Hb). destruct (N.ltb_spec 0 (c_day c)) as [Hday|Hday].
    + rewrite (X2 Hday) in Ha. destruct (g_debug g); [|discriminate]. injection Ha as <-. split; [reflexivity|]. split; [exact Hday|].
      rewrite HS in Hb. apply dispatch_iff in Hb. apply (HW s1 eq_refl). rewrite accepted. eauto.
    + exfalso. revert Ha. cbn [exec tx_exec]. intros Ha. apply TeerexProofs.register_ok in Ha as (b & y & _ & Hatt & _).
      inversion Hatt; subst. lia.
Qed.

(** The oracle benchmarks register the enclave of a debug certificate, so they fail where debug enclaves
    are refused. *)
Theorem C92_oracle_benchmarks_pass_iff : forall c e g, c_sgx c = real_oracles ->
  let ready := g_debug g = true /\ 0 < c_day c /\ 1 <= c_max_wl c in
  (passes c e g BnRate <-> ready) /\ (passes c e g BnOracle <-> ready /\ 1 <= c_max_blob c).
Proof.
  intros c e g Hc ready. split.
  - assert (lenN coingecko_src <= 40) as Hl by (vm_compute; discriminate). destruct (oracle_enclave_is c g coingecko_src Hc Hl) as [HA HB]. split.
    + intros (o & k & s1 & s' & s0 & H & _). cbn [setup] in H. apply bind_ok in H as ([] & s2 & H & _). exact (HB _ H).
    + intros HR. destruct (HA HR) as (s & x & H1 & H2 & H3).
      rewrite (passes_after c e g BnRate (Signed ias_signer4) (CTo (ToUpdateRate coingecko_src rate_pair (Some bench_rate))) s).
      2:{ cbn [setup]. rewrite (bind_fw _ _ _ _ _ H1). reflexivity. }
      assert ((dispatch c (Signed ias_signer4) (CTo (ToUpdateRate coingecko_src rate_pair (Some bench_rate))) (first_block s)).1 = Success) as Hx.
      { apply C68_teeracle_calls_accepted_exactly. exists ias_signer4, x. split; [auto|]. fb. split; [exact H2|]. split; [cbn beta zeta; fb; rewrite H3; left; auto|]. vm_compute. discriminate. }
      apply accepted in Hx as (s' & Hx). exists s'. split; [exact Hx|]. apply C69_oracle_calls_do_exactly_this in Hx as [(_ & _ & Hx & _) _].
      cbn [verify]. unfold exchange_rate. rewrite Hx. destruct (decide _); [reflexivity|tauto].
  - assert (lenN oracle_src <= 40) as Hl by (vm_compute; discriminate). destruct (oracle_enclave_is c g oracle_src Hc Hl) as [HA HB]. split.
    + intros (o & k & s1 & s' & s0 & H & _). cbn [setup] in H. apply bind_ok in H as (u & s2 & Ha & H). destruct (N.leb_spec 1 (c_max_blob c)) as [Hb|]; [|discriminate Ha].
      unfold ret in Ha. injection Ha as _ <-. apply bind_ok in H as ([] & s3 & H & _). split; [exact (HB _ H)|exact Hb].
    + intros [HR Hb]. destruct (HA HR) as (s & x & H1 & H2 & H3).
      rewrite (passes_after c e g BnOracle (Signed ias_signer4) (CTo (ToUpdateOracle oracle_name oracle_src [1])) s).
      2:{ cbn [setup]. pose proof Hb as Hb'. apply N.leb_le in Hb'. rewrite Hb'. rewrite (bind_fw _ _ _ tt (genesis_state g)) by reflexivity. rewrite (bind_fw _ _ _ _ _ H1). reflexivity. }
      assert ((dispatch c (Signed ias_signer4) (CTo (ToUpdateOracle oracle_name oracle_src [1])) (first_block s)).1 = Success) as Hx.
      { apply C68_teeracle_calls_accepted_exactly. exists ias_signer4, x. split; [auto|]. fb. split; [exact H2|]. split; [cbn beta zeta; fb; rewrite H3; left; auto|].
        split; [vm_compute; discriminate|]. split; [exact Hl|exact Hb]. }
      apply accepted in Hx as (s' & Hx). exists s'. split; [exact Hx|]. apply C69_oracle_calls_do_exactly_this in Hx as [(Hx & _) _].
      cbn [verify]. rewrite Hx. destruct (decide _); [reflexivity|tauto].
Qed.
Print Assumptions C92_oracle_benchmarks_pass_iff.
