(** * C97: which limits keep a chain from panicking, and that each of them is needed *)
From Verif Require Import Base State Env TeerdaysModel TeerexBase SgxVerifyModel TeerexModel
  EnclaveBridgeModel SidechainModel TeeracleModel ClaimsModel AssetRegistryModel XcmTransactorModel
  Runtime Frame EnvFacts Panic BridgeProofs ClaimsProofs Examples TeerdaysProps ClaimsProps BridgeProps SidechainProps
  SgxProofs SgxProps TeerexProofs TeerexProps PemProps AttestationProps AcceptProps EffectProps ErrorProps SgxErrorProps BuildProps RuntimeProps.

(** ** The limits *)
(** how much the clock advances at most *)
Fixpoint elapsed (l : list op) : N := match l with [] => 0 | ONextBlock d :: r => d + elapsed r | _ :: r => elapsed r end.
(** the claims root tries to mint *)
Fixpoint asked (l : list op) : N :=
  match l with [] => 0 | OCall Root (CCl (ClMint _ v _ _)) :: r => v + asked r | _ :: r => asked r end.
(** how often the release of the call [h] is confirmed *)
Fixpoint releases (h : bytes) (l : list op) : N :=
  match l with
  | [] => 0
  | OCall _ (CEb (EbUnshield _ _ _ h')) :: r => (if decide (h' = h) then 1 else 0) + releases h r
  | _ :: r => releases h r
  end.
(** a schedule that ends *)
Definition ends (v : N * N * N) : Prop := v.1.1 = 0 \/ v.1.2 <> 0.
Definition minted_ends (x : op) : Prop := match x with OCall Root (CCl (ClMint _ _ (Some v) _)) => ends v | _ => True end.
Definition short_account (x : op) : Prop := match x with OCall (Signed a) (CTx (TxRegister _ _ (MSkip _))) => lenN a <= 64 | _ => True end.
Definition dated (c : cfg) (x : op) : Prop :=
  match x with
  | OCall (Signed _) (CTx (TxRegisterQe doc _ _)) => forall d, or_json_identity (c_sgx c) doc = Some d -> (0 <= ei_issue d)%Z
  | OCall (Signed _) (CTx (TxRegisterTcb doc _ _)) => forall d, or_json_tcb (c_sgx c) doc = Some d -> (0 <= tj_issue d)%Z
  | _ => True
  end.
Definition limits (c : cfg) (g : genesis) (l : list op) : list Prop :=
  [ (* 0: the unlock period after the last block is representable *)
    c_ovf c = true -> g_now g + elapsed l + c_unlock c <= u64_max;
    (* 1: so is the clock, as a signed number *)
    g_now g + elapsed l <= i64_max;
    (* 2: all claims fit the balance type *)
    c_ovf c = true -> genesis_claims g + asked l <= c_bal_max c;
    (* 3: no release is confirmed 2^64 times *)
    c_ovf c = true -> forall h, releases h l <= u64_max;
    (* 4, 5: vesting schedules of claims end *)
    Forall (fun v => ends v.2) (g_vesting g);
    Forall minted_ends l;
    (* 6: accounts that skip attestation have at most 64 bytes *)
    Forall short_account l;
    (* 7: Intel dates its documents after 1970 *)
    Forall (dated c) l ].

(** ** Single calls *)
Lemma register_quiet c a p u m s : (forall x, m = MSkip x -> lenN a <= 64) ->
  (dispatch c (Signed a) (CTx (TxRegister p u m)) s).1 <> Panicked.
Proof.
  intros Ha H. unfold dispatch, run_call in H. cbn [exec tx_exec] in H.
  destruct (register_sgx_enclave c (Signed a) p u m s) as [|e|] eqn:HP; try discriminate H. clear H. revert HP.
  enough (np (register_sgx_enclave c (Signed a) p u m)) as Hnp by exact (Hnp s).
  assert (forall A (r : res A), rnp r -> np (lift_res r)) as Hl.
  { intros A r Hr t. destruct r; cbn; [discriminate|discriminate|contradiction]. }
  intros t. unfold register_sgx_enclave. rewrite (bind_fw _ _ t a t) by reflexivity.
  match goal with |- ?k t <> Panic => enough (np k) as Hx by exact (Hx t) end.
  apply np_bind; [apply np_ensure|]. intros _. apply np_bind; [destruct u; [apply np_ensure|apply np_ret]|]. intros _.
  apply np_bind.
  - destruct m as [pr| |pr].
    + specialize (Ha pr eq_refl). unfold reg_skip. apply np_bind; [apply np_gets|]. intros al. apply np_bind; [apply np_ensure|]. intros _.
      apply np_bind; [apply np_gets|]. intros n. destruct (N.leb_spec (lenN a) 64); [apply np_ret|lia].
    + unfold reg_ias, ensure_within_24h. apply np_bind; [apply Hl, verify_ias_np|]. intros r. apply np_bind.
      { apply np_bind; [apply np_gets|]. intros n. apply np_bind; [apply np_ensure|]. intros _. apply np_ensure. }
      intros _. apply np_bind; [apply np_ensure|]. intros _. apply np_ret.
    + unfold reg_dcap. apply np_bind; [apply np_gets|]. intros n. apply np_bind; [apply np_gets|]. intros qe.
      apply np_bind; [apply Hl, verify_dcap_np|]. intros [[fm tcb] r].
      apply np_bind; [destruct (negb pr); [apply np_ensure|apply np_ret]|]. intros _.
      apply np_bind; [apply np_gets|]. intros ref. apply np_bind; [apply np_ok_or|]. intros ref'.
      apply np_bind; [apply np_ok_or|]. intros st. apply np_ret.
  - intros e. apply np_bind; [apply np_gets|]. intros d. apply np_bind; [apply np_ensure|]. intros _.
    apply np_bind; [|intros _; apply np_modify]. unfold add_enclave. destruct (is_proxied _); apply np_modify.
Qed.
Lemma answers_panic l : answers l Panicked -> exists P, In (P, Panicked) l /\ ~ P.
Proof. induction l as [|[P r] l IH]; cbn; [discriminate|]. intros [[_ H]|[Q ->]]; [destruct (IH H) as (R & ? & ?); eauto|eauto]. Qed.
(** the state leaves room for the calls to come *)
Definition room (c : cfg) (s : rt) (l : list op) : Prop :=
  (c_ovf c = true -> rt_now s + elapsed l + c_unlock c <= u64_max) /\
  rt_now s + elapsed l <= i64_max /\
  (c_ovf c = true -> cl_total (rt_cl s) + asked l <= c_bal_max c) /\
  (c_ovf c = true -> forall h, confirmations s h + releases h l <= u64_max) /\
  (forall who v, cl_vesting (rt_cl s) !! who = Some v -> ends v) /\
  Forall minted_ends l /\ Forall short_account l /\ Forall (dated c) l.
Ltac no_unmet H := let P := fresh "P" in apply answers_panic in H as (P & H & ?); cbn in H;
  repeat match goal with H : _ \/ _ |- _ => destruct H as [H|H] end; try discriminate H; try contradiction H.
Lemma room_quiet c g p o k r : let s := run c (genesis_state g) p in
  room c s (OCall o k :: r) -> (dispatch c o k s).1 <> Panicked.
Proof.
  intros s (R0 & R1 & R2 & R3 & R4 & R5 & R6 & R7) H.
  apply Forall_inv in R5, R6, R7. cbn [elapsed] in *.
  destruct k as [k|k|k|k|k|k|k|k].
  - apply C60_teerdays_panics_only_on_clock_overflow in H as (Ho & H & _). specialize (R0 Ho). lia.
  - apply C70_bridge_answers in H. fold s in H. destruct k; try (destruct o; no_unmet H; fail).
    destruct o as [|a|]; try (no_unmet H; fail). cbn [eb_demands] in H.
    assert (c_ovf c = true /\ u64_max < confirmations s call_hash + 1) as [Ho Hc].
    { apply answers_panic in H as (P & H & Np). cbn in H.
      repeat match goal with H : _ \/ _ |- _ => destruct H as [H|H] end; try discriminate H.
      apply in_app_or in H as [H|H]. 
      - destruct (decide _); cbn in H; repeat match goal with H : _ \/ _ |- _ => destruct H as [H|H] end; try discriminate H; contradiction H.
      - destruct H as [H|[]]. injection H as <-. destruct (c_ovf c); [|exfalso; apply Np; discriminate]. split; [auto|].
        destruct (N.leb_spec (confirmations s call_hash + 1) u64_max); [|lia]. exfalso. apply Np. auto. }
    specialize (R3 Ho call_hash). cbn [releases] in R3. rewrite decide_True in R3 by reflexivity. lia.
  - exact (C23_confirmation_never_panics _ _ _ _ H).
  - apply C70_teeracle_answers in H. destruct k; no_unmet H.
  - destruct k as [pf u m|w|w|d sg ch|d sg ch|sk dbg].
    + destruct o as [|a|]; try discriminate H. revert H. apply register_quiet. intros x ->. exact R6.
    + revert H. unfold dispatch, run_call. cbn [exec tx_exec].
      assert (np (unregister_sovereign c o w)) as Hn by (unfold unregister_sovereign; np_tac).
      specialize (Hn s). destruct (unregister_sovereign c o w s); [discriminate|discriminate|contradiction].
    + revert H. unfold dispatch, run_call. cbn [exec tx_exec].
      assert (np (unregister_proxied c o w)) as Hn by (unfold unregister_proxied; np_tac).
      specialize (Hn s). destruct (unregister_proxied c o w s); [discriminate|discriminate|contradiction].
    + apply (proj1 (C38_panic_iff_unrepresentable_date c o d sg ch s)) in H as (a & x & -> & Ha & [Hn|(_ & _ & Hn & _)]); [lia|].
      destruct Ha as [_ Ha]. specialize (R7 _ Ha). lia.
    + apply (proj2 (C38_panic_iff_unrepresentable_date c o d sg ch s)) in H as (a & x & -> & Ha & [Hn|(_ & _ & Hn & _)]); [lia|].
      destruct Ha as [_ Ha]. specialize (R7 _ Ha). lia.
    + revert H. unfold dispatch, run_call. cbn [exec tx_exec]. unfold set_security_flags. destruct o; discriminate.
  - apply C48_panic_iff in H as [(dest & signer & due & lk & st & _ & _ & _ & _ & Hv & Hl & _)|(w & v & vs & st & -> & -> & Ho & Hv)].
    + destruct (R4 _ _ Hv) as [E|E]; cbn in E; contradiction.
    + specialize (R2 Ho). cbn [asked] in R2. lia.
  - apply C70_registry_answers in H. destruct k; no_unmet H.
  - apply C70_swap_answers in H. destruct k; no_unmet H.
Qed.
(** ** The room shrinks as announced *)
Lemma now_step c s x : rt_now (step c s x) <= rt_now s + match x with ONextBlock d => d | _ => 0 end.
Proof.
  assert (op_may_write x PClock = false -> rt_now (step c s x) = rt_now s) as H.
  { intros H. pose proof (step_same c s x PClock H) as E. cbn in E. unfold v_clock in E. congruence. }
  destruct x as [o k| | | | | | | | | |]; try (rewrite H by reflexivity; lia).
  - rewrite H by (destruct k; reflexivity). lia.
  - cbn [step]. unfold next_block. destruct (_ <=? _); cbn; lia.
Qed.
Lemma total_step c s x : (c_ovf c = true \/ cl_total (rt_cl s) + match x with OCall Root (CCl (ClMint _ v _ _)) => v | _ => 0 end <= c_bal_max c) ->
  cl_total (rt_cl (step c s x)) <= cl_total (rt_cl s) + match x with OCall Root (CCl (ClMint _ v _ _)) => v | _ => 0 end.
Proof.
  intros Hw. destruct (claims_step c s x) as [(-> & _)|(o & k & -> & E)]; [lia|].
  destruct k; cbn [cl_exec] in E.
  - apply claim_ok in E as (-> & sg & _ & _ & E). apply process_ok in E as (due & _ & _ & _ & _ & -> & _). cbn. lia.
  - apply mint_ok in E as (-> & t & Ht & ->). cbn. destruct Ht as [[_ ->]|[H1 H2]]; [lia|]. destruct Hw as [Hw|Hw]; [congruence|lia].
  - apply claim_attest_ok in E as (-> & sg & _ & _ & E). apply process_ok in E as (due & _ & _ & _ & _ & -> & _). cbn. lia.
  - apply attest_ev in E as (a & sg & due & -> & _ & _ & _ & _ & -> & _). cbn. lia.
  - apply move_ok in E as (_ & ->). cbn. destruct o; lia.
Qed.
Lemma vesting_step c s x : minted_ends x -> (forall who v, cl_vesting (rt_cl s) !! who = Some v -> ends v) ->
  forall who v, cl_vesting (rt_cl (step c s x)) !! who = Some v -> ends v.
Proof.
  intros Hx Hs. destruct (claims_step c s x) as [(-> & _)|(o & k & -> & E)]; [exact Hs|].
  destruct k; cbn [cl_exec] in E.
  - apply claim_ok in E as (-> & sg & _ & _ & E). apply process_ok in E as (due & _ & _ & _ & _ & -> & _). cbn.
    intros who v H. apply lookup_delete_Some in H as [_ H]. eauto.
  - apply mint_ok in E as (-> & t & _ & ->). cbn in Hx |- *. intros w v. destruct vs as [y|]; [|apply Hs].
    intros H. apply lookup_insert_Some in H as [[_ <-]|[_ H]]; eauto.
  - apply claim_attest_ok in E as (-> & sg & _ & _ & E). apply process_ok in E as (due & _ & _ & _ & _ & -> & _). cbn.
    intros who v H. apply lookup_delete_Some in H as [_ H]. eauto.
  - apply attest_ev in E as (a & sg & due & -> & _ & _ & _ & _ & -> & _). cbn.
    intros who v H. apply lookup_delete_Some in H as [_ H]. eauto.
  - apply move_ok in E as (_ & ->). cbn. intros w v H. unfold move_key in H.
    destruct (cl_vesting (rt_cl s) !! old) as [y|] eqn:Ey; [|eauto].
    apply lookup_insert_Some in H as [[_ <-]|[_ H]]; [eauto|]. apply lookup_delete_Some in H as [_ H]. eauto.
Qed.
Lemma count_step c s x h : confirmations s h + releases h [x] <= u64_max ->
  confirmations (step c s x) h <= confirmations s h + releases h [x].
Proof.
  intros Hm. pose proof (counter_step c s x h) as H. cbv zeta in H. unfold confirmations in *.
  destruct (is_unshield h x && succeeds c s x) eqn:E.
  - apply andb_true_iff in E as [E _].
    assert (releases h [x] = 1) as E1.
    { destruct x as [o k| | | | | | | | | |]; try discriminate E. destruct k as [|k| | | | | |]; try discriminate E.
      destruct k; try discriminate E. cbn in E |- *. apply beq_true in E. rewrite decide_True by congruence. reflexivity. }
    rewrite E1 in *. destruct H as [(-> & -> & _)|(m & m' & H1 & -> & H & _)]; [cbn; lia|]. rewrite H1 in *. change (default 0 (Some m)) with m in *.
    rewrite H by lia. change (default 0 (Some ?x)) with x. lia.
  - destruct H as [-> _]. lia.
Qed.
Lemma room_step c s x l : room c s (x :: l) -> room c (step c s x) l.
Proof.
  intros (R0 & R1 & R2 & R3 & R4 & R5 & R6 & R7).
  apply Forall_cons in R5 as [X5 R5], R6 as [X6 R6], R7 as [X7 R7].
  assert (elapsed (x :: l) = match x with ONextBlock d => d | _ => 0 end + elapsed l) as E1 by (destruct x; reflexivity).
  assert (asked (x :: l) = match x with OCall Root (CCl (ClMint _ v _ _)) => v | _ => 0 end + asked l) as E2.
  { destruct x as [[] k| | | | | | | | | |]; try reflexivity. destruct k as [| | | | |k| |]; try reflexivity. destruct k; reflexivity. }
  assert (forall h, releases h (x :: l) = releases h [x] + releases h l) as E3.
  { intros h. destruct x as [o k| | | | | | | | | |]; try reflexivity. destruct k as [|k| | | | | |]; try reflexivity. destruct k; cbn; lia. }
  rewrite E1 in *. rewrite E2 in R2. pose proof (now_step c s x). unfold room.
  split; [intros Ho; specialize (R0 Ho); lia|]. split; [lia|].
  split; [intros Ho; specialize (R2 Ho); pose proof (total_step c s x (or_introl Ho)); lia|].
  split; [intros Ho h; specialize (R3 Ho h); rewrite E3 in R3; pose proof (count_step c s x h); lia|].
  split; [apply vesting_step; auto|auto].
Qed.
Lemma room_genesis c g l : Forall id (limits c g l) -> room c (genesis_state g) l.
Proof.
  unfold limits. rewrite !Forall_cons. unfold id. intros (R0 & R1 & R2 & R3 & R4 & R5 & R6 & R7 & _).
  unfold room. split; [exact R0|]. split; [exact R1|].
  split; [intros Ho; specialize (R2 Ho); cbn; rewrite claims_genesis_total; exact R2|].
  split; [exact R3|]. split; [|auto]. cbn.
  assert (forall w (m : gmap bytes (N * N * N)), Forall (fun v => ends v.2) w -> (forall who v, m !! who = Some v -> ends v) ->
    forall who v, fold_left (fun m x => <[x.1 := x.2]> m) w m !! who = Some v -> ends v) as Hf.
  { induction w as [|y w IH]; intros m Hw Hm; cbn [fold_left]; [exact Hm|]. apply Forall_cons in Hw as [Hy Hw]. apply IH; [exact Hw|].
    intros who v H. apply lookup_insert_Some in H as [[_ <-]|[_ H]]; eauto. }
  apply (Hf _ ∅ R4). intros who v H. rewrite lookup_empty in H. discriminate H.
Qed.
(** ** Within the limits nothing panics *)
Theorem C97_no_call_panics_within_the_limits : forall c g l, Forall id (limits c g l) -> no_panics c (genesis_state g) l.
Proof.
  intros c g l H. apply room_genesis in H.
  enough (forall l p, room c (run c (genesis_state g) p) l -> no_panics c (run c (genesis_state g) p) l) as G by exact (G l [] H).
  clear l H. induction l as [|x l IH]; intros p H; cbn [no_panics]; [exact I|]. split.
  - intros o k ->. exact (room_quiet c g p o k l H).
  - rewrite <- run_snoc. apply IH. rewrite run_snoc. apply room_step, H.
Qed.
Print Assumptions C97_no_call_panics_within_the_limits.
(** So builds with and without overflow checks do the same. *)
Theorem C97_builds_agree_within_the_limits : forall c g l, Forall id (limits (checked c) g l) ->
  run (wrapping c) (genesis_state g) l = run (checked c) (genesis_state g) l.
Proof. intros c g l H. apply C79_histories_agree, C97_no_call_panics_within_the_limits, H. Qed.
Print Assumptions C97_builds_agree_within_the_limits.

(** ** Each limit is needed *)
(** a release that is confirmed over and over *)
Definition again : op := call_eb alice (EbUnshield (acc 9) carol 100 [7]).
Definition opening : list op := [register alice (acc 9); call_eb bob (EbShield (acc 9) [] 500); again].
Definition base : rt := run cfg0 (genesis_state (gen0 [bob])) opening.
Definition counted (n : N) : rt := put_exec [7] n base.
Definition seen : enclave * list sstat := match get_enclave_and_touch alice (acc 9) (rt_blk base) base with Ok p _ => p | _ => (mkEnclave [] [] [] 0 None MDebug MIas StOk, []) end.
Lemma again_generic c s e n h sh b v : get_enclave_and_touch alice sh (rt_blk s) s = Ok e s -> eb_exec (rt_eb s) !! h = Some n -> c_ovf c = true ->
  dispatch c (Signed alice) (CEb (EbUnshield sh b v h)) s = if n + 1 <=? u64_max then (Success, put_exec h (n + 1) s) else (Panicked, s).
Proof.
  intros He Hn Ho. unfold dispatch, run_call. cbn [exec eb_exec_call]. unfold unshield_funds.
  rewrite (bind_fw _ _ s alice s) by reflexivity. rewrite (bind_fw _ _ s (rt_blk s) s) by reflexivity.
  rewrite (bind_fw _ _ s e s) by exact He. rewrite (bind_fw _ _ s (Some n) s) by (unfold gets; rewrite Hn; reflexivity).
  rewrite (bind_fw _ _ s tt s) by reflexivity. rewrite (bind_fw _ _ s n s) by (unfold gets; rewrite Hn; reflexivity).
  unfold plain_add. rewrite Ho. destruct (n + 1 <=? u64_max); reflexivity.
Qed.
Lemma touch_frame a sh b h n s e s' : eb_config (rt_eb s) !! sh = None -> get_enclave_and_touch a sh b s = Ok e s' ->
  get_enclave_and_touch a sh b (put_exec h n s) = Ok e (put_exec h n s').
Proof.
  intros Hc. unfold get_enclave_and_touch, get_sovereign_enclave, get_config, touch_shard, bind, gets, ok_or, ret, ensure, modify, fail.
  change (tx_sov (rt_tx (put_exec h n s))) with (tx_sov (rt_tx s)).
  destruct (tx_sov (rt_tx s) !! a) as [y|]; [|discriminate].
  change (eb_config (rt_eb (put_exec h n s))) with (eb_config (rt_eb s)). rewrite Hc.
  destruct (beq _ _); [|discriminate]. unfold ret.
  change (eb_status (rt_eb (put_exec h n s))) with (eb_status (rt_eb s)).
  match goal with |- context[?x <=? ?y] => destruct (x <=? y) end; [|discriminate]. intros E. injection E as <- <-. reflexivity.
Qed.
Lemma touch_again a sh b s y l : eb_config (rt_eb s) !! sh = None -> tx_sov (rt_tx s) !! a = Some y ->
  beq (fingerprint y) (sc_fp (new_scfg sh)) = true -> eb_status (rt_eb s) !! sh = Some l ->
  touch_list (mkSstat a (fingerprint y) b) l = l -> lenN l <=? max_signers = true ->
  get_enclave_and_touch a sh b s = Ok (y, l) s.
Proof.
  intros Hc Hy Hf Hl Ht Hn. unfold get_enclave_and_touch, get_sovereign_enclave, get_config, touch_shard, bind, gets, ok_or, ret, ensure, modify, fail.
  rewrite Hy, Hc, Hf. unfold ret. rewrite Hl, Ht, Hn. unfold ret, put_status, set_eb. rewrite (insert_id _ _ _ Hl).
  destruct s as [? ? ? ? ? []]. reflexivity.
Qed.
Lemma put_exec_twice h n m s : put_exec h m (put_exec h n s) = put_exec h m s.
Proof. unfold put_exec, set_eb. cbn. rewrite insert_insert. reflexivity. Qed.
Lemma put_exec_same h n s : eb_exec (rt_eb s) !! h = Some n -> put_exec h n s = s.
Proof. intros H. unfold put_exec, set_eb. rewrite (insert_id _ _ _ H). destruct s as [? ? ? ? ? []]. reflexivity. Qed.
Lemma again_step n : dispatch cfg0 (Signed alice) (CEb (EbUnshield (acc 9) carol 100 [7])) (counted n) =
  if n + 1 <=? u64_max then (Success, counted (n + 1)) else (Panicked, counted n).
Proof.
  unfold counted. rewrite <- (put_exec_twice [7] n (n + 1)). apply (again_generic _ _ seen); [|apply lookup_insert|reflexivity].
  apply touch_frame; [vm_compute; reflexivity|]. destruct seen as [y l] eqn:E. apply touch_again; [vm_compute; reflexivity|..];
    vm_compute in E; injection E as <- <-; vm_compute; reflexivity.
Qed.
Lemma again_run m : forall n, n + N.of_nat m <= u64_max -> run cfg0 (counted n) (replicate m again) = counted (n + N.of_nat m).
Proof.
  induction m as [|m IH]; intros n H; [rewrite N.add_0_r; reflexivity|]. cbn [replicate]. rewrite run_cons.
  unfold again at 1, call_eb. cbn [step]. rewrite again_step. destruct (N.leb_spec (n + 1) u64_max); [|lia]. cbn [snd].
  rewrite IH by lia. f_equal. lia.
Qed.
Lemma no_panics_app c l1 l2 s : no_panics c s (l1 ++ l2) <-> no_panics c s l1 /\ no_panics c (run c s l1) l2.
Proof.
  revert s. induction l1 as [|x l1 IH]; intros s; cbn [app no_panics]; [tauto|]. rewrite IH, run_cons. tauto.
Qed.
Lemma base_counted : run cfg0 (genesis_state (gen0 [bob])) opening = counted 1.
Proof. symmetry. apply put_exec_same. vm_compute. reflexivity. Qed.
(** the [2^64]-th confirmation panics *)
Lemma again_panics n : N.of_nat n = u64_max - 1 ->
  ~ no_panics cfg0 (genesis_state (gen0 [bob])) (opening ++ replicate n again ++ [again]).
Proof.
  intros Hn H. apply no_panics_app in H as [_ H]. rewrite base_counted in H.
  apply no_panics_app in H as [_ H]. rewrite again_run in H by (unfold u64_max in *; lia).
  destruct H as [H _]. specialize (H _ _ eq_refl). apply H. rewrite again_step.
  destruct (N.leb_spec (1 + N.of_nat n + 1) u64_max); [unfold u64_max in *; lia|reflexivity].
Qed.

Lemma releases_le h l : releases h l <= lenN l.
Proof.
  unfold lenN. induction l as [|x l IH]; [cbn; lia|]. cbn [length].
  destruct x as [o k| | | | | | | | | |]; try (cbn [releases]; lia). destruct k as [|k| | | | | |]; try (cbn [releases]; lia).
  destruct k; cbn [releases]; try lia. destruct (decide _); lia.
Qed.
Ltac small := repeat (apply List.Forall_cons || apply List.Forall_nil); cbn;
  try exact I; try (intros ? ?; discriminate); try (vm_compute; discriminate); try (left; reflexivity); try (right; discriminate).
Ltac kept := let j := fresh "j" in let P := fresh "P" in let H := fresh "H" in let Hj := fresh "Hj" in
  intros j P H Hj; destruct j as [|[|[|[|[|[|[|[|j]]]]]]]]; try discriminate H;
  cbn [limits lookup list_lookup] in H; injection H as <-; try contradiction (Hj eq_refl); try (intros _; intros ?; etransitivity; [apply releases_le|]; vm_compute; discriminate);
  try (intros _; vm_compute; discriminate); try (vm_compute; discriminate); try small.
Definition sgx_late : sgx_oracles :=
  mkSgx (fun _ => zeros 32) (fun b => Some b) (fun _ => true) (fun _ _ _ => true) (fun _ _ => true)
        (fun _ _ _ => true) (fun _ _ _ => true) (fun _ _ _ => true) (fun _ => None)
        (fun _ => Some (mkIdentity str_QE 2 1 9000 (zeros 4) (zeros 4) (zeros 16) (zeros 16) (zeros 32) 1 []))
        (fun _ => None) (fun _ => None) (fun _ => None).
Definition cfg_late : cfg :=
  mkCfg true 10 340282366920938463463374607431768211455 u32_max 1000 86400000 172800000 3 64
        [] (fun _ => false) (fun _ => false) (fun _ => false) 2267 2039 2039
        (fun b => takeN 32 (b ++ zeros 32)) (fun _ _ => None) (fun _ => inr []) sgx_late.
Definition late : genesis := mkGenesis (i64_max + 1) ∅ [] [] false true ∅.
Definition register_qe : op := OCall (Signed bob) (CTx (TxRegisterQe [1] (zeros 64) pem_demo)).
Definition mint_endless : op := OCall Root (CCl (ClMint (eth 1) 100 (Some (50, 0, 0)) None)).
Lemma no_panics_last c s l o k : (dispatch c o k (run c s l)).1 = Panicked -> ~ no_panics c s (l ++ [OCall o k]).
Proof. intros H N. apply no_panics_app in N as [_ [N _]]. exact (N _ _ eq_refl H). Qed.
Theorem C97_each_limit_is_needed : forall i, (i < 8)%nat -> exists c g l,
  ~ no_panics c (genesis_state g) l /\ forall j (P : Prop), limits c g l !! j = Some P -> j <> i -> P.
Proof.
  intros i Hi. destruct i as [|[|[|[|[|[|[|[|i]]]]]]]]; [..|lia].
  - exists (mk_cfg true 10 u64_max), (gen0 [alice]), ([call_td alice (TdBond 300)] ++ [call_td alice (TdUnbond 100)]).
    split; [apply no_panics_last; vm_compute; reflexivity|kept].
  - exists cfg_late, late, ([] ++ [register_qe]). split; [apply no_panics_last; vm_compute; reflexivity|kept].
    intros d E. injection E as <-. discriminate.
  - exists cfg0, (gen0 []), ([do_mint 1 (c_bal_max cfg0)] ++ [do_mint 2 1]). split; [apply no_panics_last; vm_compute; reflexivity|kept].
  - assert (exists n, N.of_nat n = u64_max - 1) as [n Hn] by (exists (N.to_nat (u64_max - 1)); apply N2Nat.id).
    eexists cfg0, (gen0 [bob]), _. split; [exact (again_panics n Hn)|]. clear Hn.
    assert (forall l, elapsed (replicate n again ++ l) = elapsed l) as E1 by (intros l; induction n as [|n IH]; [reflexivity|exact IH]).
    assert (forall l, asked (replicate n again ++ l) = asked l) as E2 by (clear E1; intros l; induction n as [|n IH]; [reflexivity|exact IH]).
    assert (forall Q : op -> Prop, Forall Q (replicate n again) -> Forall Q opening ->
      Forall Q (opening ++ replicate n again ++ [again])) as E3.
    { intros Q H1 H2. rewrite !Forall_app. split; [exact H2|]. split; [exact H1|].
      apply Forall_cons in H2 as [_ H2]. apply Forall_cons in H2 as [_ H2]. exact H2. }
    intros j P H Hj. destruct j as [|[|[|[|[|[|[|[|j]]]]]]]]; [..|discriminate H]; cbn [limits lookup list_lookup] in H; injection H as <-.
    + intros _. cbn [opening app elapsed register call_eb again]. rewrite E1. vm_compute. discriminate.
    + cbn [opening app elapsed register call_eb again]. rewrite E1. vm_compute. discriminate.
    + intros _. cbn [opening app asked register call_eb again]. rewrite E2. vm_compute. discriminate.
    + contradiction (Hj eq_refl).
    + constructor.
    + apply E3; [apply Forall_replicate; exact I|unfold opening; small].
    + apply E3; [apply Forall_replicate; exact I|unfold opening; small].
    + apply E3; [apply Forall_replicate; exact I|unfold opening; small].
  - exists (cfg_cl true 5), (gen_cl [(eth 1, 100, None, None)] [(eth 1, (50, 0, 0))]), ([] ++ [OCall NoneO (CCl claim1)]).
    split; [apply no_panics_last; vm_compute; reflexivity|kept].
  - exists (cfg_cl true 5), (gen_cl [] []), ([mint_endless] ++ [OCall NoneO (CCl claim1)]).
    split; [apply no_panics_last; vm_compute; reflexivity|kept].
  - exists cfg0, (gen0 []), ([] ++ [register (replicate 65 1) (acc 9)]). split; [apply no_panics_last; vm_compute; reflexivity|kept].
  - exists cfg_negative, (gen0 []), ([] ++ [register_qe]). split; [apply no_panics_last; vm_compute; reflexivity|kept].
Qed.
Print Assumptions C97_each_limit_is_needed.
(** A history within all limits: every call succeeds, the clock advances, a release is confirmed three
    times, a claim with a vesting schedule is minted and a document of Intel's is registered. *)
Definition busy : list op :=
  opening ++ [again; again; call_td bob (TdBond 300); ONextBlock 6000; call_td bob (TdUnbond 100);
              OCall Root (CCl (ClMint (eth 1) 100 (Some (50, 5, 0)) None));
              OCall (Signed bob) (CTx (TxRegisterQe [100; 900000; 7] (zeros 64) pem_demo))].
Example C97_example : Forall id (limits cfg_dcap (gen0 [bob]) busy) /\
  let s := run cfg_dcap (genesis_state (gen0 [bob])) busy in
  rt_now s = 11000 /\ confirmations s [7] = 3 /\ cl_total (rt_cl s) = 100 /\ tx_qe (rt_tx s) <> tx_qe (rt_tx (genesis_state (gen0 [bob]))).
Proof.
  split; [|vm_compute; repeat split; discriminate].
  unfold limits. repeat apply List.Forall_cons; [..|apply List.Forall_nil]; unfold id;
  try (intros _; intros ?; etransitivity; [apply releases_le|]; vm_compute; discriminate);
  try (intros _; vm_compute; discriminate); try (vm_compute; discriminate); try (unfold busy, opening; cbn [app]; small).
  intros d E. vm_compute in E. injection E as <-. discriminate.
Qed.
