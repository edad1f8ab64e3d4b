(** * C79: builds with and without overflow checks agree, except that the former panic.

    Cargo profile: wasm release builds wrap, builds with [overflow-checks] panic; [c_ovf] selects. *)
From Verif Require Import Base State Env TeerdaysModel TeerexBase SgxVerifyModel TeerexModel
  EnclaveBridgeModel SidechainModel TeeracleModel ClaimsModel AssetRegistryModel XcmTransactorModel
  Runtime Frame EnvFacts Panic BridgeProofs Examples TeerdaysProps ClaimsProps BridgeProps.

Definition with_ovf (b : bool) (c : cfg) : cfg :=
  mkCfg b (c_ed c) (c_bal_max c) (c_blk_max c) (c_unlock c) (c_day c) (c_renewal c) (c_max_wl c) (c_max_blob c)
        (c_prefix c) (c_move_origin c) (c_asset_origin c) (c_swap_origin c)
        (c_shell_id c) (c_integritee_id c) (c_own_para c) (c_keccak c) (c_secp c) (c_router c) (c_sgx c).
Notation checked := (with_ovf true).
Notation wrapping := (with_ovf false).

(** Bodies that agree up to panics of the first *)
Definition agree {A} (m1 m2 : RM A) : Prop := forall s, m1 s = m2 s \/ m1 s = Panic.
Lemma agree_refl {A} (m : RM A) : agree m m.
Proof. left. reflexivity. Qed.
Lemma agree_bind {A B} (m1 m2 : RM A) (k1 k2 : A -> RM B) :
  agree m1 m2 -> (forall a, agree (k1 a) (k2 a)) -> agree (bind m1 k1) (bind m2 k2).
Proof.
  intros Hm Hk s. unfold bind. destruct (Hm s) as [->| ->]; [|right; reflexivity].
  destruct (m2 s) as [a s'|e s'|]; [apply Hk|left; reflexivity|left; reflexivity].
Qed.
Lemma agree_add mx a b : agree (plain_add true mx a b) (plain_add false mx a b).
Proof. intros s. unfold plain_add. destruct (_ <=? _); [left|right]; reflexivity. Qed.
Ltac agree_tac := repeat first [apply agree_refl | apply agree_add | apply agree_bind; [|intros] | progress cbv zeta].

(** The three sums that are not checked by the code itself, and where they leave their type *)
Definition overflows (c : cfg) (k : call) (s : rt) : Prop :=
  match k with
  | CTd (TdUnbond _) => u64_max < rt_now s + c_unlock c
  | CEb (EbUnshield _ _ _ h) => u64_max <= default 0 (eb_exec (rt_eb s) !! h)
  | CCl (ClMint _ v _ _) => c_bal_max c < cl_total (rt_cl s) + v
  | _ => False
  end.

Lemma exec_agree c o k : agree (exec (checked c) o k) (exec (wrapping c) o k).
Proof.
  destruct k as [x|x|x|x|x|x|x|x]; destruct x;
    cbn [exec td_exec eb_exec_call sc_exec to_exec tx_exec cl_exec ar_exec xt_exec]; try (apply agree_refl).
  - unfold td_unbond. agree_tac.
  - unfold unshield_funds. agree_tac.
  - unfold mint_claim. agree_tac.
Qed.

(** Whatever a build with overflow checks does without panicking, the one without does too. *)
Theorem C79_builds_agree_unless_panic : forall c o k s,
  (dispatch (checked c) o k s).1 <> Panicked -> dispatch (wrapping c) o k s = dispatch (checked c) o k s.
Proof.
  intros c o k s H. unfold dispatch, run_call in *. destruct (exec_agree c o k s) as [->|E]; [reflexivity|].
  rewrite E in H. contradiction.
Qed.
Print Assumptions C79_builds_agree_unless_panic.
Lemma unshield_panic c o sh b v h s : unshield_funds c o sh b v h s = Panic ->
  u64_max <= default 0 (eb_exec (rt_eb s) !! h).
Proof.
  intros HP. unfold unshield_funds in HP. inv_panic HP;
    try (exfalso; revert HP; match goal with |- ?m ?z = Panic -> _ => enough (np m) as Hnp by exact (Hnp z) end;
         unfold get_enclave_and_touch, get_config, touch_shard; np_tac; fail).
  match goal with Hx : get_enclave_and_touch _ _ _ _ = Ok ?p _ |- _ => destruct p; apply get_enclave_ok in Hx as (_ & _ & _ & ->); [|reflexivity] end.
  assert (forall m, @plain_add rt error (c_ovf c) u64_max m 1 = ret (m + 1) \/ u64_max <= m) as Hpa.
  { intros m. unfold plain_add. destruct (N.leb_spec (m + 1) u64_max); [auto|right; lia]. }
  match type of HP with plain_add _ _ ?m _ _ = Panic => destruct (Hpa m) as [E|Hle]; [rewrite E in HP; discriminate|] end.
  match goal with Hx : match ?q with Some _ => _ | None => _ end _ = Ok _ _ |- _ => destruct q eqn:Eq end.
  - match goal with Hx : ret () _ = Ok _ _ |- _ => inv_rt Hx end.
    cbn in Hle. rewrite enact_exec in Hle. exact Hle.
  - match goal with Hx : bind _ _ _ = Ok _ _ |- _ => inv_rt Hx end.
    cbn in Hle. rewrite lookup_insert in Hle. cbn in Hle. unfold u64_max in Hle. lia.
Qed.
(** They differ only where one of three sums leaves its type. *)
Theorem C79_builds_differ_only_on_overflow : forall c o k s,
  dispatch (wrapping c) o k s <> dispatch (checked c) o k s ->
  (dispatch (checked c) o k s).1 = Panicked /\ overflows c k s.
Proof.
  intros c o k s H.
  assert ((dispatch (checked c) o k s).1 = Panicked) as HP.
  { destruct (dispatch (checked c) o k s).1 eqn:E; [| |auto]; exfalso; apply H, C79_builds_agree_unless_panic; congruence. }
  split; [exact HP|].
  destruct k as [x|x|x|x|x|x|x|x]; destruct x; try (exfalso; apply H; reflexivity).
  - apply C60_teerdays_panics_only_on_clock_overflow in HP as (_ & HP & _). exact HP.
  - unfold dispatch, run_call in HP. cbn [exec eb_exec_call] in HP.
    destruct (unshield_funds (checked c) o shard benef amount call_hash s) eqn:E; try discriminate.
    exact (unshield_panic _ _ _ _ _ _ _ E).
  - apply C48_panic_iff in HP as [(dest & signer & due & l & st0 & Ha & _)|(who' & v & vs' & st' & [= <- <- <- <-] & _ & _ & HP)].
    + contradiction Ha.
    + exact HP.
Qed.
Print Assumptions C79_builds_differ_only_on_overflow.

(** Histories: the builds stay together as long as no call panics in the checked one. *)
Fixpoint no_panics (c : cfg) (s : rt) (l : list op) : Prop :=
  match l with
  | [] => True
  | x :: r => (forall o k, x = OCall o k -> (dispatch c o k s).1 <> Panicked) /\ no_panics c (step c s x) r
  end.
Lemma step_agree c s x : (forall o k, x = OCall o k -> (dispatch (checked c) o k s).1 <> Panicked) ->
  step (wrapping c) s x = step (checked c) s x.
Proof.
  intros H. destruct x; try reflexivity. cbn [step]. rewrite C79_builds_agree_unless_panic; [reflexivity|apply H; reflexivity].
Qed.
Theorem C79_histories_agree : forall c l s, no_panics (checked c) s l -> run (wrapping c) s l = run (checked c) s l.
Proof.
  intros c l. induction l as [|x l IH]; intros s H; [reflexivity|]. destruct H as [H1 H2]. rewrite !run_cons.
  rewrite (step_agree c s x H1). apply IH, H2.
Qed.
Print Assumptions C79_histories_agree.

Example C79_example_agree :
  let l := [call_td alice (TdBond 300); ONextBlock 500; call_td alice (TdUnbond 100);
            OCall Root (CCl (ClMint (replicate 20 1) 900 None None))] in
  no_panics (checked cfg0) (genesis_state (gen0 [alice])) l /\
  cl_total (rt_cl (run (wrapping cfg0) (genesis_state (gen0 [alice])) l)) = 900.
Proof. cbn zeta. split; [|vm_compute; reflexivity]. repeat split; intros o k [= <- <-]; vm_compute; discriminate. Qed.
(** A difference: where the checked build panics, the other one accepts and wraps *)
Example C79_example_differ :
  let s := run cfg0 (genesis_state (gen0 [alice])) [OCall Root (CCl (ClMint (replicate 20 1) 900 None None))] in
  let k := CCl (ClMint (replicate 20 2) (c_bal_max cfg0) None None) in
  (dispatch (checked cfg0) Root k s).1 = Panicked /\ overflows cfg0 k s /\
  (dispatch (wrapping cfg0) Root k s).1 = Success /\
  cl_total (rt_cl (dispatch (wrapping cfg0) Root k s).2) = 899.
Proof. vm_compute. repeat split; reflexivity. Qed.
