(** * Maintenance mode, instance limit and authorities are never consulted (C20). *)
From Verif Require Import Base State Env TeerdaysModel TeerexBase SgxVerifyModel TeerexModel
  EnclaveBridgeModel SidechainModel TeeracleModel ClaimsModel AssetRegistryModel XcmTransactorModel
  Runtime Frame EnvFacts BridgeProofs.

(** Forget the three fields in a configuration, in the whole storage, in the argument of a call *)
Definition erase_scfg (x : scfg) : scfg := mkScfg (sc_fp x) None None false.
Definition erase_uscfg (u : uscfg) : uscfg :=
  mkUscfg (erase_scfg (uc_active u)) (erase_scfg <$> uc_pending u) (uc_at u).
Definition erase (s : rt) : rt :=
  set_eb (mkEb (eb_status (rt_eb s)) (erase_uscfg <$> eb_config (rt_eb s)) (eb_exec (rt_eb s))) s.
Definition erase_call (k : call) : call :=
  match k with CEb (EbUpdateConfig sh new d) => CEb (EbUpdateConfig sh (erase_scfg new) d) | _ => k end.
Definition erase_op (x : op) : op :=
  match x with OCall o k => OCall o (erase_call k) | _ => x end.

Definition omapS {A B} (f : A -> B) (r : outcome rt error A) : outcome rt error B :=
  match r with Ok a s => Ok (f a) (erase s) | Err e s => Err e (erase s) | Panic => Panic end.
(** [m'] does on erased states what [m] does *)
Definition comm {A B} (f : A -> B) (m : RM A) (m' : RM B) : Prop := forall s, m' (erase s) = omapS f (m s).
Lemma comm_bind {A A' B B'} (f : A -> A') (g : B -> B') (m : RM A) (m' : RM A') k k' :
  comm f m m' -> (forall a, comm g (k a) (k' (f a))) -> comm g (bind m k) (bind m' k').
Proof. intros Hm Hk s. unfold bind. rewrite Hm. destruct (m s); cbn; auto. apply Hk. Qed.
Lemma comm_bind_id {A B} (m m' : RM A) (k k' : A -> RM B) :
  comm id m m' -> (forall a, comm id (k a) (k' a)) -> comm id (bind m k) (bind m' k').
Proof. intros Hm Hk. eapply comm_bind; eauto. Qed.
Lemma comm_ret {A} (a : A) : comm id (ret a) (ret a). Proof. intros s. reflexivity. Qed.
Lemma comm_fail {A} e : comm id (fail e : RM A) (fail e). Proof. intros s. reflexivity. Qed.
Lemma comm_panic {A} : comm id (panic : RM A) panic. Proof. intros s. reflexivity. Qed.
Lemma comm_gets {A} (g : rt -> A) : (forall s, g (erase s) = g s) -> comm id (gets g) (gets g).
Proof. intros H s. unfold gets. cbn. rewrite H. auto. Qed.
Lemma comm_modify g : (forall s, g (erase s) = erase (g s)) -> comm id (modify g) (modify g).
Proof. intros H s. unfold modify. cbn. rewrite H. auto. Qed.
Lemma comm_modify2 g g' : (forall s, g' (erase s) = erase (g s)) -> comm id (modify g) (modify g').
Proof. intros H s. unfold modify. cbn. rewrite H. auto. Qed.
Lemma comm_ensure b e : comm id (ensure b e) (ensure b e).
Proof. destruct b; [apply comm_ret|apply comm_fail]. Qed.
Lemma comm_ok_or {A} (o : option A) e : comm id (ok_or o e) (ok_or o e).
Proof. destruct o; [apply comm_ret|apply comm_fail]. Qed.
Lemma comm_plain_add ovf mx a b : comm id (plain_add ovf mx a b) (plain_add ovf mx a b).
Proof. unfold plain_add. repeat case_match; [apply comm_ret|apply comm_panic|apply comm_ret]. Qed.
Lemma comm_lift {A} (r : res A) : comm id (lift_res r) (lift_res r).
Proof. destruct r; [apply comm_ret|apply comm_fail|apply comm_panic]. Qed.

Ltac comm_step :=
  first
  [ apply comm_bind_id; [|intros ?]
  | apply comm_ret | apply comm_fail | apply comm_panic | apply comm_ensure | apply comm_ok_or
  | apply comm_plain_add | apply comm_lift
  | apply comm_gets; intros ?; reflexivity
  | apply comm_modify; intros ?; reflexivity
  | apply comm_modify; intros ?; repeat case_match; reflexivity
  | match goal with
    | |- comm _ (match ?x with _ => _ end) _ => destruct x eqn:?
    | |- comm _ (if ?x then _ else _) _ => destruct x eqn:?
    | |- comm _ (let '(_, _) := ?x in _) _ => destruct x eqn:?
    end
  | progress (cbv beta zeta) ].

Lemma in_force_erase s sh b : in_force (erase s) sh b = erase_scfg <$> in_force s sh b.
Proof.
  unfold in_force. cbn. rewrite lookup_fmap. destruct (eb_config (rt_eb s) !! sh) as [[act pen at_]|]; [|reflexivity].
  cbn. unfold in_force_of. cbn. destruct pen; cbn; [|reflexivity]. destruct at_; [|reflexivity]. destruct (_ <=? _); reflexivity.
Qed.
Lemma put_config_erase sh u s : put_config sh (erase_uscfg u) (erase s) = erase (put_config sh u s).
Proof. unfold put_config, erase, set_eb. cbn. rewrite fmap_insert. reflexivity. Qed.
Lemma enact_erase sh b s : enact sh b (erase s) = erase (enact sh b s).
Proof.
  unfold enact. cbn [erase rt_eb set_eb eb_config]. rewrite lookup_fmap.
  destruct (eb_config (rt_eb s) !! sh) as [[act pen at_]|] eqn:E; [|reflexivity].
  cbn. destruct pen as [p|]; [|reflexivity]. cbn. destruct at_; [|reflexivity]. destruct (_ <=? _); [|reflexivity].
  apply (put_config_erase sh (from_scfg p) s).
Qed.
Lemma comm_get_config sh b ap : comm (fmap erase_scfg) (get_config sh b ap) (get_config sh b ap).
Proof.
  intros s. rewrite !get_config_eq. cbn. rewrite in_force_erase. destruct ap; [rewrite enact_erase|]; reflexivity.
Qed.
Lemma comm_get_sov a : comm id (get_sovereign_enclave a) (get_sovereign_enclave a).
Proof. unfold get_sovereign_enclave. repeat comm_step. Qed.
Lemma comm_touch sh a fp b : comm id (touch_shard sh a fp b) (touch_shard sh a fp b).
Proof. unfold touch_shard. repeat comm_step. Qed.
Lemma comm_get_enclave a sh b : comm id (get_enclave_and_touch a sh b) (get_enclave_and_touch a sh b).
Proof.
  unfold get_enclave_and_touch. apply comm_bind_id; [apply comm_get_sov|]. intros e.
  eapply comm_bind; [apply comm_get_config|]. intros oc.
  assert (forall X (F : bytes -> X), F (sc_fp (match erase_scfg <$> oc with Some x => x | None => new_scfg sh end)) =
    F (sc_fp (match oc with Some x => x | None => new_scfg sh end))) as Hf by (intros; destruct oc; auto).
  cbv zeta. rewrite (Hf _ (fun z => bind (ensure (beq (fingerprint e) z) _) _)).
  repeat first [apply comm_touch | comm_step].
Qed.
Lemma comm_update c o sh new d : comm id (update_shard_config c o sh new d) (update_shard_config c o sh (erase_scfg new) d).
Proof.
  unfold update_shard_config, ensure_signed_or_root, deposit_event.
  apply comm_bind_id; [repeat comm_step|intros maybe]. apply comm_bind_id; [repeat comm_step|intros blk].
  eapply comm_bind; [apply comm_get_config|]. intros oc.
  apply comm_bind with (f := erase_uscfg).
  2: { intros u. apply comm_bind_id; [|intros ?; repeat comm_step]. apply comm_modify2. intros s. apply put_config_erase. }
  destruct oc as [old|]; cbn [fmap option_fmap option_map].
  - apply comm_bind with (f := id); [|intros ?; intros s; reflexivity].
    destruct maybe; repeat first [apply comm_get_sov | apply comm_touch | comm_step].
  - apply comm_bind with (f := id); [|intros ?; intros s; reflexivity].
    destruct maybe; repeat first [apply comm_get_sov | apply comm_touch | comm_step].
Qed.
Lemma comm_transfer c a b v : comm id (transfer c a b v) (transfer c a b v).
Proof. unfold transfer, reap, deposit_event. repeat comm_step. Qed.

Lemma comm_exec c o k : comm id (exec c o k) (exec c o (erase_call k)).
Proof.
  destruct k as [x|x|x|x|x|x|x|x]; cbn [exec erase_call]; destruct x.
  all: cbn [td_exec eb_exec_call sc_exec to_exec tx_exec cl_exec ar_exec xt_exec exec].
  all: try apply comm_update.
  all: unfold td_bond, td_bond_extra, td_unbond, td_update_other, td_withdraw_unbonded, try_withdraw_unbonded, do_update_teerdays,
    invoke, confirm_processed, shield_funds, unshield_funds, publish_hash, purge, confirm_sidechain, finalize_block,
    add_to_whitelist, remove_from_whitelist, update_oracle, update_exchange_rate,
    register_sgx_enclave, reg_ias, reg_dcap, reg_skip, ensure_within_24h, add_enclave,
    unregister_sovereign, unregister_proxied, register_quoting_enclave, verify_quoting_enclave,
    register_tcb_info, verify_tcb_info, set_security_flags,
    claim, mint_claim, claim_attest, attest, move_claim, process_claim, add_vesting_schedule, write_vesting, vest, set_lock, remove_lock,
    deposit_creating, deposit_event,
    register_asset, unregister_asset, send_swap_ump,
    ensure_signed, ensure_root, ensure_none.
  all: repeat first [apply comm_get_enclave | apply comm_get_sov | apply comm_touch | apply comm_transfer | comm_step].
Qed.
Lemma dispatch_erase c o k s :
  (dispatch c o (erase_call k) (erase s)).1 = (dispatch c o k s).1 /\
  (dispatch c o (erase_call k) (erase s)).2 = erase (dispatch c o k s).2.
Proof.
  unfold dispatch, run_call. rewrite (comm_exec c o k s). destruct (exec c o k s); cbn; auto.
Qed.
Lemma run_call_erase m s : comm id m m -> (run_call m (erase s)).2 = erase (run_call m s).2.
Proof. intros H. unfold run_call. rewrite H. destruct (m s); auto. Qed.
Lemma step_erase c s x : step c (erase s) (erase_op x) = erase (step c s x).
Proof.
  destruct x; cbn [step erase_op].
  1: apply dispatch_erase.
  1: unfold next_block; cbn; destruct (_ <=? _); reflexivity.
  1-7: apply run_call_erase; unfold vest, deposit_creating, withdraw, reap, add_vesting_schedule, write_vesting, set_lock, remove_lock, deposit_event;
    repeat first [apply comm_transfer | comm_step].
  all: reflexivity.
Qed.
Lemma run_erase c s l : run c (erase s) (map erase_op l) = erase (run c s l).
Proof. revert s. induction l as [|x l IH]; intros s; [reflexivity|]. cbn [map]. rewrite !run_cons, step_erase. apply IH. Qed.
