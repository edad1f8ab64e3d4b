(** * The event log: append-only, and every event attributable to the call that emitted it. *)
From Verif Require Import Base State Env TeerdaysModel TeerexBase SgxVerifyModel TeerexModel
  EnclaveBridgeModel SidechainModel TeeracleModel ClaimsModel AssetRegistryModel XcmTransactorModel
  Runtime Frame EnvFacts.

(** Which events a call may emit, and how their arguments depend on origin and call *)
Definition attributable (o : origin) (k : call) (e : event) : Prop :=
  match e, k with
  (* balances *)
  | EvTransfer a b v, CEb (EbShield sh _ v') => o = Signed a /\ b = vault sh /\ v = v'
  | EvTransfer a b v, CEb (EbUnshield sh b' v' _) => a = vault sh /\ b = b' /\ v = v'
  | EvDust a _, CEb (EbShield _ _ _) => o = Signed a
  | EvDust a _, CEb (EbUnshield sh _ _ _) => a = vault sh
  | EvDeposit a _, CCl (ClClaim d _) | EvDeposit a _, CCl (ClClaimAttest d _ _) => a = d /\ o = NoneO
  | EvDeposit a _, CCl (ClAttest _) => o = Signed a
  (* teerdays *)
  | EvBonded a v, CTd (TdBond v') | EvBonded a v, CTd (TdBondExtra v') => o = Signed a /\ v <= v'
  | EvUnbonded a v _, CTd (TdUnbond v') => o = Signed a /\ v <= v'
  | EvTokenTimeUpdated a _, CTd (TdBondExtra _) | EvTokenTimeUpdated a _, CTd (TdUnbond _) => o = Signed a
  | EvTokenTimeUpdated a _, CTd (TdUpdateOther a') => a = a'
  | EvWithdrawn a _, CTd TdWithdrawUnbonded => o = Signed a
  (* enclave-bridge *)
  | EvIndirectInvocationRegistered sh, CEb (EbInvoke sh' _) => sh = sh'
  | EvShieldFunds sh b v, CEb (EbShield sh' b' v') => sh = sh' /\ b = b' /\ v = v'
  | EvUnshieldedFunds sh b v, CEb (EbUnshield sh' b' v' _) => sh = sh' /\ b = b' /\ v = v'
  | EvProcessedParentchainBlock sh h r n, CEb (EbConfirm sh' h' n' r') => sh = sh' /\ h = h' /\ n = n' /\ r = r'
  | EvPublishedHash t f h d, CEb (EbPublish h' t' d') => t = t' ++ [f] /\ h = h' /\ d = d'
  | EvShardConfigUpdated sh, CEb (EbUpdateConfig sh' _ _) => sh = sh'
  | EvPurgedEnclave sh a, CEb (EbPurge sh' a') => o = Root /\ sh = sh' /\ a = a'
  (* sidechain *)
  | EvFinalizedSidechainBlock sh n h a, CSc (ScConfirm sh' _ x) => o = Signed a /\ sh = sh' /\ n = sn_number x /\ h = sn_hash x
  (* teeracle *)
  | EvExchangeRateUpdated src p r, CTo (ToUpdateRate src' p' v) => src = src' /\ p = p' /\ v = Some r /\ r <> 0
  | EvExchangeRateDeleted src p, CTo (ToUpdateRate src' p' v) => src = src' /\ p = p' /\ (v = None \/ v = Some 0)
  | EvOracleUpdated n src, CTo (ToUpdateOracle n' src' _) => n = n' /\ src = src'
  | EvAddedToWhitelist src fp, CTo (ToAdd src' fp') => o = Root /\ src = src' /\ fp = fp'
  | EvRemovedFromWhitelist src fp, CTo (ToRemove src' fp') => o = Root /\ src = src' /\ fp = fp'
  (* teerex *)
  | EvAddedSgxEnclave a u _ _, CTx (TxRegister _ u' _) => o = Signed a /\ u = u'
  | EvRemovedSovereignEnclave a, CTx (TxUnregisterSovereign a') => a = a'
  | EvRemovedProxiedEnclave a, CTx (TxUnregisterProxied a') => a = a'
  | EvSgxTcbInfoRegistered _ _, CTx (TxRegisterTcb _ _ _) => True
  | EvSgxQuotingEnclaveRegistered _, CTx (TxRegisterQe _ _ _) => True
  | EvUpdatedSecurityFlags sk d, CTx (TxSetFlags sk' d') => o = Root /\ sk = sk' /\ d = d'
  (* claims *)
  | EvClaimed a _ _, CCl (ClClaim d _) | EvClaimed a _ _, CCl (ClClaimAttest d _ _) => o = NoneO /\ a = d
  | EvClaimed a _ _, CCl (ClAttest _) => o = Signed a
  (* asset-registry *)
  | EvReserveAssetRegistered i l, CAr (ArRegister i' l') => i = i' /\ l = l'
  | EvReserveAssetUnregistered i _, CAr (ArUnregister i') => i = i'
  (* xcm-transactor *)
  | EvSentXcm _, CXt _ => True
  | EvSwapTransactSent a b, CXt (XtSwap a' b' _ _) => a = a' /\ b = b'
  | _, _ => False
  end.

(** [m] only appends events satisfying [Q] *)
Definition emits {A} (Q : event -> Prop) (m : RM A) : Prop :=
  forall s a s', m s = Ok a s' -> exists evs, rt_ev s' = evs ++ rt_ev s /\ Forall Q evs.
Section Emits.
Context (Q : event -> Prop).
Lemma emits_ret {A} (a : A) : emits Q (ret a).
Proof. intros s b s' H. inv_ok H. exists []. auto. Qed.
Lemma emits_fail {A} e : emits Q (fail e : RM A).
Proof. intros s b s' H. inv_ok H. Qed.
Lemma emits_panic {A} : emits Q (panic : RM A).
Proof. intros s b s' H. inv_ok H. Qed.
Lemma emits_gets {A} (g : rt -> A) : emits Q (gets g).
Proof. intros s b s' H. inv_ok H. exists []. auto. Qed.
Lemma emits_modify g : (forall s, rt_ev (g s) = rt_ev s) -> emits Q (modify g).
Proof. intros Hg s b s' H. inv_ok H. exists []. rewrite Hg. auto. Qed.
Lemma emits_event e : Q e -> emits Q (deposit_event e).
Proof. intros He s b s' H. unfold deposit_event in H. inv_ok H. exists [e]. auto. Qed.
Lemma emits_ensure b e : emits Q (ensure b e).
Proof. intros s u s' H. inv_ok H. exists []. auto. Qed.
Lemma emits_ok_or {A} (o : option A) e : emits Q (ok_or o e).
Proof. intros s u s' H. inv_ok H. exists []. auto. Qed.
Lemma emits_bind {A D} (m : RM A) (k : A -> RM D) :
  emits Q m -> (forall a, emits Q (k a)) -> emits Q (bind m k).
Proof.
  intros Hm Hk s b s' H. apply bind_ok in H as (a & s1 & H1 & H2).
  destruct (Hm _ _ _ H1) as (e1 & E1 & F1). destruct (Hk _ _ _ _ H2) as (e2 & E2 & F2).
  exists (e2 ++ e1). rewrite E2, E1, app_assoc. split; [auto|]. apply Forall_app. auto.
Qed.
Lemma emits_bind_ret {A D} (a : A) (k : A -> RM D) : emits Q (k a) -> emits Q (bind (ret a) k).
Proof. intros H s b s' E. exact (H s b s' E). Qed.
Lemma emits_bind_fail {A D} e (k : A -> RM D) : emits Q (bind (fail e) k).
Proof. intros s b s' E. discriminate E. Qed.
Lemma emits_plain_add ovf mx a b : emits Q (plain_add ovf mx a b).
Proof. intros s u s' H. apply plain_add_ok in H as [-> _]. exists []. auto. Qed.
Lemma emits_lift {A} (r : res A) : emits Q (lift_res r).
Proof. destruct r; [apply emits_ret|apply emits_fail|apply emits_panic]. Qed.
End Emits.
Ltac emits_step :=
  first
  [ match goal with |- emits _ (bind (ret _) _) => apply emits_bind_ret
    | |- emits _ (bind (fail _) _) => apply emits_bind_fail end
  | apply emits_bind; [|intros ?]
  | apply emits_ret | apply emits_fail | apply emits_panic | apply emits_gets | apply emits_ensure
  | apply emits_ok_or | apply emits_plain_add | apply emits_lift
  | apply emits_event; cbn [attributable]; unfold sat_sub; repeat split; solve [auto | lia | congruence]
  | apply emits_modify; intros ?; cbn; repeat case_match; reflexivity
  | match goal with
    | |- emits _ (match ?x with _ => _ end) => destruct x eqn:?
    | |- emits _ (if ?x then _ else _) => destruct x eqn:?
    | |- emits _ (let '(_, _) := ?x in _) => destruct x eqn:?
    end
  | progress (cbv beta zeta) ].
Lemma exec_emits c o k : emits (attributable o k) (exec c o k).
Proof.
  destruct k as [x|x|x|x|x|x|x|x]; cbn [exec]; destruct x;
  cbn [td_exec eb_exec_call sc_exec to_exec tx_exec cl_exec ar_exec xt_exec];
  unfold td_bond, td_bond_extra, td_unbond, td_update_other, td_withdraw_unbonded, try_withdraw_unbonded, do_update_teerdays,
    invoke, confirm_processed, shield_funds, unshield_funds, publish_hash, update_shard_config, purge, get_enclave_and_touch,
    get_config, touch_shard, confirm_sidechain, finalize_block,
    add_to_whitelist, remove_from_whitelist, update_oracle, update_exchange_rate,
    register_sgx_enclave, reg_ias, reg_dcap, reg_skip, ensure_within_24h, add_enclave,
    unregister_sovereign, unregister_proxied, register_quoting_enclave, verify_quoting_enclave,
    register_tcb_info, verify_tcb_info, set_security_flags,
    claim, mint_claim, claim_attest, attest, move_claim, process_claim, add_vesting_schedule, write_vesting, vest, set_lock, remove_lock,
    register_asset, unregister_asset, send_swap_ump, transfer, reap, deposit_creating, withdraw, get_sovereign_enclave;
  destruct o; cbn [ensure_signed ensure_root ensure_none ensure_signed_or_root];
  repeat emits_step.
Qed.

(** Events that environment operations emit *)
Definition env_event (x : op) (e : event) : Prop :=
  match e, x with
  | EvTransfer a b v, OTransfer a' b' v' => a = a' /\ b = b' /\ v = v'
  | EvDust a _, OTransfer a' _ _ | EvDust a _, OFee a' _ => a = a'
  | EvDeposit a v, OMint a' v' | EvWithdraw a v, OFee a' v' => a = a' /\ v = v'
  | _, _ => False
  end.
Definition emitted_by (x : op) (e : event) : Prop :=
  match x with OCall o k => attributable o k e | _ => env_event x e end.
Lemma step_emits c s x : exists evs, rt_ev (step c s x) = evs ++ rt_ev s /\ Forall (emitted_by x) evs.
Proof.
  assert (forall m, emits (emitted_by x) m -> exists evs, rt_ev (run_call m s).2 = evs ++ rt_ev s /\ Forall (emitted_by x) evs) as Hr.
  { intros m Hm. destruct (run_call_cases m s) as [(s' & E & ->)|[_ ->]]; [exact (Hm _ _ _ E)|]. exists []. auto. }
  destruct x; cbn [step].
  - apply Hr, exec_emits.
  - unfold next_block. exists []. destruct (_ <=? _); auto.
  - apply Hr. unfold transfer, reap. repeat first [apply emits_event; cbn; auto|emits_step].
  - apply Hr. unfold deposit_creating. repeat first [apply emits_event; cbn; auto|emits_step].
  - apply Hr. unfold withdraw, reap. repeat first [apply emits_event; cbn; auto|emits_step].
  - apply Hr. unfold_env. repeat emits_step.
  - apply Hr. unfold_env. repeat emits_step.
  - apply Hr. unfold_env. repeat emits_step.
  - apply Hr. unfold_env. repeat emits_step.
  - exists []. auto.
  - exists []. auto.
Qed.
Lemma run_emits c l : forall s, exists evs, rt_ev (run c s l) = evs ++ rt_ev s /\
  Forall (fun e => exists x, In x l /\ emitted_by x e) evs.
Proof.
  induction l as [|x l IH]; intros s; [exists []; auto|]. rewrite run_cons.
  destruct (step_emits c s x) as (e1 & E1 & F1). destruct (IH (step c s x)) as (e2 & E2 & F2).
  exists (e2 ++ e1). rewrite E2, E1, app_assoc. split; [auto|]. apply Forall_app. split.
  - eapply Forall_impl; [exact F2|]. cbn. intros e (y & Hy & He). eauto.
  - eapply Forall_impl; [exact F1|]. cbn. intros e He. eauto.
Qed.
