(** * Properties of the whole runtime: C57, C58, C62. *)
From Verif Require Import Base State Env TeerdaysModel TeerexBase SgxVerifyModel TeerexModel
  EnclaveBridgeModel SidechainModel TeeracleModel ClaimsModel AssetRegistryModel XcmTransactorModel
  Runtime Frame EnvFacts Ledger Events Examples.

(** ** C57 *)
Definition ro {A} (m : RM A) : Prop := forall s a s', m s = Ok a s' -> s' = s.
Definition clean {A} (m : RM A) : Prop := forall s e s', m s = Err e s' -> s' = s.
Definition noerr {A} (m : RM A) : Prop := forall s e s', m s <> Err e s'.
Lemma clean_ro {A B} (m : RM A) (k : A -> RM B) : ro m -> clean m -> (forall a, clean (k a)) -> clean (bind m k).
Proof.
  intros Hr Hc Hk s e s' H. apply bind_err_inv in H as [H|(a & s1 & H1 & H)]; [exact (Hc _ _ _ H)|].
  apply Hr in H1 as ->. exact (Hk _ _ _ _ H).
Qed.
Lemma clean_last {A B} (m : RM A) (k : A -> RM B) : clean m -> (forall a, noerr (k a)) -> clean (bind m k).
Proof.
  intros Hc Hk s e s' H. apply bind_err_inv in H as [H|(a & s1 & H1 & H)]; [exact (Hc _ _ _ H)|].
  exfalso. exact (Hk _ _ _ _ H).
Qed.
Lemma noerr_bind {A B} (m : RM A) (k : A -> RM B) : noerr m -> (forall a, noerr (k a)) -> noerr (bind m k).
Proof.
  intros Hc Hk s e s' H. apply bind_err_inv in H as [H|(a & s1 & H1 & H)]; [exact (Hc _ _ _ H)|exact (Hk _ _ _ _ H)].
Qed.
Lemma clean_noerr {A} (m : RM A) : noerr m -> clean m.
Proof. intros H s e s' E. exfalso. exact (H _ _ _ E). Qed.
Lemma ro_bind {A B} (m : RM A) (k : A -> RM B) : ro m -> (forall a, ro (k a)) -> ro (bind m k).
Proof. intros Hr Hk s a s' H. apply bind_ok in H as (b & s1 & H1 & H). apply Hr in H1 as ->. exact (Hk _ _ _ _ H). Qed.
Lemma ro_ret {A} (a : A) : ro (ret a). Proof. intros s b s' H. inversion H; auto. Qed.
Lemma ro_fail {A} e : ro (fail e : RM A). Proof. intros s b s' H. inversion H. Qed.
Lemma ro_panic {A} : ro (panic : RM A). Proof. intros s b s' H. inversion H. Qed.
Lemma ro_gets {A} (f : rt -> A) : ro (gets f). Proof. intros s b s' H. inversion H; auto. Qed.
Lemma ro_ensure b e : ro (ensure b e). Proof. intros s u s' H. apply ensure_ok in H as [_ ->]. auto. Qed.
Lemma ro_ok_or {A} (x : option A) e : ro (ok_or x e). Proof. intros s u s' H. apply ok_or_ok in H as [_ ->]. auto. Qed.
Lemma ro_lift {A} (r : res A) : ro (lift_res r). Proof. destruct r; [apply ro_ret|apply ro_fail|apply ro_panic]. Qed.
Lemma ro_plain_add a b x y : ro (plain_add a b x y). Proof. intros s u s' H. apply plain_add_ok in H as [-> _]. auto. Qed.
Lemma clean_fail {A} e : clean (fail e : RM A). Proof. intros s e' s' H. inversion H; auto. Qed.
Lemma clean_ensure b e : clean (ensure b e). Proof. intros s u s' H. apply ensure_err in H as (_ & _ & ->). auto. Qed.
Lemma clean_ok_or {A} (x : option A) e : clean (ok_or x e). Proof. intros s u s' H. apply ok_or_err in H as (_ & _ & ->). auto. Qed.
Lemma noerr_ret {A} (a : A) : noerr (ret a). Proof. intros s b s' H. inversion H. Qed.
Lemma noerr_panic {A} : noerr (panic : RM A). Proof. intros s b s' H. inversion H. Qed.
Lemma noerr_gets {A} (f : rt -> A) : noerr (gets f). Proof. intros s b s' H. inversion H. Qed.
Lemma noerr_modify f : noerr (modify f). Proof. intros s b s' H. inversion H. Qed.
Lemma noerr_plain_add a b x y : noerr (plain_add a b x y).
Proof. intros s e s'. unfold plain_add. destruct (_ <=? _); [|destruct a]; discriminate. Qed.
Lemma clean_lift {A} (r : res A) : clean (lift_res r).
Proof. destruct r; [apply clean_noerr, noerr_ret|apply clean_fail|apply clean_noerr, noerr_panic]. Qed.
Ltac ro_tac := repeat first
  [ apply ro_ret | apply ro_fail | apply ro_panic | apply ro_gets | apply ro_ensure | apply ro_ok_or | apply ro_lift | apply ro_plain_add
  | apply ro_bind; [|intros ?]
  | match goal with
    | |- ro (match ?x with _ => _ end) => destruct x eqn:?
    | |- ro (if ?x then _ else _) => destruct x eqn:?
    | |- ro (let '(_, _) := ?x in _) => destruct x eqn:?
    end
  | progress (cbv beta zeta) ].
Ltac noerr_tac := repeat first
  [ apply noerr_ret | apply noerr_panic | apply noerr_gets | apply noerr_modify | apply noerr_plain_add
  | apply noerr_bind; [|intros ?]
  | match goal with
    | |- noerr (match ?x with _ => _ end) => destruct x eqn:?
    | |- noerr (if ?x then _ else _) => destruct x eqn:?
    | |- noerr (let '(_, _) := ?x in _) => destruct x eqn:?
    end
  | progress (cbv beta zeta) ].
Ltac clean_step := first
  [ apply clean_fail | apply clean_ensure | apply clean_ok_or | apply clean_lift
  | solve [apply clean_noerr; noerr_tac]
  | apply clean_ro; [solve [ro_tac]| |intros ?]
  | apply clean_last; [|intros ?; solve [noerr_tac]]
  | match goal with
    | |- clean (match ?x with _ => _ end) => destruct x eqn:?
    | |- clean (if ?x then _ else _) => destruct x eqn:?
    | |- clean (let '(_, _) := ?x in _) => destruct x eqn:?
    end
  | progress (cbv beta zeta) ].

(** A call that does not succeed leaves the whole state (all storage, balances, locks, events,
    outgoing messages) as it was. *)
Theorem C57_failing_calls_have_no_effect : forall c o k s,
  (dispatch c o k s).1 <> Success -> (dispatch c o k s).2 = s /\ step c s (OCall o k) = s.
Proof.
  intros c o k s H. cbn [step]. unfold dispatch in *. destruct (run_call_cases (exec c o k) s) as [(s' & E & Er)|[_ E]].
  - rewrite Er in H. contradiction.
  - auto.
Qed.
Print Assumptions C57_failing_calls_have_no_effect.
(** All but four calls do not even need the storage rollback of the dispatcher: their bodies return
    errors only before the first write. *)
Definition relies_on_rollback (k : call) : Prop :=
  match k with
  | CEb (EbConfirm _ _ _ _) | CEb (EbUnshield _ _ _ _) | CEb (EbPublish _ _ _) | CSc (ScConfirm _ _ _) => True
  | _ => False
  end.
Theorem C57_bodies_fail_before_writing : forall c o k s e s',
  ~ relies_on_rollback k -> exec c o k s = Err e s' -> s' = s.
Proof.
  intros c o k s e s' Hk. revert s e s'. change (clean (exec c o k)).
  destruct k as [x|x|x|x|x|x|x|x]; cbn [exec]; destruct x; try (exfalso; exact (Hk I)); clear Hk;
  cbn [td_exec eb_exec_call sc_exec to_exec tx_exec cl_exec ar_exec xt_exec];
  unfold td_bond, td_bond_extra, td_unbond, td_update_other, td_withdraw_unbonded, try_withdraw_unbonded, do_update_teerdays,
    invoke, confirm_processed, shield_funds, unshield_funds, publish_hash, update_shard_config, purge, get_enclave_and_touch,
    get_config, touch_shard, confirm_sidechain, finalize_block,
    add_to_whitelist, remove_from_whitelist, update_oracle, update_exchange_rate,
    register_sgx_enclave, reg_ias, reg_dcap, reg_skip, ensure_within_24h, add_enclave,
    unregister_sovereign, unregister_proxied, register_quoting_enclave, verify_quoting_enclave,
    register_tcb_info, verify_tcb_info, set_security_flags,
    claim, mint_claim, claim_attest, attest, move_claim, process_claim, add_vesting_schedule, write_vesting, vest, set_lock, remove_lock,
    register_asset, unregister_asset, send_swap_ump, transfer, reap, deposit_creating, withdraw, get_sovereign_enclave, deposit_event;
  destruct o; cbn [ensure_signed ensure_root ensure_none ensure_signed_or_root].
  all: repeat clean_step.
Qed.
Print Assumptions C57_bodies_fail_before_writing.
(** The other four do: each has an error that comes after a write. *)
Theorem C57_four_bodies_write_before_failing :
  let sh := acc 9 in
  let fails_dirty (k : call) l := exists e s', let s := run cfg0 (genesis_state (gen0 [alice])) (register alice sh :: l) in
    exec cfg0 (Signed alice) k s = Err e s' /\ rt_eb s' <> rt_eb s /\ (dispatch cfg0 (Signed alice) k s).2 = s in
  (* an update that moves the shard to another enclave falls due while the old enclave confirms *)
  fails_dirty (CEb (EbConfirm sh [] 1 []))
    [call_eb alice (EbUpdateConfig sh (new_scfg sh) 0); call_eb alice (EbUpdateConfig sh (new_scfg (acc 8)) 0)] /\
  (* the vault is empty *)
  fails_dirty (CEb (EbUnshield sh bob 50 (acc 8))) [] /\
  (* too many topics *)
  fails_dirty (CEb (EbPublish [] (replicate 9 []) [])) [] /\
  (* outdated candidate *)
  fails_dirty (CSc (ScConfirm sh None (mkSconf 0 []))) [call_sc alice (ScConfirm sh None (mkSconf 5 [])); ONextBlock 6000].
Proof.
  cbn zeta. repeat split; do 2 eexists; cbn zeta; (split; [vm_compute; reflexivity|]);
  (split; [vm_compute; discriminate|]); apply C57_failing_calls_have_no_effect; vm_compute; discriminate.
Qed.
Print Assumptions C57_four_bodies_write_before_failing.

(** ** C58 *)
(** Everything outside the listed parts is the same *)
Definition unchanged_outside (f : part -> bool) (s s' : rt) : Prop := forall p, f p = false -> same p s s'.
(** [part] covers the whole state. *)
Theorem C58_parts_cover_the_state : forall s s', unchanged_outside (fun _ => false) s s' -> s' = s.
Proof.
  intros s s' H. pose proof (fun p => H p eq_refl) as G. clear H.
  pose proof (G PClock) as H1. pose proof (G PFree) as H2. pose proof (G PLocks) as H3. pose proof (G PVest) as H4.
  pose proof (G PTd) as H5. pose proof (G PEb) as H6. pose proof (G PSc) as H7. pose proof (G PTo) as H8.
  pose proof (G PTx) as H9. pose proof (G PCl) as H10. pose proof (G PReg) as H11. pose proof (G PAssets) as H12.
  pose proof (G POut) as H13. pose proof (G PEvents) as H14. clear G. cbn [same] in *.
  unfold v_clock, v_free, v_locks, v_reg, v_assets in *. destruct s as [now blk [fr lk] vest td eb sc to tx cl [al ai aa] out ev].
  destruct s' as [now' blk' [fr' lk'] vest' td' eb' sc' to' tx' cl' [al' ai' aa'] out' ev']. cbn in *.
  inversion H1. inversion H11. subst. reflexivity.
Qed.
Print Assumptions C58_parts_cover_the_state.
(** The parts a call of each pallet may change *)
Theorem C58_pallets_write_only_their_parts : forall c o s,
  (forall k, unchanged_outside (fun p => match p with PTd | PLocks | PEvents => true | _ => false end) s (dispatch c o (CTd k) s).2) /\
  (forall k, unchanged_outside (fun p => match p with PEb | PFree | PEvents => true | _ => false end) s (dispatch c o (CEb k) s).2) /\
  (forall k, unchanged_outside (fun p => match p with PSc | PEb | PEvents => true | _ => false end) s (dispatch c o (CSc k) s).2) /\
  (forall k, unchanged_outside (fun p => match p with PTo | PEvents => true | _ => false end) s (dispatch c o (CTo k) s).2) /\
  (forall k, unchanged_outside (fun p => match p with PTx | PEvents => true | _ => false end) s (dispatch c o (CTx k) s).2) /\
  (forall k, unchanged_outside (fun p => match p with PCl | PFree | PLocks | PVest | PEvents => true | _ => false end) s (dispatch c o (CCl k) s).2) /\
  (forall k, unchanged_outside (fun p => match p with PReg | PEvents => true | _ => false end) s (dispatch c o (CAr k) s).2) /\
  (forall k, unchanged_outside (fun p => match p with POut | PEvents => true | _ => false end) s (dispatch c o (CXt k) s).2).
Proof.
  intros c o s. repeat split; intros k p Hp; apply dispatch_same; destruct p; cbn in *; auto.
Qed.
Print Assumptions C58_pallets_write_only_their_parts.
(** Finer: bridge calls write balances only when funds are shielded or unshielded. *)
Theorem C58_bridge_moves_funds_only_by_shielding : forall c o k s,
  (match k with EbShield _ _ _ | EbUnshield _ _ _ _ => False | _ => True end) ->
  same PFree s (dispatch c o (CEb k) s).2.
Proof.
  intros c o k s Hk. apply run_call_same, keeps_pres. cbn [exec]. destruct k; try contradiction; cbn [eb_exec_call];
  unfold invoke, confirm_processed, publish_hash, update_shard_config, purge, get_enclave_and_touch, get_config, touch_shard;
  unfold_env; pres_tac.
Qed.
Print Assumptions C58_bridge_moves_funds_only_by_shielding.
(** The sidechain pallet never touches the bridge's record of executed calls. *)
Theorem C58_sidechain_leaves_executed_calls : forall c o k s,
  eb_exec (rt_eb (dispatch c o (CSc k) s).2) = eb_exec (rt_eb s).
Proof.
  intros c o k s. assert (pres (fun s => eb_exec (rt_eb s)) (exec c o (CSc k))) as H.
  { cbn [exec]. destruct k; cbn [sc_exec]; unfold confirm_sidechain, finalize_block, get_enclave_and_touch, get_config, touch_shard;
    unfold_env; pres_tac. }
  unfold dispatch. destruct (run_call_cases (exec c o (CSc k)) s) as [(s' & E & ->)|[_ ->]]; [exact (H _ _ _ E)|auto].
Qed.
Print Assumptions C58_sidechain_leaves_executed_calls.

(** ** C62 *)
(** The event log only grows, and each event comes from an operation of the history that fits it
    ([emitted_by]: the event's kind, account and arguments agree with origin and call). *)
Theorem C62_events_are_attributable : forall c s l, exists evs,
  rt_ev (run c s l) = evs ++ rt_ev s /\ Forall (fun e => exists x, In x l /\ emitted_by x e) evs.
Proof. intros c s l. apply run_emits. Qed.
Print Assumptions C62_events_are_attributable.
(** Instances, spelled out: nobody can produce these events for someone else. *)
Theorem C62_bond_events_are_of_the_signer : forall c g l a v, In (EvBonded a v) (rt_ev (run c (genesis_state g) l)) ->
  exists v', v <= v' /\ (In (OCall (Signed a) (CTd (TdBond v'))) l \/ In (OCall (Signed a) (CTd (TdBondExtra v'))) l).
Proof.
  intros c g l a v H. destruct (run_emits c l (genesis_state g)) as (evs & E & HF). rewrite E, app_nil_r in H.
  rewrite List.Forall_forall in HF. destruct (HF _ H) as (x & Hx & He). clear HF E H.
  destruct x as [o k| | | | | | | | | |]; cbn in He; try contradiction. destruct k as [x|x|x|x|x|x|x|x]; try contradiction.
  destruct x; try contradiction; destruct He as [-> Hv]; eauto.
Qed.
Print Assumptions C62_bond_events_are_of_the_signer.
Theorem C62_enclave_events_are_of_the_signer : forall c g l a u i st,
  In (EvAddedSgxEnclave a u i st) (rt_ev (run c (genesis_state g) l)) ->
  exists p m, In (OCall (Signed a) (CTx (TxRegister p u m))) l.
Proof.
  intros c g l a u i st H. destruct (run_emits c l (genesis_state g)) as (evs & E & HF). rewrite E, app_nil_r in H.
  rewrite List.Forall_forall in HF. destruct (HF _ H) as (x & Hx & He). clear HF E H.
  destruct x as [o k| | | | | | | | | |]; cbn in He; try contradiction. destruct k as [x|x|x|x|x|x|x|x]; try contradiction.
  destruct x; try contradiction. destruct He as [-> ->]. eauto.
Qed.
Print Assumptions C62_enclave_events_are_of_the_signer.
(** Administrative events need the root origin. *)
Theorem C62_administrative_events_need_root : forall c g l e, In e (rt_ev (run c (genesis_state g) l)) ->
  match e with
  | EvPurgedEnclave sh a => In (OCall Root (CEb (EbPurge sh a))) l
  | EvAddedToWhitelist src fp => In (OCall Root (CTo (ToAdd src fp))) l
  | EvRemovedFromWhitelist src fp => In (OCall Root (CTo (ToRemove src fp))) l
  | EvUpdatedSecurityFlags sk d => In (OCall Root (CTx (TxSetFlags sk d))) l
  | _ => True
  end.
Proof.
  intros c g l e H. destruct (run_emits c l (genesis_state g)) as (evs & E & HF). rewrite E, app_nil_r in H.
  rewrite List.Forall_forall in HF. destruct (HF _ H) as (x & Hx & He). clear HF E H.
  destruct e; auto; destruct x as [o k| | | | | | | | | |]; cbn in He; try contradiction;
  destruct k as [x|x|x|x|x|x|x|x]; try contradiction; destruct x; try contradiction; intuition congruence.
Qed.
Print Assumptions C62_administrative_events_need_root.
Example C62_example :
  rt_ev (run cfg0 (genesis_state (gen0 [alice])) [call_td alice (TdBond 20); OCall Root (CTx (TxSetFlags true false))]) =
  [EvUpdatedSecurityFlags true false; EvBonded alice 20].
Proof. vm_compute. auto. Qed.
