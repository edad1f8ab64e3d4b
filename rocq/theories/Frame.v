(** * Frame: which parts of the state a call can change. *)
From Verif Require Import Base State Env TeerdaysModel TeerexBase SgxVerifyModel TeerexModel
  EnclaveBridgeModel SidechainModel TeeracleModel ClaimsModel AssetRegistryModel XcmTransactorModel
  Runtime.

(** [m] leaves the view [f] of the state alone whenever it succeeds *)
Definition pres {A B} (f : rt -> B) (m : RM A) : Prop := forall s a s', m s = Ok a s' -> f s' = f s.

Section Pres.
Context {B : Type} (f : rt -> B).
Lemma pres_ret {A} (a : A) : pres f (ret a).
Proof. intros s b s' H. inv_ok H. auto. Qed.
Lemma pres_fail {A} e : pres f (fail e : RM A).
Proof. intros s b s' H. inv_ok H. Qed.
Lemma pres_panic {A} : pres f (panic : RM A).
Proof. intros s b s' H. inv_ok H. Qed.
Lemma pres_gets {A} (g : rt -> A) : pres f (gets g).
Proof. intros s b s' H. inv_ok H. auto. Qed.
Lemma pres_modify g : (forall s, f (g s) = f s) -> pres f (modify g).
Proof. intros Hg s b s' H. inv_ok H. auto. Qed.
Lemma pres_ensure b e : pres f (ensure b e).
Proof. intros s u s' H. inv_ok H. auto. Qed.
Lemma pres_ok_or {A} (o : option A) e : pres f (ok_or o e).
Proof. intros s u s' H. inv_ok H. auto. Qed.
Lemma pres_bind {A D} (m : RM A) (k : A -> RM D) :
  pres f m -> (forall a, pres f (k a)) -> pres f (bind m k).
Proof.
  intros Hm Hk s b s' H. apply bind_ok in H as (a & s1 & H1 & H2).
  rewrite (Hk a s1 b s' H2). eauto.
Qed.
Lemma pres_plain_add ovf mx a b : pres f (plain_add ovf mx a b).
Proof. intros s u s' H. apply plain_add_ok in H as [-> _]. auto. Qed.
Lemma pres_lift {A} (r : res A) : pres f (lift_res r).
Proof. destruct r; [apply pres_ret|apply pres_fail|apply pres_panic]. Qed.
End Pres.

Ltac pres_step :=
  first
  [ apply pres_bind; [|intros ?]
  | apply pres_ret | apply pres_fail | apply pres_panic | apply pres_gets | apply pres_ensure
  | apply pres_ok_or | apply pres_plain_add | apply pres_lift
  | apply pres_modify; intros ?; cbn; repeat case_match; reflexivity
  | match goal with
    | |- pres _ (match ?x with _ => _ end) => destruct x eqn:?
    | |- pres _ (if ?x then _ else _) => destruct x eqn:?
    | |- pres _ (let '(_, _) := ?x in _) => destruct x eqn:?
    end
  | progress (cbv beta zeta) ].
Ltac pres_tac := repeat pres_step.

(** Views of the state *)
Definition v_clock (s : rt) := (rt_now s, rt_blk s).
Definition v_free (s : rt) := b_free (rt_bal s).
Definition v_locks (s : rt) := b_locks (rt_bal s).
Definition v_reg (s : rt) := (ar_loc (rt_ar s), ar_id (rt_ar s)).
Definition v_assets (s : rt) := ar_assets (rt_ar s).

(** The parts of the runtime state *)
Inductive part :=
| PClock | PFree | PLocks | PVest | PTd | PEb | PSc | PTo | PTx | PCl | PReg | PAssets | POut | PEvents.
Definition same (p : part) (s s' : rt) : Prop :=
  match p with
  | PClock => v_clock s' = v_clock s
  | PFree => v_free s' = v_free s
  | PLocks => v_locks s' = v_locks s
  | PVest => rt_vest s' = rt_vest s
  | PTd => rt_td s' = rt_td s
  | PEb => rt_eb s' = rt_eb s
  | PSc => rt_sc s' = rt_sc s
  | PTo => rt_to s' = rt_to s
  | PTx => rt_tx s' = rt_tx s
  | PCl => rt_cl s' = rt_cl s
  | PReg => v_reg s' = v_reg s
  | PAssets => v_assets s' = v_assets s
  | POut => rt_out s' = rt_out s
  | PEvents => rt_ev s' = rt_ev s
  end.
Definition keeps (p : part) {A} (m : RM A) : Prop := forall s a s', m s = Ok a s' -> same p s s'.

Lemma keeps_bind p {A D} (m : RM A) (k : A -> RM D) :
  keeps p m -> (forall a, keeps p (k a)) -> keeps p (bind m k).
Proof.
  intros Hm Hk s b s' H. apply bind_ok in H as (a & s1 & H1 & H2).
  specialize (Hm _ _ _ H1). specialize (Hk _ _ _ _ H2).
  destruct p; cbn [same] in *; congruence.
Qed.
Lemma same_refl p s : same p s s.
Proof. destruct p; reflexivity. Qed.
Lemma same_trans p s s1 s2 : same p s s1 -> same p s1 s2 -> same p s s2.
Proof. destruct p; cbn [same]; congruence. Qed.

(** ** Which parts each pallet may write (the documented table) *)
Definition td_parts (p : part) : bool := match p with PTd | PLocks | PEvents => true | _ => false end.
Definition eb_parts (p : part) : bool := match p with PEb | PFree | PEvents => true | _ => false end.
Definition sc_parts (p : part) : bool := match p with PEb | PSc | PEvents => true | _ => false end.
Definition to_parts (p : part) : bool := match p with PTo | PEvents => true | _ => false end.
Definition tx_parts (p : part) : bool := match p with PTx | PEvents => true | _ => false end.
Definition cl_parts (p : part) : bool :=
  match p with PCl | PFree | PLocks | PVest | PEvents => true | _ => false end.
Definition ar_parts (p : part) : bool := match p with PReg | PEvents => true | _ => false end.
Definition xt_parts (p : part) : bool := match p with POut | PEvents => true | _ => false end.
Definition may_write (k : call) : part -> bool :=
  match k with
  | CTd _ => td_parts | CEb _ => eb_parts | CSc _ => sc_parts | CTo _ => to_parts
  | CTx _ => tx_parts | CCl _ => cl_parts | CAr _ => ar_parts | CXt _ => xt_parts
  end.

(** To show [keeps p m] show [pres] of the view *)
Lemma keeps_pres p {A} (m : RM A) :
  match p with
  | PClock => pres v_clock m | PFree => pres v_free m | PLocks => pres v_locks m
  | PVest => pres rt_vest m | PTd => pres rt_td m | PEb => pres rt_eb m | PSc => pres rt_sc m
  | PTo => pres rt_to m | PTx => pres rt_tx m | PCl => pres rt_cl m | PReg => pres v_reg m
  | PAssets => pres v_assets m | POut => pres rt_out m | PEvents => pres rt_ev m
  end -> keeps p m.
Proof. destruct p; intros H s a s' E; exact (H s a s' E). Qed.

Ltac unfold_env := unfold set_lock, remove_lock, transfer, deposit_creating, withdraw, reap, vest,
  write_vesting, add_vesting_schedule, deposit_event, ensure_signed, ensure_root, ensure_none,
  ensure_signed_or_root, get_sovereign_enclave.

Lemma td_keeps c o x p : td_parts p = false -> keeps p (td_exec c o x).
Proof.
  intros Hp. apply keeps_pres.
  destruct p; try discriminate Hp; destruct x; cbn [td_exec];
  unfold td_bond, td_bond_extra, td_unbond, td_update_other, td_withdraw_unbonded,
    try_withdraw_unbonded, do_update_teerdays; unfold_env; pres_tac.
Qed.
Lemma eb_keeps c o x p : eb_parts p = false -> keeps p (eb_exec_call c o x).
Proof.
  intros Hp. apply keeps_pres.
  destruct p; try discriminate Hp; destruct x; cbn [eb_exec_call];
  unfold invoke, confirm_processed, shield_funds, unshield_funds, publish_hash, update_shard_config,
    purge, get_enclave_and_touch, get_config, touch_shard; unfold_env; pres_tac.
Qed.
Lemma sc_keeps o x p : sc_parts p = false -> keeps p (sc_exec o x).
Proof.
  intros Hp. apply keeps_pres.
  destruct p; try discriminate Hp; destruct x; cbn [sc_exec];
  unfold confirm_sidechain, finalize_block, get_enclave_and_touch, get_config, touch_shard;
  unfold_env; pres_tac.
Qed.
Lemma to_keeps c o x p : to_parts p = false -> keeps p (to_exec c o x).
Proof.
  intros Hp. apply keeps_pres.
  destruct p; try discriminate Hp; destruct x; cbn [to_exec];
  unfold add_to_whitelist, remove_from_whitelist, update_oracle, update_exchange_rate;
  unfold_env; pres_tac.
Qed.
Lemma tx_keeps c o x p : tx_parts p = false -> keeps p (tx_exec c o x).
Proof.
  intros Hp. apply keeps_pres.
  destruct p; try discriminate Hp; destruct x; cbn [tx_exec];
  unfold register_sgx_enclave, reg_ias, reg_dcap, reg_skip, ensure_within_24h, add_enclave,
    unregister_sovereign, unregister_proxied, register_quoting_enclave, verify_quoting_enclave,
    register_tcb_info, verify_tcb_info, set_security_flags; unfold_env; pres_tac.
Qed.
Lemma cl_keeps c o x p : cl_parts p = false -> keeps p (cl_exec c o x).
Proof.
  intros Hp. apply keeps_pres.
  destruct p; try discriminate Hp; destruct x; cbn [cl_exec];
  unfold claim, mint_claim, claim_attest, attest, move_claim, process_claim; unfold_env; pres_tac.
Qed.
Lemma ar_keeps c o x p : ar_parts p = false -> keeps p (ar_exec c o x).
Proof.
  intros Hp. apply keeps_pres.
  destruct p; try discriminate Hp; destruct x; cbn [ar_exec];
  unfold register_asset, unregister_asset; unfold_env; pres_tac.
Qed.
Lemma xt_keeps c o x p : xt_parts p = false -> keeps p (xt_exec c o x).
Proof.
  intros Hp. apply keeps_pres.
  destruct p; try discriminate Hp; destruct x; cbn [xt_exec];
  unfold send_swap_ump; unfold_env; pres_tac.
Qed.

Theorem exec_keeps c o k p : may_write k p = false -> keeps p (exec c o k).
Proof.
  destruct k; cbn [may_write exec]; intros H.
  - apply td_keeps; auto.
  - apply eb_keeps; auto.
  - apply sc_keeps; auto.
  - apply to_keeps; auto.
  - apply tx_keeps; auto.
  - apply cl_keeps; auto.
  - apply ar_keeps; auto.
  - apply xt_keeps; auto.
Qed.

(** ** Dispatch *)
Lemma run_call_ok m s s' : run_call m s = (Success, s') -> m s = Ok tt s'.
Proof. unfold run_call. destruct (m s) as [[]| |]; congruence. Qed.
Lemma run_call_cases m s :
  (exists s', m s = Ok tt s' /\ run_call m s = (Success, s')) \/
  (run_call m s).1 <> Success /\ (run_call m s).2 = s.
Proof. unfold run_call. destruct (m s) as [[] s'| |] eqn:E; [left|right|right]; eauto; split; easy. Qed.
Lemma run_call_same m s p : keeps p m -> same p s (run_call m s).2.
Proof.
  intros H. destruct (run_call_cases m s) as [(s' & E & ->)|[_ ->]]; [|apply same_refl].
  exact (H _ _ _ E).
Qed.
Lemma dispatch_same c o k s p : may_write k p = false -> same p s (dispatch c o k s).2.
Proof. intros H. apply run_call_same, exec_keeps, H. Qed.

(** Which parts the environment operations write *)
Definition op_may_write (x : op) : part -> bool :=
  match x with
  | OCall _ k => may_write k
  | ONextBlock _ => fun p => match p with PClock => true | _ => false end
  | OTransfer _ _ _ | OMint _ _ | OFee _ _ => fun p => match p with PFree | PEvents => true | _ => false end
  | OVest _ | OAddVesting _ _ _ _ => fun p => match p with PLocks | PVest => true | _ => false end
  | OLock _ _ _ | OUnlock _ _ => fun p => match p with PLocks => true | _ => false end
  | OCreateAsset _ _ | ODestroyAsset _ => fun p => match p with PAssets => true | _ => false end
  end.
Lemma step_same c s x p : op_may_write x p = false -> same p s (step c s x).
Proof.
  destruct x; cbn [op_may_write step]; intros H.
  - apply dispatch_same, H.
  - unfold next_block. destruct (_ <=? _); [|apply same_refl]. destruct p; try discriminate H; reflexivity.
  - apply run_call_same, keeps_pres. destruct p; try discriminate H; unfold_env; pres_tac.
  - apply run_call_same, keeps_pres. destruct p; try discriminate H; unfold_env; pres_tac.
  - apply run_call_same, keeps_pres. destruct p; try discriminate H; unfold_env; pres_tac.
  - apply run_call_same, keeps_pres. destruct p; try discriminate H; unfold_env; pres_tac.
  - apply run_call_same, keeps_pres. destruct p; try discriminate H; unfold_env; pres_tac.
  - apply run_call_same, keeps_pres. destruct p; try discriminate H; unfold_env; pres_tac.
  - apply run_call_same, keeps_pres. destruct p; try discriminate H; unfold_env; pres_tac.
  - destruct p; try discriminate H; reflexivity.
  - destruct p; try discriminate H; reflexivity.
Qed.

(** ** Histories *)
Lemma run_app c s l1 l2 : run c s (l1 ++ l2) = run c (run c s l1) l2.
Proof. apply fold_left_app. Qed.
Lemma run_snoc c s l x : run c s (l ++ [x]) = step c (run c s l) x.
Proof. rewrite run_app. reflexivity. Qed.
Lemma run_cons c s x l : run c s (x :: l) = run c (step c s x) l.
Proof. reflexivity. Qed.
Lemma run_inv c (P : rt -> Prop) (Q : op -> Prop) s l :
  (forall s x, P s -> Q x -> P (step c s x)) -> P s -> Forall Q l -> P (run c s l).
Proof. intros Hs. revert s. induction l; intros s H HF; [auto|]. inversion HF; subst. apply IHl; auto. Qed.
Lemma run_inv' c (P : rt -> Prop) s l :
  (forall s x, P s -> P (step c s x)) -> P s -> P (run c s l).
Proof. intros Hs H. apply (run_inv c P (fun _ => True)); auto. apply Forall_true; auto. Qed.

(** A step is either the identity, a successful body, or one of the few direct writes *)
Lemma step_call c s o k :
  (exists s', exec c o k s = Ok tt s' /\ step c s (OCall o k) = s') \/ step c s (OCall o k) = s.
Proof.
  cbn [step]. unfold dispatch. destruct (run_call_cases (exec c o k) s) as [(s' & E & ->)|[_ ->]]; eauto.
Qed.
