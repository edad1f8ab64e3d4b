(** * Ledger: every balance is accounted for by the event log; vaults in particular. *)
From Verif Require Import Base State Env TeerdaysModel TeerexBase SgxVerifyModel TeerexModel
  EnclaveBridgeModel SidechainModel TeeracleModel ClaimsModel AssetRegistryModel XcmTransactorModel
  Runtime Frame EnvFacts BridgeProofs.

(** ** Specification: sums over the event log *)
(** everything that was paid into account [a] *)
Definition in_ev (a : acct) (e : event) : N :=
  match e with
  | EvTransfer _ d v => if beq d a then v else 0
  | EvDeposit d v => if beq d a then v else 0
  | _ => 0
  end.
(** transfers out of account [a] *)
Definition sent_ev (a : acct) (e : event) : N :=
  match e with EvTransfer s _ v => if beq s a then v else 0 | _ => 0 end.
(** fees paid by [a] *)
Definition fee_ev (a : acct) (e : event) : N :=
  match e with EvWithdraw d v => if beq d a then v else 0 | _ => 0 end.
(** dust lost by [a] *)
Definition dust_ev (a : acct) (e : event) : N :=
  match e with EvDust d v => if beq d a then v else 0 | _ => 0 end.
(** funds unshielded from shard [sh] to accounts other than its vault *)
Definition unshielded_ev (sh : bytes) (e : event) : N :=
  match e with EvUnshieldedFunds sh' b v => if beq sh' sh && negb (beq b (vault sh)) then v else 0 | _ => 0 end.
(** the sum of [f] over a log *)
Definition total (f : event -> N) (ev : list event) : N := foldr (fun e acc => f e + acc) 0 ev.
Lemma total_cons f e l : total f (e :: l) = f e + total f l.
Proof. reflexivity. Qed.
Lemma total_app f l1 l2 : total f (l1 ++ l2) = total f l1 + total f l2.
Proof. induction l1 as [|e l IH]; [reflexivity|]. cbn [app]. rewrite !total_cons, IH. lia. Qed.

(** ** Every account *)
Definition balanced (a : acct) (k : N) (s : rt) : Prop :=
  free s a + total (sent_ev a) (rt_ev s) + total (fee_ev a) (rt_ev s) + total (dust_ev a) (rt_ev s)
  = k + total (in_ev a) (rt_ev s).

Lemma dust_totals c a b v :
  total (in_ev a) (dust_event c b v) = 0 /\ total (sent_ev a) (dust_event c b v) = 0 /\
  total (fee_ev a) (dust_event c b v) = 0 /\
  total (dust_ev a) (dust_event c b v) = if decide (a = b) then v - after_dust c v else 0.
Proof.
  unfold dust_event, after_dust.
  destruct (N.ltb_spec v (c_ed c)); cbn [andb].
  - destruct (N.eqb_spec v 0); cbn.
    + repeat split; auto. destruct (decide (a = b)); lia.
    + repeat split; auto. destruct (decide (a = b)) as [->|].
      * rewrite beq_refl. lia.
      * destruct (beq b a) eqn:E; [apply beq_true in E; congruence|lia].
  - repeat split; auto. destruct (decide (a = b)); cbn; lia.
Qed.
Lemma after_dust_le' c v : after_dust c v <= v.
Proof. apply after_dust_le. Qed.

Lemma bal_transfer a k c src dst v : keepsP (balanced a k) (transfer c src dst v).
Proof.
  intros s u s' Hs H. apply transfer_ok in H as [(_ & ->)|(Hv & Hn & Hf & _ & _ & _ & HF & HE)]; [auto|].
  unfold balanced in *. rewrite HE, HF, !total_cons, !total_app.
  destruct (dust_totals c a src (free s src - v)) as (-> & -> & -> & ->). cbn [in_ev sent_ev fee_ev dust_ev].
  pose proof (after_dust_le c (free s src - v)).
  destruct (decide (a = src)) as [->|Ha].
  - rewrite beq_refl. destruct (beq dst src) eqn:E; [apply beq_true in E; congruence|]. lia.
  - destruct (beq src a) eqn:E; [apply beq_true in E; congruence|]. destruct (decide (a = dst)) as [->|Hd].
    + rewrite beq_refl. lia.
    + destruct (beq dst a) eqn:E2; [apply beq_true in E2; congruence|]. lia.
Qed.
Lemma bal_deposit a k c b v : keepsP (balanced a k) (deposit_creating c b v).
Proof.
  intros s u s' Hs H. apply deposit_ok in H as [(-> & _)|(Hv & _ & _ & HF & HE)]; [auto|].
  unfold balanced in *. rewrite HE, HF, !total_cons. cbn [in_ev sent_ev fee_ev dust_ev].
  destruct (decide (a = b)) as [->|Ha]; [rewrite beq_refl; lia|].
  destruct (beq b a) eqn:E; [apply beq_true in E; congruence|]. lia.
Qed.
Lemma spendable_le c s a : spendable c s a <= free s a.
Proof. unfold spendable. lia. Qed.
Lemma bal_withdraw a k c b v : keepsP (balanced a k) (withdraw c b v).
Proof.
  intros s u s' Hs H. apply withdraw_ok in H as [(_ & ->)|(Hv & Hsp & HF & HE)]; [auto|].
  pose proof (spendable_le c s b).
  unfold balanced in *. rewrite HE, HF, !total_cons, !total_app.
  destruct (dust_totals c a b (free s b - v)) as (-> & -> & -> & ->). cbn [in_ev sent_ev fee_ev dust_ev].
  pose proof (after_dust_le c (free s b - v)).
  destruct (decide (a = b)) as [->|Ha]; [rewrite beq_refl; lia|].
  destruct (beq b a) eqn:E; [apply beq_true in E; congruence|]. lia.
Qed.
Lemma bal_view a k s s' : v_free s' = v_free s -> rt_ev s' = rt_ev s -> balanced a k s -> balanced a k s'.
Proof. intros H1 H2. unfold balanced. rewrite (free_view _ _ H1), H2. auto. Qed.
(** Events of the pallets themselves do not count *)
Definition neutral (a : acct) (e : event) : Prop :=
  in_ev a e = 0 /\ sent_ev a e = 0 /\ fee_ev a e = 0 /\ dust_ev a e = 0.
Lemma bal_event a k e s : neutral a e -> balanced a k s -> balanced a k (add_ev e s).
Proof.
  intros (H1 & H2 & H3 & H4). unfold balanced. change (rt_ev (add_ev e s)) with (e :: rt_ev s).
  rewrite !total_cons, H1, H2, H3, H4. change (free (add_ev e s) a) with (free s a). lia.
Qed.
Lemma bal_deposit_event a k e : neutral a e -> keepsP (balanced a k) (deposit_event e).
Proof. intros Hn. apply keepsP_modify. intros s. apply bal_event, Hn. Qed.
Ltac bal := first
  [ apply bal_transfer | apply bal_deposit | apply bal_withdraw
  | apply bal_deposit_event; repeat split; reflexivity
  | apply (keepsP_modify (balanced _ _)); intros ? Hb; refine (bal_view _ _ _ _ _ _ Hb);
    [cbn; repeat case_match; reflexivity|cbn; repeat case_match; reflexivity]
  | keepsP_step ].
Lemma balanced_step a k c s x : balanced a k s -> balanced a k (step c s x).
Proof.
  intros Hs. destruct (op_may_write x PFree || op_may_write x PEvents) eqn:HW.
  2: { bools. refine (bal_view a k s _ _ _ Hs); [exact (step_same c s x PFree H)|exact (step_same c s x PEvents H0)]. }
  destruct x as [o y| | | | | | | | | |]; try discriminate HW; cbn [step].
  2-4: apply run_call_keepsP; [bal|exact Hs].
  unfold dispatch. apply run_call_keepsP; [|exact Hs]. destruct y as [x|x|x|x|x|x|x|x]; cbn [exec]; destruct x.
  all: cbn [td_exec eb_exec_call sc_exec to_exec tx_exec cl_exec ar_exec xt_exec].
  all: unfold td_bond, td_bond_extra, td_unbond, td_update_other, td_withdraw_unbonded, try_withdraw_unbonded, do_update_teerdays,
    invoke, confirm_processed, shield_funds, unshield_funds, publish_hash, update_shard_config, purge, get_enclave_and_touch,
    get_config, touch_shard, confirm_sidechain, finalize_block,
    add_to_whitelist, remove_from_whitelist, update_oracle, update_exchange_rate,
    register_sgx_enclave, reg_ias, reg_dcap, reg_skip, ensure_within_24h, add_enclave,
    unregister_sovereign, unregister_proxied, register_quoting_enclave, verify_quoting_enclave,
    register_tcb_info, verify_tcb_info, set_security_flags,
    claim, mint_claim, claim_attest, attest, move_claim, process_claim, add_vesting_schedule, write_vesting, vest, set_lock, remove_lock,
    register_asset, unregister_asset, send_swap_ump,
    ensure_signed, ensure_root, ensure_none, ensure_signed_or_root, get_sovereign_enclave.
  all: repeat bal.
Qed.
Lemma balanced_run a c g l : balanced a (default 0 (g_bal g !! a)) (run c (genesis_state g) l).
Proof. apply run_inv'; [intros; apply balanced_step; auto|]. unfold balanced, free. cbn. lia. Qed.

(** ** Vaults *)
(** Operations signed by the vault's own key (nobody is supposed to have it): *)
Definition vault_signs (sh : bytes) (x : op) : bool :=
  match x with
  | OTransfer a _ _ | OFee a _ => beq a (vault sh)
  | OCall (Signed a) (CEb (EbShield _ _ _)) => beq a (vault sh)
  | _ => false
  end.
Definition vault_inv (sh : bytes) (s : rt) : Prop :=
  total (sent_ev (vault sh)) (rt_ev s) = total (unshielded_ev sh) (rt_ev s) /\
  total (fee_ev (vault sh)) (rt_ev s) = 0.
Lemma vault_view sh s s' : rt_ev s' = rt_ev s -> vault_inv sh s -> vault_inv sh s'.
Proof. unfold vault_inv. intros ->. auto. Qed.
Definition vneutral (sh : bytes) (e : event) : Prop :=
  sent_ev (vault sh) e = 0 /\ unshielded_ev sh e = 0 /\ fee_ev (vault sh) e = 0.
Lemma vault_event sh e s : vneutral sh e -> vault_inv sh s -> vault_inv sh (add_ev e s).
Proof.
  intros (H1 & H2 & H3) [H4 H5]. unfold vault_inv. change (rt_ev (add_ev e s)) with (e :: rt_ev s).
  rewrite !total_cons, H1, H2, H3. split; lia.
Qed.
Lemma dust_vneutral c sh b v : total (unshielded_ev sh) (dust_event c b v) = 0.
Proof. unfold dust_event. destruct (_ && _); reflexivity. Qed.
Lemma vault_transfer sh c src dst v : src <> vault sh -> keepsP (vault_inv sh) (transfer c src dst v).
Proof.
  intros Hn s u s' [H1 H2] H. apply transfer_ok in H as [(_ & ->)|(_ & _ & _ & _ & _ & _ & _ & HE)]; [split; auto|].
  unfold vault_inv. rewrite HE, !total_cons, !total_app.
  destruct (dust_totals c (vault sh) src (free s src - v)) as (_ & -> & -> & _). rewrite dust_vneutral.
  cbn [sent_ev unshielded_ev fee_ev]. destruct (beq src (vault sh)) eqn:E; [apply beq_true in E; congruence|]. lia.
Qed.
Lemma vault_deposit sh c b v : keepsP (vault_inv sh) (deposit_creating c b v).
Proof.
  intros s u s' Hs H. apply deposit_ok in H as [(-> & _)|(_ & _ & _ & _ & HE)]; [auto|].
  destruct Hs. unfold vault_inv. rewrite HE, !total_cons. cbn [sent_ev unshielded_ev fee_ev]. lia.
Qed.
Lemma vault_withdraw sh c b v : b <> vault sh -> keepsP (vault_inv sh) (withdraw c b v).
Proof.
  intros Hn s u s' [H1 H2] H. apply withdraw_ok in H as [(_ & ->)|(_ & _ & _ & HE)]; [split; auto|].
  unfold vault_inv. rewrite HE, !total_cons, !total_app.
  destruct (dust_totals c (vault sh) b (free s b - v)) as (_ & -> & -> & _). rewrite dust_vneutral.
  cbn [sent_ev unshielded_ev fee_ev]. destruct (beq b (vault sh)) eqn:E; [apply beq_true in E; congruence|]. lia.
Qed.
Lemma vault_deposit_event sh e : vneutral sh e -> keepsP (vault_inv sh) (deposit_event e).
Proof. intros Hn. apply keepsP_modify. intros s. apply vault_event, Hn. Qed.
Ltac vlt := first
  [ apply vault_deposit | apply vault_deposit_event; repeat split; reflexivity
  | apply (keepsP_modify (vault_inv _)); intros ? Hb; refine (vault_view _ _ _ _ Hb);
    cbn; repeat case_match; reflexivity
  | keepsP_step ].
Lemma vault_unshield sh c o sh' b v h : keepsP (vault_inv sh) (unshield_funds c o sh' b v h).
Proof.
  intros s u s' Hs H. apply unshield_ok in H as (a & e & -> & _ & _ & H).
  assert (forall t n, vault_inv sh t -> vault_inv sh (put_exec h n t)) as Hx by (intros t n; apply vault_view; auto).
  assert (vault_inv sh (touched sh' a (fingerprint e) s)) as Ht.
  { revert Hs. apply vault_view. apply (touched_other _ rt_ev). auto. }
  destruct H as [(_ & s1 & H & ->)|(n & n1 & _ & _ & _ & ->)]; [|auto].
  apply Hx. destruct (decide (sh' = sh)) as [->|Hn].
  2: { assert (vault_inv sh s1) as H1. { eapply (vault_transfer sh c (vault sh')); eauto. }
       apply vault_event; [|auto]. repeat split. cbn. destruct (beq sh' sh) eqn:E; [apply beq_true in E; congruence|auto]. }
  destruct Ht as [H1 H2]. unfold vault_inv. change (rt_ev (add_ev ?x (put_exec h 0 s1))) with (x :: rt_ev s1).
  rewrite !total_cons. cbn [sent_ev unshielded_ev fee_ev]. rewrite beq_refl. cbn [andb].
  apply transfer_ok in H as [(Hz & ->)|(Hv & Hd & _ & _ & _ & _ & _ & HE)].
  - destruct Hz as [->| <-]; [|rewrite beq_refl; cbn [negb]; lia]. destruct (negb _); lia.
  - rewrite HE, !total_cons, !total_app.
    destruct (dust_totals c (vault sh) (vault sh) (free (touched sh a (fingerprint e) s) (vault sh) - v)) as (_ & -> & -> & _).
    rewrite dust_vneutral. cbn [sent_ev unshielded_ev fee_ev]. rewrite beq_refl.
    destruct (beq b (vault sh)) eqn:E; [apply beq_true in E; congruence|]. cbn [negb]. lia.
Qed.
Lemma vault_shield sh c o sh' b v : o <> Signed (vault sh) -> keepsP (vault_inv sh) (shield_funds c o sh' b v).
Proof.
  intros Ho s u s' Hs H. apply shield_ok in H as (a & s1 & -> & H & ->). apply vault_event; [repeat split|].
  eapply (vault_transfer sh c a); eauto. congruence.
Qed.
Lemma vault_step sh c s x : vault_signs sh x = false -> vault_inv sh s -> vault_inv sh (step c s x).
Proof.
  intros Hx Hs. destruct (op_may_write x PEvents) eqn:HW.
  2: { refine (vault_view sh s _ _ Hs). exact (step_same c s x PEvents HW). }
  destruct x as [o y| | | | | | | | | |]; try discriminate HW; cbn [step].
  2: { apply run_call_keepsP; [|exact Hs]. apply vault_transfer. cbn in Hx. bools. auto. }
  2: { apply run_call_keepsP; [|exact Hs]. apply vault_deposit. }
  2: { apply run_call_keepsP; [|exact Hs]. apply vault_withdraw. cbn in Hx. bools. auto. }
  unfold dispatch. apply run_call_keepsP; [|exact Hs]. destruct y as [x|x|x|x|x|x|x|x]; cbn [exec]; destruct x.
  all: cbn [td_exec eb_exec_call sc_exec to_exec tx_exec cl_exec ar_exec xt_exec].
  all: try (apply vault_unshield).
  all: try (apply vault_shield; intros ->; cbn in Hx; rewrite beq_refl in Hx; discriminate).
  all: unfold td_bond, td_bond_extra, td_unbond, td_update_other, td_withdraw_unbonded, try_withdraw_unbonded, do_update_teerdays,
    invoke, confirm_processed, publish_hash, update_shard_config, purge, get_enclave_and_touch,
    get_config, touch_shard, confirm_sidechain, finalize_block,
    add_to_whitelist, remove_from_whitelist, update_oracle, update_exchange_rate,
    register_sgx_enclave, reg_ias, reg_dcap, reg_skip, ensure_within_24h, add_enclave,
    unregister_sovereign, unregister_proxied, register_quoting_enclave, verify_quoting_enclave,
    register_tcb_info, verify_tcb_info, set_security_flags,
    claim, mint_claim, claim_attest, attest, move_claim, process_claim, add_vesting_schedule, write_vesting, vest, set_lock, remove_lock,
    register_asset, unregister_asset, send_swap_ump,
    ensure_root, ensure_none, ensure_signed_or_root, get_sovereign_enclave.
  all: unfold ensure_signed; repeat vlt.
Qed.
Lemma vault_run sh c g l : Forall (fun x => vault_signs sh x = false) l -> vault_inv sh (run c (genesis_state g) l).
Proof. intros HF. eapply (run_inv c (vault_inv sh)); [|split; reflexivity|exact HF]. intros s x Hs Hx. apply vault_step; auto. Qed.
