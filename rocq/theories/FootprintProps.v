(** * C86: what calls depend on and what they change, entry by entry. *)
From Verif Require Import Base State Env TeerdaysModel TeerexBase SgxVerifyModel TeerexModel
  EnclaveBridgeModel SidechainModel TeeracleModel ClaimsModel AssetRegistryModel XcmTransactorModel
  MigrationsModel Runtime ScaleModel StorageModel Frame EnvFacts Footprint ClaimsProofs SgxProofs SgxProps TeerexProofs HelperProps TeerexProps Examples.

#[global] Instance skey_dec : EqDecision skey. Proof. solve_decision. Defined.
#[global] Instance cell_dec : EqDecision cell. Proof. solve_decision. Defined.

(** ** The tables *)
(** What an enclave's account [a] needs to act for shard [sh] *)
Definition shard_reads (a : acct) (sh : bytes) : list cell := [XE (KSov a); XBlk; XE (KConfig sh); XE (KStatus sh)].
Definition shard_writes (sh : bytes) : list cell := [XE (KConfig sh); XE (KStatus sh)].
(** A claim of the Ethereum address [e] paid to [d] *)
Definition claim_reads (e : bytes) (d : acct) : list cell :=
  [XE (KClaims e); XE KTotal; XE (KVesting e); XE (KSigning e); XFree d; XLocks d; XVest d; XBlk].
Definition claim_writes (e : bytes) (d : acct) : list cell :=
  [XE (KClaims e); XE KTotal; XE (KVesting e); XE (KSigning e); XFree d; XLocks d; XVest d].
(** [claim] is for claims without a statement *)
Definition plain_claim_writes (e : bytes) (d : acct) : list cell :=
  [XE (KClaims e); XE KTotal; XE (KVesting e); XFree d; XLocks d; XVest d].
Definition claimant (c : cfg) (d : acct) (sig text : bytes) : option bytes :=
  match c_secp c sig (c_keccak c (signable_message c (to_ascii_hex d) text)) with
  | Some pk => Some (dropN 12 (c_keccak c pk))
  | None => None
  end.
Definition opt {A} (o : option A) (f : A -> list cell) : list cell := match o with Some x => f x | None => [] end.

(** What a signed call of [a] depends on. What matters for [EbPublish], [ClAttest] and [ArUnregister] is
    found in the state *)
Definition reads_signed (c : cfg) (a : acct) (k : call) (s : rt) : list cell :=
  match k with
  | CTd (TdBond _) => [XE (KBonds a); XFree a; XLocks a; XNow]
  | CTd (TdBondExtra _) => [XE (KPending a); XE (KBonds a); XFree a; XLocks a; XNow]
  | CTd (TdUnbond _) => [XE (KPending a); XE (KBonds a); XNow]
  | CTd (TdUpdateOther w) => [XE (KBonds w); XNow]
  | CTd TdWithdrawUnbonded => [XE (KPending a); XLocks a; XNow]
  | CEb (EbConfirm sh _ _ _) => shard_reads a sh
  | CEb (EbShield sh _ _) => [XFree a; XLocks a; XFree sh]
  | CEb (EbUnshield sh b _ h) => shard_reads a sh ++ [XE (KExec h); XFree sh; XLocks sh; XFree b]
  | CEb (EbPublish _ _ _) =>
      [XE (KSov a); XBlk] ++ opt (tx_sov (rt_tx s) !! a) (fun e => [XE (KStatus (en_mr_enclave e))])
  | CEb (EbUpdateConfig sh _ _) => shard_reads a sh
  | CSc (ScConfirm sh _ _) => shard_reads a sh ++ [XE (KLatest sh)]
  | CTo (ToUpdateOracle _ src _) => [XE (KSov a); XE (KWhitelist src)]
  | CTo (ToUpdateRate src _ _) => [XE (KSov a); XE (KWhitelist src)]
  | CTx (TxRegister _ _ MIas) => [XNow; XE KDebug]
  | CTx (TxRegister proof _ (MDcap _)) =>
      [XNow; XE KQe; XE KDebug]
      ++ match extract_tcb_info_from_raw (c_sgx c) proof with ROk (f, _) => [XE (KTcb f)] | _ => [] end
  | CTx (TxRegister _ _ (MSkip _)) => [XE KSkip; XNow]
  | CTx (TxUnregisterSovereign w) => [XE (KSov w); XNow]
  | CTx (TxUnregisterProxied w) => [XE (KProx w); XNow]
  | CTx (TxRegisterQe _ _ _) | CTx (TxRegisterTcb _ _ _) => [XNow]
  | CCl (ClAttest _) => XE (KPreclaims a) :: opt (cl_preclaims (rt_cl s) !! a) (fun e => claim_reads e a)
  | _ => []
  end.
(** Calls that other origins may make *)
Definition reads_other (c : cfg) (k : call) (s : rt) : list cell :=
  match k with
  | CCl (ClMove old _ pre) =>
      [XE (KClaims old); XE (KVesting old); XE (KSigning old)] ++ opt pre (fun p => [XE (KPreclaims p)])
  | CAr (ArRegister i _) => [XAsset i; XE (KAssetLoc i)]
  | CAr (ArUnregister i) => [XE (KAssetLoc i)]
  | _ => []
  end.
Definition reads_root (c : cfg) (k : call) : list cell :=
  match k with
  | CEb (EbUpdateConfig sh _ _) => [XBlk; XE (KConfig sh)]
  | CEb (EbPurge sh _) => [XE (KStatus sh)]
  | CTo (ToAdd src _) | CTo (ToRemove src _) => [XE (KWhitelist src)]
  | CCl (ClMint _ _ _ _) => [XE KTotal]
  | _ => []
  end.
Definition reads_none (c : cfg) (k : call) : list cell :=
  match k with
  | CCl (ClClaim d sig) => opt (claimant c d sig []) (fun e => claim_reads e d)
  | CCl (ClClaimAttest d sig text) => opt (claimant c d sig text) (fun e => claim_reads e d)
  | _ => []
  end.
Definition reads (c : cfg) (o : origin) (k : call) (s : rt) : list cell :=
  (match o with Signed a => reads_signed c a k s | Root => reads_root c k | NoneO => reads_none c k end)
  ++ reads_other c k s.

(** The address a proxied enclave is filed under: of a DCAP quote the measurement is at 112, the
    report data at 368 *)
Definition proxied_address (a : acct) (proof : bytes) (m : att_method) : eaddr :=
  match m with
  | MSkip _ => ((if 32 <=? lenN proof then takeN 32 proof else zeros 32), a,
                inl ((a ++ zeros (64 - lenN a)) ++ zeros 2))
  | _ => (takeN 32 (dropN 112 proof), a, inl (takeN 64 (dropN 368 proof) ++ zeros 2))
  end.
(** What a call may change *)
Definition writes_signed (c : cfg) (a : acct) (k : call) (s : rt) : list cell :=
  match k with
  | CTd (TdBond _) | CTd (TdBondExtra _) => [XE (KBonds a); XLocks a]
  | CTd (TdUnbond _) => [XE (KPending a); XE (KBonds a)]
  | CTd (TdUpdateOther w) => [XE (KBonds w)]
  | CTd TdWithdrawUnbonded => [XE (KPending a); XLocks a]
  | CEb (EbConfirm sh _ _ _) => shard_writes sh
  | CEb (EbShield sh _ _) => [XFree a; XFree sh]
  | CEb (EbUnshield sh b _ h) => shard_writes sh ++ [XE (KExec h); XFree sh; XFree b]
  | CEb (EbPublish _ _ _) => opt (tx_sov (rt_tx s) !! a) (fun e => [XE (KStatus (en_mr_enclave e))])
  | CEb (EbUpdateConfig sh _ _) => shard_writes sh
  | CSc (ScConfirm sh _ _) => shard_writes sh ++ [XE (KLatest sh)]
  | CTo (ToUpdateOracle n src _) => [XE (KData n src)]
  | CTo (ToUpdateRate src p _) => [XE (KRates p src)]
  | CTx (TxRegister proof _ (MDcap true as m)) | CTx (TxRegister proof _ (MSkip true as m)) =>
      [XE (KProx (proxied_address a proof m))]
  | CTx (TxRegister _ _ _) => [XE (KSov a)]
  | CTx (TxUnregisterSovereign w) => [XE (KSov w)]
  | CTx (TxUnregisterProxied w) => [XE (KProx w)]
  | CTx (TxRegisterQe _ _ _) => [XE KQe]
  | CTx (TxRegisterTcb info _ _) => opt (or_json_tcb (c_sgx c) info) (fun e => [XE (KTcb (tj_fmspc e))])
  | CCl (ClAttest _) => XE (KPreclaims a) :: opt (cl_preclaims (rt_cl s) !! a) (fun e => claim_writes e a)
  | _ => []
  end.
Definition writes_other (k : call) (s : rt) : list cell :=
  match k with
  | CCl (ClMove old new pre) =>
      [XE (KClaims old); XE (KVesting old); XE (KSigning old); XE (KClaims new); XE (KVesting new); XE (KSigning new)]
      ++ opt pre (fun p => [XE (KPreclaims p)])
  | CAr (ArRegister i l) => [XE (KAssetLoc i); XE (KAssetId l)]
  | CAr (ArUnregister i) => XE (KAssetLoc i) :: opt (ar_loc (rt_ar s) !! i) (fun l => [XE (KAssetId l)])
  | _ => []
  end.
Definition writes_root (k : call) : list cell :=
  match k with
  | CEb (EbUpdateConfig sh _ _) => [XE (KConfig sh)]
  | CEb (EbPurge sh _) => [XE (KStatus sh)]
  | CTo (ToAdd src _) | CTo (ToRemove src _) => [XE (KWhitelist src)]
  | CTx (TxSetFlags _ _) => [XE KDebug; XE KSkip]
  | CCl (ClMint e _ _ _) => [XE KTotal; XE (KClaims e); XE (KVesting e); XE (KSigning e)]
  | _ => []
  end.
Definition writes_none (c : cfg) (k : call) : list cell :=
  match k with
  | CCl (ClClaim d sig) => opt (claimant c d sig []) (fun e => plain_claim_writes e d)
  | CCl (ClClaimAttest d sig text) => opt (claimant c d sig text) (fun e => claim_writes e d)
  | _ => []
  end.
Definition writes (c : cfg) (o : origin) (k : call) (s : rt) : list cell :=
  (match o with Signed a => writes_signed c a k s | Root => writes_root k | NoneO => writes_none c k end)
  ++ writes_other k s.

(** ** Proofs *)
Lemma nil_det {A} (m : RM A) s1 s2 : det [] m -> det_at m s1 s2.
Proof. intros H. apply H. intros x []%elem_of_nil. Qed.
Lemma det_at_bind_ok {A B} (m : RM A) (k : A -> RM B) s1 s2 a :
  m s1 = Ok a s1 -> m s2 = Ok a s2 -> det_at (k a) s1 s2 -> det_at (bind m k) s1 s2.
Proof. intros H1 H2. unfold det_at, bind. rewrite H1, H2. auto. Qed.
Lemma det_at_bind_err {A B} (m : RM A) (k : A -> RM B) s1 s2 e :
  m s1 = Err e s1 -> m s2 = Err e s2 -> det_at (bind m k) s1 s2.
Proof. intros H1 H2. unfold det_at, bind. rewrite H1, H2. auto. Qed.
Ltac env_det :=
  first [apply det_set_lock; in_list | apply det_remove_lock; in_list | apply det_transfer; in_list
        | apply det_now; in_list | apply det_blk; in_list | apply det_free; in_list].
Ltac dt := repeat first [apply det_ret | apply det_fail | apply det_bind_fail | apply det_bind_ret | env_det | det_step].
Ltac to_det HA :=
  lazymatch type of HA with agree ?R ?s1 ?s2 => refine ((_ : det R _) s1 s2 HA); clear HA end.
Lemma td_det c o x s1 s2 : agree (reads c o (CTd x) s1) s1 s2 -> det_at (td_exec c o x) s1 s2.
Proof.
  unfold reads. cbn [reads_other]. rewrite app_nil_r. intros HA.
  destruct o as [|a|]; [destruct x; apply nil_det, det_bind_fail| |destruct x; apply nil_det, det_bind_fail].
  destruct x; cbn [reads_signed] in HA; to_det HA; cbn [td_exec];
    unfold td_bond, td_bond_extra, td_unbond, td_update_other, td_withdraw_unbonded, try_withdraw_unbonded,
      do_update_teerdays; cbn [ensure_signed]; dt.
Qed.

Lemma shard_det a sh blk R :
  XE (KSov a) ∈ R -> XE (KConfig sh) ∈ R -> XE (KStatus sh) ∈ R -> det R (get_enclave_and_touch a sh blk).
Proof.
  intros H1 H2 H3. unfold get_enclave_and_touch, get_sovereign_enclave, get_config, touch_shard.
  repeat first [apply det_ret | apply det_fail
    | apply (det_gets_one R _ _ H1); cbn; solve [auto] | apply (det_gets_one R _ _ H2); cbn; solve [auto]
    | apply (det_gets_one R _ _ H3); cbn; solve [auto] | det_put | det_step].
Qed.
Lemma touch_det a sh fp blk R : XE (KStatus sh) ∈ R -> det R (touch_shard sh a fp blk).
Proof.
  intros H3. unfold touch_shard.
  repeat first [apply det_ret | apply (det_gets_one R _ _ H3); cbn; solve [auto] | det_put | det_step].
Qed.
Lemma sov_det a R : XE (KSov a) ∈ R -> det R (get_sovereign_enclave a).
Proof.
  intros H. unfold get_sovereign_enclave. apply det_bind; [|intros; apply det_ok_or].
  apply (det_gets_one R _ _ H); cbn; auto.
Qed.
Lemma config_det sh blk b R : XE (KConfig sh) ∈ R -> det R (get_config sh blk b).
Proof.
  intros H2. unfold get_config.
  repeat first [apply det_ret | apply (det_gets_one R _ _ H2); cbn; solve [auto] | det_put | det_step].
Qed.
Ltac eb_det := first [apply shard_det; in_list | apply touch_det; in_list | apply sov_det; in_list | apply config_det; in_list].
Ltac edt := repeat first [apply det_ret | apply det_fail | apply det_bind_fail | apply det_bind_ret | env_det | eb_det | det_step].
Lemma eb_det_at c o x s1 s2 : agree (reads c o (CEb x) s1) s1 s2 -> det_at (eb_exec_call c o x) s1 s2.
Proof.
  unfold reads. cbn [reads_other]. rewrite app_nil_r. intros HA.
  destruct x; cbn [eb_exec_call];
    unfold invoke, confirm_processed, shield_funds, unshield_funds, publish_hash, update_shard_config, purge.
  - destruct o; apply nil_det; edt.
  - destruct o as [|a|]; [apply nil_det; edt| |apply nil_det; edt]. cbn [reads_signed shard_reads] in HA. to_det HA. edt.
  - destruct o as [|a|]; [apply nil_det; edt| |apply nil_det; edt]. cbn [reads_signed shard_reads] in HA. to_det HA.
    unfold vault. edt.
  - destruct o as [|a|]; [apply nil_det; edt| |apply nil_det; edt]. cbn [reads_signed shard_reads app] in HA. to_det HA.
    unfold vault. edt.
  - destruct o as [|a|]; [apply nil_det; edt| |apply nil_det; edt]. cbn [reads_signed app] in HA.
    assert (E : tx_sov (rt_tx s1) !! a = tx_sov (rt_tx s2) !! a) by (apply (HA (XE (KSov a))); left).
    destruct (tx_sov (rt_tx s1) !! a) as [e|] eqn:E1; cbn [opt app] in HA.
    + eapply (det_at_bind_ok _ _ _ _ a); [reflexivity..|].
      eapply (det_at_bind_ok _ _ _ _ e); [unfold get_sovereign_enclave, bind, gets; rewrite ?E1, <- ?E; reflexivity..|].
      unfold fingerprint. to_det HA. edt.
    + eapply (det_at_bind_ok _ _ _ _ a); [reflexivity..|].
      eapply det_at_bind_err; unfold get_sovereign_enclave, bind, gets; rewrite ?E1, <- ?E; reflexivity.
  - destruct o as [|a|]; cbn [reads_signed reads_root shard_reads] in HA; to_det HA; edt.
  - destruct o as [|a|]; [|apply nil_det; edt..]. cbn [reads_root] in HA. to_det HA. edt.
Qed.
Lemma sc_det_at c o x s1 s2 : agree (reads c o (CSc x) s1) s1 s2 -> det_at (sc_exec o x) s1 s2.
Proof.
  unfold reads. cbn [reads_other]. rewrite app_nil_r. intros HA.
  destruct x; cbn [sc_exec]; unfold confirm_sidechain, finalize_block.
  destruct o as [|a|]; [apply nil_det; edt| |apply nil_det; edt]. cbn [reads_signed shard_reads app] in HA. to_det HA.
  edt.
Qed.
Lemma to_det_at c o x s1 s2 : agree (reads c o (CTo x) s1) s1 s2 -> det_at (to_exec c o x) s1 s2.
Proof.
  unfold reads. cbn [reads_other]. rewrite app_nil_r. intros HA.
  destruct x; cbn [to_exec]; unfold add_to_whitelist, remove_from_whitelist, update_oracle, update_exchange_rate;
    (destruct o as [|a|]; cbn [reads_signed reads_root reads_none] in HA; to_det HA; edt).
Qed.
Lemma dcap_det c a proof p R :
  XNow ∈ R -> XE KQe ∈ R -> (forall f t, extract_tcb_info_from_raw (c_sgx c) proof = ROk (f, t) -> XE (KTcb f) ∈ R) ->
  det R (reg_dcap c a proof p).
Proof.
  intros H1 H2 H3. unfold reg_dcap. apply det_bind; [apply det_now, H1|intros now].
  apply det_bind; [apply (det_gets_one R _ _ H2); cbn; auto|intros qe].
  destruct (verify_dcap_quote (c_sgx c) proof now qe) as [[[f t] r]|e|] eqn:E; cbn [lift_res];
    [|apply det_bind_fail|intros ? ? _; exact I].
  apply C74_raw_helper_agrees_with_verification in E. specialize (H3 _ _ E).
  apply det_bind_ret. apply det_bind; [destruct (negb p); edt|intros _].
  apply det_bind; [apply (det_gets_one R _ _ H3); cbn; auto|intros ref]. edt.
Qed.
Lemma reg_det c a proof url m R :
  det R (match m with MIas => reg_ias c a proof | MDcap p => reg_dcap c a proof p | MSkip p => reg_skip a proof p end) ->
  XE KDebug ∈ R -> det R (register_sgx_enclave c (Signed a) proof url m).
Proof.
  intros H1 H2. unfold register_sgx_enclave. apply det_bind_ret.
  apply det_bind; [apply det_ensure|intros _]. apply det_bind; [destruct url; edt|intros _].
  apply det_bind; [exact H1|intros e]. apply det_bind; [apply (det_gets_one R _ _ H2); cbn; auto|intros d].
  apply det_bind; [apply det_ensure|intros _]. cbv zeta. unfold add_enclave.
  apply det_bind; [destruct (is_proxied _); det_put|intros _]. apply det_event.
Qed.
Lemma det_bind_that R {A B} (P : A -> Prop) (m : RM A) (k : A -> RM B) :
  det R m -> (forall s a t, m s = Ok a t -> P a) -> (forall a, P a -> det R (k a)) -> det R (bind m k).
Proof.
  intros Hm HP Hk s1 s2 HA. pose proof (Hm s1 s2 HA) as H. unfold det_at, bind in *. pose proof (HP s1) as H1.
  destruct (m s1) as [a t1|e t1|], (m s2) as [b t2|e' t2|]; try contradiction; auto.
  destruct H as [<- D]. specialize (Hk a (H1 _ _ eq_refl) t1 t2 (ds_agree _ _ _ _ _ D HA)). unfold det_at in Hk.
  destruct (k a t1) as [a' u1|e u1|], (k a t2) as [b' u2|e' u2|]; try contradiction; auto.
  destruct Hk as [<- D']. split; [auto|]. eapply ds_trans; eauto.
Qed.
Lemma det_gets_any R {A B} (f : rt -> A) (k : A -> RM B) :
  (forall b b', k b = k b') -> (forall b, det R (k b)) -> det R (bind (gets f) k).
Proof. intros H Hk s1 s2 HA. unfold det_at, bind, gets. rewrite (H (f s2) (f s1)). apply Hk, HA. Qed.
(** An enclave that is not attested counts as a production enclave, so the debug flag does not matter *)
Lemma skip_det c a proof url p R :
  XE KSkip ∈ R -> XNow ∈ R -> det R (register_sgx_enclave c (Signed a) proof url (MSkip p)).
Proof.
  intros H1 H2. unfold register_sgx_enclave. apply det_bind_ret.
  apply det_bind; [apply det_ensure|intros _]. apply det_bind; [destruct url; edt|intros _].
  apply (det_bind_that R (fun e => en_build_mode e = MProduction)); [unfold reg_skip| |].
  - apply det_bind; [apply (det_gets_one R _ _ H1); cbn; auto|intros d]. apply det_bind; [apply det_ensure|intros _]. cbv zeta.
    apply det_bind; [apply (det_gets_one R _ _ H2); cbn; auto|intros now]. destruct (_ <=? 64); edt.
  - intros s e t H. unfold reg_skip, bind, gets in H. destruct (tx_allow_skip _); [|discriminate H]. cbn [ensure ret] in H.
    destruct (lenN a <=? 64); [|discriminate H]. injection H as <- _. reflexivity.
  - intros e He. rewrite He. apply (det_gets_any R).
    { intros d d'. rewrite !bool_decide_false by discriminate. cbn [negb]. rewrite !orb_true_r. reflexivity. }
    intros d. apply det_bind; [apply det_ensure|intros _]. cbv zeta. unfold add_enclave.
    apply det_bind; [destruct (is_proxied _); det_put|intros _]. apply det_event.
Qed.
Lemma tx_det_at c o x s1 s2 : agree (reads c o (CTx x) s1) s1 s2 -> det_at (tx_exec c o x) s1 s2.
Proof.
  unfold reads. cbn [reads_other]. rewrite app_nil_r. intros HA.
  destruct x as [proof url m|w|w| | |]; cbn [tx_exec].
  - destruct o as [|a|]; [apply nil_det; apply det_bind_fail| |apply nil_det; apply det_bind_fail].
    destruct m as [p| |p]; cbn [reads_signed] in HA.
    + to_det HA. apply skip_det; in_list.
    + to_det HA. apply reg_det; [|in_list]. unfold reg_ias, ensure_within_24h. edt.
    + to_det HA. apply reg_det; [|in_list]. apply dcap_det; [in_list..|]. intros f t ->. in_list.
  - unfold unregister_sovereign.
    destruct o as [|a|]; [apply nil_det; apply det_bind_fail| |apply nil_det; apply det_bind_fail].
    cbn [reads_signed] in HA. to_det HA. edt.
  - unfold unregister_proxied.
    destruct o as [|a|]; [apply nil_det; apply det_bind_fail| |apply nil_det; apply det_bind_fail].
    cbn [reads_signed] in HA. to_det HA. edt.
  - unfold register_quoting_enclave, verify_quoting_enclave.
    destruct o as [|a|]; [apply nil_det; apply det_bind_fail| |apply nil_det; apply det_bind_fail].
    cbn [reads_signed] in HA. to_det HA. edt.
  - unfold register_tcb_info, verify_tcb_info.
    destruct o as [|a|]; [apply nil_det; apply det_bind_fail| |apply nil_det; apply det_bind_fail].
    cbn [reads_signed] in HA. to_det HA. edt.
  - unfold set_security_flags. destruct o as [|a|]; [|apply nil_det; apply det_bind_fail..]. apply nil_det. edt.
Qed.
Lemma process_det c e d R :
  (forall x, x ∈ claim_reads e d -> x ∈ R) -> det R (process_claim c e d).
Proof.
  intros HR. assert (forall x, x ∈ claim_reads e d -> x ∈ R) as HR' by exact HR. unfold claim_reads in *.
  assert (XE (KClaims e) ∈ R) as H1 by (apply HR; in_list). assert (XE KTotal ∈ R) as H2 by (apply HR; in_list).
  assert (XE (KVesting e) ∈ R) as H3 by (apply HR; in_list). assert (XFree d ∈ R) as H5 by (apply HR; in_list).
  assert (XLocks d ∈ R) as H6 by (apply HR; in_list). assert (XVest d ∈ R) as H7 by (apply HR; in_list).
  assert (XBlk ∈ R) as H8 by (apply HR; in_list).
  unfold process_claim.
  apply det_bind; [apply (det_gets_one R _ _ H1); cbn; auto|intros oc]. apply det_bind; [apply det_ok_or|intros due].
  apply det_bind; [apply (det_gets_one R _ _ H2); cbn; auto|intros total]. apply det_bind; [apply det_ensure|intros _].
  apply det_bind; [apply (det_gets_one R _ _ H3); cbn; auto|intros v].
  apply det_bind; [apply (det_gets_one R _ _ H7); cbn; unfold has_vesting; intros ? ? ->; auto|intros hv].
  apply det_bind; [apply det_ensure|intros _]. apply det_bind; [apply det_deposit, H5|intros _].
  apply det_bind; [|intros _; apply det_bind; [det_put|intros _; apply det_event]].
  destruct v as [[[l pb] st]|]; [|apply det_ret].
  apply det_bind; [apply det_add_vesting; auto|intros [|]; [apply det_ret|apply det_panic]].
Qed.
Lemma claim_sig_det c e d R (b : option statement -> bool) :
  (forall x, x ∈ claim_reads e d -> x ∈ R) ->
  det R (let! st := gets (fun s => cl_signing (rt_cl s) !! e) in do! ensure (b st) InvalidStatement in process_claim c e d).
Proof.
  intros HR. apply det_bind; [apply (det_gets_one R (XE (KSigning e))); [apply HR; unfold claim_reads; in_list|cbn; auto]|intros st].
  apply det_bind; [apply det_ensure|intros _]. apply process_det, HR.
Qed.
Lemma det_bind_none R {A B} e (k : A -> RM B) : det R (bind (ok_or None e) k).
Proof. apply det_bind_fail. Qed.
Lemma det_bind_some R {A B} a e (k : A -> RM B) : det R (k a) -> det R (bind (ok_or (Some a) e) k).
Proof. apply det_bind_ret. Qed.
Lemma move_alike {A} (old new e : bytes) (m1 m2 : gmap bytes A) :
  m1 !! old = m2 !! old ->
  (m1 !! e = move_key old new m1 !! e /\ m2 !! e = move_key old new m2 !! e) \/
  move_key old new m1 !! e = move_key old new m2 !! e.
Proof.
  intros E. unfold move_key. rewrite <- E. destruct (m1 !! old) as [v|] eqn:E1; [|left; auto].
  destruct (decide (new = e)) as [<-|]; [right; rewrite !lookup_insert; auto|]. rewrite !lookup_insert_ne by auto.
  destruct (decide (old = e)) as [<-|]; [right; rewrite !lookup_delete; auto|]. rewrite !lookup_delete_ne by auto. left. auto.
Qed.
Lemma cl_det_at c o x s1 s2 : agree (reads c o (CCl x) s1) s1 s2 -> det_at (cl_exec c o x) s1 s2.
Proof.
  unfold reads. intros HA.
  destruct x as [d sig|e v vs st|d sig text|text|old new pre]; cbn [reads_other] in HA; rewrite ?app_nil_r in HA; cbn [cl_exec].
  - unfold claim. destruct o as [|a|]; [apply nil_det, det_bind_fail..|]. cbn [reads_none] in HA.
    unfold eth_recover. unfold claimant in HA. destruct (c_secp _ _ _) as [pk|]; cbn [opt] in HA.
    + to_det HA. apply det_bind_ret, det_bind_some, claim_sig_det. auto.
    + to_det HA. apply det_bind_ret, det_bind_none.
  - unfold mint_claim. destruct o as [|a|]; [|apply nil_det, det_bind_fail..]. cbn [reads_root] in HA. to_det HA.
    apply det_bind_ret. apply det_bind; [apply (det_gets_one _ (XE KTotal)); [in_list|cbn; auto]|intros t].
    apply det_bind; [apply det_plain_add|intros t']. det_put.
  - unfold claim_attest. destruct o as [|a|]; [apply nil_det, det_bind_fail..|]. cbn [reads_none] in HA.
    unfold eth_recover. unfold claimant in HA. destruct (c_secp _ _ _) as [pk|]; cbn [opt] in HA.
    + to_det HA. apply det_bind_ret, det_bind_some.
      apply (claim_sig_det c _ _ _ (fun st => statement_ok st text)). auto.
    + to_det HA. apply det_bind_ret, det_bind_none.
  - unfold attest. destruct o as [|a|]; [apply nil_det, det_bind_fail| |apply nil_det, det_bind_fail].
    cbn [reads_signed] in HA.
    assert (E : cl_preclaims (rt_cl s1) !! a = cl_preclaims (rt_cl s2) !! a) by (apply (HA (XE (KPreclaims a))); left).
    apply (det_at_bind_ok _ _ _ _ a); [reflexivity..|].
    apply det_at_gets; [exact E|].
    destruct (cl_preclaims (rt_cl s1) !! a) as [e|]; cbn [opt] in HA; to_det HA; [|apply det_bind_none].
    apply det_bind_some.
    apply det_bind; [apply (det_gets_one _ (XE (KSigning e))); [right; unfold claim_reads; in_list|cbn; auto]|intros st].
    apply det_bind; [apply det_ensure|intros _].
    apply det_bind; [apply process_det; intros y Hy; right; exact Hy|intros _]. det_put.
  - unfold move_claim.
    apply (agree_sub ([XE (KClaims old); XE (KVesting old); XE (KSigning old)] ++ opt pre (fun p => [XE (KPreclaims p)]))) in HA;
      [|intros y Hy; apply elem_of_app; auto].
    to_det HA. apply det_bind; [apply det_ensure|intros _].
    apply det_modify; [|intros; split; reflexivity]. intros t1 t2 HA y.
    assert (E1 : cl_claims (rt_cl t1) !! old = cl_claims (rt_cl t2) !! old) by (apply (HA (XE (KClaims old))); cbn; in_list).
    assert (E2 : cl_vesting (rt_cl t1) !! old = cl_vesting (rt_cl t2) !! old) by (apply (HA (XE (KVesting old))); cbn; in_list).
    assert (E3 : cl_signing (rt_cl t1) !! old = cl_signing (rt_cl t2) !! old) by (apply (HA (XE (KSigning old))); cbn; in_list).
    unfold alike. destruct y as [| | | | | |[]]; cbn; try (left; split; reflexivity); try (apply move_alike; assumption).
    destruct pre as [p|]; [|left; split; reflexivity].
    assert (E4 : cl_preclaims (rt_cl t1) !! p = cl_preclaims (rt_cl t2) !! p) by (apply (HA (XE (KPreclaims p))); cbn; in_list).
    rewrite <- E4. destruct (cl_preclaims (rt_cl t1) !! p) as [x|] eqn:E5; [|left; split; reflexivity].
    destruct (beq x old); [|left; split; reflexivity].
    split_keys; [right|left; split]; reflexivity.
Qed.
Lemma ar_det_at c o x s1 s2 : agree (reads c o (CAr x) s1) s1 s2 -> det_at (ar_exec c o x) s1 s2.
Proof.
  unfold reads. intros HA. destruct x as [i l|i]; cbn [ar_exec reads_other] in *; unfold register_asset, unregister_asset.
  - apply (agree_sub [XAsset i; XE (KAssetLoc i)]) in HA; [|intros y Hy; apply elem_of_app; auto]. to_det HA. edt.
  - apply (agree_sub [XE (KAssetLoc i)]) in HA; [|intros y Hy; apply elem_of_app; auto]. to_det HA. edt.
Qed.
Lemma xt_det_at c o x s1 s2 : det_at (xt_exec c o x) s1 s2.
Proof.
  destruct x; cbn [xt_exec]. unfold send_swap_ump. apply nil_det.
  do 4 (apply det_bind; [apply det_ensure|intros _]). cbv zeta. destruct (c_router c _) as [e|h]; [apply det_fail|].
  apply det_bind; [|intros _; apply det_bind; [apply det_event|intros _; apply det_event]].
  intros t1 t2 _. cbn. split; [auto|]. split; [|exists []; auto|eexists [_]; cbn; auto].
  intros y. left. destruct y as [| | | | | |[]]; cbn; auto.
Qed.
Lemma exec_det c o k s1 s2 : agree (reads c o k s1) s1 s2 -> det_at (exec c o k) s1 s2.
Proof.
  destruct k; cbn [exec]; intros HA.
  - apply td_det; auto.
  - apply eb_det_at; auto.
  - apply (sc_det_at c); auto.
  - apply to_det_at; auto.
  - apply tx_det_at; auto.
  - apply cl_det_at; auto.
  - apply ar_det_at; auto.
  - apply xt_det_at.
Qed.

(** *** Writes *)
Ltac env_only :=
  first [apply only_set_lock; in_list | apply only_remove_lock; in_list | apply only_transfer; in_list].
Ltac ot := repeat first [apply only_ret | apply only_fail | apply only_bind_fail | apply only_bind_ret | env_only | only_step | solve [only_mod]].
Ltac to_only := intros Hok; lazymatch goal with |- forall x, x ∉ ?W -> same_at x ?s ?t =>
  lazymatch type of Hok with ?m s = Ok ?a t => refine ((_ : only W m) s a t Hok); clear Hok end end.
Definition only_at (W : list cell) {A} (m : RM A) (s : rt) : Prop :=
  forall a t, m s = Ok a t -> forall x, x ∉ W -> same_at x s t.
Lemma only_only_at W {A} (m : RM A) s : only W m -> only_at W m s.
Proof. intros H a t E. exact (H s a t E). Qed.
Lemma only_at_gets {A B} W (f : rt -> A) (k : A -> RM B) s : only_at W (k (f s)) s -> only_at W (bind (gets f) k) s.
Proof. intros H a t E. exact (H a t E). Qed.
Lemma only_at_ret {A B} W a (k : A -> RM B) s : only_at W (k a) s -> only_at W (bind (ret a) k) s.
Proof. intros H b t E. exact (H b t E). Qed.
Lemma only_sub W V {A} (m : RM A) : (forall x, x ∈ W -> x ∈ V) -> only W m -> only V m.
Proof. intros HS H s a t E x Hx. apply (H s a t E). auto. Qed.

Lemma td_only c o x s : only_at (writes c o (CTd x) s) (td_exec c o x) s.
Proof.
  apply only_only_at. unfold writes. cbn [writes_other]. rewrite app_nil_r.
  destruct o as [|a|]; [destruct x; apply only_bind_fail| |destruct x; apply only_bind_fail].
  destruct x; cbn [writes_signed td_exec];
    unfold td_bond, td_bond_extra, td_unbond, td_update_other, td_withdraw_unbonded, try_withdraw_unbonded,
      do_update_teerdays; cbn [ensure_signed]; ot.
Qed.
Lemma shard_only a sh blk W : (forall x, x ∈ shard_writes sh -> x ∈ W) -> only W (get_enclave_and_touch a sh blk).
Proof.
  intros HW. apply (only_sub (shard_writes sh)); [exact HW|]. unfold shard_writes.
  unfold get_enclave_and_touch, get_sovereign_enclave, get_config, touch_shard. ot.
Qed.
Lemma touch_only a sh fp blk W : XE (KStatus sh) ∈ W -> only W (touch_shard sh a fp blk).
Proof.
  intros HW. apply (only_sub [XE (KStatus sh)]); [intros x Hx%elem_of_list_singleton; subst; auto|].
  unfold touch_shard. ot.
Qed.
Lemma config_only sh blk W : only W (get_config sh blk false).
Proof. unfold get_config. ot. Qed.
Ltac eot := repeat first [apply only_ret | apply only_fail | apply only_bind_fail | apply only_bind_ret | env_only
  | apply touch_only; in_list | apply config_only | only_step | solve [only_mod]].
Lemma eb_only c o x s : only_at (writes c o (CEb x) s) (eb_exec_call c o x) s.
Proof.
  unfold writes. cbn [writes_other]. rewrite app_nil_r.
  destruct x; cbn [eb_exec_call];
    unfold invoke, confirm_processed, shield_funds, unshield_funds, publish_hash, update_shard_config, purge.
  - apply only_only_at. destruct o; eot.
  - apply only_only_at. destruct o as [|a|]; [eot| |eot]. cbn [writes_signed]. apply only_bind_ret.
    apply only_bind; [apply only_gets|intros blk]. apply only_bind; [apply shard_only; auto|intros _]. apply only_event.
  - apply only_only_at. destruct o as [|a|]; [eot| |eot]. cbn [writes_signed]. unfold vault. eot.
  - apply only_only_at. destruct o as [|a|]; [eot| |eot]. cbn [writes_signed]. unfold vault. apply only_bind_ret.
    apply only_bind; [apply only_gets|intros blk].
    apply only_bind; [apply shard_only; intros y Hy; apply elem_of_app; auto|intros _]. unfold shard_writes. cbn [app]. eot.
  - destruct o as [|a|]; [apply only_only_at; eot| |apply only_only_at; eot]. cbn [writes_signed].
    apply only_at_ret. unfold get_sovereign_enclave. intros u t Hok.
    apply bind_ok in Hok as (e & s' & He & Hok). apply bind_ok in He as (oe & s'' & Hg & He).
    apply gets_ok in Hg as [-> ->]. apply ok_or_ok in He as [He ->]. rewrite He. cbn [opt]. revert u t Hok.
    apply (only_only_at _ _ s). unfold fingerprint. eot.
  - apply only_only_at. destruct o as [|a|]; cbn [writes_signed writes_root]; unfold shard_writes, get_sovereign_enclave; eot.
  - apply only_only_at. destruct o as [|a|]; [|eot..]. cbn [writes_root]. eot.
Qed.
Lemma sc_only c o x s : only_at (writes c o (CSc x) s) (sc_exec o x) s.
Proof.
  unfold writes. cbn [writes_other]. rewrite app_nil_r. apply only_only_at.
  destruct x; cbn [sc_exec]; unfold confirm_sidechain, finalize_block.
  destruct o as [|a|]; [eot| |eot]. cbn [writes_signed]. apply only_bind_ret.
  apply only_bind; [apply only_gets|intros blk].
  apply only_bind; [apply shard_only; intros y Hy; apply elem_of_app; auto|intros es]. unfold shard_writes. cbn [app]. eot.
Qed.
Lemma to_only c o x s : only_at (writes c o (CTo x) s) (to_exec c o x) s.
Proof.
  unfold writes. cbn [writes_other]. rewrite app_nil_r. apply only_only_at.
  destruct x; cbn [to_exec]; unfold add_to_whitelist, remove_from_whitelist, update_oracle, update_exchange_rate,
    get_sovereign_enclave; (destruct o as [|a|]; cbn [writes_signed writes_root]; eot).
Qed.
Lemma cl_process_only c e d W : (forall x, x ∈ claim_writes e d -> x ∈ W) -> only W (process_claim c e d).
Proof.
  intros HW. apply (only_sub (claim_writes e d)); [exact HW|]. unfold claim_writes, process_claim.
  do 4 (apply only_bind; [first [apply only_gets|apply only_ok_or|apply only_ensure]|intros ?]).
  do 3 (apply only_bind; [first [apply only_gets|apply only_ok_or|apply only_ensure]|intros ?]).
  apply only_bind; [apply only_deposit; in_list|intros _].
  apply only_bind; [destruct a3 as [[[l pb] st]|]; [|apply only_ret]; apply only_bind;
    [apply only_add_vesting; in_list|intros [|]; [apply only_ret|apply only_panic]]|intros _].
  eot.
Qed.
Lemma move_frame {A} (old new e : bytes) (m : gmap bytes A) : e <> old -> e <> new -> m !! e = move_key old new m !! e.
Proof.
  intros H1 H2. unfold move_key. destruct (m !! old); [|auto].
  rewrite lookup_insert_ne, lookup_delete_ne by auto. auto.
Qed.
Ltac elem := repeat first
  [ match goal with H : _ ∈ _ :: _ |- _ => apply elem_of_cons in H as [H|H] end
  | match goal with H : _ ∈ [] |- _ => apply elem_of_nil in H; contradiction end
  | match goal with H : _ ∈ _ ++ _ |- _ => apply elem_of_app in H as [H|H] end ].
Lemma cl_only c o x s : only_at (writes c o (CCl x) s) (cl_exec c o x) s.
Proof.
  unfold writes.
  destruct x as [d sig|e v vs st|d sig text|text|old new pre]; cbn [writes_other]; rewrite ?app_nil_r; cbn [cl_exec].
  - intros u t Hok y Hy. destruct u. apply claim_ok in Hok as (-> & e & He & Hs & Hok). cbn [writes_none] in Hy.
    assert (claimant c d sig [] = Some e) as Ec by (unfold eth_recover in He; unfold claimant; destruct (c_secp _ _ _); exact He).
    rewrite Ec in Hy. cbn [opt] in Hy. destruct (decide (y = XE (KSigning e))) as [->|Hn].
    + apply process_ok in Hok as (due & _ & _ & _ & _ & Hc & _). cbn. rewrite Hc, Hs. cbn. rewrite lookup_delete. reflexivity.
    + apply (cl_process_only c e d (claim_writes e d) (fun x Hx => Hx) s tt t Hok). intros Hin. apply Hy.
      unfold claim_writes in Hin. unfold plain_claim_writes. elem; subst; in_list || congruence.
  - apply only_only_at. unfold mint_claim. destruct o as [|a|]; [|apply only_bind_fail..]. cbn [writes_root]. eot.
  - apply only_only_at. unfold claim_attest. destruct o as [|a|]; [apply only_bind_fail..|]. cbn [writes_none].
    unfold eth_recover, claimant. destruct (c_secp _ _ _) as [pk|]; cbn [opt]; apply only_bind_ret; [|apply only_bind_fail].
    apply only_bind_ret. apply only_bind; [apply only_gets|intros st]. apply only_bind; [apply only_ensure|intros _].
    apply cl_process_only. auto.
  - unfold attest. destruct o as [|a|]; [apply only_only_at, only_bind_fail| |apply only_only_at, only_bind_fail].
    cbn [writes_signed]. apply only_at_ret, only_at_gets.
    destruct (cl_preclaims (rt_cl s) !! a) as [e|]; apply only_only_at; cbn [opt]; [|apply only_bind_fail].
    apply only_bind_ret. apply only_bind; [apply only_gets|intros st]. apply only_bind; [apply only_ensure|intros _].
    apply only_bind; [apply cl_process_only; intros y Hy; right; exact Hy|intros _]. solve [only_mod].
  - unfold move_claim. apply only_only_at.
    apply (only_sub ([XE (KClaims old); XE (KVesting old); XE (KSigning old); XE (KClaims new); XE (KVesting new); XE (KSigning new)]
      ++ opt pre (fun p => [XE (KPreclaims p)]))); [intros y Hy; apply elem_of_app; auto|].
    apply only_bind; [apply only_ensure|intros _]. apply only_modify. intros t y Hy.
    assert (forall k, y = XE k -> k <> KClaims old /\ k <> KVesting old /\ k <> KSigning old /\ k <> KClaims new /\
      k <> KVesting new /\ k <> KSigning new) as Hk.
    { intros k -> . cbn in Hy. set_solver. }
    destruct y as [| | | | | |[]]; cbn; try reflexivity;
      try (specialize (Hk _ eq_refl); apply move_frame; intros ->; tauto).
    destruct pre as [p|]; [|reflexivity]. case_match; [|reflexivity]. case_match; [|reflexivity].
    split_keys; [|reflexivity]. exfalso. apply Hy. cbn. in_list.
Qed.
Lemma ar_only c o x s : only_at (writes c o (CAr x) s) (ar_exec c o x) s.
Proof.
  unfold writes. destruct x as [i l|i]; cbn [ar_exec writes_other]; unfold register_asset, unregister_asset.
  - apply only_only_at. apply (only_sub [XE (KAssetLoc i); XE (KAssetId l)]); [intros y Hy; apply elem_of_app; auto|]. eot.
  - intros u t Hok y Hy. apply bind_ok in Hok as (u1 & s1 & H1 & Hok). apply ensure_ok in H1 as [_ ->].
    assert (y ∉ XE (KAssetLoc i) :: opt (ar_loc (rt_ar s) !! i) (fun l => [XE (KAssetId l)])) as Hy'
      by (intros ?; apply Hy, elem_of_app; auto).
    clear Hy. revert u t Hok y Hy'. change (only_at (XE (KAssetLoc i) :: opt (ar_loc (rt_ar s) !! i) (fun l => [XE (KAssetId l)]))
      (let! old := gets (fun s => ar_loc (rt_ar s) !! i) in let! l := ok_or old AssetIsNotRegistered in
       do! modify (upd_ar (fun a => mkAr (delete i (ar_loc a)) (delete l (ar_id a)) (ar_assets a))) in
       deposit_event (EvReserveAssetUnregistered i l)) s).
    apply only_at_gets. destruct (ar_loc (rt_ar s) !! i) as [l|]; apply only_only_at; cbn [opt]; eot.
Qed.
Lemma xt_only c o x W s : only_at W (xt_exec c o x) s.
Proof. apply only_only_at. destruct x; cbn [xt_exec]. unfold send_swap_ump. eot. Qed.
Lemma body_slice h b r i n : lenN h = 48 -> lenN b = 384 -> i + n <= 384 ->
  sub_ i n b = takeN n (dropN (48 + i) (h ++ b ++ r)).
Proof.
  intros H1 H2 H3. unfold sub_, takeN, dropN, lenN in *.
  rewrite (drop_app_ge h) by lia. replace (N.to_nat (48 + i) - length h)%nat with (N.to_nat i) by lia.
  rewrite drop_app_le by lia. rewrite take_app_le; [auto|]. rewrite drop_length. lia.
Qed.
Lemma attested_files c s a proof m e :
  attested c s a proof m e ->
  if is_proxied e then (en_mr_enclave e, a, inl (en_report_data e ++ zeros 2)) = proxied_address a proof m
  else True.
Proof.
  destruct 1 as [r|p fm tcb r ref st Hv|p]; cbn; auto.
  - destruct p; [|auto]. apply verify_dcap_iff in Hv as (q & Hq & -> & _ & ->).
    unfold proxied_address. cbn [parts_report vr_mr_enclave vr_report_data].
    destruct Hq as (Hh & Hb & _). unfold parts_bytes.
    rewrite (body_slice (qp_header q) (qp_body q) (qp_siglen q ++ qp_isv_sig q ++ qp_key q ++ qp_qe_report q ++ qp_qe_sig q ++
      qp_auth_size q ++ qp_auth q ++ qp_cert_type q ++ qp_cert_size q ++ qp_certs q ++ []) 64 32) by (auto; lia).
    rewrite (body_slice (qp_header q) (qp_body q) (qp_siglen q ++ qp_isv_sig q ++ qp_key q ++ qp_qe_report q ++ qp_qe_sig q ++
      qp_auth_size q ++ qp_auth q ++ qp_cert_type q ++ qp_cert_size q ++ qp_certs q ++ []) 320 64) by (auto; lia).
    reflexivity.
  - destruct p; auto.
Qed.
Lemma tx_only c o x s : only_at (writes c o (CTx x) s) (tx_exec c o x) s.
Proof.
  unfold writes. cbn [writes_other]. rewrite app_nil_r.
  destruct x as [proof url m|w|w|id sig chain|info sig chain|sk d]; cbn [tx_exec].
  - intros u t Hok x Hx. destruct u. apply register_ok in Hok as (a & e & -> & Hatt & _ & _ & _ & ->).
    pose proof (attested_files _ _ _ _ _ _ Hatt) as Hf. pose proof (attested_method _ _ _ _ _ _ Hatt) as Hm.
    assert (same_at x s (store_enclave a (with_url e url) s)) as Hsame.
    { unfold store_enclave. rewrite is_proxied_url, mre_url, report_url. cbn [writes_signed] in Hx.
      unfold is_proxied in *. rewrite Hm in *. destruct m as [[|]| |[|]]; rewrite ?Hf;
      destruct x as [| | | | | |[]]; cbn; try reflexivity; split_keys; try reflexivity; not_here Hx. }
    destruct x as [| | | | | |[]]; exact Hsame.
  - apply only_only_at. unfold unregister_sovereign. destruct o; cbn [writes_signed]; eot.
  - apply only_only_at. unfold unregister_proxied. destruct o; cbn [writes_signed]; eot.
  - apply only_only_at. unfold register_quoting_enclave, verify_quoting_enclave. destruct o; cbn [writes_signed]; eot.
  - apply only_only_at. unfold register_tcb_info, verify_tcb_info. destruct o as [|a|]; [eot| |eot]. cbn [writes_signed].
    apply only_bind_ret.
    intros s0 u t Hok. apply bind_ok in Hok as (fi & s1 & Hv & Hok).
    assert (s1 = s0 /\ exists e, or_json_tcb (c_sgx c) info = Some e /\ fi.1 = tj_fmspc e) as [-> (e & He & Hf)].
    { apply bind_ok in Hv as (now & s2 & H1 & Hv). apply gets_ok in H1 as [-> ->].
      apply bind_ok in Hv as (leaf & s2 & H1 & Hv). apply lift_res_ok in H1 as [H1 ->].
      apply bind_ok in Hv as (e & s2 & H2 & Hv). apply lift_res_ok in H2 as [H2 ->].
      apply bind_ok in Hv as (tm & s2 & H3 & Hv). apply lift_res_ok in H3 as [H3 ->].
      apply bind_ok in Hv as (? & s2 & H4 & Hv). apply ensure_ok in H4 as [H4 ->]. apply lift_res_ok in Hv as [Hv ->].
      split; [auto|]. exists e. split.
      - unfold deserialize_tcb_info in H2. apply rbind_ok in H2 as (? & _ & H2). apply rbind_ok in H2 as (? & _ & H2).
        apply rok_or_ok in H2. exact H2.
      - unfold to_chain_tcb_info in Hv. apply rbind_ok in Hv as (? & _ & Hv). apply rbind_ok in Hv as (? & _ & Hv).
        inversion Hv; subst. reflexivity. }
    rewrite He. cbn [opt]. rewrite <- Hf. revert Hok. generalize fi.1, fi.2. intros f i Hok. revert s0 u t Hok Hv.
    assert (only [XE (KTcb f)] (do! modify (put_tcb f i) in deposit_event (EvSgxTcbInfoRegistered f i))) as HO by eot.
    intros s0 u t Hok _. exact (HO s0 u t Hok).
  - apply only_only_at. unfold set_security_flags. destruct o; cbn [writes_root]; eot.
Qed.
Lemma exec_only c o k s : only_at (writes c o k s) (exec c o k) s.
Proof.
  destruct k; cbn [exec].
  - apply td_only.
  - apply eb_only.
  - apply (sc_only c).
  - apply to_only.
  - apply tx_only.
  - apply cl_only.
  - apply ar_only.
  - apply xt_only.
Qed.

(** ** What other parts of the runtime do *)
Definition op_act (c : cfg) (x : op) : RM unit :=
  match x with
  | OCall o k => exec c o k
  | ONextBlock d => modify (next_block c d)
  | OTransfer a b v => transfer c a b v
  | OMint a v => deposit_creating c a v
  | OFee a v => withdraw c a v
  | OVest a => vest a
  | OAddVesting a l pb st => do! add_vesting_schedule a l pb st in ret tt
  | OLock a i v => set_lock (LOther i) a v
  | OUnlock a i => remove_lock (LOther i) a
  | OCreateAsset i m =>
      modify (fun s => set_ar (mkAr (ar_loc (rt_ar s)) (ar_id (rt_ar s)) (<[i := m]> (ar_assets (rt_ar s)))) s)
  | ODestroyAsset i =>
      modify (fun s => set_ar (mkAr (ar_loc (rt_ar s)) (ar_id (rt_ar s)) (delete i (ar_assets (rt_ar s)))) s)
  end.
(** How an operation ends *)
Definition ends (c : cfg) (s : rt) (x : op) : status := (run_call (op_act c x) s).1.
Lemma step_act c s x : step c s x = (run_call (op_act c x) s).2.
Proof. destruct x; reflexivity. Qed.

Definition op_reads (c : cfg) (x : op) (s : rt) : list cell :=
  match x with
  | OCall o k => reads c o k s
  | ONextBlock _ => [XNow; XBlk]
  | OTransfer a b _ => [XFree a; XLocks a; XFree b]
  | OMint a _ => [XFree a]
  | OFee a _ => [XFree a; XLocks a]
  | OVest a | OAddVesting a _ _ _ => [XBlk; XLocks a; XVest a]
  | OLock a _ _ | OUnlock a _ => [XLocks a]
  | OCreateAsset _ _ | ODestroyAsset _ => []
  end.
Definition op_writes (c : cfg) (x : op) (s : rt) : list cell :=
  match x with
  | OCall o k => writes c o k s
  | ONextBlock _ => [XNow; XBlk]
  | OTransfer a b _ => [XFree a; XFree b]
  | OMint a _ | OFee a _ => [XFree a]
  | OVest a | OAddVesting a _ _ _ => [XLocks a; XVest a]
  | OLock a _ _ | OUnlock a _ => [XLocks a]
  | OCreateAsset i _ | ODestroyAsset i => [XAsset i]
  end.
Lemma op_det c x s1 s2 : agree (op_reads c x s1) s1 s2 -> det_at (op_act c x) s1 s2.
Proof.
  destruct x; cbn [op_reads op_act]; intros HA.
  - apply exec_det, HA.
  - to_det HA. apply det_modify.
    + intros s t HA x. cells HA. unfold next_block. rewrite H, H0.
      destruct (_ <=? _); [destruct x as [| | | | | |[]]; cbn; try (left; split; reflexivity); right; cbn; congruence|].
      left; split; apply same_at_refl.
    + intros s. unfold next_block. destruct (_ <=? _); auto.
  - to_det HA. apply det_transfer; in_list.
  - to_det HA. apply det_deposit; in_list.
  - to_det HA. apply det_withdraw; in_list.
  - to_det HA. apply det_vest; in_list.
  - to_det HA. apply det_bind; [apply det_add_vesting; in_list|intros; apply det_ret].
  - to_det HA. apply det_set_lock; in_list.
  - to_det HA. apply det_remove_lock; in_list.
  - to_det HA. det_put.
  - to_det HA. det_put.
Qed.
Lemma op_only c x s : only_at (op_writes c x s) (op_act c x) s.
Proof.
  destruct x; cbn [op_writes op_act]; [apply exec_only|apply only_only_at..].
  - apply only_modify. intros t x Hx. unfold next_block. destruct (_ <=? _); [|apply same_at_refl].
    destruct x as [| | | | | |[]]; cbn; try reflexivity; not_here Hx.
  - apply only_transfer; in_list.
  - apply only_deposit; in_list.
  - apply only_withdraw; in_list.
  - apply only_vest; in_list.
  - apply only_bind; [apply only_add_vesting; in_list|intros; apply only_ret].
  - apply only_set_lock; in_list.
  - apply only_remove_lock; in_list.
  - only_mod.
  - only_mod.
Qed.
(** What an operation depends on and changes is fixed by what it depends on *)
Lemma reads_fixed c x s1 s2 :
  agree (op_reads c x s1) s1 s2 -> op_reads c x s2 = op_reads c x s1 /\ op_writes c x s2 = op_writes c x s1.
Proof.
  destruct x as [o k| | | | | | | | | |]; auto. cbn [op_reads op_writes]. unfold reads, writes. intros HA.
  assert (reads_other c k s2 = reads_other c k s1 /\ writes_other k s2 = writes_other k s1) as [-> ->].
  { destruct k as [| | | | | |[i l|i]|]; auto. split; [reflexivity|]. cbn [writes_other].
    assert (same_at (XE (KAssetLoc i)) s1 s2) as E by (apply HA, elem_of_app; right; left). cbn in E. rewrite E. auto. }
  destruct o as [|a|]; auto. destruct k as [|y| | | |y| |]; auto.
  - destruct y; auto. cbn [reads_signed writes_signed] in *.
    assert (same_at (XE (KSov a)) s1 s2) as E by (apply HA, elem_of_app; left; left). cbn in E. rewrite E. auto.
  - destruct y; auto. cbn [reads_signed writes_signed] in *.
    assert (same_at (XE (KPreclaims a)) s1 s2) as E by (apply HA, elem_of_app; left; left). cbn in E. rewrite E. auto.
Qed.

(** ** The theorems *)
(** The entries make up the state *)
Theorem C86_entries_make_up_the_state : forall s t,
  (forall x, same_at x s t) -> rt_ev s = rt_ev t -> rt_out s = rt_out t -> s = t.
Proof.
  intros s t H He Ho.
  pose proof (H XNow) as HN. pose proof (H XBlk) as HB. cbn in HN, HB.
  destruct s as [n b [bf bl] v [tb tp] [es ec ee] sc [tr tda tw] [xs xp xq xt xd xk] [cc ct cv cs cp] [al ai aa] out ev],
    t as [n' b' [bf' bl'] v' [tb' tp'] [es' ec' ee'] sc' [tr' tda' tw'] [xs' xp' xq' xt' xd' xk'] [cc' ct' cv' cs' cp'] [al' ai' aa'] out' ev'].
  cbn in *. subst n' b' out' ev'.
  pose proof (H (XE KQe)) as E1. pose proof (H (XE KDebug)) as E2. pose proof (H (XE KSkip)) as E3. pose proof (H (XE KTotal)) as E4.
  cbn in E1, E2, E3, E4. subst.
  f_equal; [f_equal| |f_equal|f_equal| |f_equal|f_equal|f_equal|f_equal]; apply map_eq.
  - intros a. apply (H (XFree a)).
  - intros a. apply (H (XLocks a)).
  - intros a. apply (H (XVest a)).
  - intros a. apply (H (XE (KBonds a))).
  - intros a. apply (H (XE (KPending a))).
  - intros a. apply (H (XE (KStatus a))).
  - intros a. apply (H (XE (KConfig a))).
  - intros a. apply (H (XE (KExec a))).
  - intros a. apply (H (XE (KLatest a))).
  - intros [p a]. apply (H (XE (KRates p a))).
  - intros [p a]. apply (H (XE (KData p a))).
  - intros a. apply (H (XE (KWhitelist a))).
  - intros a. apply (H (XE (KSov a))).
  - intros a. apply (H (XE (KProx a))).
  - intros a. apply (H (XE (KTcb a))).
  - intros a. apply (H (XE (KClaims a))).
  - intros a. apply (H (XE (KVesting a))).
  - intros a. apply (H (XE (KSigning a))).
  - intros a. apply (H (XE (KPreclaims a))).
  - intros a. apply (H (XE (KAssetLoc a))).
  - intros a. apply (H (XE (KAssetId a))).
  - intros a. apply (H (XAsset a)).
Qed.
Print Assumptions C86_entries_make_up_the_state.

(** An operation ends the same way and does the same in any two states that have the same in the
    entries it depends on *)
Theorem C86_operations_depend_only_on_their_reads : forall c x s1 s2,
  agree (op_reads c x s1) s1 s2 ->
  ends c s1 x = ends c s2 x /\ does_same s1 (step c s1 x) s2 (step c s2 x).
Proof.
  intros c x s1 s2 HA. pose proof (op_det c x s1 s2 HA) as D. rewrite !step_act. unfold ends, run_call, det_at in *.
  destruct (op_act c x s1) as [u t1|e t1|], (op_act c x s2) as [w t2|e' t2|]; try contradiction; cbn.
  - split; [auto|apply D].
  - subst e'. split; [auto|apply ds_refl].
  - split; [auto|apply ds_refl].
Qed.
Print Assumptions C86_operations_depend_only_on_their_reads.

(** and changes no other entry than those of the table; a call that fails changes none and leaves
    no event or message *)
Theorem C86_operations_change_only_their_writes : forall c x s,
  (forall y, y ∉ op_writes c x s -> same_at y s (step c s x)) /\
  (ends c s x <> Success -> step c s x = s).
Proof.
  intros c x s. pose proof (op_only c x s) as D. rewrite !step_act. unfold ends, run_call, only_at in *.
  destruct (op_act c x s) as [u t1|e t1|]; cbn.
  - split; [intros y Hy; apply (D u t1 eq_refl y Hy)|congruence].
  - split; [intros; apply same_at_refl|auto].
  - split; [intros; apply same_at_refl|auto].
Qed.
Print Assumptions C86_operations_change_only_their_writes.

Definition apart (l m : list cell) : Prop := forall x, x ∈ l -> x ∉ m.
(** Two operations of which neither changes what the other depends on or changes may be swapped:
    each ends as before, every entry is as before, and only the order of the log is different *)
Theorem C86_independent_operations_commute : forall c x1 x2 s,
  apart (op_writes c x1 s) (op_reads c x2 s) -> apart (op_writes c x1 s) (op_writes c x2 s) ->
  apart (op_writes c x2 s) (op_reads c x1 s) ->
  ends c (step c s x2) x1 = ends c s x1 /\ ends c (step c s x1) x2 = ends c s x2 /\
  (forall y, same_at y (run c s [x1; x2]) (run c s [x2; x1])) /\
  exists e1 e2 m1 m2,
    rt_ev (run c s [x1; x2]) = e2 ++ e1 ++ rt_ev s /\ rt_ev (run c s [x2; x1]) = e1 ++ e2 ++ rt_ev s /\
    rt_out (run c s [x1; x2]) = m2 ++ m1 ++ rt_out s /\ rt_out (run c s [x2; x1]) = m1 ++ m2 ++ rt_out s.
Proof.
  intros c x1 x2 s H12 HW H21. cbn [run fold_left].
  set (s1 := step c s x1). set (s2 := step c s x2).
  assert (agree (op_reads c x2 s) s s1) as A2.
  { intros y Hy. apply C86_operations_change_only_their_writes. intros Hw. exact (H12 y Hw Hy). }
  assert (agree (op_reads c x1 s) s s2) as A1.
  { intros y Hy. apply C86_operations_change_only_their_writes. intros Hw. exact (H21 y Hw Hy). }
  destruct (C86_operations_depend_only_on_their_reads c x1 s s2 A1) as [S1 [D1 (e1 & E1 & E1') (m1 & M1 & M1')]].
  destruct (C86_operations_depend_only_on_their_reads c x2 s s1 A2) as [S2 [D2 (e2 & E2 & E2') (m2 & M2 & M2')]].
  destruct (reads_fixed c x1 s s2 A1) as [_ W1]. destruct (reads_fixed c x2 s s1 A2) as [_ W2].
  fold s1 in D1, E1, M1. fold s2 in D2, E2, M2. split; [auto|]. split; [auto|]. split.
  - intros y. destruct (decide (y ∈ op_writes c x1 s)) as [Hin|Hin].
    + pose proof (HW y Hin) as Hn.
      assert (same_at y s s2) as B by (apply C86_operations_change_only_their_writes; auto).
      assert (same_at y s1 (step c s1 x2)) as B' by (apply C86_operations_change_only_their_writes; rewrite W2; auto).
      apply same_at_sym in B'. eapply same_at_trans; [exact B'|].
      destruct (D1 y) as [[F1 F2]|F]; [|exact F].
      apply same_at_sym in F1. eapply same_at_trans; [exact F1|]. eapply same_at_trans; [exact B|exact F2].
    + assert (same_at y s s1) as B by (apply C86_operations_change_only_their_writes; auto).
      assert (same_at y s2 (step c s2 x1)) as B' by (apply C86_operations_change_only_their_writes; rewrite W1; auto).
      eapply same_at_trans; [|exact B'].
      destruct (D2 y) as [[F1 F2]|F]; [|apply same_at_sym, F].
      apply same_at_sym in F2. eapply same_at_trans; [exact F2|].
      apply same_at_sym in B. eapply same_at_trans; [exact B|exact F1].
  - exists e1, e2, m1, m2. rewrite E2', E1', M2', M1', E1, E2, M1, M2. auto.
Qed.
Print Assumptions C86_independent_operations_commute.

(** ** Histories *)
Fixpoint endings (c : cfg) (s : rt) (l : list op) : list status :=
  match l with [] => [] | x :: l => ends c s x :: endings c (step c s x) l end.
(** [l'] is the history [l] from [s] without some operations: what is left depends only on entries in
    [L], what is left out changes none of them. [r] is how the operations that are left ended in [l] *)
Inductive slice (c : cfg) (L : cell -> Prop) : rt -> list op -> list op -> list status -> Prop :=
| slice_nil s : slice c L s [] [] []
| slice_keep s x l l' r :
    (forall y, y ∈ op_reads c x s -> L y) -> slice c L (step c s x) l l' r -> slice c L s (x :: l) (x :: l') (ends c s x :: r)
| slice_drop s x l l' r :
    (forall y, y ∈ op_writes c x s -> ~ L y) -> slice c L (step c s x) l l' r -> slice c L s (x :: l) l' r.
(** Then what is left out makes no difference to the entries in [L], and the operations that are
    left end as they did *)
Theorem C86_what_touches_nothing_makes_no_difference : forall c L s l l' r t,
  slice c L s l l' r -> (forall y, L y -> same_at y s t) ->
  endings c t l' = r /\ forall y, L y -> same_at y (run c s l) (run c t l').
Proof.
  intros c L s l l' r t H. revert t. induction H as [s|s x l l' r HL H IH|s x l l' r HL H IH]; intros t HA; [auto| |].
  - destruct (C86_operations_depend_only_on_their_reads c x s t) as [HS HD]; [intros y Hy; auto|].
    destruct (IH (step c t x)) as [IH1 IH2].
    { intros y Hy. apply (ds_agree [y] _ _ _ _ HD); [intros z ->%elem_of_list_singleton; auto|left]. }
    cbn [endings run fold_left]. rewrite HS, IH1. auto.
  - destruct (IH t) as [IH1 IH2]; [|auto]. intros y Hy. eapply same_at_trans; [|apply HA, Hy].
    apply same_at_sym. apply C86_operations_change_only_their_writes. intros Hw. exact (HL y Hw Hy).
Qed.
Print Assumptions C86_what_touches_nothing_makes_no_difference.

(** ** Corollaries *)
(** TEERdays: whose bond a call is about *)
Definition bond_of (a : acct) (k : td_call) : acct := match k with TdUpdateOther w => w | _ => a end.
Definition account_cells (a : acct) : list cell :=
  [XNow; XBlk; XFree a; XLocks a; XVest a; XE (KBonds a); XE (KPending a)].
Definition concerns (a : acct) (x : op) : bool :=
  match x with
  | ONextBlock _ => true
  | OCall (Signed b) (CTd k) => bool_decide (bond_of b k = a)
  | OMint b _ | OFee b _ | OVest b | OAddVesting b _ _ _ | OLock b _ _ | OUnlock b _ => bool_decide (b = a)
  | _ => false
  end.
(** Histories of TEERdays calls, blocks and what happens to single accounts *)
Definition solitary (x : op) : Prop :=
  match x with OCall _ (CTd _) => True | OCall _ _ | OTransfer _ _ _ => False | _ => True end.
(** What is about others makes no difference to an account's balance, locks, vesting, bond and
    unbonding, nor to how its own calls end *)
Theorem C86_bonds_of_others_make_no_difference : forall c a s l,
  Forall solitary l ->
  agree (account_cells a) (run c s l) (run c s (filter (fun x => concerns a x = true) l)) /\
  exists r, slice c (fun y => y ∈ account_cells a) s l (filter (fun x => concerns a x = true) l) r /\
    endings c s (filter (fun x => concerns a x = true) l) = r.
Proof.
  intros c a s l Hl.
  assert (exists r, slice c (fun y => y ∈ account_cells a) s l (filter (fun x => concerns a x = true) l) r) as [r Hr].
  { revert s. induction Hl as [|x l Hx Hl IH]; intros s; [exists []; constructor|].
    destruct (IH (step c s x)) as [r Hr]. rewrite filter_cons. destruct (decide (concerns a x = true)) as [E|E].
    - exists (ends c s x :: r). constructor; [|auto]. intros y Hy.
      destruct x as [o k| | | | | | | | | |]; cbn in E, Hy; try discriminate E; try contradiction.
      + destruct o as [|b|], k as [k| | | | | | |]; try discriminate E. apply bool_decide_eq_true in E.
        unfold reads in Hy. destruct k; cbn in E, Hy; subst; elem; subst; in_list.
      + elem; subst; in_list.
      + apply bool_decide_eq_true in E; subst. elem; subst; in_list.
      + apply bool_decide_eq_true in E; subst. elem; subst; in_list.
      + apply bool_decide_eq_true in E; subst. elem; subst; in_list.
      + apply bool_decide_eq_true in E; subst. elem; subst; in_list.
      + apply bool_decide_eq_true in E; subst. elem; subst; in_list.
      + apply bool_decide_eq_true in E; subst. elem; subst; in_list.
    - exists r. constructor; [|auto]. intros y Hy Ha. apply not_true_is_false in E.
      destruct x as [o k| | | | | | | | | |]; cbn in E, Hy, Hx; try discriminate E; try contradiction;
        try (apply bool_decide_eq_false in E; unfold account_cells in Ha; elem; congruence).
      destruct o as [|b|], k as [k| | | | | | |]; try discriminate E; try contradiction; unfold writes in Hy.
      + destruct k; cbn in Hy; elem.
      + apply bool_decide_eq_false in E. unfold account_cells in Ha. destruct k; cbn in E, Hy; elem; congruence.
      + destruct k; cbn in Hy; elem.
      + unfold account_cells in Ha; elem; congruence.
      + unfold account_cells in Ha; elem; congruence. }
  destruct (C86_what_touches_nothing_makes_no_difference c _ s l _ r s Hr (fun y _ => same_at_refl y s)) as [H1 H2].
  split; [exact H2|]. exists r. auto.
Qed.
Print Assumptions C86_bonds_of_others_make_no_difference.
(** TEERdays calls about different accounts may be swapped *)
Theorem C86_teerdays_calls_about_different_accounts_commute : forall c a b k1 k2 s,
  bond_of a k1 <> bond_of b k2 ->
  let x1 := OCall (Signed a) (CTd k1) in let x2 := OCall (Signed b) (CTd k2) in
  ends c (step c s x2) x1 = ends c s x1 /\ ends c (step c s x1) x2 = ends c s x2 /\
  (forall y, same_at y (run c s [x1; x2]) (run c s [x2; x1])).
Proof.
  intros c a b k1 k2 s Hne x1 x2.
  destruct (C86_independent_operations_commute c x1 x2 s) as (H1 & H2 & H3 & _); [| | |auto];
    intros y Hy Hy'; subst x1 x2; cbn [op_reads op_writes] in Hy, Hy'; unfold reads, writes in Hy, Hy';
    destruct k1, k2; cbn in Hne, Hy, Hy'; elem; congruence.
Qed.
Print Assumptions C86_teerdays_calls_about_different_accounts_commute.
(** Bridge and sidechain calls on different shards may be swapped, whoever makes them, unless they
    pay money out or in *)
Definition shard_call (k : call) : option bytes :=
  match k with
  | CEb (EbConfirm sh _ _ _) | CEb (EbUpdateConfig sh _ _) | CEb (EbPurge sh _) | CSc (ScConfirm sh _ _) => Some sh
  | _ => None
  end.
Theorem C86_calls_on_different_shards_commute : forall c o1 o2 k1 k2 sh1 sh2 s,
  shard_call k1 = Some sh1 -> shard_call k2 = Some sh2 -> sh1 <> sh2 ->
  let x1 := OCall o1 k1 in let x2 := OCall o2 k2 in
  ends c (step c s x2) x1 = ends c s x1 /\ ends c (step c s x1) x2 = ends c s x2 /\
  (forall y, same_at y (run c s [x1; x2]) (run c s [x2; x1])).
Proof.
  intros c o1 o2 k1 k2 sh1 sh2 s E1 E2 Hne x1 x2.
  destruct (C86_independent_operations_commute c x1 x2 s) as (H1 & H2 & H3 & _); [| | |auto];
    intros y Hy Hy'; subst x1 x2; cbn [op_reads op_writes] in Hy, Hy'; unfold reads, writes in Hy, Hy';
    destruct k1 as [|[]|[]| | | | |]; cbn in E1; try discriminate E1; injection E1 as ->;
    destruct k2 as [|[]|[]| | | | |]; cbn in E2; try discriminate E2; injection E2 as ->;
    destruct o1, o2; cbn in Hy, Hy'; elem; congruence.
Qed.
Print Assumptions C86_calls_on_different_shards_commute.

(** ** Concrete cases *)
(** Alice and Bob bond, Carol updates Bob's bond, Alice unbonds: for Alice only her own calls count *)
Definition mixed : list op :=
  [call_td alice (TdBond 100); call_td bob (TdBond 200); ONextBlock 500; call_td carol (TdUpdateOther bob);
   call_td bob (TdUnbond 50); OFee bob 3; call_td alice (TdUnbond 40); call_td bob (TdBond 1)].
Example C86_mixed :
  let s := genesis_state (gen0 [alice; bob]) in
  Forall solitary mixed /\
  filter (fun x => concerns alice x = true) mixed =
    [call_td alice (TdBond 100); ONextBlock 500; call_td alice (TdUnbond 40)] /\
  endings cfg0 s mixed = [Success; Success; Success; Success; Success; Success; Success; Failed AlreadyBonded] /\
  td_pending (rt_td (run cfg0 s mixed)) !! alice =
    td_pending (rt_td (run cfg0 s [call_td alice (TdBond 100); ONextBlock 500; call_td alice (TdUnbond 40)])) !! alice /\
  td_pending (rt_td (run cfg0 s mixed)) !! alice = Some (6500, 40).
Proof.
  split; [repeat constructor|]. vm_compute. auto.
Qed.
(** Calls of two enclaves on two shards: in either order both succeed, the entries are the same, the
    log is in the other order *)
Example C86_shards :
  let s := run cfg0 (genesis_state (gen0 [alice; bob])) [register alice (acc 9); register bob (acc 8)] in
  let x1 := call_eb alice (EbConfirm (acc 9) (acc 50) 1 (acc 51)) in
  let x2 := call_sc bob (ScConfirm (acc 8) None (mkSconf 1 (acc 60))) in
  apart (op_writes cfg0 x1 s) (op_reads cfg0 x2 s) /\ apart (op_writes cfg0 x1 s) (op_writes cfg0 x2 s) /\
  apart (op_writes cfg0 x2 s) (op_reads cfg0 x1 s) /\
  endings cfg0 s [x1; x2] = [Success; Success] /\ endings cfg0 s [x2; x1] = [Success; Success] /\
  length (rt_ev (run cfg0 s [x1; x2])) = length (rt_ev (run cfg0 s [x2; x1])) /\
  rt_ev (run cfg0 s [x1; x2]) <> rt_ev (run cfg0 s [x2; x1]).
Proof.
  intros s x1 x2.
  split; [intros y Hy Hy'; cbn in Hy, Hy'; elem; subst; congruence|].
  split; [intros y Hy Hy'; cbn in Hy, Hy'; elem; subst; congruence|].
  split; [intros y Hy Hy'; cbn in Hy, Hy'; elem; subst; congruence|].
  vm_compute. repeat split; auto. discriminate.
Qed.
(** The conditions matter: of two transfers out of one account that cannot both be paid the first is
    made *)
Example C86_order_matters :
  let s := genesis_state (gen0 [alice]) in
  endings cfg0 s [OTransfer alice bob 600; OTransfer alice carol 700] = [Success; Failed FundsUnavailable] /\
  endings cfg0 s [OTransfer alice carol 700; OTransfer alice bob 600] = [Success; Failed FundsUnavailable] /\
  free (run cfg0 s [OTransfer alice bob 600; OTransfer alice carol 700]) bob = 600 /\
  free (run cfg0 s [OTransfer alice carol 700; OTransfer alice bob 600]) bob = 0 /\
  ~ apart (op_writes cfg0 (OTransfer alice bob 600) s) (op_reads cfg0 (OTransfer alice carol 700) s).
Proof.
  intros s. split; [vm_compute; reflexivity|]. split; [vm_compute; reflexivity|]. split; [vm_compute; reflexivity|].
  split; [vm_compute; reflexivity|].
  intros H. apply (H (XFree alice)); cbn; left.
Qed.
(** A call that finds what it is about in the state: publishing a hash reads the publisher's enclave
    and then the entry of that enclave's shard *)
Example C86_found_in_the_state :
  let s := run cfg0 (genesis_state (gen0 [alice])) [register alice (acc 9)] in
  op_reads cfg0 (call_eb alice (EbPublish (acc 70) [] [1])) s = [XE (KSov alice); XBlk; XE (KStatus (acc 9))] /\
  op_writes cfg0 (call_eb alice (EbPublish (acc 70) [] [1])) s = [XE (KStatus (acc 9))] /\
  op_reads cfg0 (call_eb bob (EbPublish (acc 70) [] [1])) s = [XE (KSov bob); XBlk] /\
  ends cfg0 s (call_eb alice (EbPublish (acc 70) [] [1])) = Success /\
  ends cfg0 s (call_eb bob (EbPublish (acc 70) [] [1])) = Failed EnclaveIsNotRegistered.
Proof. vm_compute. auto. Qed.
