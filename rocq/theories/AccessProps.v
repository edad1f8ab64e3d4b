(** * C102: who can change which entry
    For every entry of the state, who may change it, by which call and under which condition; and
    the matrix of kinds of entries and kinds of calls, of which every field is shown to be in use. *)
From Coq Require Import String.
From Verif Require Import Base State Env TeerdaysModel TeerexBase SgxVerifyModel TeerexModel
  EnclaveBridgeModel SidechainModel TeeracleModel ClaimsModel AssetRegistryModel XcmTransactorModel
  MigrationsModel Runtime ScaleModel StorageModel Frame EnvFacts TeerdaysProofs BridgeProofs TeerexProofs ClaimsProofs Examples BridgeProps ClaimsProps
  AttestationProps Footprint TeerexProps AcceptProps EffectProps ProvenanceProps FootprintProps HistoryProps.

(** The claim of the Ethereum address [w] is paid to [d]: with a signature of [w] that names [d], or by
    [d] itself if the claim is preclaimed for it; a statement that was asked for is met *)
Definition claim_paid (c : cfg) (s : rt) (w : bytes) (d : acct) (x : op) : Prop :=
  is_Some (cl_claims (rt_cl s) !! w) /\
  ((exists sig, x = OCall NoneO (CCl (ClClaim d sig)) /\ eth_signed c sig w d [] /\ cl_signing (rt_cl s) !! w = None) \/
   (exists sig text, x = OCall NoneO (CCl (ClClaimAttest d sig text)) /\ eth_signed c sig w d text /\ statement_met s w text) \/
   (exists text, x = OCall (Signed d) (CCl (ClAttest text)) /\ cl_preclaims (rt_cl s) !! d = Some w /\ statement_met s w text)).
(** A claim is moved from or to [w] *)
Definition claim_moved (c : cfg) (w : bytes) (x : op) : Prop :=
  exists o old new pre, x = OCall o (CCl (ClMove old new pre)) /\ (o = Root \/ c_move_origin c o = true) /\ (old = w \/ new = w).
(** [a] works on the shard, which its enclave operates at the moment *)
Definition at_work (s : rt) (sh : bytes) (x : op) : Prop :=
  exists a, operates s sh a /\
  ((exists h n r, x = OCall (Signed a) (CEb (EbConfirm sh h n r))) \/ (exists b v h, x = OCall (Signed a) (CEb (EbUnshield sh b v h))) \/
   (exists anc b, x = OCall (Signed a) (CSc (ScConfirm sh anc b)))).
(** An enclave configures the shard: one of the configuration in force, if there is one *)
Definition configures (s : rt) (sh : bytes) (x : op) : Prop :=
  exists a e new d, x = OCall (Signed a) (CEb (EbUpdateConfig sh new d)) /\ tx_sov (rt_tx s) !! a = Some e /\
  forall y, in_force s sh (rt_blk s) = Some y -> sc_fp y = en_mr_enclave e.

(** [x] may change the entry [y] in the state [s] *)
Definition may_change (c : cfg) (s : rt) (y : cell) (x : op) : Prop :=
  match y with
  | XNow | XBlk => exists d, x = ONextBlock d
  | XFree a =>
      (exists b v, x = OTransfer a b v \/ x = OTransfer b a v) \/ (exists v, x = OMint a v \/ x = OFee a v) \/
      (exists sh i v, x = OCall (Signed a) (CEb (EbShield sh i v))) \/
      (exists b i v, x = OCall (Signed b) (CEb (EbShield a i v))) \/
      (exists b sh d v h, x = OCall (Signed b) (CEb (EbUnshield sh d v h)) /\ (sh = a \/ d = a) /\ operates s sh b /\ eb_exec (rt_eb s) !! h = None) \/
      (exists w, claim_paid c s w a x)
  | XLocks a =>
      x = OVest a \/ (exists l p t, x = OAddVesting a l p t) \/ (exists i v, x = OLock a i v) \/ (exists i, x = OUnlock a i) \/
      (exists v, x = OCall (Signed a) (CTd (TdBond v)) \/ x = OCall (Signed a) (CTd (TdBondExtra v))) \/
      x = OCall (Signed a) (CTd TdWithdrawUnbonded) \/ (exists w, claim_paid c s w a x /\ is_Some (cl_vesting (rt_cl s) !! w))
  | XVest a => x = OVest a \/ (exists l p t, x = OAddVesting a l p t) \/ (exists w, claim_paid c s w a x /\ is_Some (cl_vesting (rt_cl s) !! w))
  | XAsset i => (exists m, x = OCreateAsset i m) \/ x = ODestroyAsset i
  | XE (KSov a) =>
      (exists p u m e, x = OCall (Signed a) (CTx (TxRegister p u m)) /\ attested c s a p m e /\ is_proxied e = false /\
         (en_build_mode e = MDebug -> tx_allow_debug (rt_tx s) = true)) \/
      (exists b e, x = OCall (Signed b) (CTx (TxUnregisterSovereign a)) /\ tx_sov (rt_tx s) !! a = Some e /\ en_timestamp e + c_renewal c < rt_now s)
  | XE (KProx k) =>
      (exists a p u m e, x = OCall (Signed a) (CTx (TxRegister p u m)) /\ attested c s a p m e /\ is_proxied e = true /\
         k = (en_mr_enclave e, a, inl (en_report_data e ++ zeros 2)) /\ (en_build_mode e = MDebug -> tx_allow_debug (rt_tx s) = true)) \/
      (exists b e, x = OCall (Signed b) (CTx (TxUnregisterProxied k)) /\ tx_prox (rt_tx s) !! k = Some e /\ en_timestamp e + c_renewal c < rt_now s)
  | XE KQe => exists a doc sig chain d, x = OCall (Signed a) (CTx (TxRegisterQe doc sig chain)) /\ authentic_identity c (rt_now s) doc sig chain d
  | XE (KTcb f) => exists a doc sig chain d, x = OCall (Signed a) (CTx (TxRegisterTcb doc sig chain)) /\ authentic_tcb c (rt_now s) doc sig chain d /\ tj_fmspc d = f
  | XE KDebug | XE KSkip => exists sk d, x = OCall Root (CTx (TxSetFlags sk d))
  | XE (KStatus sh) =>
      at_work s sh x \/ configures s sh x \/ (exists a, x = OCall Root (CEb (EbPurge sh a))) \/
      (exists a e h t d, x = OCall (Signed a) (CEb (EbPublish h t d)) /\ tx_sov (rt_tx s) !! a = Some e /\ en_mr_enclave e = sh)
  | XE (KConfig sh) => at_work s sh x \/ configures s sh x \/ (exists new d, x = OCall Root (CEb (EbUpdateConfig sh new d)))
  | XE (KExec h) => exists a sh b v, x = OCall (Signed a) (CEb (EbUnshield sh b v h)) /\ operates s sh a
  | XE (KLatest sh) => exists a anc b, x = OCall (Signed a) (CSc (ScConfirm sh anc b)) /\ operates s sh a /\ leads s sh a
  | XE (KRates p src) => exists a v, x = OCall (Signed a) (CTo (ToUpdateRate src p v)) /\ may_feed s a src
  | XE (KData n src) => exists a b, x = OCall (Signed a) (CTo (ToUpdateOracle n src b)) /\ may_feed s a src
  | XE (KWhitelist src) => exists fp, x = OCall Root (CTo (ToAdd src fp)) \/ x = OCall Root (CTo (ToRemove src fp))
  | XE (KBonds a) =>
      (exists v, x = OCall (Signed a) (CTd (TdBond v)) \/ x = OCall (Signed a) (CTd (TdBondExtra v)) \/ x = OCall (Signed a) (CTd (TdUnbond v))) \/
      (exists b, x = OCall (Signed b) (CTd (TdUpdateOther a)))
  | XE (KPending a) => (exists v, x = OCall (Signed a) (CTd (TdUnbond v))) \/ x = OCall (Signed a) (CTd TdWithdrawUnbonded)
  | XE (KClaims w) => (exists v vs st, x = OCall Root (CCl (ClMint w v vs st))) \/ claim_moved c w x \/ (exists d, claim_paid c s w d x)
  | XE (KVesting w) =>
      (exists v vs st, x = OCall Root (CCl (ClMint w v (Some vs) st))) \/ claim_moved c w x \/
      (exists d, claim_paid c s w d x /\ is_Some (cl_vesting (rt_cl s) !! w))
  | XE (KSigning w) =>
      (exists v vs st, x = OCall Root (CCl (ClMint w v vs (Some st)))) \/ claim_moved c w x \/
      (exists d, claim_paid c s w d x /\ is_Some (cl_signing (rt_cl s) !! w))
  | XE KTotal => (exists w v vs st, x = OCall Root (CCl (ClMint w v vs st))) \/ (exists w d, claim_paid c s w d x)
  | XE (KPreclaims a) =>
      (exists text w, x = OCall (Signed a) (CCl (ClAttest text)) /\ claim_paid c s w a x) \/
      (exists o old new, x = OCall o (CCl (ClMove old new (Some a))) /\ (o = Root \/ c_move_origin c o = true))
  | XE (KAssetLoc i) => exists o, c_asset_origin c o = true /\ ((exists l, x = OCall o (CAr (ArRegister i l))) \/ x = OCall o (CAr (ArUnregister i)))
  | XE (KAssetId l) => exists o i, c_asset_origin c o = true /\ (x = OCall o (CAr (ArRegister i l)) \/ (x = OCall o (CAr (ArUnregister i)) /\ ar_loc (rt_ar s) !! i = Some l))
  | XE (KV0Registry _) | XE KV0Count | XE (KV0Index _) | XE KV0Debug | XE KVersion => False
  end.

Lemma claimant_signed c d sig text w : claimant c d sig text = Some w <-> eth_signed c sig w d text.
Proof. rewrite <- eth_recover_signed. reflexivity. Qed.
Lemma call_status c s o k : (dispatch c o k s).1 <> Success -> step c s (OCall o k) = s.
Proof.
  cbn [step]. intros H. destruct (run_call_cases (exec c o k) s) as [(s' & _ & E')|[_ E']].
  - unfold dispatch in H. rewrite E' in H. destruct (H eq_refl).
  - unfold dispatch. rewrite E'. reflexivity.
Qed.
Lemma process_env c w d s s' : process_claim c w d s = Ok tt s' -> cl_vesting (rt_cl s) !! w = None ->
  b_locks (rt_bal s') = b_locks (rt_bal s) /\ rt_vest s' = rt_vest s.
Proof.
  unfold process_claim. intros H Hv. apply bind_ok in H as (oc & s1 & H1 & H). apply gets_ok in H1 as [-> ->].
  apply bind_ok in H as (due & s1 & H1 & H). apply ok_or_ok in H1 as [_ ->].
  apply bind_ok in H as (tot & s1 & H1 & H). apply gets_ok in H1 as [-> ->].
  apply bind_ok in H as (u & s1 & H1 & H). apply ensure_ok in H1 as [_ ->].
  apply bind_ok in H as (ve & s1 & H1 & H). apply gets_ok in H1 as [-> ->]. rewrite Hv in H.
  apply bind_ok in H as (hv & s1 & H1 & H). apply gets_ok in H1 as [-> ->].
  apply bind_ok in H as (u2 & s1 & H1 & H). apply ensure_ok in H1 as [_ ->].
  apply bind_ok in H as (u3 & s1 & H1 & H).
  assert (b_locks (rt_bal s1) = b_locks (rt_bal s) /\ rt_vest s1 = rt_vest s) as [E1 E2].
  { unfold deposit_creating in H1. destruct (due =? 0); [inv_ok H1; auto|].
    apply bind_ok in H1 as (f & s2 & H2 & H1). apply gets_ok in H2 as [-> ->].
    destruct (_ && _); [inv_ok H1; auto|]. destruct (_ <? _); [inv_ok H1; auto|].
    inv_rt H1. split; reflexivity. }
  rewrite <- E1, <- E2. inv_rt H. auto.
Qed.
(** the entries that change only if the claim has a vesting schedule or a statement *)
Lemma paid_cells c w d s s' : process_claim c w d s = Ok tt s' ->
  (forall a, ~ same_at (XLocks a) s s' -> is_Some (cl_vesting (rt_cl s) !! w)) /\
  (forall a, ~ same_at (XVest a) s s' -> is_Some (cl_vesting (rt_cl s) !! w)) /\
  (~ same_at (XE (KVesting w)) s s' -> is_Some (cl_vesting (rt_cl s) !! w)) /\
  (~ same_at (XE (KSigning w)) s s' -> is_Some (cl_signing (rt_cl s) !! w)).
Proof.
  intros H. pose proof (process_env _ _ _ _ _ H) as He. apply process_ok in H as (due & _ & _ & _ & _ & Hc & _).
  cbn [same_at]. rewrite Hc. cbn [cl_vesting cl_signing]. rewrite !lookup_delete.
  destruct (cl_signing (rt_cl s) !! w) as [st|], (cl_vesting (rt_cl s) !! w) as [v|]; try destruct (He eq_refl) as [-> ->];
    repeat split; intros; try contradiction; eauto.
Qed.
Ltac one Hy := repeat (apply elem_of_cons in Hy as [->|Hy]); try (apply elem_of_nil in Hy as []).
Theorem C102_who_can_change_an_entry : forall c g l x y, let s := after c g l in
  ~ same_at y s (step c s x) -> may_change c s y x.
Proof.
  intros c g l x y s Hch.
  assert (y ∈ op_writes c x s) as Hy.
  { destruct (decide (y ∈ op_writes c x s)) as [H|H]; [exact H|]. destruct Hch. apply (C86_operations_change_only_their_writes c x s), H. }
  destruct x as [o k| | | | | | | | | |].
  2-11: cbn [op_writes] in Hy; repeat (apply elem_of_cons in Hy as [->|Hy]); try (apply elem_of_nil in Hy as []); cbn [may_change]; eauto 10.
  assert ((dispatch c o k s).1 = Success) as Hs.
  { destruct (dispatch c o k s).1 eqn:E; [reflexivity|exfalso; apply Hch..]; (rewrite call_status by congruence; apply same_at_refl). }
  pose proof (success_exec _ _ _ _ Hs) as Hx. pose proof (dispatch_step _ _ _ _ Hs) as Hd.
  cbn [op_writes] in Hy. unfold writes in Hy.
  destruct k as [k|k|k|k|k|k|k|k].
  - apply C68_teerdays_calls_accepted_exactly in Hs as (a & -> & Hs). cbn [writes_other] in Hy. rewrite app_nil_r in Hy.
    destruct k; cbn [writes_signed] in Hy; one Hy; cbn [may_change]; eauto 12.
  - apply (C68_bridge_calls_accepted_exactly c g l) in Hs. change (run c (genesis_state g) l) with s in Hs. cbn [writes_other] in Hy. rewrite app_nil_r in Hy.
    destruct k as [sh cy|sh h n r|sh b v|sh b v h|h t d|sh n d|sh a]; cbn [eb_accepts] in Hs.
    + destruct Hs as (a & ->). cbn [writes_signed] in Hy. one Hy.
    + destruct Hs as (a & -> & Ho). cbn [writes_signed shard_writes] in Hy.
      assert (at_work s sh (OCall (Signed a) (CEb (EbConfirm sh h n r)))) as Hw by (exists a; split; [exact Ho|eauto 10]).
      one Hy; cbn [may_change]; auto.
    + destruct Hs as (a & -> & Ho). cbn [writes_signed] in Hy. one Hy; cbn [may_change]; eauto 12.
    + destruct Hs as (a & -> & Ho & _). cbn [writes_signed shard_writes app] in Hy.
      assert (at_work s sh (OCall (Signed a) (CEb (EbUnshield sh b v h)))) as Hw by (exists a; split; [exact Ho|eauto 10]).
      assert (forall z, ~ same_at (XFree z) s (step c s (OCall (Signed a) (CEb (EbUnshield sh b v h)))) -> eb_exec (rt_eb s) !! h = None) as Hf.
      { intros z Hz. destruct (eb_exec (rt_eb s) !! h) as [n|] eqn:E; [|auto]. destruct Hz. cbn [same_at].
        cbn [exec eb_exec_call] in Hx. apply unshield_ok in Hx as (a' & e & _ & _ & _ & [[E' _]|(n0 & n1 & _ & _ & _ & Hx)]); [congruence|].
        rewrite Hx. unfold touched, enact. destruct (eb_config (rt_eb s) !! sh) as [uc|]; [|reflexivity]. destruct (uc_pending uc), (uc_at uc); try reflexivity. destruct (_ <=? _); reflexivity. }
      one Hy; cbn [may_change]; [auto|auto|eauto 10| |].
      * do 4 right. left. exists a, sh, b, v, h. split; [auto|]. split; [auto|]. split; [exact Ho|]. exact (Hf _ Hch).
      * do 4 right. left. exists a, sh, b, v, h. split; [auto|]. split; [auto|]. split; [exact Ho|]. exact (Hf _ Hch).
    + destruct Hs as (a & e & -> & He & _). cbn [writes_signed] in Hy. rewrite He in Hy. cbn [opt] in Hy. one Hy. cbn [may_change]. eauto 12.
    + destruct Hs as [->|(a & e & -> & He & _ & Hf)]; cbn [writes_signed writes_root shard_writes] in Hy.
      * one Hy. cbn [may_change]. eauto 10.
      * assert (configures s sh (OCall (Signed a) (CEb (EbUpdateConfig sh n d)))) as Hw by (exists a, e, n, d; auto).
        one Hy; cbn [may_change]; auto.
    + destruct Hs as [-> _]. cbn [writes_root] in Hy. one Hy. cbn [may_change]. eauto 10.
  - apply (C68_sidechain_calls_accepted_exactly c g l) in Hs. change (run c (genesis_state g) l) with s in Hs. cbn [writes_other] in Hy. rewrite app_nil_r in Hy.
    destruct k as [sh anc b]; cbn [sc_accepts] in Hs. destruct Hs as (a & -> & Ho & _). cbn [writes_signed shard_writes app] in Hy.
    assert (at_work s sh (OCall (Signed a) (CSc (ScConfirm sh anc b)))) as Hw by (exists a; split; [exact Ho|eauto 10]).
    one Hy; cbn [may_change]; auto. exists a, anc, b. split; [auto|]. split; [auto|].
    apply C69_sidechain_confirmation_does_exactly_this in Hd as (a' & e & [= <-] & _ & _ & _ & _ & _ & Hn & _).
    assert (leads s sh a \/ ~ leads s sh a) as [|Hl]; [|assumption|].
    { unfold leads. destruct (default [] _) as [|z r]; [left; exact I|]. destruct (decide (ss_signer z = a)); auto. }
    destruct Hch. cbn [same_at]. destruct (Hn Hl) as [-> _]. reflexivity.
  - apply C68_teeracle_calls_accepted_exactly in Hs. cbn [writes_other] in Hy. rewrite app_nil_r in Hy.
    destruct k; cbn [to_accepts] in Hs; cbv zeta in Hs.
    1,2: destruct Hs as [-> _]; cbn [writes_root] in Hy; one Hy; cbn [may_change]; eauto 10.
    all: destruct Hs as (a & e & -> & He & Hi & _); cbn [writes_signed] in Hy; one Hy; cbn [may_change]; eexists a, _; split; [reflexivity|exists e; auto].
  - cbn [writes_other] in Hy. rewrite app_nil_r in Hy.
    destruct k as [p u m|w|w|doc sig chain|doc sig chain|sk d].
    + assert (exists a, o = Signed a) as [a ->] by (cbn [exec tx_exec] in Hx; apply register_ok in Hx as (a & e & -> & _); eauto).
      assert (y = XE (KSov a) \/ exists k, y = XE (KProx k)) as [->|[k ->]] by (destruct m as [[]| |[]]; cbn [writes_signed] in Hy; one Hy; eauto).
      * cbn [may_change]. destruct (sov_step c s (OCall (Signed a) (CTx (TxRegister p u m))) a) as [E|[(o & e & E & _)|(p' & u' & m' & e & E & _ & Ha & Hp & Hb & _)]];
          [destruct Hch; cbn [same_at]; congruence|congruence|]. left. exists p', u', m', e. auto.
      * cbn [may_change]. destruct (prox_step c s (OCall (Signed a) (CTx (TxRegister p u m))) k) as [E|[(o & e & E & _)|(a' & p' & u' & m' & e & E & _ & Ha & Hp & Hb & Hk & _)]];
          [destruct Hch; cbn [same_at]; congruence|congruence|]. left. exists a', p', u', m', e. auto.
    + apply C68_removals_accepted_exactly in Hs as (a & e & -> & He & Ht); [|reflexivity]. cbn [writes_signed] in Hy. one Hy. cbn [may_change]. eauto 10.
    + apply C68_removals_accepted_exactly in Hs as (a & e & -> & He & Ht); [|reflexivity]. cbn [writes_signed] in Hy. one Hy. cbn [may_change]. eauto 10.
    + destruct o as [|a|]; cbn [writes_signed writes_root writes_none] in Hy; one Hy. cbn [may_change].
      destruct (C38_only_authentic_collateral_is_stored c s (OCall (Signed a) (CTx (TxRegisterQe doc sig chain)))) as [Hq _].
      destruct Hq as (a' & doc' & sig' & chain' & d & Heq & Hau & _); [intros E; apply Hch; cbn [same_at]; congruence|]. eauto 10.
    + destruct o as [|a|]; cbn [writes_signed writes_root writes_none] in Hy; one Hy.
      destruct (or_json_tcb (c_sgx c) doc) as [e|]; cbn [opt] in Hy; one Hy. cbn [may_change].
      destruct (C38_only_authentic_collateral_is_stored c s (OCall (Signed a) (CTx (TxRegisterTcb doc sig chain)))) as [_ Hq].
      destruct (Hq (tj_fmspc e)) as (a' & doc' & sig' & chain' & d & Heq & Hau & Hf & _); [intros E; apply Hch; cbn [same_at]; congruence|].
      exists a', doc', sig', chain', d. auto.
    + apply C68_removals_accepted_exactly in Hs; [|reflexivity]. cbn [misc_accepts] in Hs. subst o. cbn [writes_root] in Hy. one Hy; cbn [may_change]; eauto.
  - apply C68_claims_calls_accepted_exactly in Hs.
    destruct k as [d sig|w v vs st|d sig text|text|old new pre]; cbn [writes_other] in Hy; cbn [cl_accepts] in Hs; try rewrite app_nil_r in Hy.
    + destruct Hs as (w & -> & Hsg & Hst & due & Hdue & _).
      assert (claim_paid c s w d (OCall NoneO (CCl (ClClaim d sig)))) as Hp by (split; [eauto|left; eauto 10]).
      cbn [writes_none] in Hy. rewrite (proj2 (claimant_signed _ _ _ _ _) Hsg) in Hy. cbn [opt plain_claim_writes] in Hy.
      cbn [exec cl_exec] in Hx. apply claim_ok in Hx as (_ & w' & Hw' & _ & Hx). apply eth_recover_signed in Hw'.
      assert (w' = w) as -> by (apply claimant_signed in Hw'; apply claimant_signed in Hsg; congruence).
      destruct (paid_cells _ _ _ _ _ Hx) as (H1 & H2 & H3 & H4).
      one Hy; cbn [may_change]; eauto 12 using H1, H2, H3, H4.
    + destruct Hs as [-> _]. cbn [writes_root] in Hy. apply C69_claims_calls_do_exactly_this in Hd as [(_ & _ & H3 & H4 & _) _].
      one Hy; cbn [may_change]; eauto 10.
      * destruct vs as [vs|]; [eauto 10|]. destruct Hch. cbn [same_at]. rewrite H3. reflexivity.
      * destruct st as [st|]; [eauto 10|]. destruct Hch. cbn [same_at]. rewrite H4. reflexivity.
    + destruct Hs as (w & -> & Hsg & Hst & due & Hdue & _).
      assert (claim_paid c s w d (OCall NoneO (CCl (ClClaimAttest d sig text)))) as Hp by (split; [eauto|right; left; eauto 10]).
      cbn [writes_none] in Hy. rewrite (proj2 (claimant_signed _ _ _ _ _) Hsg) in Hy. cbn [opt claim_writes] in Hy.
      cbn [exec cl_exec] in Hx. apply claim_attest_ok in Hx as (_ & w' & Hw' & _ & Hx). apply eth_recover_signed in Hw'.
      assert (w' = w) as -> by (apply claimant_signed in Hw'; apply claimant_signed in Hsg; congruence).
      destruct (paid_cells _ _ _ _ _ Hx) as (H1 & H2 & H3 & H4).
      one Hy; cbn [may_change]; eauto 12 using H1, H2, H3, H4.
    + destruct Hs as (a & w & -> & Hpre & Hst & due & Hdue & _).
      assert (claim_paid c s w a (OCall (Signed a) (CCl (ClAttest text)))) as Hp by (split; [eauto|right; right; eauto 10]).
      cbn [writes_signed] in Hy. rewrite Hpre in Hy. cbn [opt claim_writes] in Hy.
      cbn [exec cl_exec] in Hx. apply attest_ok in Hx as (a' & w' & s1 & [= <-] & Hw' & _ & Hx & Es).
      assert (w' = w) as -> by congruence.
      destruct (paid_cells _ _ _ _ _ Hx) as (H1 & H2 & H3 & H4).
      rewrite Es in Hch.
      one Hy; cbn [may_change]; eauto 12 using H1, H2, H3, H4.
    + assert (forall w, old = w \/ new = w -> claim_moved c w (OCall o (CCl (ClMove old new pre)))) as Hm by (intros w Hw; exists o, old, new, pre; auto).
      apply elem_of_app in Hy as [Hy|Hy]; [destruct o; cbn in Hy; one Hy|]. cbn [app] in Hy.
      repeat (apply elem_of_cons in Hy as [->|Hy]; [cbn [may_change]; auto|]).
      destruct pre as [p|]; cbn [opt] in Hy; one Hy. cbn [may_change]. right. eauto 10.
  - destruct k as [i lc|i]; cbn [writes_other] in Hy; apply elem_of_app in Hy as [Hy|Hy]; try (destruct o; cbn in Hy; one Hy; fail); cbn [exec ar_exec] in Hx.
    + apply XcmProps.register_ok in Hx as [Ho _]. one Hy; cbn [may_change]; eauto 10.
    + apply XcmProps.unregister_ok in Hx as (Ho & lc & Hl & _). rewrite Hl in Hy. cbn [opt] in Hy. one Hy; cbn [may_change]; eauto 10.
  - destruct o, k; cbn in Hy; one Hy.
Qed.
Print Assumptions C102_who_can_change_an_entry.

(** ** The matrix *)
(** The kinds of entries and the kinds of operations *)
Inductive kind := EClock | EBlock | EFree | ELocks | EVest | EAsset | EItem (i : item).
Definition kind_of (y : cell) : kind :=
  match y with
  | XNow => EClock | XBlk => EBlock | XFree _ => EFree | XLocks _ => ELocks | XVest _ => EVest | XAsset _ => EAsset
  | XE k => EItem (key_item k)
  end.
Inductive way :=
| WNextBlock | WTransfer | WDeposit | WFee | WVest | WAddVesting | WLock | WUnlock | WCreateAsset | WDestroyAsset
| WBond | WBondExtra | WUnbond | WUpdateOther | WWithdraw
| WInvoke | WConfirm | WShield | WUnshield | WPublish | WConfigure | WConfigureByRoot | WPurge | WConfirmImported
| WWhitelist | WDelist | WFeedData | WFeedRate
| WRegister | WRegisterProxied | WUnregister | WUnregisterProxied | WRegisterQe | WRegisterTcb | WSetFlags
| WClaim | WMintClaim | WClaimAttest | WAttest | WMoveClaim | WRegisterAsset | WUnregisterAsset | WSwap.
Definition way_of (x : op) : way :=
  match x with
  | ONextBlock _ => WNextBlock | OTransfer _ _ _ => WTransfer | OMint _ _ => WDeposit | OFee _ _ => WFee
  | OVest _ => WVest | OAddVesting _ _ _ _ => WAddVesting | OLock _ _ _ => WLock | OUnlock _ _ => WUnlock
  | OCreateAsset _ _ => WCreateAsset | ODestroyAsset _ => WDestroyAsset
  | OCall o (CTd k) =>
      match k with TdBond _ => WBond | TdBondExtra _ => WBondExtra | TdUnbond _ => WUnbond | TdUpdateOther _ => WUpdateOther | TdWithdrawUnbonded => WWithdraw end
  | OCall o (CEb k) =>
      match k with
      | EbInvoke _ _ => WInvoke | EbConfirm _ _ _ _ => WConfirm | EbShield _ _ _ => WShield | EbUnshield _ _ _ _ => WUnshield | EbPublish _ _ _ => WPublish
      | EbUpdateConfig _ _ _ => match o with Root => WConfigureByRoot | _ => WConfigure end
      | EbPurge _ _ => WPurge
      end
  | OCall o (CSc _) => WConfirmImported
  | OCall o (CTo k) => match k with ToAdd _ _ => WWhitelist | ToRemove _ _ => WDelist | ToUpdateOracle _ _ _ => WFeedData | ToUpdateRate _ _ _ => WFeedRate end
  | OCall o (CTx k) =>
      match k with
      | TxRegister _ _ m => match m with MDcap true | MSkip true => WRegisterProxied | _ => WRegister end
      | TxUnregisterSovereign _ => WUnregister | TxUnregisterProxied _ => WUnregisterProxied
      | TxRegisterQe _ _ _ => WRegisterQe | TxRegisterTcb _ _ _ => WRegisterTcb | TxSetFlags _ _ => WSetFlags
      end
  | OCall o (CCl k) =>
      match k with ClClaim _ _ => WClaim | ClMint _ _ _ _ => WMintClaim | ClClaimAttest _ _ _ => WClaimAttest | ClAttest _ => WAttest | ClMove _ _ _ => WMoveClaim end
  | OCall o (CAr k) => match k with ArRegister _ _ => WRegisterAsset | ArUnregister _ => WUnregisterAsset end
  | OCall o (CXt _) => WSwap
  end.
(** For each kind of entry the kinds of operations that can change it *)
Definition ways (k : kind) : list way :=
  match k with
  | EClock | EBlock => [WNextBlock]
  | EFree => [WTransfer; WDeposit; WFee; WShield; WUnshield; WClaim; WClaimAttest; WAttest]
  | ELocks => [WVest; WAddVesting; WLock; WUnlock; WBond; WBondExtra; WWithdraw; WClaim; WClaimAttest; WAttest]
  | EVest => [WVest; WAddVesting; WClaim; WClaimAttest; WAttest]
  | EAsset => [WCreateAsset; WDestroyAsset]
  | EItem i =>
      match i with
      | ISov => [WRegister; WUnregister]
      | IProx => [WRegisterProxied; WUnregisterProxied]
      | IQe => [WRegisterQe]
      | ITcb => [WRegisterTcb]
      | IDebug | ISkip => [WSetFlags]
      | IStatus => [WConfirm; WUnshield; WConfirmImported; WConfigure; WPublish; WPurge]
      | IConfig => [WConfirm; WUnshield; WConfirmImported; WConfigure; WConfigureByRoot]
      | IExec => [WUnshield]
      | ILatest => [WConfirmImported]
      | IRates => [WFeedRate]
      | IData => [WFeedData]
      | IWhitelist => [WWhitelist; WDelist]
      | IBonds => [WBond; WBondExtra; WUnbond; WUpdateOther]
      | IPending => [WUnbond; WWithdraw]
      | IClaims | IVesting => [WMintClaim; WMoveClaim; WClaim; WClaimAttest; WAttest]
      | ITotal => [WMintClaim; WClaim; WClaimAttest; WAttest]
      | ISigning => [WMintClaim; WMoveClaim; WClaimAttest; WAttest]
      | IPreclaims => [WMoveClaim; WAttest]
      | IAssetLoc | IAssetId => [WRegisterAsset; WUnregisterAsset]
      | IV0Registry | IV0Count | IV0Index | IV0Debug | IVersion => []
      end
  end.
(** In some reachable state of some runtime an operation of kind [w] changes an entry of kind [k] *)
Definition happens (k : kind) (w : way) : Prop :=
  exists c g l x y, kind_of y = k /\ way_of x = w /\ ~ same_at y (after c g l) (step c (after c g l) x).

Ltac ways_tac :=
  repeat match goal with
  | H : _ \/ _ |- _ => destruct H
  | H : exists _, _ |- _ => destruct H
  | H : _ /\ _ |- _ => destruct H
  end; subst; cbn; auto 12.
Lemma happens_listed k w : happens k w -> In w (ways k).
Proof.
  intros (c & g & l & x & y & <- & <- & H). apply C102_who_can_change_an_entry in H.
  destruct y as [| | | | | |[]]; cbn [may_change] in H; unfold claim_moved, at_work, configures in *; cbn [kind_of ways key_item].
  all: try (unfold claim_paid in H; ways_tac; fail).
  - destruct H as [(p & u & m & e & -> & Ha & Hp & _)|(b & e & -> & _)]; [|cbn; auto].
    apply attested_method in Ha. unfold is_proxied in Hp. rewrite Ha in Hp. destruct m as [[]| |[]]; try discriminate; cbn; auto.
  - destruct H as [(b & p & u & m & e & -> & Ha & Hp & _)|(b & e & -> & _)]; [|cbn; auto].
    apply attested_method in Ha. unfold is_proxied in Hp. rewrite Ha in Hp. destruct m as [[]| |[]]; try discriminate; cbn; auto.
  - destruct H as [H|[H|(d & [_ [H|H]] & Hs)]]; [ways_tac|ways_tac| |ways_tac].
    destruct H as (sig & _ & _ & E). rewrite E in Hs. destruct Hs. discriminate.
Qed.

(** Witnesses *)
Ltac seen c g l x y :=
  exists c, g, l, x, y; split; [reflexivity|]; split; [reflexivity|]; vm_compute; discriminate.
Lemma seen_0 : happens EClock (way_of (ONextBlock 5)).
Proof. seen cfg0 (gen0 [alice]) ([] : list op) (ONextBlock 5) XNow. Qed.
Lemma seen_1 : happens EBlock (way_of (ONextBlock 5)).
Proof. seen cfg0 (gen0 [alice]) ([] : list op) (ONextBlock 5) XBlk. Qed.
Lemma seen_2 : happens EFree (way_of (OTransfer alice bob 50)).
Proof. seen cfg0 (gen0 [alice]) ([] : list op) (OTransfer alice bob 50) (XFree bob). Qed.
Lemma seen_3 : happens EFree (way_of (OMint bob 50)).
Proof. seen cfg0 (gen0 [alice]) ([] : list op) (OMint bob 50) (XFree bob). Qed.
Lemma seen_4 : happens EFree (way_of (OFee alice 50)).
Proof. seen cfg0 (gen0 [alice]) ([] : list op) (OFee alice 50) (XFree alice). Qed.
Lemma seen_5 : happens ELocks (way_of (OVest alice)).
Proof. seen cfg0 (gen0 [alice]) ([(OAddVesting alice 100 10 0); ONextBlock 1; ONextBlock 1; ONextBlock 1; ONextBlock 1; ONextBlock 1; ONextBlock 1; ONextBlock 1; ONextBlock 1; ONextBlock 1; ONextBlock 1; ONextBlock 1] : list op) (OVest alice) (XLocks alice). Qed.
Lemma seen_6 : happens EVest (way_of (OVest alice)).
Proof. seen cfg0 (gen0 [alice]) ([(OAddVesting alice 100 10 0); ONextBlock 1; ONextBlock 1; ONextBlock 1; ONextBlock 1; ONextBlock 1; ONextBlock 1; ONextBlock 1; ONextBlock 1; ONextBlock 1; ONextBlock 1; ONextBlock 1] : list op) (OVest alice) (XVest alice). Qed.
Lemma seen_7 : happens ELocks (way_of (OAddVesting alice 100 10 0)).
Proof. seen cfg0 (gen0 [alice]) ([] : list op) (OAddVesting alice 100 10 0) (XLocks alice). Qed.
Lemma seen_8 : happens EVest (way_of (OAddVesting alice 100 10 0)).
Proof. seen cfg0 (gen0 [alice]) ([] : list op) (OAddVesting alice 100 10 0) (XVest alice). Qed.
Lemma seen_9 : happens ELocks (way_of (OLock alice 7 40)).
Proof. seen cfg0 (gen0 [alice]) ([] : list op) (OLock alice 7 40) (XLocks alice). Qed.
Lemma seen_10 : happens ELocks (way_of (OUnlock alice 7)).
Proof. seen cfg0 (gen0 [alice]) ([OLock alice 7 40] : list op) (OUnlock alice 7) (XLocks alice). Qed.
Lemma seen_11 : happens EAsset (way_of (OCreateAsset 5 1)).
Proof. seen cfg0 (gen0 [alice]) ([] : list op) (OCreateAsset 5 1) (XAsset 5). Qed.
Lemma seen_12 : happens EAsset (way_of (ODestroyAsset 5)).
Proof. seen cfg0 (gen0 [alice]) ([OCreateAsset 5 1] : list op) (ODestroyAsset 5) (XAsset 5). Qed.
Lemma seen_13 : happens (EItem IBonds) (way_of (OCall (Signed alice) (CTd (TdBond 100)))).
Proof. seen cfg0 (gen0 [alice]) ([] : list op) (OCall (Signed alice) (CTd (TdBond 100))) (XE (KBonds alice)). Qed.
Lemma seen_14 : happens ELocks (way_of (OCall (Signed alice) (CTd (TdBond 100)))).
Proof. seen cfg0 (gen0 [alice]) ([] : list op) (OCall (Signed alice) (CTd (TdBond 100))) (XLocks alice). Qed.
Lemma seen_15 : happens (EItem IBonds) (way_of (OCall (Signed alice) (CTd (TdBondExtra 50)))).
Proof. seen cfg0 (gen0 [alice]) ([(OCall (Signed alice) (CTd (TdBond 100)))] : list op) (OCall (Signed alice) (CTd (TdBondExtra 50))) (XE (KBonds alice)). Qed.
Lemma seen_16 : happens ELocks (way_of (OCall (Signed alice) (CTd (TdBondExtra 50)))).
Proof. seen cfg0 (gen0 [alice]) ([(OCall (Signed alice) (CTd (TdBond 100)))] : list op) (OCall (Signed alice) (CTd (TdBondExtra 50))) (XLocks alice). Qed.
Lemma seen_17 : happens (EItem IBonds) (way_of (OCall (Signed alice) (CTd (TdUnbond 50)))).
Proof. seen cfg0 (gen0 [alice]) ([(OCall (Signed alice) (CTd (TdBond 100)))] : list op) (OCall (Signed alice) (CTd (TdUnbond 50))) (XE (KBonds alice)). Qed.
Lemma seen_18 : happens (EItem IPending) (way_of (OCall (Signed alice) (CTd (TdUnbond 50)))).
Proof. seen cfg0 (gen0 [alice]) ([(OCall (Signed alice) (CTd (TdBond 100)))] : list op) (OCall (Signed alice) (CTd (TdUnbond 50))) (XE (KPending alice)). Qed.
Lemma seen_19 : happens (EItem IBonds) (way_of (OCall (Signed bob) (CTd (TdUpdateOther alice)))).
Proof. seen cfg0 (gen0 [alice]) ([(OCall (Signed alice) (CTd (TdBond 100))); ONextBlock 50] : list op) (OCall (Signed bob) (CTd (TdUpdateOther alice))) (XE (KBonds alice)). Qed.
Lemma seen_20 : happens (EItem IPending) (way_of (OCall (Signed alice) (CTd TdWithdrawUnbonded))).
Proof. seen cfg0 (gen0 [alice]) ([(OCall (Signed alice) (CTd (TdBond 100))); OCall (Signed alice) (CTd (TdUnbond 50)); ONextBlock 1000] : list op) (OCall (Signed alice) (CTd TdWithdrawUnbonded)) (XE (KPending alice)). Qed.
Lemma seen_21 : happens ELocks (way_of (OCall (Signed alice) (CTd TdWithdrawUnbonded))).
Proof. seen cfg0 (gen0 [alice]) ([(OCall (Signed alice) (CTd (TdBond 100))); OCall (Signed alice) (CTd (TdUnbond 50)); ONextBlock 1000] : list op) (OCall (Signed alice) (CTd TdWithdrawUnbonded)) (XLocks alice). Qed.
Lemma seen_22 : happens (EItem IStatus) (way_of (OCall (Signed bob) (CEb (EbConfirm (acc 9) [] 0 [])))).
Proof. seen cfg0 (gen0 [alice; bob]) ([register bob (acc 9); OCall Root (CEb (EbUpdateConfig (acc 9) (mkScfg (acc 9) None None false) 0)); OCall Root (CEb (EbUpdateConfig (acc 9) (mkScfg (acc 9) None None false) 0)); OCall (Signed alice) (CEb (EbShield (acc 9) [1] 300))] : list op) (OCall (Signed bob) (CEb (EbConfirm (acc 9) [] 0 []))) (XE (KStatus (acc 9))). Qed.
Lemma seen_23 : happens (EItem IConfig) (way_of (OCall (Signed bob) (CEb (EbConfirm (acc 9) [] 0 [])))).
Proof. seen cfg0 (gen0 [alice; bob]) ([register bob (acc 9); OCall Root (CEb (EbUpdateConfig (acc 9) (mkScfg (acc 9) None None false) 0)); OCall Root (CEb (EbUpdateConfig (acc 9) (mkScfg (acc 9) None None false) 0)); OCall (Signed alice) (CEb (EbShield (acc 9) [1] 300))] : list op) (OCall (Signed bob) (CEb (EbConfirm (acc 9) [] 0 []))) (XE (KConfig (acc 9))). Qed.
Lemma seen_24 : happens (EItem IStatus) (way_of (OCall (Signed bob) (CEb (EbUnshield (acc 9) carol 100 [7])))).
Proof. seen cfg0 (gen0 [alice; bob]) ([register bob (acc 9); OCall Root (CEb (EbUpdateConfig (acc 9) (mkScfg (acc 9) None None false) 0)); OCall Root (CEb (EbUpdateConfig (acc 9) (mkScfg (acc 9) None None false) 0)); OCall (Signed alice) (CEb (EbShield (acc 9) [1] 300))] : list op) (OCall (Signed bob) (CEb (EbUnshield (acc 9) carol 100 [7]))) (XE (KStatus (acc 9))). Qed.
Lemma seen_25 : happens (EItem IConfig) (way_of (OCall (Signed bob) (CEb (EbUnshield (acc 9) carol 100 [7])))).
Proof. seen cfg0 (gen0 [alice; bob]) ([register bob (acc 9); OCall Root (CEb (EbUpdateConfig (acc 9) (mkScfg (acc 9) None None false) 0)); OCall Root (CEb (EbUpdateConfig (acc 9) (mkScfg (acc 9) None None false) 0)); OCall (Signed alice) (CEb (EbShield (acc 9) [1] 300))] : list op) (OCall (Signed bob) (CEb (EbUnshield (acc 9) carol 100 [7]))) (XE (KConfig (acc 9))). Qed.
Lemma seen_26 : happens (EItem IExec) (way_of (OCall (Signed bob) (CEb (EbUnshield (acc 9) carol 100 [7])))).
Proof. seen cfg0 (gen0 [alice; bob]) ([register bob (acc 9); OCall Root (CEb (EbUpdateConfig (acc 9) (mkScfg (acc 9) None None false) 0)); OCall Root (CEb (EbUpdateConfig (acc 9) (mkScfg (acc 9) None None false) 0)); OCall (Signed alice) (CEb (EbShield (acc 9) [1] 300))] : list op) (OCall (Signed bob) (CEb (EbUnshield (acc 9) carol 100 [7]))) (XE (KExec [7])). Qed.
Lemma seen_27 : happens EFree (way_of (OCall (Signed bob) (CEb (EbUnshield (acc 9) carol 100 [7])))).
Proof. seen cfg0 (gen0 [alice; bob]) ([register bob (acc 9); OCall Root (CEb (EbUpdateConfig (acc 9) (mkScfg (acc 9) None None false) 0)); OCall Root (CEb (EbUpdateConfig (acc 9) (mkScfg (acc 9) None None false) 0)); OCall (Signed alice) (CEb (EbShield (acc 9) [1] 300))] : list op) (OCall (Signed bob) (CEb (EbUnshield (acc 9) carol 100 [7]))) (XFree carol). Qed.
Lemma seen_28 : happens (EItem IStatus) (way_of (OCall (Signed bob) (CSc (ScConfirm (acc 9) None (mkSconf 4 [5]))))).
Proof. seen cfg0 (gen0 [alice; bob]) ([register bob (acc 9); OCall Root (CEb (EbUpdateConfig (acc 9) (mkScfg (acc 9) None None false) 0)); OCall Root (CEb (EbUpdateConfig (acc 9) (mkScfg (acc 9) None None false) 0)); OCall (Signed alice) (CEb (EbShield (acc 9) [1] 300))] : list op) (OCall (Signed bob) (CSc (ScConfirm (acc 9) None (mkSconf 4 [5])))) (XE (KStatus (acc 9))). Qed.
Lemma seen_29 : happens (EItem IConfig) (way_of (OCall (Signed bob) (CSc (ScConfirm (acc 9) None (mkSconf 4 [5]))))).
Proof. seen cfg0 (gen0 [alice; bob]) ([register bob (acc 9); OCall Root (CEb (EbUpdateConfig (acc 9) (mkScfg (acc 9) None None false) 0)); OCall Root (CEb (EbUpdateConfig (acc 9) (mkScfg (acc 9) None None false) 0)); OCall (Signed alice) (CEb (EbShield (acc 9) [1] 300))] : list op) (OCall (Signed bob) (CSc (ScConfirm (acc 9) None (mkSconf 4 [5])))) (XE (KConfig (acc 9))). Qed.
Lemma seen_30 : happens (EItem ILatest) (way_of (OCall (Signed bob) (CSc (ScConfirm (acc 9) None (mkSconf 4 [5]))))).
Proof. seen cfg0 (gen0 [alice; bob]) ([register bob (acc 9); OCall Root (CEb (EbUpdateConfig (acc 9) (mkScfg (acc 9) None None false) 0)); OCall Root (CEb (EbUpdateConfig (acc 9) (mkScfg (acc 9) None None false) 0)); OCall (Signed alice) (CEb (EbShield (acc 9) [1] 300))] : list op) (OCall (Signed bob) (CSc (ScConfirm (acc 9) None (mkSconf 4 [5])))) (XE (KLatest (acc 9))). Qed.
Lemma seen_31 : happens EFree (way_of (OCall (Signed alice) (CEb (EbShield (acc 9) [1] 300)))).
Proof. seen cfg0 (gen0 [alice; bob]) ([] : list op) (OCall (Signed alice) (CEb (EbShield (acc 9) [1] 300))) (XFree (acc 9)). Qed.
Lemma seen_32 : happens (EItem IStatus) (way_of (OCall (Signed bob) (CEb (EbPublish [] [] [])))).
Proof. seen cfg0 (gen0 [alice; bob]) ([register bob (acc 9)] : list op) (OCall (Signed bob) (CEb (EbPublish [] [] []))) (XE (KStatus (acc 9))). Qed.
Lemma seen_33 : happens (EItem IStatus) (way_of (OCall (Signed bob) (CEb (EbUpdateConfig (acc 9) (mkScfg (acc 8) None None false) 0)))).
Proof. seen cfg0 (gen0 [alice; bob]) ([register bob (acc 9)] : list op) (OCall (Signed bob) (CEb (EbUpdateConfig (acc 9) (mkScfg (acc 8) None None false) 0))) (XE (KStatus (acc 9))). Qed.
Lemma seen_34 : happens (EItem IConfig) (way_of (OCall (Signed bob) (CEb (EbUpdateConfig (acc 9) (mkScfg (acc 8) None None false) 0)))).
Proof. seen cfg0 (gen0 [alice; bob]) ([register bob (acc 9)] : list op) (OCall (Signed bob) (CEb (EbUpdateConfig (acc 9) (mkScfg (acc 8) None None false) 0))) (XE (KConfig (acc 9))). Qed.
Lemma seen_35 : happens (EItem IConfig) (way_of (OCall Root (CEb (EbUpdateConfig (acc 9) (mkScfg (acc 9) None None false) 0)))).
Proof. seen cfg0 (gen0 [alice; bob]) ([register bob (acc 9)] : list op) (OCall Root (CEb (EbUpdateConfig (acc 9) (mkScfg (acc 9) None None false) 0))) (XE (KConfig (acc 9))). Qed.
Lemma seen_36 : happens (EItem IStatus) (way_of (OCall Root (CEb (EbPurge (acc 9) bob)))).
Proof. seen cfg0 (gen0 [alice; bob]) ([register bob (acc 9); OCall (Signed bob) (CEb (EbPublish [] [] []))] : list op) (OCall Root (CEb (EbPurge (acc 9) bob))) (XE (KStatus (acc 9))). Qed.
Lemma seen_37 : happens (EItem IWhitelist) (way_of (OCall Root (CTo (ToAdd [1] (acc 9))))).
Proof. seen cfg0 (gen0 [alice; bob]) ([] : list op) (OCall Root (CTo (ToAdd [1] (acc 9)))) (XE (KWhitelist [1])). Qed.
Lemma seen_38 : happens (EItem IWhitelist) (way_of (OCall Root (CTo (ToRemove [1] (acc 9))))).
Proof. seen cfg0 (gen0 [alice; bob]) ([OCall Root (CTo (ToAdd [1] (acc 9)))] : list op) (OCall Root (CTo (ToRemove [1] (acc 9)))) (XE (KWhitelist [1])). Qed.
Lemma seen_39 : happens (EItem IData) (way_of (OCall (Signed bob) (CTo (ToUpdateOracle [3] [1] [4])))).
Proof. seen cfg0 (gen0 [alice; bob]) ([register bob (acc 9); OCall Root (CTo (ToAdd [1] (acc 9)))] : list op) (OCall (Signed bob) (CTo (ToUpdateOracle [3] [1] [4]))) (XE (KData [3] [1])). Qed.
Lemma seen_40 : happens (EItem IRates) (way_of (OCall (Signed bob) (CTo (ToUpdateRate [1] [2] (Some 77))))).
Proof. seen cfg0 (gen0 [alice; bob]) ([register bob (acc 9); OCall Root (CTo (ToAdd [1] (acc 9)))] : list op) (OCall (Signed bob) (CTo (ToUpdateRate [1] [2] (Some 77)))) (XE (KRates [2] [1])). Qed.
Lemma seen_41 : happens (EItem ISov) (way_of (register bob (acc 9))).
Proof. seen cfg0 (gen0 [alice; bob]) ([] : list op) (register bob (acc 9)) (XE (KSov bob)). Qed.
Lemma seen_42 : happens (EItem IProx) (way_of (OCall (Signed bob) (CTx (TxRegister (acc 9) None (MSkip true))))).
Proof. seen cfg0 (gen0 [alice; bob]) ([] : list op) (OCall (Signed bob) (CTx (TxRegister (acc 9) None (MSkip true)))) (XE (KProx (acc 9, bob, inl (bob ++ zeros 34)))). Qed.
Lemma seen_43 : happens (EItem ISov) (way_of (OCall (Signed alice) (CTx (TxUnregisterSovereign bob)))).
Proof. seen cfg0 (gen0 [alice; bob]) ([register bob (acc 9); ONextBlock 200000000] : list op) (OCall (Signed alice) (CTx (TxUnregisterSovereign bob))) (XE (KSov bob)). Qed.
Lemma seen_44 : happens (EItem IProx) (way_of (OCall (Signed alice) (CTx (TxUnregisterProxied (acc 9, bob, inl (bob ++ zeros 34)))))).
Proof. seen cfg0 (gen0 [alice; bob]) ([OCall (Signed bob) (CTx (TxRegister (acc 9) None (MSkip true))); ONextBlock 200000000] : list op) (OCall (Signed alice) (CTx (TxUnregisterProxied (acc 9, bob, inl (bob ++ zeros 34))))) (XE (KProx (acc 9, bob, inl (bob ++ zeros 34)))). Qed.
Lemma seen_45 : happens (EItem IQe) (way_of (reg_qe 100 9000 7)).
Proof. seen cfg_dcap (gen0 [alice]) ([] : list op) (reg_qe 100 9000 7) (XE KQe). Qed.
Lemma seen_46 : happens (EItem ITcb) (way_of (reg_tcb 100 9000 11)).
Proof. seen cfg_dcap (gen0 [alice]) ([] : list op) (reg_tcb 100 9000 11) (XE (KTcb [0;144;110;161;0;0])). Qed.
Lemma seen_47 : happens (EItem IDebug) (way_of (OCall Root (CTx (TxSetFlags false true)))).
Proof. seen cfg0 (gen0 [alice; bob]) ([] : list op) (OCall Root (CTx (TxSetFlags false true))) (XE KDebug). Qed.
Lemma seen_48 : happens (EItem ISkip) (way_of (OCall Root (CTx (TxSetFlags false true)))).
Proof. seen cfg0 (gen0 [alice; bob]) ([] : list op) (OCall Root (CTx (TxSetFlags false true))) (XE KSkip). Qed.
Lemma seen_49 : happens (EItem IClaims) (way_of (OCall Root (CCl (ClMint (zeros 20) 500 (Some (400, 3, 0)) (Some StSaft))))).
Proof. seen cfg0 (gen0 []) ([] : list op) (OCall Root (CCl (ClMint (zeros 20) 500 (Some (400, 3, 0)) (Some StSaft)))) (XE (KClaims (zeros 20))). Qed.
Lemma seen_50 : happens (EItem IVesting) (way_of (OCall Root (CCl (ClMint (zeros 20) 500 (Some (400, 3, 0)) (Some StSaft))))).
Proof. seen cfg0 (gen0 []) ([] : list op) (OCall Root (CCl (ClMint (zeros 20) 500 (Some (400, 3, 0)) (Some StSaft)))) (XE (KVesting (zeros 20))). Qed.
Lemma seen_51 : happens (EItem ISigning) (way_of (OCall Root (CCl (ClMint (zeros 20) 500 (Some (400, 3, 0)) (Some StSaft))))).
Proof. seen cfg0 (gen0 []) ([] : list op) (OCall Root (CCl (ClMint (zeros 20) 500 (Some (400, 3, 0)) (Some StSaft)))) (XE (KSigning (zeros 20))). Qed.
Lemma seen_52 : happens (EItem ITotal) (way_of (OCall Root (CCl (ClMint (zeros 20) 500 (Some (400, 3, 0)) (Some StSaft))))).
Proof. seen cfg0 (gen0 []) ([] : list op) (OCall Root (CCl (ClMint (zeros 20) 500 (Some (400, 3, 0)) (Some StSaft)))) (XE KTotal). Qed.
Lemma seen_53 : happens (EItem IClaims) (way_of (OCall Root (CCl (ClMove (zeros 20) (replicate 20 1) None)))).
Proof. seen cfg0 (gen0 []) ([OCall Root (CCl (ClMint (zeros 20) 500 (Some (400, 3, 0)) (Some StSaft)))] : list op) (OCall Root (CCl (ClMove (zeros 20) (replicate 20 1) None))) (XE (KClaims (zeros 20))). Qed.
Lemma seen_54 : happens (EItem IVesting) (way_of (OCall Root (CCl (ClMove (zeros 20) (replicate 20 1) None)))).
Proof. seen cfg0 (gen0 []) ([OCall Root (CCl (ClMint (zeros 20) 500 (Some (400, 3, 0)) (Some StSaft)))] : list op) (OCall Root (CCl (ClMove (zeros 20) (replicate 20 1) None))) (XE (KVesting (zeros 20))). Qed.
Lemma seen_55 : happens (EItem ISigning) (way_of (OCall Root (CCl (ClMove (zeros 20) (replicate 20 1) None)))).
Proof. seen cfg0 (gen0 []) ([OCall Root (CCl (ClMint (zeros 20) 500 (Some (400, 3, 0)) (Some StSaft)))] : list op) (OCall Root (CCl (ClMove (zeros 20) (replicate 20 1) None))) (XE (KSigning (zeros 20))). Qed.
Lemma seen_56 : happens (EItem IClaims) (way_of (OCall NoneO (CCl (ClClaim alice (zeros 65))))).
Proof. seen cfg0 (gen0 []) ([OCall Root (CCl (ClMint (zeros 20) 500 (Some (400, 3, 0)) None))] : list op) (OCall NoneO (CCl (ClClaim alice (zeros 65)))) (XE (KClaims (zeros 20))). Qed.
Lemma seen_57 : happens (EItem IVesting) (way_of (OCall NoneO (CCl (ClClaim alice (zeros 65))))).
Proof. seen cfg0 (gen0 []) ([OCall Root (CCl (ClMint (zeros 20) 500 (Some (400, 3, 0)) None))] : list op) (OCall NoneO (CCl (ClClaim alice (zeros 65)))) (XE (KVesting (zeros 20))). Qed.
Lemma seen_58 : happens (EItem ITotal) (way_of (OCall NoneO (CCl (ClClaim alice (zeros 65))))).
Proof. seen cfg0 (gen0 []) ([OCall Root (CCl (ClMint (zeros 20) 500 (Some (400, 3, 0)) None))] : list op) (OCall NoneO (CCl (ClClaim alice (zeros 65)))) (XE KTotal). Qed.
Lemma seen_59 : happens EFree (way_of (OCall NoneO (CCl (ClClaim alice (zeros 65))))).
Proof. seen cfg0 (gen0 []) ([OCall Root (CCl (ClMint (zeros 20) 500 (Some (400, 3, 0)) None))] : list op) (OCall NoneO (CCl (ClClaim alice (zeros 65)))) (XFree alice). Qed.
Lemma seen_60 : happens ELocks (way_of (OCall NoneO (CCl (ClClaim alice (zeros 65))))).
Proof. seen cfg0 (gen0 []) ([OCall Root (CCl (ClMint (zeros 20) 500 (Some (400, 3, 0)) None))] : list op) (OCall NoneO (CCl (ClClaim alice (zeros 65)))) (XLocks alice). Qed.
Lemma seen_61 : happens EVest (way_of (OCall NoneO (CCl (ClClaim alice (zeros 65))))).
Proof. seen cfg0 (gen0 []) ([OCall Root (CCl (ClMint (zeros 20) 500 (Some (400, 3, 0)) None))] : list op) (OCall NoneO (CCl (ClClaim alice (zeros 65)))) (XVest alice). Qed.
Lemma seen_62 : happens (EItem IClaims) (way_of (OCall NoneO (CCl (ClClaimAttest alice (zeros 65) (to_text StSaft))))).
Proof. seen cfg0 (gen0 []) ([OCall Root (CCl (ClMint (zeros 20) 500 (Some (400, 3, 0)) (Some StSaft)))] : list op) (OCall NoneO (CCl (ClClaimAttest alice (zeros 65) (to_text StSaft)))) (XE (KClaims (zeros 20))). Qed.
Lemma seen_63 : happens (EItem IVesting) (way_of (OCall NoneO (CCl (ClClaimAttest alice (zeros 65) (to_text StSaft))))).
Proof. seen cfg0 (gen0 []) ([OCall Root (CCl (ClMint (zeros 20) 500 (Some (400, 3, 0)) (Some StSaft)))] : list op) (OCall NoneO (CCl (ClClaimAttest alice (zeros 65) (to_text StSaft)))) (XE (KVesting (zeros 20))). Qed.
Lemma seen_64 : happens (EItem ISigning) (way_of (OCall NoneO (CCl (ClClaimAttest alice (zeros 65) (to_text StSaft))))).
Proof. seen cfg0 (gen0 []) ([OCall Root (CCl (ClMint (zeros 20) 500 (Some (400, 3, 0)) (Some StSaft)))] : list op) (OCall NoneO (CCl (ClClaimAttest alice (zeros 65) (to_text StSaft)))) (XE (KSigning (zeros 20))). Qed.
Lemma seen_65 : happens (EItem ITotal) (way_of (OCall NoneO (CCl (ClClaimAttest alice (zeros 65) (to_text StSaft))))).
Proof. seen cfg0 (gen0 []) ([OCall Root (CCl (ClMint (zeros 20) 500 (Some (400, 3, 0)) (Some StSaft)))] : list op) (OCall NoneO (CCl (ClClaimAttest alice (zeros 65) (to_text StSaft)))) (XE KTotal). Qed.
Lemma seen_66 : happens EFree (way_of (OCall NoneO (CCl (ClClaimAttest alice (zeros 65) (to_text StSaft))))).
Proof. seen cfg0 (gen0 []) ([OCall Root (CCl (ClMint (zeros 20) 500 (Some (400, 3, 0)) (Some StSaft)))] : list op) (OCall NoneO (CCl (ClClaimAttest alice (zeros 65) (to_text StSaft)))) (XFree alice). Qed.
Lemma seen_67 : happens ELocks (way_of (OCall NoneO (CCl (ClClaimAttest alice (zeros 65) (to_text StSaft))))).
Proof. seen cfg0 (gen0 []) ([OCall Root (CCl (ClMint (zeros 20) 500 (Some (400, 3, 0)) (Some StSaft)))] : list op) (OCall NoneO (CCl (ClClaimAttest alice (zeros 65) (to_text StSaft)))) (XLocks alice). Qed.
Lemma seen_68 : happens EVest (way_of (OCall NoneO (CCl (ClClaimAttest alice (zeros 65) (to_text StSaft))))).
Proof. seen cfg0 (gen0 []) ([OCall Root (CCl (ClMint (zeros 20) 500 (Some (400, 3, 0)) (Some StSaft)))] : list op) (OCall NoneO (CCl (ClClaimAttest alice (zeros 65) (to_text StSaft)))) (XVest alice). Qed.
Lemma seen_69 : happens (EItem IClaims) (way_of (OCall (Signed alice) (CCl (ClAttest (to_text StSaft))))).
Proof. seen cfg0 (gen_cl [(zeros 20, 500, Some alice, Some StSaft)] [(zeros 20, (400, 3, 0))]) ([] : list op) (OCall (Signed alice) (CCl (ClAttest (to_text StSaft)))) (XE (KClaims (zeros 20))). Qed.
Lemma seen_70 : happens (EItem IVesting) (way_of (OCall (Signed alice) (CCl (ClAttest (to_text StSaft))))).
Proof. seen cfg0 (gen_cl [(zeros 20, 500, Some alice, Some StSaft)] [(zeros 20, (400, 3, 0))]) ([] : list op) (OCall (Signed alice) (CCl (ClAttest (to_text StSaft)))) (XE (KVesting (zeros 20))). Qed.
Lemma seen_71 : happens (EItem ISigning) (way_of (OCall (Signed alice) (CCl (ClAttest (to_text StSaft))))).
Proof. seen cfg0 (gen_cl [(zeros 20, 500, Some alice, Some StSaft)] [(zeros 20, (400, 3, 0))]) ([] : list op) (OCall (Signed alice) (CCl (ClAttest (to_text StSaft)))) (XE (KSigning (zeros 20))). Qed.
Lemma seen_72 : happens (EItem ITotal) (way_of (OCall (Signed alice) (CCl (ClAttest (to_text StSaft))))).
Proof. seen cfg0 (gen_cl [(zeros 20, 500, Some alice, Some StSaft)] [(zeros 20, (400, 3, 0))]) ([] : list op) (OCall (Signed alice) (CCl (ClAttest (to_text StSaft)))) (XE KTotal). Qed.
Lemma seen_73 : happens EFree (way_of (OCall (Signed alice) (CCl (ClAttest (to_text StSaft))))).
Proof. seen cfg0 (gen_cl [(zeros 20, 500, Some alice, Some StSaft)] [(zeros 20, (400, 3, 0))]) ([] : list op) (OCall (Signed alice) (CCl (ClAttest (to_text StSaft)))) (XFree alice). Qed.
Lemma seen_74 : happens ELocks (way_of (OCall (Signed alice) (CCl (ClAttest (to_text StSaft))))).
Proof. seen cfg0 (gen_cl [(zeros 20, 500, Some alice, Some StSaft)] [(zeros 20, (400, 3, 0))]) ([] : list op) (OCall (Signed alice) (CCl (ClAttest (to_text StSaft)))) (XLocks alice). Qed.
Lemma seen_75 : happens EVest (way_of (OCall (Signed alice) (CCl (ClAttest (to_text StSaft))))).
Proof. seen cfg0 (gen_cl [(zeros 20, 500, Some alice, Some StSaft)] [(zeros 20, (400, 3, 0))]) ([] : list op) (OCall (Signed alice) (CCl (ClAttest (to_text StSaft)))) (XVest alice). Qed.
Lemma seen_76 : happens (EItem IPreclaims) (way_of (OCall (Signed alice) (CCl (ClAttest (to_text StSaft))))).
Proof. seen cfg0 (gen_cl [(zeros 20, 500, Some alice, Some StSaft)] [(zeros 20, (400, 3, 0))]) ([] : list op) (OCall (Signed alice) (CCl (ClAttest (to_text StSaft)))) (XE (KPreclaims alice)). Qed.
Lemma seen_77 : happens (EItem IPreclaims) (way_of (OCall Root (CCl (ClMove (zeros 20) (replicate 20 1) (Some alice))))).
Proof. seen cfg0 (gen_cl [(zeros 20, 500, Some alice, Some StSaft)] [(zeros 20, (400, 3, 0))]) ([] : list op) (OCall Root (CCl (ClMove (zeros 20) (replicate 20 1) (Some alice)))) (XE (KPreclaims alice)). Qed.
Lemma seen_78 : happens (EItem IAssetLoc) (way_of (OCall Root (CAr (ArRegister 5 (mkLoc 1 [JParachain 7]))))).
Proof. seen cfg0 (gen0 []) ([OCreateAsset 5 1] : list op) (OCall Root (CAr (ArRegister 5 (mkLoc 1 [JParachain 7])))) (XE (KAssetLoc 5)). Qed.
Lemma seen_79 : happens (EItem IAssetId) (way_of (OCall Root (CAr (ArRegister 5 (mkLoc 1 [JParachain 7]))))).
Proof. seen cfg0 (gen0 []) ([OCreateAsset 5 1] : list op) (OCall Root (CAr (ArRegister 5 (mkLoc 1 [JParachain 7])))) (XE (KAssetId (mkLoc 1 [JParachain 7]))). Qed.
Lemma seen_80 : happens (EItem IAssetLoc) (way_of (OCall Root (CAr (ArUnregister 5)))).
Proof. seen cfg0 (gen0 []) ([OCreateAsset 5 1; OCall Root (CAr (ArRegister 5 (mkLoc 1 [JParachain 7])))] : list op) (OCall Root (CAr (ArUnregister 5))) (XE (KAssetLoc 5)). Qed.
Lemma seen_81 : happens (EItem IAssetId) (way_of (OCall Root (CAr (ArUnregister 5)))).
Proof. seen cfg0 (gen0 []) ([OCreateAsset 5 1; OCall Root (CAr (ArRegister 5 (mkLoc 1 [JParachain 7])))] : list op) (OCall Root (CAr (ArUnregister 5))) (XE (KAssetId (mkLoc 1 [JParachain 7]))). Qed.

Theorem C102_the_matrix_is_exact : forall k w, In w (ways k) <-> happens k w.
Proof.
  intros k w. split; [|apply happens_listed]. intros H.
  destruct k as [| | | | | |[]]; cbn [ways In] in H; repeat (destruct H as [<-|H]); try contradiction.
  all: first [exact seen_0|exact seen_1|exact seen_2|exact seen_3|exact seen_4|exact seen_5|exact seen_6|exact seen_7|exact seen_8|exact seen_9|exact seen_10|exact seen_11|exact seen_12|exact seen_13|exact seen_14|exact seen_15|exact seen_16|exact seen_17|exact seen_18|exact seen_19|exact seen_20|exact seen_21|exact seen_22|exact seen_23|exact seen_24|exact seen_25|exact seen_26|exact seen_27|exact seen_28|exact seen_29|exact seen_30|exact seen_31|exact seen_32|exact seen_33|exact seen_34|exact seen_35|exact seen_36|exact seen_37|exact seen_38|exact seen_39|exact seen_40|exact seen_41|exact seen_42|exact seen_43|exact seen_44|exact seen_45|exact seen_46|exact seen_47|exact seen_48|exact seen_49|exact seen_50|exact seen_51|exact seen_52|exact seen_53|exact seen_54|exact seen_55|exact seen_56|exact seen_57|exact seen_58|exact seen_59|exact seen_60|exact seen_61|exact seen_62|exact seen_63|exact seen_64|exact seen_65|exact seen_66|exact seen_67|exact seen_68|exact seen_69|exact seen_70|exact seen_71|exact seen_72|exact seen_73|exact seen_74|exact seen_75|exact seen_76|exact seen_77|exact seen_78|exact seen_79|exact seen_80|exact seen_81].
Qed.
Print Assumptions C102_the_matrix_is_exact.

(** ** By caller *)
(** Root changes no balance, lock, vesting schedule, stake, registration, collateral, executed call,
    sidechain head or oracle value *)
Theorem C102_root_changes_only : forall c g l k y, let s := after c g l in
  ~ same_at y s (step c s (OCall Root k)) ->
  In (kind_of y) (map EItem [IDebug; ISkip; IStatus; IConfig; IWhitelist; IClaims; ITotal; IVesting; ISigning; IPreclaims; IAssetLoc; IAssetId]).
Proof.
  intros c g l k y s H. apply C102_who_can_change_an_entry in H. fold s in H.
  destruct y as [| | | | | |[]]; cbn [may_change] in H; unfold claim_moved, at_work, configures in H; cbn [kind_of key_item map In];
    try (auto 20; fail); exfalso; unfold claim_paid in H;
    repeat match goal with
    | H : _ \/ _ |- _ => destruct H
    | H : exists _, _ |- _ => destruct H
    | H : _ /\ _ |- _ => destruct H
    end; first [discriminate|contradiction].
Qed.
Print Assumptions C102_root_changes_only.
(** An unsigned extrinsic only pays a claim to the account the owner of the Ethereum key named (if the
    runtime gives unsigned extrinsics no other power) *)
Theorem C102_unsigned_extrinsics_only_pay_claims : forall c g l k y, let s := after c g l in let x := OCall NoneO k in
  c_move_origin c NoneO = false -> c_asset_origin c NoneO = false ->
  ~ same_at y s (step c s x) ->
  exists w d sig text, eth_signed c sig w d text /\ (k = CCl (ClClaim d sig) /\ text = [] \/ k = CCl (ClClaimAttest d sig text)) /\
  is_Some (cl_claims (rt_cl s) !! w) /\
  In y [XFree d; XLocks d; XVest d; XE (KClaims w); XE KTotal; XE (KVesting w); XE (KSigning w)].
Proof.
  intros c g l k y s x Hm Ha H. apply C102_who_can_change_an_entry in H. fold s in H.
  assert (forall w d, claim_paid c s w d x -> exists sig text, eth_signed c sig w d text /\
    (k = CCl (ClClaim d sig) /\ text = [] \/ k = CCl (ClClaimAttest d sig text)) /\ is_Some (cl_claims (rt_cl s) !! w)) as HP.
  { intros w d (Hs & [(sig & E & He & _)|[(sig & text & E & He & _)|(text & E & _)]]); [| |discriminate]; injection E as ->; eauto 10. }
  assert (forall w, ~ claim_moved c w x) as HM.
  { intros w (o & old & new & pre & E & [->|Ho] & _); [discriminate|]. injection E as <- _. congruence. }
  assert (forall w d, claim_paid c s w d x -> In y [XFree d; XLocks d; XVest d; XE (KClaims w); XE KTotal; XE (KVesting w); XE (KSigning w)] ->
    exists w d sig text, eth_signed c sig w d text /\ (k = CCl (ClClaim d sig) /\ text = [] \/ k = CCl (ClClaimAttest d sig text)) /\
    is_Some (cl_claims (rt_cl s) !! w) /\
    In y [XFree d; XLocks d; XVest d; XE (KClaims w); XE KTotal; XE (KVesting w); XE (KSigning w)]) as HG.
  { intros w d Hp Hi. destruct (HP w d Hp) as (sig & text & H1 & H2 & H3). exists w, d, sig, text. auto. }
  destruct y as [| | | | | |[]]; cbn [may_change] in H; unfold at_work, configures in H;
    repeat match goal with
    | H : _ \/ _ |- _ => destruct H
    | H : exists _, _ |- _ => destruct H
    | H : _ /\ _ |- _ => destruct H
    end; try discriminate; try contradiction.
  all: try (exfalso; eapply HM; eassumption).
  all: try (eapply HG; [eassumption|cbn; auto 10]).
  all: try (exfalso; unfold x in *; congruence).
Qed.
Print Assumptions C102_unsigned_extrinsics_only_pay_claims.
(** An account without a registered enclave and without a preclaim can change its own balance, locks, stake
    and registrations; of others: pay into an account, bring a stake up to date, remove expired
    registrations and bring authentic collateral *)
Theorem C102_ordinary_accounts_change_only : forall c g l a k y, let s := after c g l in
  tx_sov (rt_tx s) !! a = None -> cl_preclaims (rt_cl s) !! a = None -> c_move_origin c (Signed a) = false -> c_asset_origin c (Signed a) = false ->
  ~ same_at y s (step c s (OCall (Signed a) k)) ->
  match y with
  | XFree b => exists sh i v, k = CEb (EbShield sh i v) /\ (b = a \/ b = sh)
  | XLocks b => b = a
  | XE (KPending b) => b = a
  | XE (KBonds b) => b = a \/ k = CTd (TdUpdateOther b)
  | XE (KSov b) => b = a \/ exists e, tx_sov (rt_tx s) !! b = Some e /\ en_timestamp e + c_renewal c < rt_now s
  | XE (KProx p) => p.1.2 = a \/ exists e, tx_prox (rt_tx s) !! p = Some e /\ en_timestamp e + c_renewal c < rt_now s
  | XE KQe => exists doc sig chain d, authentic_identity c (rt_now s) doc sig chain d
  | XE (KTcb f) => exists doc sig chain d, authentic_tcb c (rt_now s) doc sig chain d /\ tj_fmspc d = f
  | _ => False
  end.
Proof.
  intros c g l a k y s Hn Hpre Hm Ha H. apply C102_who_can_change_an_entry in H. fold s in H.
  assert (forall w d, ~ claim_paid c s w d (OCall (Signed a) k)) as HP.
  { intros w d (Hs & [(sig & E & _)|[(sig & text & E & _)|(text & E & Hp & _)]]); [discriminate|discriminate|]. injection E as -> _. congruence. }
  assert (forall w, ~ claim_moved c w (OCall (Signed a) k)) as HM.
  { intros w (o & old & new & pre & E & [->|Ho] & _); [discriminate|]. injection E as <- _. congruence. }
  assert (forall sh, ~ at_work s sh (OCall (Signed a) k)) as HW.
  { intros sh (b & (e & He & _) & H0). assert (a = b) as <-; [|congruence].
    destruct H0 as [(? & ? & ? & E)|[(? & ? & ? & E)|(? & ? & E)]]; injection E as -> _; reflexivity. }
  assert (forall sh, ~ configures s sh (OCall (Signed a) k)) as HC.
  { intros sh (b & e & new & d & E & He & _). injection E as <- _. congruence. }
  assert (forall b sh, operates s sh b -> a <> b) as HO by (intros b sh (e & He & _) <-; congruence).
  assert (forall b sh, may_feed s b sh -> a <> b) as HF by (intros b sh (e & He & _) <-; congruence).
  destruct y as [| | | | | |[]]; cbn [may_change] in H;
    repeat match goal with
    | H : _ \/ _ |- _ => destruct H
    | H : exists _, _ |- _ => destruct H
    | H : _ /\ _ |- _ => destruct H
    end; try discriminate; try contradiction.
  all: try (exfalso; match goal with
    | H : claim_paid _ _ _ _ _ |- _ => exact (HP _ _ H)
    | H : claim_moved _ _ _ |- _ => exact (HM _ H)
    | H : at_work _ _ _ |- _ => exact (HW _ H)
    | H : configures _ _ _ |- _ => exact (HC _ H)
    | H : operates _ _ _ |- _ => apply HO in H; congruence
    | H : may_feed _ _ _ |- _ => apply HF in H; congruence
    end).
  all: try (match goal with H : OCall _ _ = OCall _ _ |- _ => injection H as ? ?; subst end; try congruence; eauto 10; fail).
  all: try (exfalso; congruence).
Qed.
Print Assumptions C102_ordinary_accounts_change_only.
Example C102_example :
  let s := after cfg0 (gen0 [alice; bob]) [register bob (acc 9); OCall (Signed bob) (CEb (EbPublish [] [] [])); OCall (Signed alice) (CTd (TdBond 100)); do_mint 0 500] in
  tx_sov (rt_tx s) !! alice = None /\ cl_preclaims (rt_cl s) !! alice = None /\
  c_move_origin cfg0 NoneO = false /\ c_asset_origin cfg0 NoneO = false /\
  c_move_origin cfg0 (Signed alice) = false /\ c_asset_origin cfg0 (Signed alice) = false /\
  ~ same_at (XE (KStatus (acc 9))) s (step cfg0 s (OCall Root (CEb (EbPurge (acc 9) bob)))) /\
  ~ same_at (XFree carol) s (step cfg0 s (OCall NoneO (CCl (ClClaim carol (zeros 65))))) /\
  ~ same_at (XFree (acc 9)) s (step cfg0 s (OCall (Signed alice) (CEb (EbShield (acc 9) [] 50)))) /\
  ~ same_at (XE (KPending alice)) s (step cfg0 s (OCall (Signed alice) (CTd (TdUnbond 50)))).
Proof. do 6 (split; [vm_compute; reflexivity|]). repeat split; vm_compute; discriminate. Qed.
