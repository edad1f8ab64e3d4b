(** * Lemmas on the calls of pallet teerex. *)
From Verif Require Import Base State Env TeerdaysModel TeerexBase SgxVerifyModel TeerexModel
  EnclaveBridgeModel SidechainModel TeeracleModel ClaimsModel AssetRegistryModel XcmTransactorModel
  Runtime Frame EnvFacts Panic SgxProofs.

(** What each attestation branch establishes about the enclave it builds (before the URL is set) *)
Inductive attested (c : cfg) (s : rt) (a : acct) (proof : bytes) : att_method -> enclave -> Prop :=
| att_ias r :
    verify_ias_report (c_sgx c) proof = ROk r ->
    vr_timestamp r <= rt_now s -> rt_now s - vr_timestamp r < c_day c ->
    a = takeN 32 (vr_report_data r) ->
    attested c s a proof MIas
      (new_enclave (vr_report_data r) (vr_mr_enclave r) (vr_mr_signer r) (vr_timestamp r)
                   (vr_build_mode r) (vr_status r) MIas)
| att_dcap p fm tcb r ref st :
    verify_dcap_quote (c_sgx c) proof (rt_now s) (tx_qe (rt_tx s)) = ROk (fm, tcb, r) ->
    (p = false -> a = takeN 32 (vr_report_data r)) ->
    tx_tcb (rt_tx s) !! fm = Some ref -> tcb_verify ref tcb = Some st ->
    attested c s a proof (MDcap p)
      (new_enclave (vr_report_data r) (vr_mr_enclave r) (vr_mr_signer r) (vr_timestamp r)
                   (vr_build_mode r) st (MDcap p))
| att_skip p :
    tx_allow_skip (rt_tx s) = true -> lenN a <= 64 ->
    attested c s a proof (MSkip p)
      (new_enclave (a ++ zeros (64 - lenN a)) (if 32 <=? lenN proof then takeN 32 proof else zeros 32)
                   (zeros 32) (rt_now s) MProduction StInvalid (MSkip p)).

Lemma attested_method c s a proof m e : attested c s a proof m e -> en_method e = m.
Proof. destruct 1; reflexivity. Qed.

(** Where an enclave is filed *)
Definition store_enclave (a : acct) (e : enclave) (s : rt) : rt :=
  if is_proxied e then put_prox (en_mr_enclave e, a, inl (en_report_data e ++ zeros 2)) e s
  else put_sov a e s.

Lemma reg_ias_ok c a proof s e s' : reg_ias c a proof s = Ok e s' -> s' = s /\ attested c s a proof MIas e.
Proof.
  unfold reg_ias, ensure_within_24h. intros H.
  apply bind_ok in H as (r & s1 & H1 & H). apply lift_res_ok in H1 as [H1 ->].
  apply bind_ok in H as (? & s1 & H2 & H). apply bind_ok in H2 as (t & s2 & H2 & H3).
  apply gets_ok in H2 as [-> ->]. inv_rt H3. inv_rt H. bools. split; [auto|]. eapply att_ias; eauto.
Qed.
Lemma reg_dcap_ok c a proof p s e s' : reg_dcap c a proof p s = Ok e s' -> s' = s /\ attested c s a proof (MDcap p) e.
Proof.
  unfold reg_dcap. intros H.
  apply bind_ok in H as (t & s1 & H1 & H). apply gets_ok in H1 as [-> ->].
  apply bind_ok in H as (q & s1 & H1 & H). apply gets_ok in H1 as [-> ->].
  apply bind_ok in H as ([[fm tcb] r] & s1 & Hv & H). apply lift_res_ok in Hv as [Hv ->].
  apply bind_ok in H as (? & s1 & H1 & H).
  assert (s1 = s /\ (p = false -> a = takeN 32 (vr_report_data r))) as [-> Hp].
  { destruct p; cbn [negb] in H1; inv_rt H1; bools; split; auto; discriminate. }
  apply bind_ok in H as (q & s1 & H2 & H). apply gets_ok in H2 as [-> ->].
  apply bind_ok in H as (ref & s1 & H2 & H). apply ok_or_ok in H2 as [H2 ->].
  apply bind_ok in H as (st & s1 & H3 & H). apply ok_or_ok in H3 as [H3 ->].
  unfold ret in H. inversion H; subst. split; [auto|]. eapply att_dcap; eauto.
Qed.
Lemma reg_skip_ok a proof p s e s' : reg_skip a proof p s = Ok e s' -> s' = s /\ forall c, attested c s a proof (MSkip p) e.
Proof.
  unfold reg_skip. intros H.
  apply bind_ok in H as (t & s1 & H1 & H). apply gets_ok in H1 as [-> ->].
  apply bind_ok in H as (? & s1 & H1 & H). apply ensure_ok in H1 as [H1 ->].
  apply bind_ok in H as (t & s1 & H2 & H). apply gets_ok in H2 as [-> ->].
  destruct (N.leb_spec (lenN a) 64); [|discriminate H]. unfold ret in H. inversion H; subst.
  split; [auto|]. intros c. apply att_skip; auto.
Qed.

Lemma register_ok c o proof url m s s' : register_sgx_enclave c o proof url m s = Ok tt s' ->
  exists a e, o = Signed a /\ attested c s a proof m e /\
  (en_build_mode e = MDebug -> tx_allow_debug (rt_tx s) = true) /\
  lenN proof <= 5000 /\ (forall u, url = Some u -> lenN u <= 256) /\
  s' = add_ev (EvAddedSgxEnclave a url (en_status e) m) (store_enclave a (with_url e url) s).
Proof.
  unfold register_sgx_enclave. intros H.
  apply bind_ok in H as (a & s1 & H1 & H). apply ensure_signed_ok in H1 as [-> ->].
  apply bind_ok in H as (? & s1 & H1 & H). apply ensure_ok in H1 as [Hlen ->].
  apply bind_ok in H as (? & s1 & Hu & H).
  assert (s1 = s /\ forall u, url = Some u -> lenN u <= 256) as [-> Hurl].
  { destruct url; inv_rt Hu; bools; unfold max_url_len in *; split; auto; intros ? E; inversion E; subst; auto. }
  apply bind_ok in H as (e & s1 & He & H).
  assert (s1 = s /\ attested c s a proof m e) as [-> Hatt].
  { destruct m; [apply reg_skip_ok in He as [-> He]; auto|apply reg_ias_ok in He; auto|apply reg_dcap_ok in He; auto]. }
  clear He. apply bind_ok in H as (d & s1 & H1 & H). apply gets_ok in H1 as [-> ->].
  apply bind_ok in H as (? & s1 & H1 & H). apply ensure_ok in H1 as [Hd ->].
  exists a, e. split; [auto|]. split; [auto|]. split.
  { intros Em. rewrite Em, bool_decide_eq_true_2 in Hd by auto. cbn in Hd. rewrite orb_false_r in Hd. auto. }
  split; [bools; unfold max_proof_len in *; auto|]. split; [auto|].
  pose proof (attested_method _ _ _ _ _ _ Hatt) as Em. subst m.
  apply bind_ok in H as (? & s1 & H1 & H). unfold deposit_event, modify in H. inversion H; subst.
  assert (s1 = store_enclave a (with_url e url) s) as ->.
  { unfold add_enclave, store_enclave, fingerprint, instance_signer in *.
    destruct (is_proxied (with_url e url)); unfold modify in H1; inversion H1; auto. }
  destruct url; reflexivity.
Qed.

Lemma is_proxied_url e u : is_proxied (with_url e u) = is_proxied e.
Proof. destruct u; reflexivity. Qed.
Lemma report_url e u : en_report_data (with_url e u) = en_report_data e.
Proof. destruct u; reflexivity. Qed.
Lemma mre_url e u : en_mr_enclave (with_url e u) = en_mr_enclave e.
Proof. destruct u; reflexivity. Qed.
Lemma time_url e u : en_timestamp (with_url e u) = en_timestamp e.
Proof. destruct u; reflexivity. Qed.
Lemma mode_url e u : en_build_mode (with_url e u) = en_build_mode e.
Proof. destruct u; reflexivity. Qed.
Lemma method_url e u : en_method (with_url e u) = en_method e.
Proof. destruct u; reflexivity. Qed.

Lemma unreg_sov_ok c o w s s' : unregister_sovereign c o w s = Ok tt s' ->
  exists a e, o = Signed a /\ tx_sov (rt_tx s) !! w = Some e /\ en_timestamp e < rt_now s - c_renewal c /\
  s' = add_ev (EvRemovedSovereignEnclave w) (del_sov w s).
Proof.
  unfold unregister_sovereign, sat_sub. intros H. inv_rt H. bools. eexists _, _. repeat split; eauto.
Qed.
Lemma unreg_prox_ok c o w s s' : unregister_proxied c o w s = Ok tt s' ->
  exists a e, o = Signed a /\ tx_prox (rt_tx s) !! w = Some e /\ en_timestamp e < rt_now s - c_renewal c /\
  s' = add_ev (EvRemovedProxiedEnclave w) (del_prox w s).
Proof.
  unfold unregister_proxied, sat_sub. intros H. inv_rt H. bools. eexists _, _. repeat split; eauto.
Qed.
Lemma set_flags_ok o sk d s s' : set_security_flags o sk d s = Ok tt s' ->
  o = Root /\ s' = add_ev (EvUpdatedSecurityFlags sk d) (put_flags d sk s).
Proof. unfold set_security_flags. intros H. inv_rt H. auto. Qed.

(** [doc] is signed by the leaf of the certificate chain, which is valid now *)
Definition signed_by_chain (o : sgx_oracles) (now : N) (doc sig chain : bytes) : Prop :=
  exists leaf inter der, extract_certs o chain = leaf :: inter /\ inter <> [] /\ or_ee_parse o leaf = true /\
  or_chain o leaf inter (now / 1000) = true /\ encode_as_der sig = ROk der /\ or_ecdsa_cert o leaf doc der = true.
(** A signed, authentic collateral document *)
Definition authentic_identity (c : cfg) (now : N) (id sig chain : bytes) (d : enclave_identity) : Prop :=
  signed_by_chain (c_sgx c) now id sig chain /\ or_json_identity (c_sgx c) id = Some d.
Definition authentic_tcb (c : cfg) (now : N) (info sig chain : bytes) (d : tcb_info_json) : Prop :=
  signed_by_chain (c_sgx c) now info sig chain /\ or_json_tcb (c_sgx c) info = Some d.
Lemma collateral_leaf_iff c chain now leaf : collateral_leaf c chain now = ROk leaf <->
  exists inter, extract_certs (c_sgx c) chain = leaf :: inter /\ inter <> [] /\ or_ee_parse (c_sgx c) leaf = true /\
  or_chain (c_sgx c) leaf inter (now / 1000) = true.
Proof.
  unfold collateral_leaf, verify_certificate_chain. split.
  - intros H. destruct (extract_certs (c_sgx c) chain) as [|l [|i inter]]; try discriminate H.
    apply rbind_ok in H as (? & H1 & H). apply rensure_ok in H1. apply rbind_ok in H as (? & H2 & H). apply rensure_ok in H2.
    inversion H; subst. exists (i :: inter). split; [auto|]. split; [discriminate|]. auto.
  - intros (inter & -> & Hi & H1 & H2). destruct inter as [|i inter]; [congruence|]. rewrite H1. cbn [rensure rbind].
    rewrite H2. reflexivity.
Qed.
Lemma authentic_identity_iff c now id sig chain d : authentic_identity c now id sig chain d <->
  exists leaf, collateral_leaf c chain now = ROk leaf /\ deserialize_enclave_identity (c_sgx c) id sig leaf = ROk d.
Proof.
  unfold authentic_identity, signed_by_chain, deserialize_enclave_identity. split.
  - intros [(leaf & inter & der & H1 & H2 & H3 & H4 & H5 & H6) Hd]. exists leaf. rewrite collateral_leaf_iff.
    split; [eauto|]. rewrite H5. cbn [rbind]. rewrite H6. cbn [rensure rbind]. rewrite Hd. reflexivity.
  - intros (leaf & Hl & H). apply collateral_leaf_iff in Hl as (inter & H1 & H2 & H3 & H4).
    apply rbind_ok in H as (der & H5 & H). apply rbind_ok in H as (? & H6 & H). apply rensure_ok in H6. apply rok_or_ok in H.
    split; [|auto]. exists leaf, inter, der. auto 10.
Qed.
Lemma authentic_tcb_iff c now id sig chain d : authentic_tcb c now id sig chain d <->
  exists leaf, collateral_leaf c chain now = ROk leaf /\ deserialize_tcb_info (c_sgx c) id sig leaf = ROk d.
Proof.
  unfold authentic_tcb, signed_by_chain, deserialize_tcb_info, verify_signature. split.
  - intros [(leaf & inter & der & H1 & H2 & H3 & H4 & H5 & H6) Hd]. exists leaf. rewrite collateral_leaf_iff.
    split; [eauto|]. rewrite H5. cbn [rbind]. rewrite H6. cbn [rensure rbind]. rewrite Hd. reflexivity.
  - intros (leaf & Hl & H). apply collateral_leaf_iff in Hl as (inter & H1 & H2 & H3 & H4).
    apply rbind_ok in H as (der & H5 & H). apply rbind_ok in H as (? & H6 & H). apply rensure_ok in H6. apply rok_or_ok in H.
    split; [|auto]. exists leaf, inter, der. auto 10.
Qed.

Lemma time_i64_ok t z : time_i64 t = ROk z -> t <= i64_max /\ z = Z.of_N t.
Proof. unfold time_i64. destruct (N.leb_spec t i64_max); intros E; inversion E; auto. Qed.

Lemma reg_qe_ok c o id sig chain s s' : register_quoting_enclave c o id sig chain s = Ok tt s' ->
  exists a d, o = Signed a /\ authentic_identity c (rt_now s) id sig chain d /\
  ei_id d = str_QE /\ ei_version d = 2 /\ (0 <= ei_issue d < Z.of_N (rt_now s))%Z /\ (Z.of_N (rt_now s) < ei_next d)%Z /\
  let q := mkQe (Z.to_N (ei_issue d)) (Z.to_N (ei_next d)) (ei_misc d) (ei_misc_mask d) (ei_attr d) (ei_attr_mask d)
                (ei_mrsigner d) (ei_prodid d) (map fst (ei_levels d)) in
  s' = add_ev (EvSgxQuotingEnclaveRegistered q) (put_qe q s).
Proof.
  unfold register_quoting_enclave, verify_quoting_enclave. intros H.
  apply bind_ok in H as (a & s1 & H1 & H). apply ensure_signed_ok in H1 as [-> ->].
  apply bind_ok in H as (q & s1 & H1 & H).
  apply bind_ok in H1 as (t & s2 & H2 & H1). apply gets_ok in H2 as [-> ->].
  apply bind_ok in H1 as (leaf & s2 & H2 & H1). apply lift_res_ok in H2 as [Hl ->].
  apply bind_ok in H1 as (d & s2 & H2 & H1). apply lift_res_ok in H2 as [Hd ->].
  apply bind_ok in H1 as (z & s2 & H2 & H1). apply lift_res_ok in H2 as [Hz ->]. apply time_i64_ok in Hz as [Hz ->].
  apply bind_ok in H1 as (? & s2 & H2 & H1). apply ensure_ok in H2 as [Hv ->].
  apply lift_res_ok in H1 as [Hq ->]. unfold to_quoting_enclave in Hq.
  apply rbind_ok in Hq as (i & Hi & Hq). apply rbind_ok in Hq as (n & Hn & Hq). inversion Hq; subst q; clear Hq.
  apply z_to_u64_ok in Hi as [Hi ->]. apply z_to_u64_ok in Hn as [Hn ->].
  unfold identity_is_valid in Hv. rewrite !andb_true_iff in Hv. destruct Hv as [[[H2 H3] H4] H5].
  apply beq_true in H2. exists a, d. split; [auto|]. split; [apply authentic_identity_iff; exists leaf; auto|]. split; [auto|].
  split; [apply N.eqb_eq; auto|]. split; [lia|]. split; [lia|].
  unfold deposit_event in H. inv_rt H. reflexivity.
Qed.
Lemma reg_tcb_ok c o info sig chain s s' : register_tcb_info c o info sig chain s = Ok tt s' ->
  exists a d, o = Signed a /\ authentic_tcb c (rt_now s) info sig chain d /\
  tj_id d = str_SGX /\ tj_version d = 3 /\ (0 <= tj_issue d < Z.of_N (rt_now s))%Z /\ (Z.of_N (rt_now s) < tj_next d)%Z /\
  let i := mkTcbInfo (Z.to_N (tj_issue d)) (Z.to_N (tj_next d)) (map (fun l => mkTcbLevel l.1.1 l.1.2 l.2) (tj_levels d)) in
  s' = add_ev (EvSgxTcbInfoRegistered (tj_fmspc d) i) (put_tcb (tj_fmspc d) i s).
Proof.
  unfold register_tcb_info, verify_tcb_info. intros H.
  apply bind_ok in H as (a & s1 & H1 & H). apply ensure_signed_ok in H1 as [-> ->].
  apply bind_ok in H as (q & s1 & H1 & H).
  apply bind_ok in H1 as (t & s2 & H2 & H1). apply gets_ok in H2 as [-> ->].
  apply bind_ok in H1 as (leaf & s2 & H2 & H1). apply lift_res_ok in H2 as [Hl ->].
  apply bind_ok in H1 as (d & s2 & H2 & H1). apply lift_res_ok in H2 as [Hd ->].
  apply bind_ok in H1 as (z & s2 & H2 & H1). apply lift_res_ok in H2 as [Hz ->]. apply time_i64_ok in Hz as [Hz ->].
  apply bind_ok in H1 as (? & s2 & H2 & H1). apply ensure_ok in H2 as [Hv ->].
  apply lift_res_ok in H1 as [Hq ->]. unfold to_chain_tcb_info in Hq.
  apply rbind_ok in Hq as (i & Hi & Hq). apply rbind_ok in Hq as (n & Hn & Hq). inversion Hq; subst q; clear Hq.
  apply z_to_u64_ok in Hi as [Hi ->]. apply z_to_u64_ok in Hn as [Hn ->].
  unfold tcb_is_valid in Hv. rewrite !andb_true_iff in Hv. destruct Hv as [[[H2 H3] H4] H5].
  apply beq_true in H2. exists a, d. split; [auto|]. split; [apply authentic_tcb_iff; exists leaf; auto|]. split; [auto|].
  split; [apply N.eqb_eq; auto|]. split; [lia|]. split; [lia|].
  unfold deposit_event in H. inv_rt H. reflexivity.
Qed.
