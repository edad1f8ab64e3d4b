(** * Where registered enclaves, collateral and payouts come from: C76. *)
From Coq Require Import String.
From Verif Require Import Base State Env TeerdaysModel TeerexBase SgxVerifyModel TeerexModel
  EnclaveBridgeModel SidechainModel TeeracleModel ClaimsModel AssetRegistryModel XcmTransactorModel
  Runtime Frame EnvFacts SgxProofs TeerexProofs SgxProps BridgeProofs Examples TeerexProps AttestationProps
  BridgeProps AcceptProps PemProps.

(** In the history [l], the call [k] with origin [o] was accepted right after the operations [l1]. *)
Definition accepted_at (c : cfg) (g : genesis) (l l1 : list op) (o : origin) (k : call) : Prop :=
  (exists l2, l = l1 ++ OCall o k :: l2) /\ (dispatch c o k (run c (genesis_state g) l1)).1 = Success.

Notation after c g l := (run c (genesis_state g) l).

(** [q] is the content of the last quoting-enclave identity accepted in [l]: a document with a valid
    signature of a certificate chaining to the pinned root, of the right kind and in force when it was sent. *)
Definition documented_qe (c : cfg) (g : genesis) (l : list op) (q : qenclave) : Prop :=
  exists l1 a doc sig chain d, accepted_at c g l l1 (Signed a) (CTx (TxRegisterQe doc sig chain)) /\
  (forall l1' o doc' sig' chain', accepted_at c g l l1' o (CTx (TxRegisterQe doc' sig' chain')) -> (length l1' <= length l1)%nat) /\
  authentic_identity c (rt_now (after c g l1)) doc sig chain d /\ ei_id d = ascii "QE" /\ ei_version d = 2 /\
  (ei_issue d < Z.of_N (rt_now (after c g l1)) < ei_next d)%Z /\
  q_misc q = ei_misc d /\ q_misc_mask q = ei_misc_mask d /\ q_attr q = ei_attr d /\ q_attr_mask q = ei_attr_mask d /\
  q_mrsigner q = ei_mrsigner d /\ q_prodid q = ei_prodid d /\ q_tcb q = map fst (ei_levels d).
(** The same for the list of TCB levels of the platform family [fm] *)
Definition documented_tcb (c : cfg) (g : genesis) (l : list op) (fm : bytes) (i : tcb_info) : Prop :=
  exists l1 a doc sig chain d, accepted_at c g l l1 (Signed a) (CTx (TxRegisterTcb doc sig chain)) /\
  (forall l1' o doc' sig' chain' d', accepted_at c g l l1' o (CTx (TxRegisterTcb doc' sig' chain')) ->
     or_json_tcb (c_sgx c) doc' = Some d' -> tj_fmspc d' = fm -> (length l1' <= length l1)%nat) /\
  authentic_tcb c (rt_now (after c g l1)) doc sig chain d /\ tj_id d = ascii "SGX" /\ tj_version d = 3 /\
  (tj_issue d < Z.of_N (rt_now (after c g l1)) < tj_next d)%Z /\ tj_fmspc d = fm /\
  map (fun l => (tl_cpusvn l, tl_pcesvn l, tl_status l)) (ti_levels i) = tj_levels d.
(** Root (or genesis) had allowed skipping attestation, and not forbidden it since; the same for debug mode *)
Definition skipping_allowed (c : cfg) (g : genesis) (l : list op) : Prop :=
  (exists l1 d, accepted_at c g l l1 Root (CTx (TxSetFlags true d)) /\
    forall l1' sk d', accepted_at c g l l1' Root (CTx (TxSetFlags sk d')) -> (length l1' <= length l1)%nat) \/
  (g_skip g = true /\ forall l1 o sk d, ~ accepted_at c g l l1 o (CTx (TxSetFlags sk d))).
Definition debug_allowed (c : cfg) (g : genesis) (l : list op) : Prop :=
  (exists l1 sk, accepted_at c g l l1 Root (CTx (TxSetFlags sk true)) /\
    forall l1' sk' d', accepted_at c g l l1' Root (CTx (TxSetFlags sk' d')) -> (length l1' <= length l1)%nat) \/
  (g_debug g = true /\ forall l1 o sk d, ~ accepted_at c g l l1 o (CTx (TxSetFlags sk d))).

(** What backs the entry [e] that the account [a] filed with the proof [p] after the operations [l] *)
Definition evidence (c : cfg) (g : genesis) (l : list op) (a : acct) (p : bytes) (e : enclave) : Prop :=
  (en_build_mode e = MDebug -> debug_allowed c g l) /\
  match en_method e with
  | MIas => exists r, genuine_ias (c_sgx c) p r /\
      vr_timestamp r <= rt_now (after c g l) < vr_timestamp r + c_day c /\ takeN 32 (vr_report_data r) = a /\
      en_report_data e = vr_report_data r /\ en_mr_enclave e = vr_mr_enclave r /\ en_mr_signer e = vr_mr_signer r /\
      en_timestamp e = vr_timestamp r /\ en_build_mode e = vr_build_mode r /\ en_status e = vr_status r
  | MDcap proxied => exists q fm tcb r i n lv,
      documented_qe c g l q /\ genuine_quote (c_sgx c) p (rt_now (after c g l)) q fm tcb r /\
      documented_tcb c g l fm i /\ first_reached i tcb lv n /\
      (proxied = false -> takeN 32 (vr_report_data r) = a) /\
      en_report_data e = vr_report_data r /\ en_mr_enclave e = vr_mr_enclave r /\ en_mr_signer e = vr_mr_signer r /\
      en_timestamp e = rt_now (after c g l) /\ en_build_mode e = vr_build_mode r /\
      en_status e = recorded_status (tl_status lv)
  | MSkip _ => skipping_allowed c g l /\ en_status e = StInvalid
  end.

(** ** Positions in a history *)
Lemma accepted_snoc c g l x l1 o k : accepted_at c g (l ++ [x]) l1 o k <->
  accepted_at c g l l1 o k \/ (l1 = l /\ x = OCall o k /\ (dispatch c o k (after c g l)).1 = Success).
Proof.
  unfold accepted_at. split.
  - intros [(l2 & E) Hs]. destruct l2 as [|y l2 _] using rev_ind.
    + apply app_inj_tail in E as [-> ->]. right. auto.
    + left. rewrite app_comm_cons, app_assoc in E. apply app_inj_tail in E as [-> _]. split; [|auto]. exists l2. reflexivity.
  - intros [[(l2 & ->) Hs]|(-> & -> & Hs)]; (split; [|auto]).
    + exists (l2 ++ [x]). rewrite <- app_assoc. reflexivity.
    + exists []. reflexivity.
Qed.
Lemma accepted_length c g l l1 o k : accepted_at c g l l1 o k -> (length l1 < length l)%nat.
Proof. intros [(l2 & ->) _]. rewrite app_length. cbn. lia. Qed.
Lemma accepted_nil c g l1 o k : ~ accepted_at c g [] l1 o k.
Proof. intros H. apply accepted_length in H. cbn in H. lia. Qed.
(** A later part of the history keeps earlier positions *)
Lemma accepted_app c g l l' l1 o k : accepted_at c g l l1 o k -> accepted_at c g (l ++ l') l1 o k.
Proof. intros [(l2 & ->) H]. split; [|auto]. exists (l2 ++ l'). rewrite <- app_assoc. reflexivity. Qed.
Lemma success_exec c o k s : (dispatch c o k s).1 = Success -> exec c o k s = Ok tt (step c s (OCall o k)).
Proof.
  cbn [step]. unfold dispatch, run_call. destruct (exec c o k s) as [[] s'|e s'|]; cbn; [auto|discriminate|discriminate].
Qed.
Lemma dispatch_step c o k s : (dispatch c o k s).1 = Success -> dispatch c o k s = (Success, step c s (OCall o k)).
Proof. cbn [step]. destruct (dispatch c o k s) as [st s']. cbn. intros ->. reflexivity. Qed.
(** Whether the operation is an accepted call satisfying [P] *)
Lemma accepted_dec (P : call -> bool) c s x :
  (exists o k, x = OCall o k /\ P k = true /\ (dispatch c o k s).1 = Success) \/
  (forall o k, x = OCall o k -> P k = true -> (dispatch c o k s).1 <> Success).
Proof.
  destruct x as [o k| | | | | | | | | |]; [|right; intros; discriminate..].
  destruct (P k) eqn:Ep; [|right; intros o' k' [= -> ->]; congruence].
  destruct (dispatch c o k s).1 eqn:E; [left; eauto 6|right; intros o' k' [= -> ->] _; congruence..].
Qed.
Definition is_qe (k : call) : bool := match k with CTx (TxRegisterQe _ _ _) => true | _ => false end.
Definition is_tcb (k : call) : bool := match k with CTx (TxRegisterTcb _ _ _) => true | _ => false end.
Definition is_flags (k : call) : bool := match k with CTx (TxSetFlags _ _) => true | _ => false end.
Lemma tx_parts_step c s x : let t := rt_tx s in let t' := rt_tx (step c s x) in
  (tx_qe t' = tx_qe t \/ exists o k, x = OCall o k /\ is_qe k = true /\ (dispatch c o k s).1 = Success) /\
  (tx_tcb t' = tx_tcb t \/ exists o k, x = OCall o k /\ is_tcb k = true /\ (dispatch c o k s).1 = Success) /\
  (tx_allow_skip t' = tx_allow_skip t /\ tx_allow_debug t' = tx_allow_debug t \/
   exists o k, x = OCall o k /\ is_flags k = true /\ (dispatch c o k s).1 = Success).
Proof.
  cbn zeta. destruct (tx_step c s x) as [E|(o & y & -> & E)]; [rewrite E; auto 6|].
  assert ((dispatch c o (CTx y) s).1 = Success) as Hs.
  { unfold dispatch, run_call. cbn [exec]. rewrite E. reflexivity. }
  set (s' := step c s (OCall o (CTx y))) in *. destruct y; cbn [tx_exec] in E.
  - apply register_ok in E as (b & e & -> & _ & _ & _ & _ & Es). rewrite Es. unfold store_enclave.
    destruct (is_proxied (with_url e url)); cbn; auto 6.
  - apply unreg_sov_ok in E as (b & e & -> & _ & _ & Es). rewrite Es. cbn. auto 6.
  - apply unreg_prox_ok in E as (b & e & -> & _ & _ & Es). rewrite Es. cbn. auto 6.
  - apply reg_qe_ok in E as (b & d & _ & _ & _ & _ & _ & _ & Es). split; [right; eauto 6|]. rewrite Es. cbn. auto.
  - apply reg_tcb_ok in E as (b & d & _ & _ & _ & _ & _ & _ & Es). split; [left; rewrite Es; reflexivity|].
    split; [right; eauto 6|]. rewrite Es. cbn. auto.
  - apply set_flags_ok in E as (_ & Es). split; [left; rewrite Es; reflexivity|]. split; [left; rewrite Es; reflexivity|]. right. eauto 6.
Qed.

(** ** Collateral *)
Theorem C76_quoting_enclave_comes_from_the_last_document : forall c g l,
  let q := tx_qe (rt_tx (after c g l)) in
  documented_qe c g l q \/
  (q = qe_default /\ forall l1 o doc sig chain, ~ accepted_at c g l l1 o (CTx (TxRegisterQe doc sig chain))).
Proof.
  intros c g l. cbn zeta. induction l as [|x l IH] using rev_ind.
  { right. split; [reflexivity|]. intros l1 o doc sig chain. apply accepted_nil. }
  rewrite run_snoc. destruct (accepted_dec is_qe c (after c g l) x) as [(o & k & -> & Hk & Hs)|Hn].
  - destruct k as [| | | |[]| | |]; try discriminate. left.
    pose proof (dispatch_step _ _ _ _ Hs) as Hd. set (s' := step _ _ _) in *.
    apply C38_quoting_enclave_is_stored_as_documented in Hd
      as (a & d & q & -> & Ha & Hi & Hv & Ht & _ & _ & _ & Q1 & Q2 & Q3 & Q4 & Q5 & Q6 & Q7 & ->).
    cbn [rt_tx after_qe add_ev set_tx tx_qe].
    exists l, a, id, sig, chain, d. split; [apply accepted_snoc; auto|]. split.
    { intros l1' o' doc' sig' chain' H. apply accepted_length in H. rewrite app_length in H. cbn in H. lia. }
    auto 15.
  - destruct (tx_parts_step c (after c g l) x) as ([E|(o & k & -> & Hk & Hs)] & _); [|destruct (Hn o k eq_refl Hk Hs)].
    rewrite E. destruct IH as [(l1 & a & doc & sig & chain & d & H1 & H2 & H3)|[Hq H]]; [left|right].
    + exists l1, a, doc, sig, chain, d. split; [apply accepted_snoc; auto|]. split; [|exact H3].
      intros l1' o' doc' sig' chain' H. apply accepted_snoc in H as [H|(-> & -> & H)]; [exact (H2 _ _ _ _ _ H)|].
      destruct (Hn _ _ eq_refl eq_refl H).
    + split; [auto|]. intros l1 o doc sig chain Ha. apply accepted_snoc in Ha as [Ha|(-> & -> & Ha)]; [exact (H _ _ _ _ _ Ha)|].
      destruct (Hn _ _ eq_refl eq_refl Ha).
Qed.
Print Assumptions C76_quoting_enclave_comes_from_the_last_document.
Theorem C76_tcb_levels_come_from_the_last_document : forall c g l fm i,
  tx_tcb (rt_tx (after c g l)) !! fm = Some i -> documented_tcb c g l fm i.
Proof.
  intros c g l fm. induction l as [|x l IH] using rev_ind; intros i.
  { cbn. rewrite lookup_empty. discriminate. }
  rewrite run_snoc. intros Hi. destruct (accepted_dec is_tcb c (after c g l) x) as [(o & k & -> & Hk & Hs)|Hn].
  - destruct k as [| | | |[]| | |]; try discriminate.
    pose proof (dispatch_step _ _ _ _ Hs) as Hd. set (s' := step _ _ _) in *.
    apply C38_tcb_info_is_stored_as_documented in Hd
      as (a & d & j & -> & Ha & Hid & Hv & Ht & _ & _ & _ & Hl & E). rewrite E in Hi. cbn in Hi. clear E s'.
    destruct (decide (tj_fmspc d = fm)) as [Ef|Ef].
    + rewrite Ef, lookup_insert in Hi. injection Hi as <-.
      exists l, a, info, sig, chain, d. split; [apply accepted_snoc; auto|]. split.
      { intros l1' o' doc' sig' chain' d' H _ _. apply accepted_length in H. rewrite app_length in H. cbn in H. lia. }
      auto 10.
    + rewrite lookup_insert_ne in Hi by auto.
      destruct (IH i Hi) as (l1 & a' & doc & sig' & chain' & d' & H1 & H2 & H3).
      exists l1, a', doc, sig', chain', d'. split; [apply accepted_snoc; auto|]. split; [|exact H3].
      intros l1' o' doc' sig1 chain1 d1 H Hd Hf. apply accepted_snoc in H as [H|(-> & [= <- <- <- <-] & _)]; [exact (H2 _ _ _ _ _ _ H Hd Hf)|].
      exfalso. destruct Ha as [_ Ha]. congruence.
  - destruct (tx_parts_step c (after c g l) x) as (_ & [E|(o & k & -> & Hk & Hs)] & _); [|destruct (Hn o k eq_refl Hk Hs)].
    rewrite E in Hi. destruct (IH i Hi) as (l1 & a & doc & sig & chain & d & H1 & H2 & H3).
    exists l1, a, doc, sig, chain, d. split; [apply accepted_snoc; auto|]. split; [|exact H3].
    intros l1' o' doc' sig' chain' d' H. apply accepted_snoc in H as [H|(-> & -> & H)]; [exact (H2 _ _ _ _ _ _ H)|].
    destruct (Hn _ _ eq_refl eq_refl H).
Qed.
Print Assumptions C76_tcb_levels_come_from_the_last_document.
(** The flags are those of the last call of root, or of genesis. *)
Theorem C76_flags_come_from_root_or_genesis : forall c g l,
  (tx_allow_skip (rt_tx (after c g l)) = true <-> skipping_allowed c g l) /\
  (tx_allow_debug (rt_tx (after c g l)) = true <-> debug_allowed c g l).
Proof.
  intros c g l.
  assert ((exists l1 sk d, accepted_at c g l l1 Root (CTx (TxSetFlags sk d)) /\
      (forall l1' sk' d', accepted_at c g l l1' Root (CTx (TxSetFlags sk' d')) -> (length l1' <= length l1)%nat) /\
      tx_allow_skip (rt_tx (after c g l)) = sk /\ tx_allow_debug (rt_tx (after c g l)) = d) \/
    ((forall l1 o sk d, ~ accepted_at c g l l1 o (CTx (TxSetFlags sk d))) /\
      tx_allow_skip (rt_tx (after c g l)) = g_skip g /\ tx_allow_debug (rt_tx (after c g l)) = g_debug g)) as H.
  { induction l as [|x l IH] using rev_ind.
    { right. split; [|auto]. intros l1 o sk d. apply accepted_nil. }
    rewrite run_snoc. destruct (accepted_dec is_flags c (after c g l) x) as [(o & k & -> & Hk & Hs)|Hn].
    - destruct k as [| | | |[]| | |]; try discriminate. left.
      pose proof (success_exec _ _ _ _ Hs) as He. cbn [exec tx_exec] in He. set (s' := step _ _ _) in *.
      apply set_flags_ok in He as (-> & ->).
      exists l, skip, debug. split; [apply accepted_snoc; auto|]. split; [|auto].
      intros l1' sk' d' H. apply accepted_length in H. rewrite app_length in H. cbn in H. lia.
    - destruct (tx_parts_step c (after c g l) x) as (_ & _ & [[E1 E2]|(o & k & -> & Hk & Hs)]); [|destruct (Hn o k eq_refl Hk Hs)].
      rewrite E1, E2. destruct IH as [(l1 & sk & d & H1 & H2 & H3)|[H1 H2]]; [left|right].
      + exists l1, sk, d. split; [apply accepted_snoc; auto|]. split; [|exact H3].
        intros l1' sk' d' H. apply accepted_snoc in H as [H|(-> & -> & H)]; [exact (H2 _ _ _ H)|]. destruct (Hn _ _ eq_refl eq_refl H).
      + split; [|auto]. intros l1 o sk d H. apply accepted_snoc in H as [H|(-> & -> & H)]; [exact (H1 _ _ _ _ H)|].
        destruct (Hn _ _ eq_refl eq_refl H). }
  assert (forall l1 l1' sk d sk' d', accepted_at c g l l1 Root (CTx (TxSetFlags sk d)) ->
    accepted_at c g l l1' Root (CTx (TxSetFlags sk' d')) -> length l1 = length l1' -> sk = sk' /\ d = d') as Hu.
  { intros l1 l1' sk d sk' d' [(l2 & ->) _] [(l2' & E) _] Hl. apply app_inj_1 in E as [_ E]; [|auto]. injection E as -> -> _. auto. }
  unfold skipping_allowed, debug_allowed. destruct H as [(l1 & sk & d & H1 & H2 & <- & <-)|(H1 & -> & ->)]; split; split.
  - intros E. left. rewrite E in H1. eauto.
  - intros [(l1' & d' & H3 & H4)|[_ H3]]; [|destruct (H3 _ _ _ _ H1)].
    destruct (Hu _ _ _ _ _ _ H1 H3) as [E _]; [|auto]. apply Nat.le_antisymm; eauto.
  - intros E. left. rewrite E in H1. eauto.
  - intros [(l1' & d' & H3 & H4)|[_ H3]]; [|destruct (H3 _ _ _ _ H1)].
    destruct (Hu _ _ _ _ _ _ H1 H3) as [_ E]; [|auto]. apply Nat.le_antisymm; eauto.
  - auto.
  - intros [(l1' & d' & H3 & H4)|[H3 _]]; [destruct (H1 _ _ _ _ H3)|auto].
  - auto.
  - intros [(l1' & d' & H3 & H4)|[H3 _]]; [destruct (H1 _ _ _ _ H3)|auto].
Qed.
Print Assumptions C76_flags_come_from_root_or_genesis.

(** ** Enclaves *)
Lemma attested_evidence c g l a p m e u : json_levels_typed (c_sgx c) -> attested c (after c g l) a p m e ->
  (en_build_mode e = MDebug -> tx_allow_debug (rt_tx (after c g l)) = true) -> evidence c g l a p (with_url e u).
Proof.
  intros Hj Ha Hd. split; [rewrite mode_url; intros Em; apply C76_flags_come_from_root_or_genesis; auto|].
  rewrite method_url, report_url, mre_url, time_url, mode_url.
  assert (en_status (with_url e u) = en_status e /\ en_mr_signer (with_url e u) = en_mr_signer e) as [-> ->] by (destruct e, u; auto).
  destruct Ha as [r Hv H1 H2 H3|pr fm tcb r ref st Hv Hp Hf Ht|pr Hs H64].
  - cbn [en_method new_enclave]. exists r. rewrite <- C66_ias_report_accepted_iff_genuine. split; [auto|]. split; [lia|].
    cbn. auto 10.
  - cbn [en_method new_enclave]. set (s := after c g l) in *.
    assert (vr_timestamp r = rt_now s /\ length (tl_cpusvn tcb) = 16%nat) as [Et Ex].
    { split.
      - apply verify_dcap_iff in Hv as (q & _ & _ & _ & ->). reflexivity.
      - apply verify_dcap_iff in Hv as (q & _ & _ & (_ & _ & _ & _ & leaf & i & inter & sig & _ & _ & _ & Hx & _) & _).
        apply extract_tcb_16 in Hx. auto. }
    apply C34_recorded_status_is_of_first_matching_level in Ht as (n & lv & Hn & ->); [|eapply stored_levels_16; eauto|auto].
    apply C35_dcap_quote_accepted_iff_genuine in Hv.
    exists (tx_qe (rt_tx s)), fm, tcb, r, ref, n, lv. split.
    { destruct (C76_quoting_enclave_comes_from_the_last_document c g l) as [H|[Hq _]]; [exact H|]. exfalso. fold s in Hq.
      destruct Hv as (? & ? & ? & ? & ? & ? & ? & ? & ? & ? & ? & ? & _ & _ & _ & _ & _ & _ & _ & _ & _ & _ & _ & _ & _ & _ & _ & _ & _ & Hm & _).
      destruct Hm as (_ & _ & _ & _ & svn & Hin & _). rewrite Hq in Hin. cbn in Hin. apply elem_of_nil in Hin. auto. }
    split; [auto|]. split; [apply C76_tcb_levels_come_from_the_last_document; auto|]. split; [auto|].
    split; [intros ->; symmetry; auto|]. cbn. auto 10.
  - cbn [en_method new_enclave]. split; [apply C76_flags_come_from_root_or_genesis; auto|reflexivity].
Qed.
Definition proxied_method (m : att_method) : bool := match m with MIas => false | MSkip p | MDcap p => p end.
Lemma is_proxied_method e : is_proxied e = proxied_method (en_method e).
Proof. unfold is_proxied. destruct (en_method e) as [[]| |[]]; reflexivity. Qed.
Lemma attested_url c s a p m e u : attested c s a p m e -> en_url (with_url e u) = u.
Proof. intros [r Hv H1 H2 H3|pr fm tcb r ref st Hv Hp Hf Ht|pr Hs H64]; rewrite url_new; reflexivity. Qed.
Lemma registration_dec c s x a b :
  (exists p u m, x = OCall (Signed a) (CTx (TxRegister p u m)) /\ proxied_method m = b /\
     (dispatch c (Signed a) (CTx (TxRegister p u m)) s).1 = Success) \/
  (forall p u m, x = OCall (Signed a) (CTx (TxRegister p u m)) -> proxied_method m = b ->
     (dispatch c (Signed a) (CTx (TxRegister p u m)) s).1 <> Success).
Proof.
  destruct (accepted_dec (fun k => match k with CTx (TxRegister _ _ m) => eqb (proxied_method m) b | _ => false end) c s x)
    as [(o & k & -> & Hk & Hs)|Hn].
  - destruct k as [| | | |[]| | |]; try discriminate. apply eqb_prop in Hk. destruct o as [|a'|]; [right; congruence| |right; congruence].
    destruct (decide (a' = a)) as [->|Ha]; [left; eauto 6|right; congruence].
  - right. intros p u m -> Hm. apply (Hn _ _ eq_refl). rewrite Hm. apply eqb_reflx.
Qed.
(** Every sovereign entry was filed by its own account, with the evidence its method asks for, and was
    neither replaced nor removed since. *)
Theorem C76_sovereign_enclaves_trace_back : forall c g l (a : acct) e, json_levels_typed (c_sgx c) ->
  tx_sov (rt_tx (after c g l)) !! a = Some e ->
  exists l1 p, accepted_at c g l l1 (Signed a) (CTx (TxRegister p (en_url e) (en_method e))) /\
  evidence c g l1 a p e /\ proxied_method (en_method e) = false /\
  (forall l1' o, accepted_at c g l l1' o (CTx (TxUnregisterSovereign a)) -> (length l1' < length l1)%nat) /\
  (forall l1' p' u' m', accepted_at c g l l1' (Signed a) (CTx (TxRegister p' u' m')) -> proxied_method m' = false ->
     (length l1' <= length l1)%nat).
Proof.
  intros c g l a e Hj. revert e. induction l as [|x l IH] using rev_ind; intros e.
  { cbn. rewrite lookup_empty. discriminate. }
  rewrite run_snoc. intros He.
  destruct (registration_dec c (after c g l) x a false) as [(p & u & m & -> & Hm & Hs)|Hn].
  - exists l, p. pose proof (success_exec _ _ _ _ Hs) as Hx. cbn [exec tx_exec] in Hx. set (s' := step _ _ _) in *.
    apply register_ok in Hx as (b & e' & [= <-] & Ha & Hd & _ & _ & Es). rewrite Es in He. cbn [rt_tx add_ev] in He.
    pose proof (attested_method _ _ _ _ _ _ Ha) as Em. pose proof (attested_url _ _ _ _ _ _ u Ha) as Eu.
    rewrite store_sov, is_proxied_url, (is_proxied_method e'), Em, Hm, lookup_insert in He. injection He as <-.
    rewrite Eu, method_url, Em. split; [apply accepted_snoc; auto|]. split; [eapply attested_evidence; eauto|]. split; [auto|]. split.
    + intros l1' o H. apply accepted_snoc in H as [H|(-> & H & _)]; [|discriminate H]. apply accepted_length in H. lia.
    + intros l1' p' u' m' H _. apply accepted_length in H. rewrite app_length in H. cbn in H. lia.
  - destruct (sov_step c (after c g l) x a) as [E|[(o & e' & -> & _ & _ & E)|(p & u & m & e' & -> & Hs & Ha & Hp & Hd & E)]].
    + rewrite E in He. destruct (IH e He) as (l1 & p & H1 & H2 & H3 & H4 & H5).
      exists l1, p. split; [apply accepted_snoc; auto|]. split; [auto|]. split; [auto|]. split.
      * intros l1' o H. apply accepted_snoc in H as [H|(-> & -> & H)]; [eauto|]. exfalso.
        apply success_exec in H. cbn [exec tx_exec] in H. set (s' := step _ _ _) in *.
        apply unreg_sov_ok in H as (b & e' & _ & _ & _ & Es). rewrite Es in E. cbn in E. rewrite lookup_delete in E. congruence.
      * intros l1' p' u' m' H Hm. apply accepted_snoc in H as [H|(-> & -> & H)]; [eauto|].
        destruct (Hn _ _ _ eq_refl Hm H).
    + congruence.
    + exfalso. apply (Hn p u m eq_refl).
      * rewrite <- (attested_method _ _ _ _ _ _ Ha), <- is_proxied_method. auto.
      * rewrite Hs. reflexivity.
Qed.
Print Assumptions C76_sovereign_enclaves_trace_back.
(** Every proxied entry was filed by its registrar, with the evidence its method asks for, and has stood
    unchanged since. *)
Theorem C76_proxied_enclaves_trace_back : forall c g l (k : eaddr) e, json_levels_typed (c_sgx c) ->
  tx_prox (rt_tx (after c g l)) !! k = Some e ->
  exists l1 p, accepted_at c g l l1 (Signed k.1.2) (CTx (TxRegister p (en_url e) (en_method e))) /\
  evidence c g l1 k.1.2 p e /\ proxied_method (en_method e) = true /\ k.1.1 = en_mr_enclave e /\
  (forall l1' o, accepted_at c g l l1' o (CTx (TxUnregisterProxied k)) -> (length l1' < length l1)%nat) /\
  (forall l2 l3, l = l2 ++ l3 -> (length l1 < length l2)%nat -> tx_prox (rt_tx (after c g l2)) !! k = Some e).
Proof.
  intros c g l k e Hj. revert e. induction l as [|x l IH] using rev_ind; intros e.
  { cbn. rewrite lookup_empty. discriminate. }
  intros He. assert (forall l2 l3, l ++ [x] = l2 ++ l3 -> (l2 = l ++ [x] \/ exists l4, l = l2 ++ l4) /\ ((length l < length l2)%nat -> l2 = l ++ [x])) as Pre.
  { intros l2 l3 Hl. destruct l3 as [|z l3 _] using rev_ind.
    - rewrite app_nil_r in Hl. subst. auto.
    - rewrite app_assoc in Hl. apply app_inj_tail in Hl as [-> _]. split; [eauto|]. rewrite app_length. lia. }
  pose proof He as He0. rewrite run_snoc in He.
  destruct (prox_step c (after c g l) x k) as [E|[(o & e' & -> & _ & _ & E)|(b & p & u & m & e' & -> & Hs & Ha & Hp & Hd & Ek & E)]].
  - rewrite E in He. destruct (IH e He) as (l1 & p & H1 & H2 & H3 & H4 & H5 & H6).
    exists l1, p. split; [apply accepted_snoc; auto|]. split; [auto|]. split; [auto|]. split; [auto|]. split.
    2: { intros l2 l3 Hl Hlt. destruct (Pre _ _ Hl) as [[->|[l4 ->]] _]; [exact He0|]. eapply H6; eauto. }
    intros l1' o H. apply accepted_snoc in H as [H|(-> & -> & H)]; [eauto|]. exfalso.
    apply success_exec in H. cbn [exec tx_exec] in H. set (s' := step _ _ _) in *.
    apply unreg_prox_ok in H as (b & e' & _ & _ & _ & Es). rewrite Es in E. cbn in E. rewrite lookup_delete in E. congruence.
  - congruence.
  - rewrite E in He. injection He as <-. subst k. cbn [fst snd]. exists l, p.
    pose proof (attested_method _ _ _ _ _ _ Ha) as Em. pose proof (attested_url _ _ _ _ _ _ u Ha) as Eu.
    rewrite Eu, method_url, mre_url, Em. split; [apply accepted_snoc; rewrite Hs; auto|].
    split; [eapply attested_evidence; eauto|]. split; [rewrite <- Em, <- is_proxied_method; auto|]. split; [auto|]. split.
    2: { intros l2 l3 Hl Hlt. destruct (Pre _ _ Hl) as [_ Hp2]. rewrite (Hp2 Hlt). exact He0. }
    intros l1' o H. apply accepted_snoc in H as [H|(-> & H & _)]; [|discriminate H]. apply accepted_length in H. lia.
Qed.
Print Assumptions C76_proxied_enclaves_trace_back.

(** ** Payouts and everything else enclaves do *)
(** The calls that only enclaves can make *)
Definition enclave_call (k : call) : bool :=
  match k with
  | CEb (EbConfirm _ _ _ _) | CEb (EbUnshield _ _ _ _) | CEb (EbPublish _ _ _)
  | CSc _ | CTo (ToUpdateOracle _ _ _) | CTo (ToUpdateRate _ _ _) => true
  | CEb (EbUpdateConfig _ _ _) => true
  | _ => false
  end.
(** Whoever makes one of them successfully (and is not root) filed evidence before; for the calls that
    concern a shard the attested measurement is the one in force for the shard. *)
Definition concerns_shard (s : rt) (k : call) (mre : bytes) : Prop :=
  match k with
  | CEb (EbConfirm sh _ _ _) | CEb (EbUnshield sh _ _ _) | CSc (ScConfirm sh _ _) => mre = operator s sh (rt_blk s)
  | CEb (EbUpdateConfig sh _ _) => forall x, in_force s sh (rt_blk s) = Some x -> mre = sc_fp x
  | CTo (ToUpdateOracle _ src _) | CTo (ToUpdateRate src _ _) => In mre (default [] (to_wl (rt_to s) !! src))
  | _ => True
  end.

Theorem C76_enclave_calls_trace_back : forall c g l a k, json_levels_typed (c_sgx c) -> enclave_call k = true ->
  (dispatch c (Signed a) k (after c g l)).1 = Success ->
  exists e l1 p, accepted_at c g l l1 (Signed a) (CTx (TxRegister p (en_url e) (en_method e))) /\
  evidence c g l1 a p e /\ concerns_shard (after c g l) k (en_mr_enclave e).
Proof.
  intros c g l a k Hj Hk Hs.
  assert (exists e, tx_sov (rt_tx (after c g l)) !! a = Some e /\ concerns_shard (after c g l) k (en_mr_enclave e)) as (e & He & Hc).
  { destruct k as [|k|k|k| | | |]; try discriminate.
    - apply C68_bridge_calls_accepted_exactly in Hs.
      destruct k; try discriminate; cbn [eb_accepts] in Hs; cbn [concerns_shard].
      + destruct Hs as (a' & [= <-] & e & H1 & H2 & _). eauto.
      + destruct Hs as (a' & [= <-] & (e & H1 & H2 & _) & _). eauto.
      + destruct Hs as (a' & e & [= <-] & H1 & _). eauto.
      + destruct Hs as [Hs|(a' & e & [= <-] & H1 & _ & H2)]; [discriminate|]. exists e. split; [auto|]. intros x Hx. symmetry. auto.
    - apply C68_sidechain_calls_accepted_exactly in Hs. destruct k. cbn [sc_accepts] in Hs. cbn [concerns_shard].
      destruct Hs as (a' & [= <-] & (e & H1 & H2 & _) & _). eauto.
    - apply C68_teeracle_calls_accepted_exactly in Hs. destruct k; try discriminate; cbn [to_accepts] in Hs; cbn [concerns_shard];
        destruct Hs as (a' & e & [= <-] & H1 & H2 & _); eauto. }
  destruct (C76_sovereign_enclaves_trace_back c g l a e Hj He) as (l1 & p & H1 & H2 & _). eauto 10.
Qed.
Print Assumptions C76_enclave_calls_trace_back.
(** On a chain that never allows skipping, whatever leaves a vault is paid out by an account whose key is
    in a genuine report or quote of the measurement in force for the shard. *)
Definition measured (c : cfg) (g : genesis) (l : list op) (a : acct) (p : bytes) (mre : bytes) : Prop :=
  (exists r, genuine_ias (c_sgx c) p r /\ vr_mr_enclave r = mre /\ takeN 32 (vr_report_data r) = a) \/
  (exists q fm tcb r, documented_qe c g l q /\ genuine_quote (c_sgx c) p (rt_now (after c g l)) q fm tcb r /\
     vr_mr_enclave r = mre /\ takeN 32 (vr_report_data r) = a).
Theorem C76_payouts_are_backed_by_a_measurement : forall c g l x sh, json_levels_typed (c_sgx c) ->
  g_skip g = false -> (forall d, ~ OCall Root (CTx (TxSetFlags true d)) ∈ l) ->
  let s := after c g l in
  match x with OCall o k => o <> Signed (vault sh) | _ => False end ->
  free (step c s x) (vault sh) < free s (vault sh) ->
  exists a benef v h, x = OCall (Signed a) (CEb (EbUnshield sh benef v h)) /\
  exists l1 l2 p u m, l = l1 ++ OCall (Signed a) (CTx (TxRegister p u m)) :: l2 /\
  measured c g l1 a p (operator s sh (rt_blk s)).
Proof.
  intros c g l x sh Hj Hg Hl s Hx Hf. destruct x as [o k| | | | | | | | | |]; try contradiction. cbn [step] in Hf.
  destruct (C10_only_authorised_enclave_releases_vault c o k s sh Hf)
    as [(sh' & b & v & -> & _)|(a & e & benef & v & h & -> & -> & He & Hm & _)]; [congruence|].
  exists a, benef, v, h. split; [auto|].
  destruct (C76_sovereign_enclaves_trace_back c g l a e Hj He) as (l1 & p & [(l2 & El) _] & [_ H2] & H3 & _).
  exists l1, l2, p, (en_url e), (en_method e). split; [auto|]. unfold measured. rewrite <- Hm.
  destruct (en_method e) as [pr| |pr]; cbn [proxied_method] in H3.
  - exfalso. destruct H2 as [[(l3 & d & [(l4 & E4) _] & _)|[H2 _]] _]; [|congruence].
    apply (Hl d). rewrite El, E4. apply elem_of_app. left. apply elem_of_app. right. left.
  - left. destruct H2 as (r & H2 & _ & H4 & _ & -> & _). eauto.
  - right. subst pr. destruct H2 as (q & fm & tcb & r & i & n & lv & H4 & H5 & _ & _ & H6 & _ & -> & _). eauto 10.
Qed.
Print Assumptions C76_payouts_are_backed_by_a_measurement.

(** ** C77: after registration only the measurement counts *)
(** What is left of the registry if only the measurement of sovereign enclaves is kept: no report data, no
    signer, time stamp, URL, build mode, method or status, no proxied enclaves, no collateral, no flags *)
Definition bare (e : enclave) : enclave := mkEnclave [] (en_mr_enclave e) [] 0 None MProduction MIas StOk.
Definition measurements (s : rt) : rt := set_tx (mkTx (bare <$> tx_sov (rt_tx s)) ∅ qe_default ∅ false false) s.
Definition omapM {A B} (f : A -> B) (r : outcome rt error A) : outcome rt error B :=
  match r with Ok a s => Ok (f a) (measurements s) | Err e s => Err e (measurements s) | Panic => Panic end.
(** [m'] does on measurements what [m] does on the state *)
Definition commM {A B} (f : A -> B) (m : RM A) (m' : RM B) : Prop := forall s, m' (measurements s) = omapM f (m s).
Lemma commM_bind {A A' B B'} (f : A -> A') (g : B -> B') (m : RM A) (m' : RM A') k k' :
  commM f m m' -> (forall a, commM g (k a) (k' (f a))) -> commM g (bind m k) (bind m' k').
Proof. intros Hm Hk s. unfold bind. rewrite Hm. destruct (m s); cbn; auto. apply Hk. Qed.
Lemma commM_bind_id {A B} (m m' : RM A) (k k' : A -> RM B) :
  commM id m m' -> (forall a, commM id (k a) (k' a)) -> commM id (bind m k) (bind m' k').
Proof. intros Hm Hk. eapply commM_bind; eauto. Qed.
Lemma commM_ret {A} (a : A) : commM id (ret a) (ret a). Proof. intros s. reflexivity. Qed.
Lemma commM_fail {A} e : commM id (fail e : RM A) (fail e). Proof. intros s. reflexivity. Qed.
Lemma commM_panic {A} : commM id (panic : RM A) panic. Proof. intros s. reflexivity. Qed.
Lemma commM_gets {A} (g : rt -> A) : (forall s, g (measurements s) = g s) -> commM id (gets g) (gets g).
Proof. intros H s. unfold gets. cbn. rewrite H. auto. Qed.
Lemma commM_modify g : (forall s, g (measurements s) = measurements (g s)) -> commM id (modify g) (modify g).
Proof. intros H s. unfold modify. cbn. rewrite H. auto. Qed.
Lemma commM_ensure b e : commM id (ensure b e) (ensure b e).
Proof. destruct b; [apply commM_ret|apply commM_fail]. Qed.
Lemma commM_ok_or {A} (o : option A) e : commM id (ok_or o e) (ok_or o e).
Proof. destruct o; [apply commM_ret|apply commM_fail]. Qed.
Lemma commM_plain_add ovf mx a b : commM id (plain_add ovf mx a b) (plain_add ovf mx a b).
Proof. unfold plain_add. repeat case_match; [apply commM_ret|apply commM_panic|apply commM_ret]. Qed.
Lemma commM_sov {B} a (k k' : enclave -> RM B) : (forall e, commM id (k e) (k' (bare e))) ->
  commM id (bind (get_sovereign_enclave a) k) (bind (get_sovereign_enclave a) k').
Proof.
  intros H. eapply (commM_bind bare); [|exact H]. intros s. unfold get_sovereign_enclave, bind, gets. cbn.
  rewrite lookup_fmap. destruct (tx_sov (rt_tx s) !! a); reflexivity.
Qed.
Ltac commM_step :=
  first
  [ apply commM_sov; intros ?
  | apply commM_bind_id; [|intros ?]
  | apply commM_ret | apply commM_fail | apply commM_panic | apply commM_ensure | apply commM_ok_or
  | apply commM_plain_add
  | apply commM_gets; intros ?; reflexivity
  | apply commM_modify; intros ?; reflexivity
  | apply commM_modify; intros ?; repeat case_match; reflexivity
  | match goal with
    | |- commM _ (match ?x with _ => _ end) _ => destruct x eqn:?
    | |- commM _ (if ?x then _ else _) _ => destruct x eqn:?
    | |- commM _ (let '(_, _) := ?x in _) _ => destruct x eqn:?
    end
  | progress (cbv beta zeta) ].
Lemma commM_enclave {B} a sh b (k k' : enclave * list sstat -> RM B) : (forall e l, commM id (k (e, l)) (k' (bare e, l))) ->
  commM id (bind (get_enclave_and_touch a sh b) k) (bind (get_enclave_and_touch a sh b) k').
Proof.
  intros H. eapply (commM_bind (fun p => (bare p.1, p.2))); [|intros [e l]; apply H].
  unfold get_enclave_and_touch. eapply (commM_bind bare).
  { intros s. unfold get_sovereign_enclave, bind, gets. cbn. rewrite lookup_fmap. destruct (tx_sov (rt_tx s) !! a); reflexivity. }
  intros e. eapply (commM_bind id); [unfold get_config; repeat commM_step|]. intros oc. unfold id at 1.
  eapply (commM_bind id); [apply commM_ensure|]. intros [].
  eapply (commM_bind id); [unfold touch_shard; repeat commM_step|]. intros l s. reflexivity.
Qed.
Definition attests (k : call) : bool := match k with CTx _ => true | _ => false end.
Lemma commM_exec c o k : attests k = false -> commM id (exec c o k) (exec c o k).
Proof.
  intros Hk. destruct k as [x|x|x|x|x|x|x|x]; try discriminate; cbn [exec]; destruct x.
  all: cbn [td_exec eb_exec_call sc_exec to_exec cl_exec ar_exec xt_exec].
  all: unfold td_bond, td_bond_extra, td_unbond, td_update_other, td_withdraw_unbonded, try_withdraw_unbonded, do_update_teerdays,
    invoke, confirm_processed, shield_funds, unshield_funds, publish_hash, update_shard_config, purge, confirm_sidechain, finalize_block,
    add_to_whitelist, remove_from_whitelist, update_oracle, update_exchange_rate,
    claim, mint_claim, claim_attest, attest, move_claim, process_claim, add_vesting_schedule, write_vesting, vest, set_lock, remove_lock,
    deposit_creating, transfer, reap,
    register_asset, unregister_asset, send_swap_ump, ensure_signed_or_root,
    ensure_signed, ensure_root, ensure_none, get_config, touch_shard, deposit_event.
  all: repeat first [apply commM_enclave; intros ? ?; cbn [fst snd] | commM_step].
Qed.

Lemma dispatch_measurements c o k s : attests k = false ->
  (dispatch c o k (measurements s)).1 = (dispatch c o k s).1 /\
  (dispatch c o k (measurements s)).2 = measurements (dispatch c o k s).2.
Proof. intros Hk. unfold dispatch, run_call. rewrite (commM_exec c o k Hk s). destruct (exec c o k s); cbn; auto. Qed.
Lemma run_call_measurements m s : commM id m m -> (run_call m (measurements s)).2 = measurements (run_call m s).2.
Proof. intros H. unfold run_call. rewrite H. destruct (m s); auto. Qed.
Definition no_attestation (x : op) : Prop := match x with OCall _ k => attests k = false | _ => True end.
Lemma step_measurements c s x : no_attestation x -> step c (measurements s) x = measurements (step c s x).
Proof.
  destruct x; cbn [step no_attestation]; intros Hx.
  1: apply dispatch_measurements; auto.
  1: unfold next_block; cbn; destruct (_ <=? _); reflexivity.
  1-7: apply run_call_measurements; unfold transfer, vest, deposit_creating, withdraw, reap, add_vesting_schedule, write_vesting, set_lock, remove_lock, deposit_event;
    repeat commM_step.
  all: reflexivity.
Qed.
Lemma run_measurements c l : Forall no_attestation l -> forall s, run c (measurements s) l = measurements (run c s l).
Proof. induction 1 as [|x l Hx _ IH]; intros s; [reflexivity|]. rewrite !run_cons, step_measurements by auto. apply IH. Qed.
(** Two chains that agree but for everything the registry says of its enclaves beyond account and
    measurement (and for proxied enclaves, collateral and flags) accept the same calls of all other pallets and
    stay in agreement. *)
Theorem C77_only_the_measurement_counts : forall c s1 s2 l o k,
  measurements s1 = measurements s2 -> Forall no_attestation l -> attests k = false ->
  measurements (run c s1 l) = measurements (run c s2 l) /\
  (dispatch c o k (run c s1 l)).1 = (dispatch c o k (run c s2 l)).1 /\
  measurements (dispatch c o k (run c s1 l)).2 = measurements (dispatch c o k (run c s2 l)).2.
Proof.
  intros c s1 s2 l o k Hs Hl Hk.
  assert (measurements (run c s1 l) = measurements (run c s2 l)) as E by (rewrite <- !run_measurements by auto; congruence).
  split; [auto|]. destruct (dispatch_measurements c o k (run c s1 l) Hk) as [E1 E2]. destruct (dispatch_measurements c o k (run c s2 l) Hk) as [E3 E4].
  rewrite <- E1, <- E3, <- E2, <- E4, E. auto.
Qed.
Print Assumptions C77_only_the_measurement_counts.
(** What agreement means: everything outside the registry is equal, and the same accounts have enclaves of the
    same measurements. *)
Theorem C77_agreement_is_about_the_registry_only : forall s1 s2, measurements s1 = measurements s2 <->
  (rt_now s1 = rt_now s2 /\ rt_blk s1 = rt_blk s2 /\ rt_bal s1 = rt_bal s2 /\ rt_vest s1 = rt_vest s2 /\ rt_td s1 = rt_td s2 /\
   rt_eb s1 = rt_eb s2 /\ rt_sc s1 = rt_sc s2 /\ rt_to s1 = rt_to s2 /\ rt_cl s1 = rt_cl s2 /\ rt_ar s1 = rt_ar s2 /\
   rt_out s1 = rt_out s2 /\ rt_ev s1 = rt_ev s2) /\
  forall a, en_mr_enclave <$> tx_sov (rt_tx s1) !! a = en_mr_enclave <$> tx_sov (rt_tx s2) !! a.
Proof.
  intros s1 s2. unfold measurements, set_tx. split.
  - intros H. injection H as H1 H2 H3 H4 H5 H6 H7 H8 H9 H10 H11 H12 H13. split; [repeat split; assumption|]. intros a.
    match goal with H : (bare <$> tx_sov _) = _ |- _ => pose proof (f_equal (lookup a) H) as Ha end. rewrite !lookup_fmap in Ha.
    destruct (tx_sov (rt_tx s1) !! a) as [e1|], (tx_sov (rt_tx s2) !! a) as [e2|]; try discriminate; [|reflexivity].
    unfold bare in Ha. injection Ha as Ha. cbn. rewrite Ha. reflexivity.
  - intros [H Ha]. destruct H as (H1 & H2 & H3 & H4 & H5 & H6 & H7 & H8 & H9 & H10 & H11 & H12).
    assert (bare <$> tx_sov (rt_tx s1) = bare <$> tx_sov (rt_tx s2)) as Hb.
    { apply map_eq. intros a. rewrite !lookup_fmap. specialize (Ha a).
      destruct (tx_sov (rt_tx s1) !! a) as [e1|], (tx_sov (rt_tx s2) !! a) as [e2|]; try discriminate; [|reflexivity].
      injection Ha as Ha. cbn. unfold bare. rewrite Ha. reflexivity. }
    rewrite Hb. f_equal; assumption.
Qed.
Print Assumptions C77_agreement_is_about_the_registry_only.
(** So an enclave keeps its powers when its attestation has expired, ... *)
Theorem C77_expired_enclaves_lose_their_powers_refuted : exists c g l a e sh benef v h,
  let s := after c g l in
  tx_sov (rt_tx s) !! a = Some e /\ en_timestamp e + 100 * c_renewal c < rt_now s /\ sh <> benef /\
  (dispatch c (Signed a) (CEb (EbUnshield sh benef v h)) s).1 = Success /\
  free (dispatch c (Signed a) (CEb (EbUnshield sh benef v h)) s).2 (vault sh) + v = free s (vault sh) /\ 0 < v.
Proof.
  exists cfg0, (gen0 [alice; bob]), (base_hist ++ [ONextBlock 100000000000]), alice,
    (mkEnclave (alice ++ zeros 32) (acc 9) (zeros 32) 5000 None MProduction (MSkip false) StInvalid), shard9, bob, 300, (acc 77).
  vm_compute. repeat split; congruence.
Qed.
Print Assumptions C77_expired_enclaves_lose_their_powers_refuted.
(** ... when root forbids what it was registered with, ... *)
Theorem C77_forbidding_revokes_refuted : exists c g l a e sh benef v h,
  let s := after c g l in
  tx_sov (rt_tx s) !! a = Some e /\ en_method e = MSkip false /\
  tx_allow_skip (rt_tx s) = false /\ tx_allow_debug (rt_tx s) = false /\
  (dispatch c (Signed a) (CEb (EbUnshield sh benef v h)) s).1 = Success /\
  free (dispatch c (Signed a) (CEb (EbUnshield sh benef v h)) s).2 (vault sh) + v = free s (vault sh) /\ 0 < v.
Proof.
  exists cfg0, (gen0 [alice; bob]), (base_hist ++ [OCall Root (CTx (TxSetFlags false false))]), alice,
    (mkEnclave (alice ++ zeros 32) (acc 9) (zeros 32) 5000 None MProduction (MSkip false) StInvalid), shard9, bob, 300, (acc 77).
  vm_compute. repeat split; congruence.
Qed.
Print Assumptions C77_forbidding_revokes_refuted.
(** ... and whatever its status. *)
Definition history_outdated : list op :=
  [reg_qe 100 9000 7; reg_tcb 100 9000 11; OCall Root (CTx (TxSetFlags false true)); reg_dcap_op alice (acc 77) 2 false;
   OCall Root (CTx (TxSetFlags false false)); OMint carol 100000; OCall (Signed carol) (CEb (EbShield (acc 77) [1; 2] 5000))].
Theorem C77_status_restricts_powers_refuted : exists c g l a e sh benef v h,
  let s := after c g l in
  tx_sov (rt_tx s) !! a = Some e /\ en_status e = StGroupOutOfDate /\ en_build_mode e = MDebug /\
  (dispatch c (Signed a) (CEb (EbUnshield sh benef v h)) s).1 = Success /\
  free (dispatch c (Signed a) (CEb (EbUnshield sh benef v h)) s).2 (vault sh) + v = free s (vault sh) /\ 0 < v.
Proof.
  exists cfg_dcap, (gen0 [alice; bob]), history_outdated, alice,
    (mkEnclave (alice ++ zeros 32) (acc 77) (zeros 32) 5000 None MDebug (MDcap false) StGroupOutOfDate), (acc 77), bob, 300, (acc 78).
  vm_compute. repeat split; congruence.
Qed.
Print Assumptions C77_status_restricts_powers_refuted.
(** Two states with different registries in agreement *)
Example C77_example :
  let s1 := after cfg_dcap (gen0 [alice; bob]) (history_outdated) in
  let s2 := after cfg_dcap (gen0 [alice; bob]) (history_outdated ++ [OCall Root (CTx (TxSetFlags true false)); OCall (Signed alice) (CTx (TxRegister (acc 77) None (MSkip false)))]) in
  rt_tx s1 <> rt_tx s2 /\
  forall a, en_mr_enclave <$> tx_sov (rt_tx s1) !! a = en_mr_enclave <$> tx_sov (rt_tx s2) !! a.
Proof.
  cbn zeta. split; [vm_compute; congruence|].
  intros a. rewrite <- !lookup_fmap.
  f_equal.
Qed.

(** ** Examples for C76 *)
Definition gen_strict : genesis := mkGenesis 5000 (list_to_map [(alice, 1000); (bob, 1000)]) [] [] false false ∅.
Definition history_strict : list op :=
  [reg_qe 100 9000 7; reg_tcb 100 9000 11; reg_dcap_op alice (acc 77) 0 false; OMint carol 100000;
   OCall (Signed carol) (CEb (EbShield (acc 77) [1; 2] 5000))].
(** A payout on a chain that never allowed skipping: the hypotheses of C76_payouts_are_backed_by_a_measurement
    are met *)
Example C76_example :
  let s := after cfg_dcap gen_strict history_strict in
  let x := OCall (Signed alice) (CEb (EbUnshield (acc 77) bob 300 (acc 78))) in
  json_levels_typed (c_sgx cfg_dcap) /\ g_skip gen_strict = false /\
  (forall d, ~ OCall Root (CTx (TxSetFlags true d)) ∈ history_strict) /\
  free (step cfg_dcap s x) (vault (acc 77)) < free s (vault (acc 77)) /\ operator s (acc 77) (rt_blk s) = acc 77.
Proof.
  cbn zeta. split; [exact (proj1 C34_example)|]. split; [reflexivity|]. split.
  - intros d H. unfold history_strict, reg_qe, reg_tcb, reg_dcap_op in H.
    repeat (apply elem_of_cons in H as [H|H]; [discriminate H|]). apply elem_of_nil in H. exact H.
  - vm_compute. split; reflexivity.
Qed.
(** The evidence of that enclave: positions in the history *)
Example C76_example_positions :
  accepted_at cfg_dcap gen_strict history_strict (take 2 history_strict) (Signed alice)
    (CTx (TxRegister (quote_demo (acc 77) alice 0) None (MDcap false))) /\
  accepted_at cfg_dcap gen_strict history_strict [] (Signed carol) (CTx (TxRegisterQe [100; 9000; 7] (zeros 64) pem_demo)).
Proof. split; (split; [eexists; reflexivity|vm_compute; reflexivity]). Qed.
