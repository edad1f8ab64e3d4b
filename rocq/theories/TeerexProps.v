(** * Properties of pallet teerex: C28-C34, C38 and the panic-freedom of registration (C36). *)
From Verif Require Import Base State Env TeerdaysModel TeerexBase SgxVerifyModel TeerexModel
  EnclaveBridgeModel SidechainModel TeeracleModel ClaimsModel AssetRegistryModel XcmTransactorModel
  Runtime Frame EnvFacts Panic SgxProofs TeerexProofs SgxProps Examples.

(** ** Examples: a configuration with a working DCAP verifier *)
Definition cfg_dcap : cfg :=
  mkCfg true 10 340282366920938463463374607431768211455 u32_max 1000 86400000 172800000 3 64
        [] (fun _ => false) (fun _ => false) (fun _ => false) 2267 2039 2039
        (fun b => takeN 32 (b ++ zeros 32)) (fun _ _ => None) (fun _ => inr []) sgx_demo.
(** Collateral registration with dates [i], [n] and smallest security version [svn] *)
Definition reg_qe (i n svn : N) : op := OCall (Signed carol) (CTx (TxRegisterQe [i; n; svn] (zeros 64) pem_demo)).
Definition reg_tcb (i n svn : N) : op := OCall (Signed carol) (CTx (TxRegisterTcb [i; n; svn] (zeros 64) pem_demo)).
Definition reg_dcap_op (a mre : bytes) (flags : N) (proxied : bool) : op :=
  OCall (Signed a) (CTx (TxRegister (quote_demo mre a flags) None (MDcap proxied))).
Definition history_dcap : list op := [reg_qe 100 9000 7; reg_tcb 100 9000 11; reg_dcap_op alice (acc 77) 0 false].

(** ** Storage changes of a step *)
Lemma tx_step c s x : rt_tx (step c s x) = rt_tx s \/
  exists o k, x = OCall o (CTx k) /\ tx_exec c o k s = Ok tt (step c s x).
Proof.
  destruct (op_may_write x PTx) eqn:Hw; [|left; exact (step_same c s x PTx Hw)].
  destruct x as [o k| | | | | | | | | |]; try discriminate Hw.
  destruct (step_call c s o k) as [(s' & E & Es)|Es]; [|left; rewrite Es; auto].
  destruct k as [x|x|x|x|x|x|x|x]; try discriminate Hw; cbn [exec] in E. right. exists o, x. rewrite Es. auto.
Qed.
Lemma now_step c o k s s' : tx_exec c o k s = Ok tt s' -> rt_now s' = rt_now s.
Proof. intros H. destruct (call_clock c o (CTx k) s s' H); auto. Qed.
Ltac tx_cases H :=
  let k := fresh "k" in
  match type of H with tx_exec _ _ ?x _ = _ => destruct x; cbn [tx_exec] in H end.
Lemma store_sov a e s : tx_sov (rt_tx (store_enclave a e s)) = if is_proxied e then tx_sov (rt_tx s) else <[a := e]> (tx_sov (rt_tx s)).
Proof. unfold store_enclave. destruct (is_proxied e); reflexivity. Qed.
Lemma store_prox a e s : tx_prox (rt_tx (store_enclave a e s)) =
  if is_proxied e then <[(en_mr_enclave e, a, inl (en_report_data e ++ zeros 2)) := e]> (tx_prox (rt_tx s)) else tx_prox (rt_tx s).
Proof. unfold store_enclave. destruct (is_proxied e); reflexivity. Qed.

(** The registry of sovereign enclaves after a step: unchanged at [a], removed, or registered by [a] *)
Lemma sov_step c s x a :
  tx_sov (rt_tx (step c s x)) !! a = tx_sov (rt_tx s) !! a \/
  (exists o e, x = OCall o (CTx (TxUnregisterSovereign a)) /\ tx_sov (rt_tx s) !! a = Some e /\
     en_timestamp e < rt_now s - c_renewal c /\ tx_sov (rt_tx (step c s x)) !! a = None) \/
  (exists p u m e, x = OCall (Signed a) (CTx (TxRegister p u m)) /\
     dispatch c (Signed a) (CTx (TxRegister p u m)) s = (Success, step c s x) /\
     attested c s a p m e /\ is_proxied e = false /\
     (en_build_mode e = MDebug -> tx_allow_debug (rt_tx s) = true) /\
     tx_sov (rt_tx (step c s x)) !! a = Some (with_url e u)).
Proof.
  destruct (tx_step c s x) as [E|(o & k & -> & E)]; [left; rewrite E; auto|].
  set (s' := step c s (OCall o (CTx k))) in *. destruct k; cbn [tx_exec] in E; pose proof E as E0.
  - apply register_ok in E as (b & e & -> & Ha & Hd & _ & _ & Es). rewrite Es. cbn [rt_tx add_ev]. rewrite store_sov, is_proxied_url.
    destruct (is_proxied e) eqn:Ep; [left; auto|]. destruct (decide (b = a)) as [->|Hn].
    + right. right. exists proof, url, m, e. split; [auto|]. split.
      { rewrite <- Es. unfold dispatch, run_call. cbn [exec tx_exec]. rewrite E0. auto. }
      split; [auto|]. split; [auto|]. split; [auto|]. rewrite lookup_insert. auto.
    + left. rewrite lookup_insert_ne by auto. auto.
  - apply unreg_sov_ok in E as (b & e & -> & H1 & H2 & Es). rewrite Es. cbn. destruct (decide (who = a)) as [->|Hn].
    + right. left. exists (Signed b), e. rewrite lookup_delete. auto.
    + left. rewrite lookup_delete_ne by auto. auto.
  - apply unreg_prox_ok in E as (b & e & -> & _ & _ & Es). rewrite Es. left. auto.
  - apply reg_qe_ok in E as (b & d & _ & _ & _ & _ & _ & _ & Es). rewrite Es. left. auto.
  - apply reg_tcb_ok in E as (b & d & _ & _ & _ & _ & _ & _ & Es). rewrite Es. left. auto.
  - apply set_flags_ok in E as (_ & Es). rewrite Es. left. auto.
Qed.
Lemma prox_step c s x (k : eaddr) :
  tx_prox (rt_tx (step c s x)) !! k = tx_prox (rt_tx s) !! k \/
  (exists o e, x = OCall o (CTx (TxUnregisterProxied k)) /\ tx_prox (rt_tx s) !! k = Some e /\
     en_timestamp e < rt_now s - c_renewal c /\ tx_prox (rt_tx (step c s x)) !! k = None) \/
  (exists a p u m e, x = OCall (Signed a) (CTx (TxRegister p u m)) /\
     dispatch c (Signed a) (CTx (TxRegister p u m)) s = (Success, step c s x) /\
     attested c s a p m e /\ is_proxied e = true /\
     (en_build_mode e = MDebug -> tx_allow_debug (rt_tx s) = true) /\
     k = (en_mr_enclave e, a, inl (en_report_data e ++ zeros 2)) /\
     tx_prox (rt_tx (step c s x)) !! k = Some (with_url e u)).
Proof.
  destruct (tx_step c s x) as [E|(o & y & -> & E)]; [left; rewrite E; auto|].
  set (s' := step c s (OCall o (CTx y))) in *. destruct y; cbn [tx_exec] in E; pose proof E as E0.
  - apply register_ok in E as (b & e & -> & Ha & Hd & _ & _ & Es). rewrite Es. cbn [rt_tx add_ev].
    rewrite store_prox, is_proxied_url, mre_url, report_url.
    destruct (is_proxied e) eqn:Ep; [|left; auto].
    destruct (decide ((en_mr_enclave e, b, inl (en_report_data e ++ zeros 2)) = k)) as [<-|Hn].
    + right. right. exists b, proof, url, m, e. split; [auto|]. split.
      { rewrite <- Es. unfold dispatch, run_call. cbn [exec tx_exec]. rewrite E0. auto. }
      repeat (split; [auto; fail|]). rewrite lookup_insert. auto.
    + left. rewrite lookup_insert_ne by auto. auto.
  - apply unreg_sov_ok in E as (b & e & -> & _ & _ & Es). rewrite Es. left. auto.
  - apply unreg_prox_ok in E as (b & e & -> & H1 & H2 & Es). rewrite Es. cbn. destruct (decide (a = k)) as [->|Hn].
    + right. left. exists (Signed b), e. rewrite lookup_delete. auto.
    + left. rewrite lookup_delete_ne by auto. auto.
  - apply reg_qe_ok in E as (b & d & _ & _ & _ & _ & _ & _ & Es). rewrite Es. left. auto.
  - apply reg_tcb_ok in E as (b & d & _ & _ & _ & _ & _ & _ & Es). rewrite Es. left. auto.
  - apply set_flags_ok in E as (_ & Es). rewrite Es. left. auto.
Qed.


(** ** C28 *)
Definition signers_are_32_bytes (x : op) : Prop := match x with OCall (Signed a) _ => lenN a = 32 | _ => True end.
Theorem C28_sovereign_registration_belongs_to_attested_key : forall c g l (a : acct) e,
  Forall signers_are_32_bytes l ->
  tx_sov (rt_tx (run c (genesis_state g) l)) !! a = Some e ->
  en_method e <> MSkip true /\ en_method e <> MDcap true /\ takeN 32 (en_report_data e) = a.
Proof.
  intros c g l a e Hl. revert a e.
  apply (run_inv c (fun s => forall (a : acct) e, tx_sov (rt_tx s) !! a = Some e ->
     en_method e <> MSkip true /\ en_method e <> MDcap true /\ takeN 32 (en_report_data e) = a) signers_are_32_bytes); [| |auto].
  - intros s x Hs Hx a e H. destruct (sov_step c s x a) as [E|[(o & e' & -> & _ & _ & E)|(p & u & m & e' & -> & _ & Ha & Hp & _ & E)]].
    + rewrite E in H. exact (Hs a e H).
    + congruence.
    + rewrite E in H. inversion H; subst e. rewrite method_url, report_url. unfold is_proxied in Hp. cbn in Hx.
      split; [intros Em; rewrite Em in Hp; discriminate|]. split; [intros Em; rewrite Em in Hp; discriminate|].
      destruct Ha as [r _ _ _ ->|p' fm tcb r ref st _ Ha _ _|p' _ _]; cbn in *; auto.
      * destruct p'; [discriminate|]. symmetry. auto.
      * apply takeN_app. auto.
  - intros a' e'. cbn. rewrite lookup_empty. discriminate.
Qed.
Print Assumptions C28_sovereign_registration_belongs_to_attested_key.
Example C28_example : exists e, tx_sov (rt_tx (run cfg_dcap (genesis_state (gen0 [alice])) history_dcap)) !! alice = Some e /\
  en_method e = MDcap false /\ en_mr_enclave e = acc 77 /\ en_status e = StGroupOutOfDate.
Proof. vm_compute. eexists. repeat split; reflexivity. Qed.

(** The signer that the primitives read off a registered enclave is the account it is filed under; of a
    proxied enclave it is the last component of the key. *)
Theorem C28_the_signer_of_an_enclave_is_its_key : forall c g l, let s := run c (genesis_state g) l in
  (Forall signers_are_32_bytes l -> forall (a : acct) e, tx_sov (rt_tx s) !! a = Some e -> instance_signer e = inr a) /\
  (forall (k : eaddr) e, tx_prox (rt_tx s) !! k = Some e -> k.2 = instance_signer e).
Proof.
  intros c g l s. split.
  - intros Hl a e H. apply (C28_sovereign_registration_belongs_to_attested_key c g l a e Hl) in H as (H1 & H2 & H3).
    unfold instance_signer, is_proxied. rewrite H3. destruct (en_method e) as [[]| |[]] eqn:Em; try (destruct (H1 eq_refl)); try (destruct (H2 eq_refl)); reflexivity.
  - subst s. apply (run_inv' c (fun s => forall (k : eaddr) e, tx_prox (rt_tx s) !! k = Some e -> k.2 = instance_signer e)).
    + intros s x Hs k e H.
      destruct (prox_step c s x k) as [E|[(o & e' & -> & _ & _ & E)|(b & p & u & m & e' & -> & _ & Ha & Hp & _ & Ek & E)]].
      * rewrite E in H. exact (Hs k e H).
      * congruence.
      * rewrite E in H. inversion H; subst e. subst k. cbn [snd]. unfold instance_signer. rewrite is_proxied_url, Hp, report_url. reflexivity.
    + intros k e. cbn. rewrite lookup_empty. discriminate.
Qed.
Print Assumptions C28_the_signer_of_an_enclave_is_its_key.

(** ** C29 *)
(** [k] is the key (fingerprint, registrar, instance signer) *)
Theorem C29_proxied_key_is_content_and_registrar : forall c g l (k : eaddr) e,
  tx_prox (rt_tx (run c (genesis_state g) l)) !! k = Some e ->
  (en_method e = MSkip true \/ en_method e = MDcap true) /\ k.1.1 = en_mr_enclave e /\ k.2 = inl (en_report_data e ++ zeros 2).
Proof.
  intros c g l. apply (run_inv' c (fun s => forall (k : eaddr) e, tx_prox (rt_tx s) !! k = Some e ->
    (en_method e = MSkip true \/ en_method e = MDcap true) /\ k.1.1 = en_mr_enclave e /\ k.2 = inl (en_report_data e ++ zeros 2))).
  - intros s x Hs k e H.
    destruct (prox_step c s x k) as [E|[(o & e' & -> & _ & _ & E)|(b & p & u & m & e' & -> & _ & Ha & Hp & _ & Ek & E)]].
    + rewrite E in H. exact (Hs k e H).
    + congruence.
    + rewrite E in H. inversion H; subst e. subst k. cbn [fst snd]. rewrite method_url, report_url, mre_url.
      split; [|auto]. unfold is_proxied in Hp. destruct (en_method e') as [[]| |[]]; auto; discriminate.
  - intros k e. cbn. rewrite lookup_empty. discriminate.
Qed.
Print Assumptions C29_proxied_key_is_content_and_registrar.
(** Entries appear or change only by a successful registration signed by their registrar. *)
Theorem C29_only_the_registrar_writes_proxied : forall c s x (k : eaddr) e,
  tx_prox (rt_tx (step c s x)) !! k = Some e -> tx_prox (rt_tx s) !! k <> Some e ->
  exists p u m, x = OCall (Signed k.1.2) (CTx (TxRegister p u m)) /\
  dispatch c (Signed k.1.2) (CTx (TxRegister p u m)) s = (Success, step c s x).
Proof.
  intros c s x k e H Hn.
  destruct (prox_step c s x k) as [E|[(o & e' & -> & _ & _ & E)|(b & p & u & m & e' & Ex & Ed & _ & _ & _ & Ek & E)]].
  - congruence.
  - congruence.
  - subst k. cbn [fst snd]. exists p, u, m. auto.
Qed.
Print Assumptions C29_only_the_registrar_writes_proxied.
Theorem C29_only_the_account_writes_sovereign : forall c s x (a : acct) e,
  tx_sov (rt_tx (step c s x)) !! a = Some e -> tx_sov (rt_tx s) !! a <> Some e ->
  exists p u m, x = OCall (Signed a) (CTx (TxRegister p u m)) /\
  dispatch c (Signed a) (CTx (TxRegister p u m)) s = (Success, step c s x).
Proof.
  intros c s x a e H Hn. destruct (sov_step c s x a) as [E|[(o & e' & -> & _ & _ & E)|(p & u & m & e' & Ex & Ed & _)]].
  - congruence.
  - congruence.
  - exists p, u, m. auto.
Qed.
Print Assumptions C29_only_the_account_writes_sovereign.
Example C29_example : let s := run cfg_dcap (genesis_state (gen0 [alice])) [reg_qe 100 9000 7; reg_tcb 100 9000 11] in
  let x := OCall (Signed bob) (CTx (TxRegister (quote_demo (acc 77) alice 0) None (MDcap true))) in
  exists e, tx_prox (rt_tx (step cfg_dcap s x)) !! (acc 77, bob, inl (alice ++ zeros 34)) = Some e /\
  tx_prox (rt_tx s) !! (acc 77, bob, inl (alice ++ zeros 34)) = None.
Proof. vm_compute. eexists. repeat split; reflexivity. Qed.

(** ** C30 *)
Theorem C30_skipping_needs_the_flag : forall c o p u proxied s s',
  dispatch c o (CTx (TxRegister p u (MSkip proxied))) s = (Success, s') -> tx_allow_skip (rt_tx s) = true.
Proof.
  intros c o p u pr s s' H. apply run_call_ok in H. cbn [exec tx_exec] in H.
  apply register_ok in H as (a & e & _ & Ha & _). inversion Ha; subst. auto.
Qed.
Print Assumptions C30_skipping_needs_the_flag.
(** Whatever debug enclave a step adds to the registry, debug mode was allowed. *)
Theorem C30_debug_enclave_needs_the_flag : forall c s x e, en_build_mode e = MDebug ->
  (exists a : acct, tx_sov (rt_tx (step c s x)) !! a = Some e /\ tx_sov (rt_tx s) !! a <> Some e) \/
  (exists k : eaddr, tx_prox (rt_tx (step c s x)) !! k = Some e /\ tx_prox (rt_tx s) !! k <> Some e) ->
  tx_allow_debug (rt_tx s) = true.
Proof.
  intros c s x e He [(a & H & Hn)|(k & H & Hn)].
  - destruct (sov_step c s x a) as [E|[(o & e' & -> & _ & _ & E)|(p & u & m & e' & Ex & Ed & _ & _ & Hd & E)]]; try congruence.
    rewrite E in H. inversion H; subst e. rewrite mode_url in He. auto.
  - destruct (prox_step c s x k) as [E|[(o & e' & -> & _ & _ & E)|(a & p & u & m & e' & Ex & Ed & _ & _ & Hd & _ & E)]]; try congruence.
    rewrite E in H. inversion H; subst e. rewrite mode_url in He. auto.
Qed.
Print Assumptions C30_debug_enclave_needs_the_flag.
(** In terms of the quote's bytes: bit 1 of the attribute flags (bytes 96 to 103) is the debug flag. *)
Theorem C30_debug_quote_needs_the_flag : forall c o p u proxied s s',
  dispatch c o (CTx (TxRegister p u (MDcap proxied))) s = (Success, s') ->
  N.testbit (le_val (sub_ 96 8 p)) 1 = true -> tx_allow_debug (rt_tx s) = true.
Proof.
  intros c o p u pr s s' H Hb. apply run_call_ok in H. cbn [exec tx_exec] in H.
  apply register_ok in H as (a & e & _ & Ha & Hd & _).
  inversion Ha as [|p' fm tcb r ref st Hv Hs Hf Ht Ep Ee|]; subst. apply Hd. cbn.
  apply verify_dcap_iff in Hv as (q & Hq & -> & _ & ->). unfold parts_report. cbn [vr_build_mode].
  rewrite build_mode_bit. destruct Hq as (L1 & L2 & _).
  assert (sub_ 48 8 (qp_body q) = sub_ 96 8 (parts_bytes q [])) as ->; [|rewrite Hb; auto].
  unfold sub_, parts_bytes. change 96 with (48 + 48). rewrite dropN_add, dropN_app by auto.
  unfold dropN, takeN. rewrite drop_app_le by (unfold lenN in L2; lia).
  rewrite take_app_le; [auto|]. rewrite drop_length. unfold lenN in L2. lia.
Qed.
Print Assumptions C30_debug_quote_needs_the_flag.
Theorem C30_only_root_changes_the_flags : forall c s x,
  (tx_allow_skip (rt_tx (step c s x)), tx_allow_debug (rt_tx (step c s x))) <> (tx_allow_skip (rt_tx s), tx_allow_debug (rt_tx s)) ->
  exists sk d, x = OCall Root (CTx (TxSetFlags sk d)) /\
  tx_allow_skip (rt_tx (step c s x)) = sk /\ tx_allow_debug (rt_tx (step c s x)) = d.
Proof.
  intros c s x H. destruct (tx_step c s x) as [E|(o & y & -> & E)]; [rewrite E in H; contradiction|].
  set (s' := step c s (OCall o (CTx y))) in *. destruct y; cbn [tx_exec] in E.
  - apply register_ok in E as (b & e & -> & _ & _ & _ & _ & Es). exfalso. apply H. rewrite Es. unfold store_enclave.
    destruct (is_proxied (with_url e url)); reflexivity.
  - apply unreg_sov_ok in E as (b & e & -> & _ & _ & Es). rewrite Es in H. contradiction.
  - apply unreg_prox_ok in E as (b & e & -> & _ & _ & Es). rewrite Es in H. contradiction.
  - apply reg_qe_ok in E as (b & d & _ & _ & _ & _ & _ & _ & Es). rewrite Es in H. contradiction.
  - apply reg_tcb_ok in E as (b & d & _ & _ & _ & _ & _ & _ & Es). rewrite Es in H. contradiction.
  - apply set_flags_ok in E as (-> & Es). exists skip, debug. rewrite Es. auto.
Qed.
Print Assumptions C30_only_root_changes_the_flags.
(** A chain that never allows skipping (debug mode) has no such enclave. *)
Theorem C30_never_allowed_never_stored : forall c g l,
  g_skip g = false -> g_debug g = false -> (forall sk d, ~ OCall Root (CTx (TxSetFlags sk d)) ∈ l) ->
  let s := run c (genesis_state g) l in
  forall e, (exists a : acct, tx_sov (rt_tx s) !! a = Some e) \/ (exists k : eaddr, tx_prox (rt_tx s) !! k = Some e) ->
  en_build_mode e = MProduction /\ forall p, en_method e <> MSkip p.
Proof.
  intros c g l H1 H2 Hl.
  set (P := fun s => tx_allow_skip (rt_tx s) = false /\ tx_allow_debug (rt_tx s) = false /\
    forall e, (exists a : acct, tx_sov (rt_tx s) !! a = Some e) \/ (exists k : eaddr, tx_prox (rt_tx s) !! k = Some e) ->
    en_build_mode e = MProduction /\ forall p, en_method e <> MSkip p).
  enough (P (run c (genesis_state g) l)) as (_ & _ & H) by exact H.
  apply (run_inv c P (fun x => forall sk d, x <> OCall Root (CTx (TxSetFlags sk d)))).
  - intros s x (A1 & A2 & A3) Hx.
    assert ((tx_allow_skip (rt_tx (step c s x)), tx_allow_debug (rt_tx (step c s x))) = (tx_allow_skip (rt_tx s), tx_allow_debug (rt_tx s))) as Hf.
    { destruct (decide ((tx_allow_skip (rt_tx (step c s x)), tx_allow_debug (rt_tx (step c s x))) = (tx_allow_skip (rt_tx s), tx_allow_debug (rt_tx s)))) as [E|E]; [auto|].
      apply C30_only_root_changes_the_flags in E as (sk & d & E & _). exfalso. exact (Hx sk d E). }
    inversion Hf as [[F1 F2]]. split; [congruence|]. split; [congruence|].
    assert (forall a p m e u, attested c s a p m e -> (en_build_mode e = MDebug -> tx_allow_debug (rt_tx s) = true) ->
       en_build_mode (with_url e u) = MProduction /\ forall q, en_method (with_url e u) <> MSkip q) as HA.
    { intros a p m e u Ha Hd. rewrite mode_url, method_url. split.
      - destruct (en_build_mode e); [|auto]. rewrite Hd in A2 by auto. discriminate.
      - intros q Eq. destruct Ha as [ | |q' Hq _]; cbn in Eq; congruence. }
    intros e [(a & He)|(k & He)].
    + destruct (sov_step c s x a) as [E|[(o & e' & -> & _ & _ & E)|(p & u & m & e' & Ex & Ed & Ha & _ & Hd & E)]]; try congruence.
      * apply A3. left. exists a. congruence.
      * rewrite E in He. inversion He; subst e. eapply HA; eauto.
    + destruct (prox_step c s x k) as [E|[(o & e' & -> & _ & _ & E)|(a & p & u & m & e' & Ex & Ed & Ha & _ & Hd & _ & E)]]; try congruence.
      * apply A3. right. exists k. congruence.
      * rewrite E in He. inversion He; subst e. eapply HA; eauto.
  - split; [auto|]. split; [auto|]. intros e [(a & He)|(k & He)]; cbn in He; rewrite lookup_empty in He; discriminate.
  - apply Forall_forall. intros x Hx sk d ->. exact (Hl sk d Hx).
Qed.
Print Assumptions C30_never_allowed_never_stored.
Example C30_example : (dispatch cfg_dcap (Signed alice) (CTx (TxRegister (quote_demo (acc 77) alice 2) None (MDcap false)))
    (run cfg_dcap (genesis_state (gen0 [alice])) [reg_qe 100 9000 7; reg_tcb 100 9000 11])).1 = Failed SgxModeIsNotAllowed /\
  (dispatch cfg_dcap (Signed alice) (CTx (TxRegister (quote_demo (acc 77) alice 2) None (MDcap false)))
    (run cfg_dcap (genesis_state (gen0 [alice])) [reg_qe 100 9000 7; reg_tcb 100 9000 11;
       OCall Root (CTx (TxSetFlags false true))])).1 = Success.
Proof. vm_compute. split; reflexivity. Qed.

(** ** C31 *)
Definition registers (a : acct) (c : cfg) (s : rt) (x : op) : Prop :=
  exists p u m, x = OCall (Signed a) (CTx (TxRegister p u m)) /\ (dispatch c (Signed a) (CTx (TxRegister p u m)) s).1 = Success.
Theorem C31_active_sovereign_enclave_stays : forall c s l (a : acct) e,
  tx_sov (rt_tx s) !! a = Some e ->
  rt_now (run c s l) <= en_timestamp e + c_renewal c ->
  tx_sov (rt_tx (run c s l)) !! a = Some e \/
  exists l1 x l2, l = l1 ++ x :: l2 /\ registers a c (run c s l1) x.
Proof.
  intros c s l a e He. induction l as [|x l IH] using rev_ind; intros Ht; [left; auto|].
  rewrite run_snoc in *. destruct (clock_step c (run c s l) x) as [Hc _].
  destruct IH as [IH|(l1 & y & l2 & -> & Hr)]; [lia| |right; exists l1, y, (l2 ++ [x]); split; [rewrite <- app_assoc; auto|auto]].
  destruct (sov_step c (run c s l) x a) as [E|[(o & e' & -> & H1 & H2 & _)|(p & u & m & e' & Ex & Ed & _)]].
  - left. congruence.
  - exfalso. assert (e' = e) as -> by congruence. lia.
  - right. exists l, x, []. split; [auto|]. exists p, u, m. rewrite Ed. auto.
Qed.
Print Assumptions C31_active_sovereign_enclave_stays.
Theorem C31_active_proxied_enclave_stays : forall c s l (k : eaddr) e,
  tx_prox (rt_tx s) !! k = Some e ->
  rt_now (run c s l) <= en_timestamp e + c_renewal c ->
  tx_prox (rt_tx (run c s l)) !! k = Some e \/
  exists l1 x l2, l = l1 ++ x :: l2 /\ registers k.1.2 c (run c s l1) x.
Proof.
  intros c s l k e He. induction l as [|x l IH] using rev_ind; intros Ht; [left; auto|].
  rewrite run_snoc in *. destruct (clock_step c (run c s l) x) as [Hc _].
  destruct IH as [IH|(l1 & y & l2 & -> & Hr)]; [lia| |right; exists l1, y, (l2 ++ [x]); split; [rewrite <- app_assoc; auto|auto]].
  destruct (prox_step c (run c s l) x k) as [E|[(o & e' & -> & H1 & H2 & _)|(b & p & u & m & e' & Ex & Ed & _ & _ & _ & Ek & _)]].
  - left. congruence.
  - exfalso. assert (e' = e) as -> by congruence. lia.
  - right. exists l, x, []. subst k. split; [auto|]. exists p, u, m. cbn [fst snd]. rewrite Ed. auto.
Qed.
Print Assumptions C31_active_proxied_enclave_stays.
(** Exactly the expired ones can be removed, by any signed account. *)
Theorem C31_anyone_removes_exactly_expired : forall c b s,
  (forall w, (dispatch c (Signed b) (CTx (TxUnregisterSovereign w)) s).1 = Success <->
    exists e, tx_sov (rt_tx s) !! w = Some e /\ en_timestamp e + c_renewal c < rt_now s) /\
  (forall k, (dispatch c (Signed b) (CTx (TxUnregisterProxied k)) s).1 = Success <->
    exists e, tx_prox (rt_tx s) !! k = Some e /\ en_timestamp e + c_renewal c < rt_now s).
Proof.
  intros c b s. split.
  - intros w. unfold dispatch, run_call. cbn [exec tx_exec]. unfold unregister_sovereign, sat_sub, bind, ensure_signed, gets, ret.
    destruct (tx_sov (rt_tx s) !! w) as [e|]; cbn [ok_or].
    + unfold ret, ensure. destruct (N.ltb_spec (en_timestamp e) (rt_now s - c_renewal c)) as [H|H]; cbn.
      * split; [|auto]. intros _. exists e. split; [auto|lia].
      * split; [discriminate|]. intros (e' & E & H'). inversion E; subst. lia.
    + cbn. split; [discriminate|]. intros (e & E & _). discriminate E.
  - intros w. unfold dispatch, run_call. cbn [exec tx_exec]. unfold unregister_proxied, sat_sub, bind, ensure_signed, gets, ret.
    destruct (tx_prox (rt_tx s) !! w) as [e|]; cbn [ok_or].
    + unfold ret, ensure. destruct (N.ltb_spec (en_timestamp e) (rt_now s - c_renewal c)) as [H|H]; cbn.
      * split; [|auto]. intros _. exists e. split; [auto|lia].
      * split; [discriminate|]. intros (e' & E & H'). inversion E; subst. lia.
    + cbn. split; [discriminate|]. intros (e & E & _). discriminate E.
Qed.
Print Assumptions C31_anyone_removes_exactly_expired.
Theorem C31_removal_removes_only_the_subject : forall c o w s s',
  dispatch c o (CTx (TxUnregisterSovereign w)) s = (Success, s') ->
  tx_sov (rt_tx s') = delete w (tx_sov (rt_tx s)) /\ tx_prox (rt_tx s') = tx_prox (rt_tx s).
Proof.
  intros c o w s s' H. apply run_call_ok in H. cbn [exec tx_exec] in H.
  apply unreg_sov_ok in H as (a & e & _ & _ & _ & ->). auto.
Qed.
Print Assumptions C31_removal_removes_only_the_subject.
Example C31_example :
  let s := run cfg0 (genesis_state (gen0 [alice])) [register alice (acc 77); ONextBlock 172800000] in
  (dispatch cfg0 (Signed bob) (CTx (TxUnregisterSovereign alice)) s).1 = Failed UnregisterActiveEnclaveIsNotAllowed /\
  (dispatch cfg0 (Signed bob) (CTx (TxUnregisterSovereign alice)) (step cfg0 s (ONextBlock 1))).1 = Success.
Proof. vm_compute. split; reflexivity. Qed.

(** ** C32 *)
Theorem C32_ias_timestamp_is_fresh : forall c a p u s s',
  dispatch c (Signed a) (CTx (TxRegister p u MIas)) s = (Success, s') ->
  exists e r, tx_sov (rt_tx s') !! a = Some e /\ verify_ias_report (c_sgx c) p = ROk r /\
  en_timestamp e = vr_timestamp r /\ en_timestamp e <= rt_now s < en_timestamp e + c_day c.
Proof.
  intros c a p u s s' H. apply run_call_ok in H. cbn [exec tx_exec] in H.
  apply register_ok in H as (b & e & Eb & Ha & _ & _ & _ & ->). inversion Eb; subst b.
  inversion Ha as [r Hv H1 H2 Hs Em Ee| |]; subst m e || subst e.
  eexists _, r. cbn [rt_tx add_ev]. rewrite store_sov, is_proxied_url. cbn [is_proxied en_method new_enclave].
  rewrite lookup_insert. split; [reflexivity|]. rewrite time_url. cbn. repeat split; auto; lia.
Qed.
Print Assumptions C32_ias_timestamp_is_fresh.
Theorem C32_timestamps_never_in_the_future : forall c g l, let s := run c (genesis_state g) l in
  (forall (a : acct) e, tx_sov (rt_tx s) !! a = Some e -> en_timestamp e <= rt_now s) /\
  (forall (k : eaddr) e, tx_prox (rt_tx s) !! k = Some e -> en_timestamp e <= rt_now s).
Proof.
  intros c g l. cbn zeta. apply (run_inv' c (fun s => (forall (a : acct) e, tx_sov (rt_tx s) !! a = Some e -> en_timestamp e <= rt_now s) /\
    (forall (k : eaddr) e, tx_prox (rt_tx s) !! k = Some e -> en_timestamp e <= rt_now s))).
  - intros s x [H1 H2]. destruct (clock_step c s x) as [Hc _].
    assert (forall a p m e u, attested c s a p m e -> en_timestamp (with_url e u) <= rt_now s) as HA.
    { intros a p m e u Ha. rewrite time_url. destruct Ha as [r _ Hr _ _|p' fm tcb r ref st Hv _ _ _|p' _ _]; cbn; [auto| |lia].
      apply verify_dcap_iff in Hv as (q & _ & _ & _ & ->). cbn. lia. }
    split; intros k e He.
    + destruct (sov_step c s x k) as [E|[(o & e' & -> & _ & _ & E)|(p & u & m & e' & Ex & Ed & Ha & _ & Hd & E)]].
      * rewrite E in He. apply H1 in He. lia.
      * congruence.
      * rewrite E in He. inversion He; subst e. apply (HA _ _ _ _ u) in Ha. lia.
    + destruct (prox_step c s x k) as [E|[(o & e' & -> & _ & _ & E)|(a & p & u & m & e' & Ex & Ed & Ha & _ & Hd & _ & E)]].
      * rewrite E in He. apply H2 in He. lia.
      * congruence.
      * rewrite E in He. inversion He; subst e. apply (HA _ _ _ _ u) in Ha. lia.
  - split; intros k e He; cbn in He; rewrite lookup_empty in He; discriminate.
Qed.
Print Assumptions C32_timestamps_never_in_the_future.
(** The same DCAP quote is accepted again whenever the collateral is the same and the certificates
    are still valid, however old it is, and gets a fresh timestamp. *)
Theorem C32_dcap_quote_is_replayable : forall c a p u proxied s1 s1' s2,
  dispatch c (Signed a) (CTx (TxRegister p u (MDcap proxied))) s1 = (Success, s1') ->
  tx_qe (rt_tx s2) = tx_qe (rt_tx s1) -> tx_tcb (rt_tx s2) = tx_tcb (rt_tx s1) ->
  tx_allow_debug (rt_tx s2) = tx_allow_debug (rt_tx s1) ->
  (forall leaf inter, or_chain (c_sgx c) leaf inter (rt_now s1 / 1000) = true ->
                      or_chain (c_sgx c) leaf inter (rt_now s2 / 1000) = true) ->
  exists s2', dispatch c (Signed a) (CTx (TxRegister p u (MDcap proxied))) s2 = (Success, s2') /\
  if proxied then exists k e, k.1.2 = a /\ tx_prox (rt_tx s2') !! k = Some e /\ en_timestamp e = rt_now s2
  else exists e, tx_sov (rt_tx s2') !! a = Some e /\ en_timestamp e = rt_now s2.
Proof.
  intros c a p u proxied s1 s1' s2 H Eqe Etcb Edbg Hch. apply run_call_ok in H. cbn [exec tx_exec] in H.
  apply register_ok in H as (b & e & Eb & Ha & Hd & Hlen & Hurl & _). inversion Eb; subst b; clear Eb.
  inversion Ha as [|p' fm tcb r ref st Hv Hs Hf Ht Ep Ee|]; subst p' e.
  assert (verify_dcap_quote (c_sgx c) p (rt_now s2) (tx_qe (rt_tx s2)) =
    ROk (fm, tcb, mkReport (vr_mr_enclave r) (vr_mr_signer r) (vr_report_data r) (vr_status r) (rt_now s2) (vr_build_mode r))) as Hv2.
  { apply verify_dcap_iff in Hv as (q & Hq & -> & (V1 & V2 & V3 & V4 & leaf & i & inter & sig & Ec & H5 & H6 & Hrest) & ->).
    apply verify_dcap_iff. exists q. split; [auto|]. split; [auto|]. split; [|reflexivity].
    rewrite Eqe. repeat (split; [auto; fail|]). exists leaf, i, inter, sig. repeat (split; [auto; fail|]). auto. }
  cbn [en_build_mode new_enclave] in Hd.
  set (e2 := new_enclave (vr_report_data r) (vr_mr_enclave r) (vr_mr_signer r) (rt_now s2) (vr_build_mode r) st (MDcap proxied)).
  assert (reg_dcap c a p proxied s2 = Ok e2 s2) as Hreg.
  { unfold reg_dcap. erewrite bind_fw by reflexivity. erewrite bind_fw by reflexivity.
    erewrite bind_fw by (rewrite Hv2; reflexivity). cbn [vr_report_data vr_mr_enclave vr_mr_signer vr_timestamp vr_build_mode].
    erewrite bind_fw; [|].
    2:{ destruct proxied; cbn [negb]; [reflexivity|]. rewrite <- (Hs eq_refl), beq_refl. reflexivity. }
    erewrite bind_fw by reflexivity. erewrite bind_fw by (rewrite Etcb, Hf; reflexivity).
    erewrite bind_fw by (rewrite Ht; reflexivity). reflexivity. }
  assert (register_sgx_enclave c (Signed a) p u (MDcap proxied) s2 =
    Ok tt (add_ev (EvAddedSgxEnclave a u (en_status (with_url e2 u)) (en_method (with_url e2 u))) (store_enclave a (with_url e2 u) s2))) as Hrun.
  { unfold register_sgx_enclave. erewrite bind_fw by reflexivity.
    rewrite (bind_fw _ _ s2 tt s2); [|unfold ensure; destruct (N.leb_spec (lenN p) max_proof_len) as [_|Hx]; [reflexivity|unfold max_proof_len in Hx; lia]].
    rewrite (bind_fw _ _ s2 tt s2); [|].
    2:{ destruct u as [u0|]; [|reflexivity]. specialize (Hurl u0 eq_refl). unfold ensure.
        destruct (N.leb_spec (lenN u0) max_url_len) as [_|Hx]; [reflexivity|unfold max_url_len in Hx; lia]. }
    erewrite bind_fw by exact Hreg. erewrite bind_fw by reflexivity.
    rewrite (bind_fw _ _ s2 tt s2); [|].
    2:{ unfold e2. cbn [en_build_mode new_enclave]. rewrite Edbg. destruct (vr_build_mode r).
        - rewrite Hd by auto. reflexivity.
        - rewrite bool_decide_eq_false_2 by discriminate. rewrite orb_true_r. reflexivity. }
    cbn zeta. rewrite (bind_fw _ _ s2 tt (store_enclave a (with_url e2 u) s2)); [reflexivity|]. unfold add_enclave, store_enclave, modify, fingerprint, instance_signer.
    destruct (is_proxied (with_url e2 u)); reflexivity. }
  eexists. split.
  { unfold dispatch, run_call. cbn [exec tx_exec]. rewrite Hrun. reflexivity. }
  cbn [rt_tx add_ev]. destruct proxied.
  - rewrite store_prox, is_proxied_url. cbn [is_proxied en_method new_enclave e2].
    eexists (_, a, _), _. split; [reflexivity|]. rewrite lookup_insert. split; [reflexivity|]. rewrite time_url. reflexivity.
  - rewrite store_sov, is_proxied_url. cbn [is_proxied en_method new_enclave e2].
    eexists. rewrite lookup_insert. split; [reflexivity|]. rewrite time_url. reflexivity.
Qed.
Print Assumptions C32_dcap_quote_is_replayable.
(** A quote that is ten days old *)
Example C32_replay_example : let s := run cfg_dcap (genesis_state (gen0 [alice])) (history_dcap ++ [ONextBlock 864000000; reg_dcap_op alice (acc 77) 0 false]) in
  en_timestamp <$> tx_sov (rt_tx s) !! alice = Some 864005000.
Proof. vm_compute. reflexivity. Qed.

(** ** C33 *)
Theorem C33_collateral_is_valid_when_stored : forall c o id sig chain s s',
  (dispatch c o (CTx (TxRegisterQe id sig chain)) s = (Success, s') ->
   q_issue (tx_qe (rt_tx s')) < rt_now s < q_next (tx_qe (rt_tx s'))) /\
  (dispatch c o (CTx (TxRegisterTcb id sig chain)) s = (Success, s') ->
   exists fm i, tx_tcb (rt_tx s') = <[fm := i]> (tx_tcb (rt_tx s)) /\ ti_issue i < rt_now s < ti_next i).
Proof.
  intros c o id sig chain s s'. split; intros H; apply run_call_ok in H; cbn [exec tx_exec] in H.
  - apply reg_qe_ok in H as (a & d & _ & _ & _ & _ & H1 & H2 & ->). cbn. lia.
  - apply reg_tcb_ok in H as (a & d & _ & _ & _ & _ & H1 & H2 & ->). eexists _, _. split; [reflexivity|]. cbn. lia.
Qed.
Print Assumptions C33_collateral_is_valid_when_stored.
(** Forget the dates of all stored collateral *)
Definition undate (s : rt) : rt :=
  let t := rt_tx s in let q := tx_qe t in
  set_tx (mkTx (tx_sov t) (tx_prox t)
               (mkQe 0 0 (q_misc q) (q_misc_mask q) (q_attr q) (q_attr_mask q) (q_mrsigner q) (q_prodid q) (q_tcb q))
               ((fun i => mkTcbInfo 0 0 (ti_levels i)) <$> tx_tcb t) (tx_allow_debug t) (tx_allow_skip t)) s.
Definition omap_undate {A} (r : outcome rt error A) : outcome rt error A :=
  match r with Ok a s => Ok a (undate s) | Err e s => Err e (undate s) | Panic => Panic end.
Definition commU {A} (m : RM A) : Prop := forall s, m (undate s) = omap_undate (m s).
Lemma commU_bind {A B} (m : RM A) (k : A -> RM B) : commU m -> (forall a, commU (k a)) -> commU (bind m k).
Proof. intros H1 H2 s. unfold bind. rewrite H1. destruct (m s); cbn; auto. apply H2. Qed.
Lemma commU_ret {A} (a : A) : commU (ret a). Proof. intros s. auto. Qed.
Lemma commU_panic {A} : commU (panic : RM A). Proof. intros s. auto. Qed.
Lemma commU_ensure b e : commU (ensure b e). Proof. intros s. unfold ensure. destruct b; auto. Qed.
Lemma commU_ok_or {A} (x : option A) e : commU (ok_or x e). Proof. intros s. destruct x; auto. Qed.
Lemma commU_gets {A} (f : rt -> A) : (forall s, f (undate s) = f s) -> commU (gets f).
Proof. intros H s. unfold gets. cbn. rewrite H. auto. Qed.
Lemma commU_lift {A} (r : res A) : commU (lift_res r). Proof. intros s. destruct r; auto. Qed.
Lemma commU_modify f : (forall s, f (undate s) = undate (f s)) -> commU (modify f).
Proof. intros H s. unfold modify. cbn. rewrite H. auto. Qed.
Lemma verify_undate o raw t q : verify_dcap_quote o raw t
  (mkQe 0 0 (q_misc q) (q_misc_mask q) (q_attr q) (q_attr_mask q) (q_mrsigner q) (q_prodid q) (q_tcb q)) = verify_dcap_quote o raw t q.
Proof. reflexivity. Qed.
Lemma commU_register c o p u m : commU (register_sgx_enclave c o p u m).
Proof.
  unfold register_sgx_enclave. apply commU_bind; [intros s; destruct o; auto|]. intros a.
  apply commU_bind; [apply commU_ensure|]. intros _. apply commU_bind; [destruct u; [apply commU_ensure|apply commU_ret]|]. intros _.
  apply commU_bind.
  - destruct m as [pr| |pr].
    + unfold reg_skip. apply commU_bind; [apply commU_gets; auto|]. intros al. apply commU_bind; [apply commU_ensure|]. intros _.
      apply commU_bind; [apply commU_gets; auto|]. intros n. destruct (_ <=? 64); [apply commU_ret|apply commU_panic].
    + unfold reg_ias, ensure_within_24h. apply commU_bind; [apply commU_lift|]. intros r. apply commU_bind.
      { apply commU_bind; [apply commU_gets; auto|]. intros n. apply commU_bind; [apply commU_ensure|]. intros _. apply commU_ensure. }
      intros _. apply commU_bind; [apply commU_ensure|]. intros _. apply commU_ret.
    + intros s. unfold reg_dcap, bind, gets. cbn [rt_now undate set_tx rt_tx tx_qe tx_tcb]. rewrite verify_undate.
      destruct (verify_dcap_quote (c_sgx c) p (rt_now s) (tx_qe (rt_tx s))) as [[[fm tcb] r]|e|]; cbn [lift_res fail ret panic omap_undate]; auto.
      assert (forall b : bool, (if b then ensure (beq a (takeN 32 (vr_report_data r))) SenderIsNotAttestedEnclave else ret tt) (undate s)
        = omap_undate ((if b then ensure (beq a (takeN 32 (vr_report_data r))) SenderIsNotAttestedEnclave else ret tt) s)) as Hb.
      { intros [|]; [apply commU_ensure|apply commU_ret]. }
      rewrite Hb.
      assert (forall b : bool, match (if b then ensure (beq a (takeN 32 (vr_report_data r))) SenderIsNotAttestedEnclave else ret tt) s with
        | Ok _ s' => s' = s | Err _ s' => True | Panic => True end) as Hs.
      { intros [|]; [unfold ensure; destruct (beq a _)|]; cbn; auto. }
      specialize (Hs (negb pr)).
      destruct ((if negb pr then ensure (beq a (takeN 32 (vr_report_data r))) SenderIsNotAttestedEnclave else ret tt) s) as [[] s'|e s'|]; cbn [omap_undate]; auto.
      subst s'. cbn [undate set_tx rt_tx tx_tcb]. rewrite lookup_fmap.
      destruct (tx_tcb (rt_tx s) !! fm) as [ref|]; [|reflexivity]. cbn [fmap option_fmap option_map ok_or].
      unfold ret at 1. unfold ret at 2. unfold tcb_verify. cbn [ti_levels].
      destruct (List.find (fun l => level_verify l tcb) (ti_levels ref)); reflexivity.
  - intros e. apply commU_bind; [apply commU_gets; auto|]. intros d. apply commU_bind; [apply commU_ensure|]. intros _.
    apply commU_bind; [|intros _; apply commU_modify; auto].
    unfold add_enclave. destruct (is_proxied _); apply commU_modify; auto.
Qed.
(** Two states that differ only in the dates of stored collateral treat every registration alike. *)
Theorem C33_expired_collateral_keeps_being_used : forall c o p u m s1 s2, undate s1 = undate s2 ->
  (dispatch c o (CTx (TxRegister p u m)) s1).1 = (dispatch c o (CTx (TxRegister p u m)) s2).1 /\
  undate (dispatch c o (CTx (TxRegister p u m)) s1).2 = undate (dispatch c o (CTx (TxRegister p u m)) s2).2.
Proof.
  intros c o p u m s1 s2 E. unfold dispatch, run_call. cbn [exec tx_exec].
  pose proof (commU_register c o p u m s1) as H1. pose proof (commU_register c o p u m s2) as H2. rewrite E, H2 in H1.
  destruct (register_sgx_enclave c o p u m s1); destruct (register_sgx_enclave c o p u m s2); cbn in *; inversion H1; subst; split; congruence.
Qed.
Print Assumptions C33_expired_collateral_keeps_being_used.
(** The registered document replaces what was stored, whatever that was: the last writer wins. *)
Theorem C33_last_collateral_wins : forall c o id sig chain s1 s2, rt_now s1 = rt_now s2 ->
  (let r1 := dispatch c o (CTx (TxRegisterQe id sig chain)) s1 in
   let r2 := dispatch c o (CTx (TxRegisterQe id sig chain)) s2 in
   r1.1 = r2.1 /\ (r1.1 = Success -> tx_qe (rt_tx r1.2) = tx_qe (rt_tx r2.2))) /\
  (let r1 := dispatch c o (CTx (TxRegisterTcb id sig chain)) s1 in
   let r2 := dispatch c o (CTx (TxRegisterTcb id sig chain)) s2 in
   r1.1 = r2.1 /\ (r1.1 = Success -> exists fm i,
     tx_tcb (rt_tx r1.2) = <[fm := i]> (tx_tcb (rt_tx s1)) /\ tx_tcb (rt_tx r2.2) = <[fm := i]> (tx_tcb (rt_tx s2)))).
Proof.
  intros c o id sig chain s1 s2 E. unfold dispatch, run_call. cbn [exec tx_exec]. split.
  - unfold register_quoting_enclave, verify_quoting_enclave, bind, gets, ensure_signed, modify, deposit_event.
    destruct o; cbn [fail ret]; unfold fail, ret; cbn; try (split; [reflexivity|discriminate]).
    rewrite E. destruct (collateral_leaf c chain (rt_now s2)) as [leaf|e|]; cbn; try (split; [auto|discriminate]).
    destruct (deserialize_enclave_identity (c_sgx c) id sig leaf) as [d|e|]; cbn; try (split; [auto|discriminate]).
    destruct (time_i64 (rt_now s2)) as [z|e|]; cbn; try (split; [auto|discriminate]).
    destruct (identity_is_valid d z); cbn; try (split; [auto|discriminate]).
    destruct (to_quoting_enclave d) as [q|e|]; cbn; try (split; [auto|discriminate]). auto.
  - unfold register_tcb_info, verify_tcb_info, bind, gets, ensure_signed, modify, deposit_event.
    destruct o; cbn [fail ret]; unfold fail, ret; cbn; try (split; [reflexivity|discriminate]).
    rewrite E. destruct (collateral_leaf c chain (rt_now s2)) as [leaf|e|]; cbn; try (split; [auto|discriminate]).
    destruct (deserialize_tcb_info (c_sgx c) id sig leaf) as [d|e|]; cbn; try (split; [auto|discriminate]).
    destruct (time_i64 (rt_now s2)) as [z|e|]; cbn; try (split; [auto|discriminate]).
    destruct (tcb_is_valid d z); cbn; try (split; [auto|discriminate]).
    destruct (to_chain_tcb_info d) as [[fm i]|e|]; cbn; try (split; [auto|discriminate]). split; [auto|]. intros _. exists fm, i. auto.
Qed.
Print Assumptions C33_last_collateral_wins.
(** "Newer collateral is never replaced by older" is false, for both kinds of collateral. *)
Theorem C33_older_collateral_replaces_newer_refuted : exists c g l1 l2,
  let s1 := run c (genesis_state g) l1 in let s2 := run c s1 l2 in
  q_issue (tx_qe (rt_tx s2)) < q_issue (tx_qe (rt_tx s1)) /\ q_next (tx_qe (rt_tx s2)) < q_next (tx_qe (rt_tx s1)) /\
  exists fm i1 i2, tx_tcb (rt_tx s1) !! fm = Some i1 /\ tx_tcb (rt_tx s2) !! fm = Some i2 /\ ti_issue i2 < ti_issue i1.
Proof.
  exists cfg_dcap, (gen0 [alice]), [reg_qe 200 9000 7; reg_tcb 200 9000 7], [reg_qe 100 8000 7; reg_tcb 100 8000 7].
  cbn zeta. split; [vm_compute; reflexivity|]. split; [vm_compute; reflexivity|].
  exists [0;144;110;161;0;0]. vm_compute. eexists _, _. repeat split; reflexivity.
Qed.
Print Assumptions C33_older_collateral_replaces_newer_refuted.
(** Registration with collateral that expired ten days ago *)
Example C33_example : (dispatch cfg_dcap (Signed alice) (CTx (TxRegister (quote_demo (acc 77) alice 0) None (MDcap false)))
  (run cfg_dcap (genesis_state (gen0 [alice])) [reg_qe 100 9000 7; reg_tcb 100 9000 11; ONextBlock 864000000])).1 = Success.
Proof. vm_compute. reflexivity. Qed.

(** ** C34 *)
(** The platform reaches every component of a level *)
Definition reaches (ex l : tcb_level) : Prop := Forall2 N.le (tl_cpusvn l) (tl_cpusvn ex) /\ tl_pcesvn l <= tl_pcesvn ex.
Definition levels_16 (i : tcb_info) : Prop := Forall (fun l => length (tl_cpusvn l) = 16%nat) (ti_levels i).
(** [l] is the first level of [i] the platform reaches *)
Definition first_reached (i : tcb_info) (ex l : tcb_level) (n : nat) : Prop :=
  ti_levels i !! n = Some l /\ reaches ex l /\ forall k l', (k < n)%nat -> ti_levels i !! k = Some l' -> ~ reaches ex l'.
Lemma find_first {A} (f : A -> bool) (l : list A) x : List.find f l = Some x <->
  exists n, l !! n = Some x /\ f x = true /\ forall k y, (k < n)%nat -> l !! k = Some y -> f y = false.
Proof.
  induction l as [|y l IH]; cbn [List.find].
  - split; [discriminate|]. intros (n & H & _). discriminate H.
  - destruct (f y) eqn:E.
    + split.
      * intros H. inversion H; subst. exists O. repeat split; auto. intros k z Hk. lia.
      * intros (n & H1 & H2 & H3). destruct n as [|n]; [auto|].
        rewrite (H3 O y) in E; [discriminate|lia|auto].
    + rewrite IH. split.
      * intros (n & H1 & H2 & H3). exists (S n). repeat split; auto. intros [|k] z Hk Hz; [inversion Hz; subst; auto|].
        eapply (H3 k); [lia|auto].
      * intros (n & H1 & H2 & H3). destruct n as [|n]; [inversion H1; subst; congruence|].
        exists n. repeat split; auto. intros k z Hk Hz. apply (H3 (S k) z); [lia|auto].
Qed.
Lemma level_reaches i ex l n : levels_16 i -> length (tl_cpusvn ex) = 16%nat -> ti_levels i !! n = Some l ->
  (level_verify l ex = true <-> reaches ex l).
Proof.
  intros Hi He Hl. apply level_verify_spec. unfold levels_16 in Hi. rewrite Forall_lookup in Hi.
  rewrite (Hi n l Hl). auto.
Qed.
(** The status recorded for a level *)
Definition recorded_status (t : tcb_status) : sgx_status :=
  match t with
  | TUpToDate | TSWHardeningNeeded => StOk
  | TConfigurationAndSWHardeningNeeded => StConfigurationNeeded
  | TOutOfDate | TOutOfDateConfigurationNeeded => StGroupOutOfDate
  | TRevoked => StGroupRevoked
  | TUnknown => StInvalid
  end.
Theorem C34_recorded_status_is_of_first_matching_level : forall i ex st,
  levels_16 i -> length (tl_cpusvn ex) = 16%nat ->
  (tcb_verify i ex = Some st <-> exists n l, first_reached i ex l n /\ st = recorded_status (tl_status l)).
Proof.
  change recorded_status with status_of_tcb.
  intros i ex st Hi He. unfold tcb_verify. split.
  - destruct (List.find (fun l => level_verify l ex) (ti_levels i)) as [l|] eqn:E; [|discriminate]. intros H; inversion H; subst.
    apply find_first in E as (n & H1 & H2 & H3). exists n, l. split; [|auto]. split; [auto|]. split.
    + eapply level_reaches; eauto.
    + intros k l' Hk Hl' Hr. eapply level_reaches in Hr; eauto. rewrite (H3 k l' Hk Hl') in Hr. discriminate.
  - intros (n & l & (H1 & H2 & H3) & ->).
    assert (List.find (fun l => level_verify l ex) (ti_levels i) = Some l) as ->; [|auto].
    apply find_first. exists n. split; [auto|]. split; [eapply level_reaches; eauto|].
    intros k l' Hk Hl'. destruct (level_verify l' ex) eqn:E; [|auto]. exfalso. apply (H3 k l' Hk Hl'). eapply level_reaches; eauto.
Qed.
Print Assumptions C34_recorded_status_is_of_first_matching_level.
Global Instance reaches_dec ex l : Decision (reaches ex l).
Proof. unfold reaches. apply _. Defined.
Lemma first_reached_exists i ex n l : ti_levels i !! n = Some l -> reaches ex l ->
  exists m l', (m <= n)%nat /\ first_reached i ex l' m.
Proof.
  revert l. induction n as [n IH] using lt_wf_ind. intros l Hl Hr.
  destruct (decide (Exists (reaches ex) (take n (ti_levels i)))) as [He|He].
  - apply Exists_exists in He as (l' & Hin & Hr'). apply elem_of_list_lookup in Hin as (k & Hk).
    apply lookup_take_Some in Hk as [Hk Hlt]. destruct (IH k Hlt l' Hk Hr') as (m & l'' & Hm & Hf).
    exists m, l''. split; [lia|auto].
  - exists n, l. split; [lia|]. split; [auto|]. split; [auto|]. intros k l' Hk Hl' Hr'. apply He.
    apply Exists_exists. exists l'. split; [|auto]. apply elem_of_list_lookup. exists k. apply lookup_take_Some. auto.
Qed.
(** A platform that is at least as recent in every component matches an earlier or the same level. *)
Theorem C34_matching_is_monotone : forall i ex1 ex2 n l,
  Forall2 N.le (tl_cpusvn ex1) (tl_cpusvn ex2) -> tl_pcesvn ex1 <= tl_pcesvn ex2 ->
  first_reached i ex1 l n -> exists m l', (m <= n)%nat /\ first_reached i ex2 l' m.
Proof.
  intros i ex1 ex2 n l Hc Hp (H1 & (H2 & H2') & _). apply (first_reached_exists i ex2 n l H1).
  split; [|lia]. eapply Forall2_transitive; [|exact H2|exact Hc]. intros; lia.
Qed.
Print Assumptions C34_matching_is_monotone.
(** The JSON type of a TCB level has exactly 16 components (teerex/sgx-verify/src/collateral.rs:
    [components: [TcbComponent; 16]]); the parser oracle returns values of that type. *)
Definition json_levels_typed (o : sgx_oracles) : Prop := forall doc d,
  or_json_tcb o doc = Some d -> Forall (fun l => length l.1.1 = 16%nat) (tj_levels d).
Lemma tcb_step c s x fm :
  tx_tcb (rt_tx (step c s x)) !! fm = tx_tcb (rt_tx s) !! fm \/
  exists o info sig chain d, x = OCall o (CTx (TxRegisterTcb info sig chain)) /\
    dispatch c o (CTx (TxRegisterTcb info sig chain)) s = (Success, step c s x) /\
    authentic_tcb c (rt_now s) info sig chain d /\ tj_fmspc d = fm /\
    tx_tcb (rt_tx (step c s x)) !! fm =
      Some (mkTcbInfo (Z.to_N (tj_issue d)) (Z.to_N (tj_next d)) (map (fun l => mkTcbLevel l.1.1 l.1.2 l.2) (tj_levels d))).
Proof.
  destruct (tx_step c s x) as [E|(o & y & -> & E)]; [left; rewrite E; auto|].
  set (s' := step c s (OCall o (CTx y))) in *. pose proof E as E0. destruct y; cbn [tx_exec] in E.
  - apply register_ok in E as (b & e & -> & _ & _ & _ & _ & Es). left. rewrite Es. unfold store_enclave.
    destruct (is_proxied (with_url e url)); reflexivity.
  - apply unreg_sov_ok in E as (b & e & -> & _ & _ & Es). rewrite Es. left. auto.
  - apply unreg_prox_ok in E as (b & e & -> & _ & _ & Es). rewrite Es. left. auto.
  - apply reg_qe_ok in E as (b & d & _ & _ & _ & _ & _ & _ & Es). rewrite Es. left. auto.
  - apply reg_tcb_ok in E as (b & d & -> & H & _ & _ & _ & _ & Es). destruct (decide (tj_fmspc d = fm)) as [Ef|Ef].
    + right. exists (Signed b), info, sig, chain, d. split; [auto|]. split; [unfold dispatch, run_call; cbn [exec]; rewrite E0; auto|].
      split; [auto|]. split; [auto|]. rewrite Es. cbn. rewrite Ef, lookup_insert. auto.
    + left. rewrite Es. cbn. rewrite lookup_insert_ne by auto. auto.
  - apply set_flags_ok in E as (_ & Es). rewrite Es. left. auto.
Qed.
Lemma stored_levels_16 c g l : json_levels_typed (c_sgx c) -> forall fm i,
  tx_tcb (rt_tx (run c (genesis_state g) l)) !! fm = Some i -> levels_16 i.
Proof.
  intros Ho. apply (run_inv' c (fun s => forall (fm : bytes) i, tx_tcb (rt_tx s) !! fm = Some i -> levels_16 i)).
  - intros s x Hs fm i H. destruct (tcb_step c s x fm) as [E|(o & info & sig & chain & d & _ & _ & [_ Ha] & _ & E)].
    + rewrite E in H. eauto.
    + rewrite E in H. inversion H; subst i. unfold levels_16. cbn [ti_levels]. rewrite Forall_map.
      apply Ho in Ha. eapply Forall_impl; [exact Ha|]. cbn. auto.
  - intros fm i. cbn. rewrite lookup_empty. discriminate.
Qed.
Lemma extract_tcb_16 o cert fm tcb : extract_tcb_info o cert = ROk (fm, tcb) -> length (tl_cpusvn tcb) = 16%nat.
Proof.
  unfold extract_tcb_info. intros H. apply rbind_ok in H as (ext & _ & H). apply rbind_ok in H as (f & _ & H).
  apply rbind_ok in H as (v & Hv & H). apply rbind_ok in H as (p & _ & H). inversion H; subst. cbn.
  unfold get_cpusvn in Hv. apply rbind_ok in Hv as (off & _ & Hv). apply rok_or_ok in Hv. apply get_range_len in Hv. unfold lenN in Hv. lia.
Qed.
(** In a reachable state: a DCAP registration is accepted only on a platform that reaches a level of
    its FMSPC's stored list; the first such level gives the status that is recorded. *)
Theorem C34_accepted_registration_has_a_matching_level : forall c g l o p u proxied s' fm tcb r,
  json_levels_typed (c_sgx c) -> let s := run c (genesis_state g) l in
  verify_dcap_quote (c_sgx c) p (rt_now s) (tx_qe (rt_tx s)) = ROk (fm, tcb, r) ->
  dispatch c o (CTx (TxRegister p u (MDcap proxied))) s = (Success, s') ->
  exists a i n lv e, o = Signed a /\ tx_tcb (rt_tx s) !! fm = Some i /\ first_reached i tcb lv n /\
  en_status e = recorded_status (tl_status lv) /\
  if proxied then tx_prox (rt_tx s') !! ((vr_mr_enclave r, a, inl (vr_report_data r ++ zeros 2)) : eaddr) = Some e
  else tx_sov (rt_tx s') !! a = Some e.
Proof.
  intros c g l o p u pr s' fm tcb r Ho s Hv H. apply run_call_ok in H. cbn [exec tx_exec] in H.
  apply register_ok in H as (a & e & -> & Ha & _ & _ & _ & ->).
  inversion Ha as [|p' fm' tcb' r' ref st Hv' Hs Hf Ht Ep Ee|]; subst p' e.
  rewrite Hv in Hv'. inversion Hv'; subst fm' tcb' r'. clear Hv'.
  apply C34_recorded_status_is_of_first_matching_level in Ht as (n & lv & Hn & Hst).
  - exists a, ref, n, lv. eexists. repeat (split; [eassumption || reflexivity|]). cbn [rt_tx add_ev].
    split.
    2:{ destruct pr.
        - rewrite store_prox, is_proxied_url, mre_url, report_url. cbn [is_proxied en_method new_enclave en_mr_enclave en_report_data].
          rewrite lookup_insert. reflexivity.
        - rewrite store_sov, is_proxied_url. cbn [is_proxied en_method new_enclave]. rewrite lookup_insert. reflexivity. }
    destruct u; cbn; auto.
  - eapply stored_levels_16; eauto.
  - apply verify_dcap_iff in Hv as (q & _ & _ & (_ & _ & _ & _ & leaf & i & inter & sig & _ & _ & _ & Hx & _) & _).
    apply extract_tcb_16 in Hx. auto.
Qed.
Print Assumptions C34_accepted_registration_has_a_matching_level.
Example C34_example : json_levels_typed sgx_demo /\
  (let i := mkTcbInfo 0 9 [mkTcbLevel (repeat 3 16) 2 TUpToDate; mkTcbLevel (repeat 1 16) 1 TRevoked] in
   let ex := mkTcbLevel (2 :: repeat 9 15) 5 TUnknown in
   tcb_verify i ex = Some StGroupRevoked /\ first_reached i ex (mkTcbLevel (repeat 1 16) 1 TRevoked) 1).
Proof.
  split.
  - intros doc d. cbn. destruct doc as [|a [|b [|x [|? ?]]]]; try discriminate. intros H; inversion H; subst. cbn. repeat constructor.
  - split; [reflexivity|]. split; [reflexivity|]. split.
    + split; [|cbn; lia]. cbn. repeat constructor; lia.
    + intros [|k] l' Hk Hl [Hr _]; [|lia]. cbn in Hl. inversion Hl; subst l'. cbn in Hr. inversion Hr. lia.
Qed.

(** ** C38 *)
Lemma collateral_leaf_np c chain now : rnp (collateral_leaf c chain now).
Proof.
  unfold collateral_leaf. destruct (extract_certs _ _) as [|leaf [|i inter]]; try discriminate.
  apply rnp_bind; [apply rnp_ensure|]. intros _ _. apply rnp_bind; [apply rnp_ensure|]. intros _ _. discriminate.
Qed.
Lemma deserialize_identity_np o d s l : rnp (deserialize_enclave_identity o d s l).
Proof.
  unfold deserialize_enclave_identity. apply rnp_bind; [apply encode_der_np|]. intros a _.
  apply rnp_bind; [apply rnp_ensure|]. intros _ _. apply rnp_ok_or.
Qed.
Lemma deserialize_tcb_np o d s l : rnp (deserialize_tcb_info o d s l).
Proof.
  unfold deserialize_tcb_info. apply rnp_bind; [apply encode_der_np|]. intros a _.
  apply rnp_bind; [apply rnp_ensure|]. intros _ _. apply rnp_ok_or.
Qed.
Lemma beq_spec (a b : bytes) : reflect (a = b) (beq a b).
Proof. destruct (beq a b) eqn:E; constructor; [apply beq_true|intros ->; rewrite beq_refl in E]; congruence. Qed.
(** A document with an issue date before 1970 that is in force now *)
Definition identity_negative (d : enclave_identity) (now : N) : Prop :=
  ei_id d = str_QE /\ ei_version d = 2 /\ (ei_issue d < 0)%Z /\ (Z.of_N now < ei_next d)%Z.
Definition tcb_negative (d : tcb_info_json) (now : N) : Prop :=
  tj_id d = str_SGX /\ tj_version d = 3 /\ (tj_issue d < 0)%Z /\ (Z.of_N now < tj_next d)%Z.
Theorem C38_panic_iff_unrepresentable_date : forall c o doc sig chain s,
  ((dispatch c o (CTx (TxRegisterQe doc sig chain)) s).1 = Panicked <->
   exists a d, o = Signed a /\ authentic_identity c (rt_now s) doc sig chain d /\
   (i64_max < rt_now s \/ identity_negative d (rt_now s))) /\
  ((dispatch c o (CTx (TxRegisterTcb doc sig chain)) s).1 = Panicked <->
   exists a d, o = Signed a /\ authentic_tcb c (rt_now s) doc sig chain d /\
   (i64_max < rt_now s \/ tcb_negative d (rt_now s))).
Proof.
  intros c o doc sig chain s. setoid_rewrite authentic_identity_iff. setoid_rewrite authentic_tcb_iff.
  unfold dispatch, run_call. cbn [exec tx_exec]. split.
  - unfold register_quoting_enclave, verify_quoting_enclave, bind, gets, ensure_signed, modify, deposit_event.
    destruct o as [|a|]; unfold fail, ret; cbn; try (split; [discriminate|intros (a & d & E & _); discriminate E]).
    pose proof (collateral_leaf_np c chain (rt_now s)) as Hl.
    destruct (collateral_leaf c chain (rt_now s)) as [leaf|e|]; cbn; [| |contradiction].
    2:{ split; [discriminate|]. intros (a' & d & _ & (l & E & _) & _). discriminate E. }
    pose proof (deserialize_identity_np (c_sgx c) doc sig leaf) as Hd.
    destruct (deserialize_enclave_identity (c_sgx c) doc sig leaf) as [d|e|] eqn:Ed; cbn; [| |contradiction].
    2:{ split; [discriminate|]. intros (a' & d & _ & (l & E & E2) & _). inversion E; subst l. congruence. }
    assert (forall X : Prop, (exists a' d', Signed a = Signed a' /\ (exists l, ROk leaf = ROk l /\ deserialize_enclave_identity (c_sgx c) doc sig l = ROk d')
        /\ (i64_max < rt_now s \/ identity_negative d' (rt_now s))) <-> (i64_max < rt_now s \/ identity_negative d (rt_now s))) as Hiff.
    { intros _. split.
      - intros (a' & d' & _ & (l & E1 & E2) & H). inversion E1; subst l. assert (d' = d) as -> by congruence. auto.
      - intros H. exists a, d. split; [auto|]. split; [|auto]. exists leaf. auto. }
    rewrite (Hiff True). clear Hiff. unfold time_i64.
    destruct (N.leb_spec (rt_now s) i64_max) as [Ht|Ht]; cbn; [|split; auto].
    unfold identity_negative, identity_is_valid.
    destruct (beq_spec (ei_id d) str_QE) as [Ei|Ei]; cbn; [|split; [discriminate|intros [?|(? & _)]; [lia|contradiction]]].
    destruct (N.eqb_spec (ei_version d) 2) as [Ev|Ev]; cbn; [|split; [discriminate|intros [?|(_ & ? & _)]; [lia|contradiction]]].
    destruct (Z.ltb_spec (ei_issue d) (Z.of_N (rt_now s))) as [E1|E1]; cbn; [|split; [discriminate|intros [?|(_ & _ & ? & _)]; lia]].
    destruct (Z.ltb_spec (Z.of_N (rt_now s)) (ei_next d)) as [E2|E2]; cbn; [|split; [discriminate|intros [?|(_ & _ & _ & ?)]; lia]].
    unfold to_quoting_enclave, z_to_u64. destruct (Z.leb_spec 0 (ei_issue d)) as [E3|E3]; cbn.
    + destruct (Z.leb_spec 0 (ei_next d)) as [E4|E4]; [|lia]. cbn. split; [discriminate|]. intros [?|(_ & _ & ? & _)]; lia.
    + split; [|auto]. intros _. right. repeat split; auto.
  - unfold register_tcb_info, verify_tcb_info, bind, gets, ensure_signed, modify, deposit_event.
    destruct o as [|a|]; unfold fail, ret; cbn; try (split; [discriminate|intros (a & d & E & _); discriminate E]).
    pose proof (collateral_leaf_np c chain (rt_now s)) as Hl.
    destruct (collateral_leaf c chain (rt_now s)) as [leaf|e|]; cbn; [| |contradiction].
    2:{ split; [discriminate|]. intros (a' & d & _ & (l & E & _) & _). discriminate E. }
    pose proof (deserialize_tcb_np (c_sgx c) doc sig leaf) as Hd.
    destruct (deserialize_tcb_info (c_sgx c) doc sig leaf) as [d|e|] eqn:Ed; cbn; [| |contradiction].
    2:{ split; [discriminate|]. intros (a' & d & _ & (l & E & E2) & _). inversion E; subst l. congruence. }
    assert (forall X : Prop, (exists a' d', Signed a = Signed a' /\ (exists l, ROk leaf = ROk l /\ deserialize_tcb_info (c_sgx c) doc sig l = ROk d')
        /\ (i64_max < rt_now s \/ tcb_negative d' (rt_now s))) <-> (i64_max < rt_now s \/ tcb_negative d (rt_now s))) as Hiff.
    { intros _. split.
      - intros (a' & d' & _ & (l & E1 & E2) & H). inversion E1; subst l. assert (d' = d) as -> by congruence. auto.
      - intros H. exists a, d. split; [auto|]. split; [|auto]. exists leaf. auto. }
    rewrite (Hiff True). clear Hiff. unfold time_i64.
    destruct (N.leb_spec (rt_now s) i64_max) as [Ht|Ht]; cbn; [|split; auto].
    unfold tcb_negative, tcb_is_valid.
    destruct (beq_spec (tj_id d) str_SGX) as [Ei|Ei]; cbn; [|split; [discriminate|intros [?|(? & _)]; [lia|contradiction]]].
    destruct (N.eqb_spec (tj_version d) 3) as [Ev|Ev]; cbn; [|split; [discriminate|intros [?|(_ & ? & _)]; [lia|contradiction]]].
    destruct (Z.ltb_spec (tj_issue d) (Z.of_N (rt_now s))) as [E1|E1]; cbn; [|split; [discriminate|intros [?|(_ & _ & ? & _)]; lia]].
    destruct (Z.ltb_spec (Z.of_N (rt_now s)) (tj_next d)) as [E2|E2]; cbn; [|split; [discriminate|intros [?|(_ & _ & _ & ?)]; lia]].
    unfold to_chain_tcb_info, z_to_u64. destruct (Z.leb_spec 0 (tj_issue d)) as [E3|E3]; cbn.
    + destruct (Z.leb_spec 0 (tj_next d)) as [E4|E4]; [|lia]. cbn. split; [discriminate|]. intros [?|(_ & _ & ? & _)]; lia.
    + split; [|auto]. intros _. right. repeat split; auto.
Qed.
Print Assumptions C38_panic_iff_unrepresentable_date.
(** An authentic document issued in 1969 *)
Definition sgx_negative : sgx_oracles :=
  mkSgx (fun _ => zeros 32) (fun b => Some b) (fun _ => true) (fun _ _ _ => true) (fun _ _ => true)
        (fun _ _ _ => true) (fun _ _ _ => true) (fun _ _ _ => true) (fun _ => None)
        (fun _ => Some (mkIdentity str_QE 2 (-1) 9000 (zeros 4) (zeros 4) (zeros 16) (zeros 16) (zeros 32) 1 []))
        (fun _ => None) (fun _ => None) (fun _ => None).
Definition cfg_negative : cfg :=
  mkCfg true 10 340282366920938463463374607431768211455 u32_max 1000 86400000 172800000 3 64
        [] (fun _ => false) (fun _ => false) (fun _ => false) 2267 2039 2039
        (fun b => takeN 32 (b ++ zeros 32)) (fun _ _ => None) (fun _ => inr []) sgx_negative.
Example C38_example :
  (dispatch cfg_negative (Signed bob) (CTx (TxRegisterQe [1] (zeros 64) pem_demo)) (genesis_state (gen0 []))).1 = Panicked /\
  (dispatch cfg_dcap (Signed bob) (CTx (TxRegisterQe [100; 9000; 7] (zeros 64) pem_demo)) (genesis_state (gen0 []))).1 = Success /\
  (dispatch cfg_dcap (Signed bob) (CTx (TxRegisterQe [100; 5000; 7] (zeros 64) pem_demo)) (genesis_state (gen0 []))).1 = Failed CollateralIsInvalid.
Proof. vm_compute. repeat split; reflexivity. Qed.
(** Only an accepted, authentic, currently valid document changes collateral; a TCB document changes
    only the entry of its own FMSPC. *)
Theorem C38_only_authentic_collateral_is_stored : forall c s x,
  (tx_qe (rt_tx (step c s x)) <> tx_qe (rt_tx s) ->
   exists a doc sig chain d, x = OCall (Signed a) (CTx (TxRegisterQe doc sig chain)) /\
   authentic_identity c (rt_now s) doc sig chain d /\ ei_id d = str_QE /\ ei_version d = 2 /\
   (ei_issue d < Z.of_N (rt_now s) < ei_next d)%Z) /\
  (forall fm, tx_tcb (rt_tx (step c s x)) !! fm <> tx_tcb (rt_tx s) !! fm ->
   exists a doc sig chain d, x = OCall (Signed a) (CTx (TxRegisterTcb doc sig chain)) /\
   authentic_tcb c (rt_now s) doc sig chain d /\ tj_fmspc d = fm /\ tj_id d = str_SGX /\ tj_version d = 3 /\
   (tj_issue d < Z.of_N (rt_now s) < tj_next d)%Z).
Proof.
  intros c s x. destruct (tx_step c s x) as [E|(o & y & -> & E)]; [rewrite E; split; [|intros fm]; intros H; contradiction|].
  set (s' := step c s (OCall o (CTx y))) in *. destruct y; cbn [tx_exec] in E.
  - apply register_ok in E as (b & e & -> & _ & _ & _ & _ & Es). rewrite Es. unfold store_enclave.
    destruct (is_proxied (with_url e url)); cbn; split; [|intros fm| |intros fm]; intros H; contradiction.
  - apply unreg_sov_ok in E as (b & e & -> & _ & _ & Es). rewrite Es. cbn. split; [|intros fm]; intros H; contradiction.
  - apply unreg_prox_ok in E as (b & e & -> & _ & _ & Es). rewrite Es. cbn. split; [|intros fm]; intros H; contradiction.
  - apply reg_qe_ok in E as (b & d & -> & Ha & H1 & H2 & H3 & H4 & Es). rewrite Es. cbn. split; [|intros fm; intros H; contradiction].
    intros _. exists b, id, sig, chain, d. repeat (split; [auto; fail|]). lia.
  - apply reg_tcb_ok in E as (b & d & -> & Ha & H1 & H2 & H3 & H4 & Es). rewrite Es. cbn. split; [intros H; contradiction|].
    intros fm H. exists b, info, sig, chain, d. split; [auto|]. split; [auto|]. split; [|repeat (split; [auto; fail|]); lia].
    destruct (decide (tj_fmspc d = fm)) as [E|E]; [auto|]. rewrite lookup_insert_ne in H by auto. contradiction.
  - apply set_flags_ok in E as (_ & Es). rewrite Es. cbn. split; [|intros fm]; intros H; contradiction.
Qed.
Print Assumptions C38_only_authentic_collateral_is_stored.

(** ** C36, at the level of the call: registration never panics for accounts of at most 64 bytes *)
Theorem C36_registration_never_panics : forall c a p u m s, lenN a <= 64 ->
  (dispatch c (Signed a) (CTx (TxRegister p u m)) s).1 <> Panicked.
Proof.
  intros c a p u m s Ha H. unfold dispatch, run_call in H. cbn [exec tx_exec] in H.
  destruct (register_sgx_enclave c (Signed a) p u m s) as [|e|] eqn:HP; try discriminate H. clear H. revert HP.
  enough (np (register_sgx_enclave c (Signed a) p u m)) as Hnp by exact (Hnp s).
  assert (forall A (r : res A), rnp r -> np (lift_res r)) as Hl.
  { intros A r Hr t. destruct r; cbn; [discriminate|discriminate|contradiction]. }
  intros t. unfold register_sgx_enclave. rewrite (bind_fw _ _ t a t) by reflexivity.
  match goal with |- ?k t <> Panic => enough (np k) as Hx by exact (Hx t) end.
  apply np_bind; [apply np_ensure|]. intros _. apply np_bind; [destruct u; [apply np_ensure|apply np_ret]|]. intros _.
  apply np_bind.
  - destruct m as [pr| |pr].
    + unfold reg_skip. apply np_bind; [apply np_gets|]. intros al. apply np_bind; [apply np_ensure|]. intros _.
      apply np_bind; [apply np_gets|]. intros n. destruct (N.leb_spec (lenN a) 64); [apply np_ret|lia].
    + unfold reg_ias, ensure_within_24h. apply np_bind; [apply Hl, verify_ias_np|]. intros r. apply np_bind.
      { apply np_bind; [apply np_gets|]. intros n. apply np_bind; [apply np_ensure|]. intros _. apply np_ensure. }
      intros _. apply np_bind; [apply np_ensure|]. intros _. apply np_ret.
    + unfold reg_dcap. apply np_bind; [apply np_gets|]. intros n. apply np_bind; [apply np_gets|]. intros qe.
      apply np_bind; [apply Hl, verify_dcap_np|]. intros [[fm tcb] r].
      apply np_bind; [destruct (negb pr); [apply np_ensure|apply np_ret]|]. intros _.
      apply np_bind; [apply np_gets|]. intros ref. apply np_bind; [apply np_ok_or|]. intros ref'.
      apply np_bind; [apply np_ok_or|]. intros st. apply np_ret.
  - intros e. apply np_bind; [apply np_gets|]. intros d. apply np_bind; [apply np_ensure|]. intros _.
    apply np_bind; [|intros _; apply np_modify]. unfold add_enclave. destruct (is_proxied _); apply np_modify.
Qed.
Print Assumptions C36_registration_never_panics.
(** An account type of more than 64 bytes does panic when attestation is skipped. *)
Example C36_skip_panics_on_long_accounts : (dispatch cfg0 (Signed (repeat 1 65)) (CTx (TxRegister [] None (MSkip false)))
  (genesis_state (gen0 []))).1 = Panicked.
Proof. vm_compute. reflexivity. Qed.
