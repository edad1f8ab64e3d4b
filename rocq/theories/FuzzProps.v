(** * Which inputs the fuzz targets of sgx-verify report: C93. *)
From Coq Require Import String.
From Verif Require Import Base State SgxVerifyModel CollateralModel TextModel SerialModel TestData FuzzModel
  SgxProofs SgxProps AttestationProps SgxErrorProps SerialProofs SerialProps.

(** ** Byte strings that decode as a quote *)
(** Header, report, length of the signature, signature, attestation key, report of the quoting enclave and its
    signature take 1012 bytes; two byte strings with their lengths in front follow, then anything. *)
Definition quote_shape (l auth cdata rest : bytes) : Prop :=
  exists fixed asz ctype csz, l = fixed ++ asz ++ auth ++ ctype ++ csz ++ cdata ++ rest /\
  lenN fixed = 1012 /\ lenN asz = 2 /\ lenN auth = le_val asz /\ lenN ctype = 2 /\
  lenN csz = 4 /\ lenN cdata = le_val csz /\ le_val csz <= 65000.

Lemma read_iff k l a r : read k l = Some (a, r) <-> l = a ++ r /\ lenN a = k.
Proof.
  unfold read. split.
  - destruct (N.leb_spec k (lenN l)) as [H|H]; [|discriminate]. intros [= <- <-]. split; [symmetry; apply takeN_dropN|].
    rewrite lenN_takeN. lia.
  - intros [-> <-]. rewrite lenN_app. destruct (N.leb_spec (lenN a) (lenN a + lenN r)) as [_|H]; [|lia].
    rewrite dropN_app by reflexivity. do 2 f_equal. unfold takeN, lenN. rewrite Nat2N.id. apply take_app.
Qed.
Lemma read_app_eq k a r : lenN a = k -> read k (a ++ r) = Some (a, r).
Proof. intros H. apply read_iff. auto. Qed.

Theorem C93_quotes_that_decode : forall l auth cdata rest,
  (exists q, decode_quote l = Some (q, rest) /\ dq_auth_data q = auth /\ dq_cert_data q = cdata) <-> quote_shape l auth cdata rest.
Proof.
  intros l auth cdata rest. unfold decode_quote, quote_shape. split.
  - intros (q & H & Ha & Hc).
    destruct (read 48 l) as [[x1 l1]|] eqn:E1; [|discriminate H]. destruct (read 384 l1) as [[x2 l2]|] eqn:E2; [|discriminate H].
    destruct (read 4 l2) as [[x3 l3]|] eqn:E3; [|discriminate H]. destruct (read 64 l3) as [[x4 l4]|] eqn:E4; [|discriminate H].
    destruct (read 64 l4) as [[x5 l5]|] eqn:E5; [|discriminate H]. destruct (read 384 l5) as [[x6 l6]|] eqn:E6; [|discriminate H].
    destruct (read 64 l6) as [[x7 l7]|] eqn:E7; [|discriminate H]. destruct (read 2 l7) as [[asz l8]|] eqn:E8; [|discriminate H].
    destruct (read (le_val asz) l8) as [[au l9]|] eqn:E9; [|discriminate H]. destruct (read 2 l9) as [[ct l10]|] eqn:E10; [|discriminate H].
    destruct (read 4 l10) as [[csz l11]|] eqn:E11; [|discriminate H]. destruct (N.ltb_spec 65000 (le_val csz)) as [|Hc2]; [discriminate H|].
    destruct (read (le_val csz) l11) as [[cd l12]|] eqn:E12; [|discriminate H].
    inversion H as [[Hq Hr]]. subst q. cbn [dq_auth_data dq_cert_data] in Ha, Hc. subst au cd l12. clear H.
    apply read_iff in E1 as [-> L1], E2 as [-> L2], E3 as [-> L3], E4 as [-> L4], E5 as [-> L5], E6 as [-> L6], E7 as [-> L7],
      E8 as [-> L8], E9 as [-> L9], E10 as [-> L10], E11 as [-> L11], E12 as [-> L12].
    exists (x1 ++ x2 ++ x3 ++ x4 ++ x5 ++ x6 ++ x7), asz, ct, csz. split; [rewrite <- !app_assoc; reflexivity|].
    split; [rewrite !lenN_app; lia|]. auto 10.
  - intros (fixed & asz & ct & csz & -> & L & L8 & L9 & L10 & L11 & L12 & Hc).
    assert (exists x1 x2 x3 x4 x5 x6 x7, fixed = x1 ++ x2 ++ x3 ++ x4 ++ x5 ++ x6 ++ x7 /\ lenN x1 = 48 /\ lenN x2 = 384 /\ lenN x3 = 4 /\
      lenN x4 = 64 /\ lenN x5 = 64 /\ lenN x6 = 384 /\ lenN x7 = 64) as (x1 & x2 & x3 & x4 & x5 & x6 & x7 & -> & L1 & L2 & L3 & L4 & L5 & L6 & L7).
    { exists (takeN 48 fixed), (takeN 384 (dropN 48 fixed)), (takeN 4 (dropN 384 (dropN 48 fixed))),
        (takeN 64 (dropN 4 (dropN 384 (dropN 48 fixed)))), (takeN 64 (dropN 64 (dropN 4 (dropN 384 (dropN 48 fixed))))),
        (takeN 384 (dropN 64 (dropN 64 (dropN 4 (dropN 384 (dropN 48 fixed)))))),
        (dropN 384 (dropN 64 (dropN 64 (dropN 4 (dropN 384 (dropN 48 fixed)))))).
      rewrite !takeN_dropN. split; [reflexivity|]. repeat (rewrite ?lenN_takeN, ?lenN_dropN). lia. }
    rewrite <- !app_assoc.
    rewrite (read_app_eq 48), (read_app_eq 384), (read_app_eq 4), (read_app_eq 64), (read_app_eq 64), (read_app_eq 384), (read_app_eq 64),
      (read_app_eq 2), (read_app_eq (le_val asz)), (read_app_eq 2), (read_app_eq 4) by assumption.
    destruct (N.ltb_spec 65000 (le_val csz)); [lia|]. rewrite (read_app_eq (le_val csz)) by assumption.
    eexists. split; [reflexivity|]. split; reflexivity.
Qed.
Print Assumptions C93_quotes_that_decode.

(** ** The reports *)
Lemma reports_assert {A} (r : res A) : assert_err r = RPanic <-> (exists a, r = ROk a) \/ r = RPanic.
Proof.
  destruct r as [a|e|]; cbn; split; intros H; auto.
  - left. eauto.
  - discriminate H.
  - destruct H as [[a H]|H]; discriminate H.
Qed.

(** The certificate compiled into the signature target can be read, and its document too *)
Definition can_run (o : sgx_oracles) (cert : bytes) : Prop :=
  or_b64 o (filter (fun c => c <> 10) qe_identity_cert_base64) = Some cert /\ or_ee_parse o cert = true /\
  exists e, or_json_identity o fuzz_document = Some e.

(** No target ever reports a panic of the code under test: decoding reports nothing; the others report
    exactly the documents of either kind, the certificates with readable platform data, the valid
    signatures of the fixed document, and the genuine reports. *)
Theorem C93_reports_exactly : forall o data,
  ~ reports o FtDecodeQuote data /\
  (reports o FtDeserializeJson data <-> (exists e, or_json_identity o data = Some e) \/ exists e, or_json_tcb o data = Some e) /\
  (reports o FtExtractTcbInfo data <-> exists fmspc cpusvn pcesvn, platform_data o data fmspc cpusvn pcesvn) /\
  (forall cert, can_run o cert ->
   (reports o FtSignatureCheck data <-> exists sig rest asn1, data = sig ++ rest /\ lenN sig = 64 /\ encode_as_der sig = ROk asn1 /\
      or_ecdsa_cert o cert fuzz_document asn1 = true)) /\
  (reports o FtVerifyIasReport data <-> exists r, genuine_ias o data r).
Proof.
  intros o data. unfold reports, fuzz_target. split; [discriminate|]. split; [|split; [|split]].
  - destruct (or_json_identity o data) as [e|]; cbn [rok_or assert_err rbind].
    + split; [intros _; left; eauto|reflexivity].
    + rewrite reports_assert. destruct (or_json_tcb o data) as [e|]; cbn [rok_or]; split.
      * intros _. right. eauto.
      * intros _. left. eauto.
      * intros [[a [=]]|[=]].
      * intros [[a [=]]|[a [=]]].
  - rewrite reports_assert. split.
    + intros [[[fm tcb] H]|H]; [|exfalso; exact (C41_extraction_never_panics o data H)].
      apply C41_platform_data_extracted_iff in H as (cp & pc & _ & H). eauto.
    + intros (fm & cp & pc & H). left. exists (fm, mkTcbLevel cp pc TUnknown). apply C41_platform_data_extracted_iff. eauto.
  - intros cert (H1 & H2 & e & H3). rewrite H1. cbn [unwrap rbind]. rewrite H2. cbn [rbind].
    destruct (N.ltb_spec (lenN data) 64) as [Hl|Hl].
    + split; [discriminate|]. intros (sig & rest & asn1 & -> & Hs & _). rewrite lenN_app in Hl. lia.
    + assert (lenN (takeN 64 data) = 64) as Ht by (rewrite lenN_takeN; lia).
      destruct (C39_der_encoding_is_minimal_and_faithful _ Ht) as (asn1 & v1 & v2 & He & _).
      rewrite reports_assert. unfold deserialize_enclave_identity. rewrite He. cbn [rbind].
      rewrite H3. cbn [rok_or]. split.
      * intros H. exists (takeN 64 data), (dropN 64 data), asn1. rewrite takeN_dropN. split; [reflexivity|]. split; [exact Ht|]. split; [exact He|].
        destruct (or_ecdsa_cert o cert fuzz_document asn1); [reflexivity|]. cbn [rensure rbind] in H. destruct H as [[a [=]]|[=]].
      * intros (sig & rest & asn1' & Ed & Hs & He' & Hv).
        assert (takeN 64 data = sig) as Es.
        { rewrite Ed. unfold takeN. rewrite take_app_alt; [reflexivity|]. unfold lenN in Hs. lia. }
        rewrite Es, He' in He. injection He as ->. rewrite Hv. cbn [rensure rbind]. left. eauto.
  - rewrite reports_assert. split.
    + intros [[r H]|H]; [|exfalso; exact (proj2 (C36_dcap_and_ias_verification_never_panic o data 0 (mkQe 0 0 [] [] [] [] [] 0 [])) H)].
      apply C66_ias_report_accepted_iff_genuine in H. eauto.
    + intros (r & H). left. exists r. apply C66_ias_report_accepted_iff_genuine. exact H.
Qed.
Print Assumptions C93_reports_exactly.

(** ** With the readers of TextModel.v, whatever RSA and ECDSA accept *)
Definition fuzz_cert : bytes := default [] (b64_decode (filter (fun c => c <> 10) qe_identity_cert_base64)).
Lemma fuzz_cert_read : b64_decode (filter (fun c => c <> 10) qe_identity_cert_base64) = Some fuzz_cert.
Proof. vm_compute. reflexivity. Qed.
Lemma fuzz_cert_key : exists c, x509 fuzz_cert = Some c /\ ce_spki c = tcb_signing_key.
Proof. eexists. split; vm_compute; reflexivity. Qed.
Lemma fuzz_document_read : exists e, match json_parse fuzz_document with Some j => identity_of_json date_millis j | None => None end = Some e.
Proof. eexists. vm_compute. reflexivity. Qed.
Lemma text_can_run rsa ecdsa fixed : can_run (text_oracles rsa ecdsa fixed) fuzz_cert.
Proof.
  destruct fuzz_cert_key as (c & Hc & _). split; [exact fuzz_cert_read|]. split; [|exact fuzz_document_read].
  cbn [text_oracles or_ee_parse]. rewrite Hc. reflexivity.
Qed.

(** The signature target is a search for forgeries: it reports exactly the inputs that begin with a
    signature of the document under the key Intel signs collateral with. What follows the 64 bytes is
    ignored. *)
Theorem C93_signature_target_searches_forgeries : forall rsa ecdsa fixed data,
  reports (text_oracles rsa ecdsa fixed) FtSignatureCheck data <->
  exists sig rest asn1, data = sig ++ rest /\ lenN sig = 64 /\ encode_as_der sig = ROk asn1 /\
    ecdsa tcb_signing_key fuzz_document asn1 = true.
Proof.
  intros rsa ecdsa fixed data.
  destruct (C93_reports_exactly (text_oracles rsa ecdsa fixed) data) as (_ & _ & _ & H & _).
  rewrite (H _ (text_can_run rsa ecdsa fixed)). destruct fuzz_cert_key as (c & Hc & Hk).
  cbn [text_oracles or_ecdsa_cert]. rewrite Hc, Hk. reflexivity.
Qed.
Print Assumptions C93_signature_target_searches_forgeries.

(** The assertions of two targets are false without any forgery: every enclave identity and every TCB
    information, as text, is reported by the first, and a certificate of Intel's by the second, even if no
    signature is valid. *)
Definition no_signature (_ _ _ : bytes) : bool := false.
Definition unforgeable : sgx_oracles := text_oracles no_signature no_signature no_signature.
Definition intel_pck_cert : bytes := default [] (b64_decode (filter (fun c => c <> 10) pck_cert_base64)).
Lemma pck_read : match extract_tcb_info unforgeable intel_pck_cert with ROk _ => true | _ => false end = true.
Proof. vm_compute. reflexivity. Qed.
Theorem C93_reports_mean_forgeries_refuted :
  (forall v, identity_ok v -> reports unforgeable FtDeserializeJson (identity_text v)) /\
  (forall v, tcb_ok v -> reports unforgeable FtDeserializeJson (tcb_text v)) /\
  (exists data, reports unforgeable FtExtractTcbInfo data).
Proof.
  destruct (C87_pallet_reads_what_was_written no_signature no_signature no_signature) as (HI & HT & _).
  split; [|split].
  - intros v Hv. apply (proj1 (proj2 (C93_reports_exactly unforgeable _))). left. eexists. exact (HI v Hv).
  - intros v Hv. apply (proj1 (proj2 (C93_reports_exactly unforgeable _))). right. eexists. exact (HT v Hv).
  - exists intel_pck_cert. apply (proj1 (proj2 (proj2 (C93_reports_exactly unforgeable intel_pck_cert)))).
    destruct (extract_tcb_info unforgeable intel_pck_cert) as [[fm tcb]|e|] eqn:H; try (pose proof pck_read as Hp; rewrite H in Hp; discriminate Hp).
    apply C41_platform_data_extracted_iff in H as (cp & pc & _ & H). eauto.
Qed.
Print Assumptions C93_reports_mean_forgeries_refuted.

(** The other two report nothing unless some signature is valid. *)
Theorem C93_reports_that_mean_forgeries : forall data,
  ~ reports unforgeable FtSignatureCheck data /\ ~ reports unforgeable FtVerifyIasReport data.
Proof.
  intros data. split.
  - intros H. apply C93_signature_target_searches_forgeries in H as (? & ? & ? & _ & _ & _ & H). discriminate H.
  - intros H. apply C93_reports_exactly in H as (r & H). apply C66_ias_report_accepted_iff_genuine in H.
    unfold verify_ias_report in H. apply rbind_ok in H as ([[rep sig] sc] & _ & H).
    apply rbind_ok in H as (? & _ & H). apply rbind_ok in H as (? & H & _). unfold verify_signature in H. apply rensure_ok in H.
    cbn [unforgeable text_oracles or_rsa_cert] in H. destruct (x509 sc); discriminate H.
Qed.
Print Assumptions C93_reports_that_mean_forgeries.

(** ** Examples *)
(** Nothing but zeros decodes as a quote, from 1020 bytes on. *)
Lemma zeros_app a b : zeros (a + b) = zeros a ++ zeros b.
Proof. unfold zeros. rewrite N2Nat.inj_add. apply replicate_add. Qed.
Lemma lenN_zeros n : lenN (zeros n) = n.
Proof. unfold lenN, zeros. rewrite replicate_length. lia. Qed.
Theorem C93_zeros_decode : forall n, (exists q rest, decode_quote (zeros n) = Some (q, rest)) <-> 1020 <= n.
Proof.
  intros n. split.
  - intros (q & rest & H). destruct (proj1 (C93_quotes_that_decode (zeros n) _ _ rest) (ex_intro _ q (conj H (conj eq_refl eq_refl))))
      as (fixed & asz & ct & csz & E & L & L8 & L9 & L10 & L11 & L12 & _).
    apply (f_equal lenN) in E. rewrite lenN_zeros, !lenN_app in E. lia.
  - intros H. assert (quote_shape (zeros n) [] [] (zeros (n - 1020))) as Hs.
    { exists (zeros 1012), (zeros 2), (zeros 2), (zeros 4). split.
      - replace n with (1012 + (2 + (0 + (2 + (4 + (0 + (n - 1020))))))) at 1 by lia. rewrite !zeros_app. reflexivity.
      - rewrite !lenN_zeros. repeat split; try reflexivity. change (le_val (zeros 4)) with 0. lia. }
    apply C93_quotes_that_decode in Hs as (q & Hq & _). eauto.
Qed.
Print Assumptions C93_zeros_decode.
Example C93_example :
  (* too short for a quote, a quote of zeros, nothing for the other targets *)
  decode_quote (zeros 1019) = None /\ (exists q, decode_quote (zeros 1023) = Some (q, zeros 3)) /\
  fuzz_target real_oracles FtDeserializeJson (zeros 100) = ROk tt /\
  fuzz_target real_oracles FtExtractTcbInfo (zeros 100) = ROk tt /\
  fuzz_target real_oracles FtSignatureCheck (zeros 100) = ROk tt /\
  fuzz_target real_oracles FtVerifyIasReport (zeros 100) = ROk tt /\
  (* genuine documents *)
  fuzz_target real_oracles FtDeserializeJson qe_identity_text = RPanic /\
  fuzz_target real_oracles FtVerifyIasReport ias_cert4 = RPanic.
Proof. repeat (split; [vm_compute; try eexists; reflexivity|]). vm_compute. reflexivity. Qed.
