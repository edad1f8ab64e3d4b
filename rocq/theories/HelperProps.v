(** * Helpers of sgx-verify the pallets do not call: C74. *)
From Coq Require Import String.
From Verif Require Import Base State Env TeerexBase SgxVerifyModel TeerexModel Runtime Examples SgxProofs SgxProps
  AttestationProps ErrorProps SgxErrorProps.

(** ** The key in an enclave's certificate *)
(** The identifier of the curve prime256v1, 1.2.840.10045.3.1.7 *)
Definition curve_oid : bytes := [6; 8; 42; 134; 72; 206; 61; 3; 1; 7].
Lemma tagged_read (pat l pre rest : bytes) n off : pat <> [] -> occurs_first pat l pre rest ->
  length_from_raw_data l (lenN pre + (lenN pat + 1)) = Some (n, off) <->
  exists tag oct r, rest = [tag] ++ oct ++ r /\ length_octets oct n /\ off + 1 = lenN pre + lenN pat + 1 + lenN oct.
Proof.
  intros Hp [E _].
  assert (forall tag, lenN (pre ++ pat ++ [tag]) = lenN pre + (lenN pat + 1)) as Hl.
  { intros tag. rewrite !lenN_app. change (lenN [tag]) with 1. lia. }
  destruct rest as [|tag rest].
  { split; [|intros (tag & oct & r & [=] & _)]. intros H. exfalso. unfold length_from_raw_data in H.
    destruct (l !! N.to_nat (lenN pre + (lenN pat + 1))) eqn:El; [|discriminate].
    apply lookup_lt_Some in El. apply (f_equal lenN) in E. rewrite !lenN_app, lenN_nil in E. unfold lenN in *. lia. }
  replace l with ((pre ++ pat ++ [tag]) ++ rest) by (rewrite E, <- !app_assoc; reflexivity).
  rewrite <- (Hl tag), octets_read, Hl. split.
  - destruct rest as [|b r]; [discriminate|]. destruct (N.ltb_spec 128 b) as [Hb|Hb].
    + destruct r as [|h [|lo r]]; try discriminate. intros H. injection H as <- <-. exists tag, [b; h; lo], r. split; [reflexivity|].
      split; [right; exists b, h, lo; auto|]. change (lenN [b; h; lo]) with 3. lia.
    + intros H. injection H as <- <-. exists tag, [b], r. split; [reflexivity|]. split; [left; auto|]. change (lenN [b]) with 1. lia.
  - intros (tag' & oct & r & [= <- ->] & [[-> H]|(x & h & lo & -> & H & ->)] & Ho); cbn [app].
    + destruct (N.ltb_spec 128 n); [lia|]. change (lenN [n]) with 1 in Ho. do 2 f_equal. lia.
    + destruct (N.ltb_spec 128 x); [|lia]. change (lenN [x; h; lo]) with 3 in Ho. do 2 f_equal. lia.
Qed.
(** The key is the content of the field after the first curve identifier, without its first two bytes. *)
Theorem C74_key_read_at_its_place : forall cert key,
  ephemeral_key cert = Some key <->
  exists pre tag oct x y rest, occurs_first curve_oid cert pre ([tag] ++ oct ++ [x; y] ++ key ++ rest) /\
  length_octets oct (2 + lenN key).
Proof.
  intros cert key. unfold ephemeral_key. change prime256v1_oid with curve_oid.
  assert (curve_oid <> []) as Hne by discriminate. split.
  - destruct (position curve_oid cert) as [i|] eqn:E1; [|discriminate].
    apply occurs_first_iff in E1 as (pre & rest & Ho & <-); [|auto]. change 11 with (lenN curve_oid + 1).
    destruct (length_from_raw_data cert (lenN pre + (lenN curve_oid + 1))) as [[n off]|] eqn:E2; [|discriminate].
    apply (tagged_read _ _ _ _ _ _ Hne Ho) in E2 as (tag & oct & r & -> & Hoct & Eoff).
    destruct (N.ltb_spec (off + 1 + n) (off + 1 + 2)); [discriminate|]. intros H2.
    pose proof (get_range_len _ _ _ _ H2) as Hk. apply get_range_ok in H2 as (a & z & E & Ha & _). pose proof Ho as [E' _].
    assert (exists x y r', r = x :: y :: r') as (x & y & r' & ->).
    { destruct r as [|x [|y r']]; [| |eauto]; exfalso; rewrite E' in E; apply (f_equal lenN) in E;
        rewrite !lenN_app, Ha, ?lenN_cons, ?lenN_nil in E; lia. }
    assert (a = pre ++ curve_oid ++ [tag] ++ oct ++ [x; y] /\ key ++ z = r') as [-> <-].
    { apply app_inj_1.
      - apply Nat2N.inj. change (lenN a = lenN (pre ++ curve_oid ++ [tag] ++ oct ++ [x; y])).
        rewrite Ha, !lenN_app. change (lenN [tag]) with 1. change (lenN [x; y]) with 2. lia.
      - rewrite <- E, E', <- !app_assoc. reflexivity. }
    exists pre, tag, oct, x, y, z. split; [exact Ho|]. replace (2 + lenN key) with n by lia. exact Hoct.
  - intros (pre & tag & oct & x & y & rest & Ho & Hoct).
    assert (position curve_oid cert = Some (lenN pre)) as -> by (apply occurs_first_iff; eauto).
    change 11 with (lenN curve_oid + 1).
    assert (length_from_raw_data cert (lenN pre + (lenN curve_oid + 1)) =
      Some (2 + lenN key, lenN pre + lenN curve_oid + lenN oct)) as ->.
    { apply (tagged_read _ _ _ _ _ _ Hne Ho). exists tag, oct, ([x; y] ++ key ++ rest). split; [reflexivity|]. split; [auto|]. lia. }
    cbv zeta. destruct (N.ltb_spec (lenN pre + lenN curve_oid + lenN oct + 1 + (2 + lenN key)) (lenN pre + lenN curve_oid + lenN oct + 1 + 2)); [lia|].
    replace (2 + lenN key - 2) with (lenN key) by lia. destruct Ho as [-> _].
    replace (pre ++ curve_oid ++ [tag] ++ oct ++ [x; y] ++ key ++ rest) with ((pre ++ curve_oid ++ [tag] ++ oct ++ [x; y]) ++ key ++ rest)
      by (rewrite <- !app_assoc; reflexivity).
    apply get_range_app; [|auto]. rewrite !lenN_app. change (lenN [tag]) with 1. change (lenN [x; y]) with 2. lia.
Qed.
Print Assumptions C74_key_read_at_its_place.
(** "The result is a key of 64 bytes, marked as an uncompressed point" is false: neither the length nor
    the two skipped bytes are looked at. *)
Theorem C74_key_is_an_uncompressed_point_refuted : exists cert key, ephemeral_key cert = Some key /\ lenN key <> 64 /\
  exists pre tag oct x y rest, cert = pre ++ curve_oid ++ [tag] ++ oct ++ [x; y] ++ key ++ rest /\ (x <> 0 /\ y <> 4).
Proof.
  exists ([48; 9] ++ curve_oid ++ [3] ++ [5] ++ [7; 2] ++ [11; 12; 13] ++ [1]), [11; 12; 13].
  split; [vm_compute; reflexivity|]. split; [discriminate|]. exists [48; 9], 3, [5], 7, 2, [1]. split; [reflexivity|]. split; discriminate.
Qed.
Print Assumptions C74_key_is_an_uncompressed_point_refuted.
Example C74_example_key : ephemeral_key ([48; 9] ++ curve_oid ++ [3; 66; 0; 4] ++ zeros 64 ++ [1]) = Some (zeros 64) /\
  ephemeral_key ([48; 9] ++ curve_oid ++ [3; 66; 0; 4] ++ zeros 63) = None /\
  ephemeral_key ([48; 9] ++ curve_oid ++ [3; 1; 0; 4] ++ zeros 64) = None.
Proof. vm_compute. auto. Qed.

(** ** Platform data from a raw quote *)
Definition raw_demands (o : sgx_oracles) (raw : bytes) : list demand :=
  let auth := at_ raw 1012 2 in
  let size := at_ raw (1016 + auth) 4 in
  let certs := extract_certs o (sub_ (1020 + auth) size raw) in
  [or_sgx (1020 + auth <= lenN raw /\ size <= 65000 /\ 1020 + auth + size <= lenN raw) SDcapQuoteDecodingError;
   or_sgx (at_ raw 0 2 = 3) SDcapQuoteVersionMismatch;
   or_sgx (at_ raw 2 2 = 2) SDcapKeyTypeMismatch;
   or_sgx (at_ raw (1014 + auth) 2 = 5) SPckCertFormatMismatch;
   or_panic (certs <> [])] ++
  match certs with leaf :: _ => platform_demands o leaf | [] => [] end.
Theorem C74_raw_helper_answers : forall o raw st, rverdict (extract_tcb_info_from_raw o raw) = st <-> answers (raw_demands o raw) st.
Proof.
  intros o raw.
  assert (answers (raw_demands o raw) (rverdict (extract_tcb_info_from_raw o raw))) as H.
  2:{ intros st. split; [intros <-; exact H|]. intros H'. apply (answers_fun (raw_demands o raw)); auto. }
  unfold extract_tcb_info_from_raw, raw_demands. cbv zeta.
  destruct (decode_quote raw) as [[q rest]|] eqn:Ed.
  2:{ right. split; [|reflexivity]. intros H. apply decodable_some in H. rewrite Ed in H. destruct H; discriminate. }
  cbn [rok_or rbind]. apply decode_quote_ok in Ed as (p & Hp & -> & ->).
  destruct (parts_at p rest Hp) as (A1 & A2 & A3 & A4 & A5 & A6 & A7 & A8 & A9 & A10 & A11 & A12).
  rewrite A1, A2, A3, A4, A10, A11, A12.
  destruct Hp as (H1 & H2 & H3 & H4 & H5 & H6 & H7 & H8 & H9 & H10 & H11 & H12 & H13).
  cbn [app]. left. split; [lia|]. cbn [dq_version dq_key_type dq_cert_type dq_cert_data parts_quote].
  apply r_ensure; [apply N.eqb_eq|]. intros _. apply r_ensure; [apply N.eqb_eq|]. intros _.
  apply r_ensure; [apply N.eqb_eq|]. intros _.
  destruct (extract_certs o (qp_certs p)) as [|leaf inter].
  - right. split; [congruence|reflexivity].
  - left. split; [discriminate|]. apply platform_answers.
Qed.
Print Assumptions C74_raw_helper_answers.
(** What it returns is the platform data of the first certificate. *)
Theorem C74_raw_helper_result : forall o raw fm tcb, extract_tcb_info_from_raw o raw = ROk (fm, tcb) <->
  exists q rest leaf inter cpusvn pcesvn, decode_quote raw = Some (q, rest) /\
  dq_version q = 3 /\ dq_key_type q = 2 /\ dq_cert_type q = 5 /\ extract_certs o (dq_cert_data q) = leaf :: inter /\
  tcb = mkTcbLevel cpusvn pcesvn TUnknown /\ platform_data o leaf fm cpusvn pcesvn.
Proof.
  intros o raw fm tcb. unfold extract_tcb_info_from_raw. split.
  - intros H. apply rbind_ok in H as ([q rest] & H1 & H). apply rok_or_ok in H1.
    apply rbind_ok in H as (? & H2 & H). apply rensure_ok, N.eqb_eq in H2.
    apply rbind_ok in H as (? & H3 & H). apply rensure_ok, N.eqb_eq in H3.
    apply rbind_ok in H as (? & H4 & H). apply rensure_ok, N.eqb_eq in H4.
    destruct (extract_certs o (dq_cert_data q)) as [|leaf inter] eqn:Ec; [discriminate|].
    apply C41_platform_data_extracted_iff in H as (cp & pc & -> & H). exists q, rest, leaf, inter, cp, pc. auto 10.
  - intros (q & rest & leaf & inter & cp & pc & -> & H2 & H3 & H4 & H5 & H6). cbn [rok_or rbind]. rewrite H2, H3, H4. cbn [N.eqb rensure rbind].
    change (3 =? 3) with true. change (2 =? 2) with true. change (5 =? 5) with true. cbn [rensure rbind]. rewrite H5.
    apply C41_platform_data_extracted_iff. eauto.
Qed.
Print Assumptions C74_raw_helper_result.
(** It agrees with the full verification on every quote the latter accepts … *)
Theorem C74_raw_helper_agrees_with_verification : forall o raw t qe fm tcb r,
  verify_dcap_quote o raw t qe = ROk (fm, tcb, r) -> extract_tcb_info_from_raw o raw = ROk (fm, tcb).
Proof.
  intros o raw t qe fm tcb r. unfold verify_dcap_quote, extract_tcb_info_from_raw. intros H.
  apply rbind_ok in H as ([q rest] & H1 & H). rewrite H1. cbn [rbind].
  apply rbind_ok in H as (? & H2 & H). rewrite H2. cbn [rbind].
  apply rbind_ok in H as (? & H3 & H). rewrite H3. cbn [rbind].
  apply rbind_ok in H as (? & H4 & H). rewrite H4. cbn [rbind].
  apply rbind_ok in H as (? & _ & H).
  destruct (extract_certs o (dq_cert_data q)) as [|leaf [|i inter]]; [discriminate|discriminate|].
  apply rbind_ok in H as (? & _ & H). apply rbind_ok in H as (? & _ & H).
  apply rbind_ok in H as ([f l] & H5 & H). rewrite H5.
  repeat (apply rbind_ok in H as (? & _ & H)). injection H as -> -> _. reflexivity.
Qed.
Print Assumptions C74_raw_helper_agrees_with_verification.
(** … and depends on nothing but the decoding of base64 and of certificates: no signature, no
    certificate path and no hash is checked. *)
Theorem C74_raw_helper_checks_no_signature : forall o o' raw,
  (forall b, or_b64 o b = or_b64 o' b) -> (forall b, or_x509_ext o b = or_x509_ext o' b) ->
  extract_tcb_info_from_raw o raw = extract_tcb_info_from_raw o' raw.
Proof.
  intros o o' raw Hb Hx. unfold extract_tcb_info_from_raw, extract_tcb_info, get_intel_extension.
  assert (forall c, extract_certs o c = extract_certs o' c) as Hc.
  { intros c. unfold extract_certs. cbv zeta. generalize (split_on end_marker (remove_all begin_marker (filter (fun x => x <> newline) (utf8_lossy c)))).
    intros ps. induction ps as [|p ps IH]; [reflexivity|]. cbn [omap list_omap]. destruct p; [exact IH|]. rewrite Hb. destruct (or_b64 o' _); [f_equal|]; exact IH. }
  destruct (rok_or (decode_quote raw) SDcapQuoteDecodingError) as [[q rest]| |]; cbn [rbind]; try reflexivity.
  rewrite Hc. destruct (extract_certs o' (dq_cert_data q)) as [|leaf inter]; [reflexivity|]. rewrite Hx. reflexivity.
Qed.
Print Assumptions C74_raw_helper_checks_no_signature.
(** So "what it returns comes from an authentic quote" is false: with every signature and every
    certificate path invalid it still answers. *)
Definition nothing_valid : sgx_oracles :=
  mkSgx (or_sha256 sgx_demo) (or_b64 sgx_demo) (or_ee_parse sgx_demo) (fun _ _ _ => false) (fun _ _ => false)
        (fun _ _ _ => false) (fun _ _ _ => false) (fun _ _ _ => false) (or_x509_ext sgx_demo)
        (or_json_identity sgx_demo) (or_json_tcb sgx_demo) (or_json_ias sgx_demo) (or_datetime sgx_demo).
Theorem C74_raw_helper_authenticates_refuted : exists o raw fm tcb, extract_tcb_info_from_raw o raw = ROk (fm, tcb) /\
  forall t qe x, verify_dcap_quote o raw t qe <> ROk x.
Proof.
  exists nothing_valid, (quote_demo [9;9;9] [1;2;3] 2), [0;144;110;161;0;0], (mkTcbLevel [15;15;2;4;1;128;6;0;0;0;0;0;0;0;0;0] 11 TUnknown).
  split; [vm_compute; reflexivity|]. intros t qe x H. unfold verify_dcap_quote in H.
  apply rbind_ok in H as ([q rest] & _ & H). do 4 (apply rbind_ok in H as (? & _ & H)).
  destruct (extract_certs nothing_valid (dq_cert_data q)) as [|leaf [|i inter]]; [discriminate|discriminate|].
  apply rbind_ok in H as (? & _ & H). apply rbind_ok in H as (? & H & _). discriminate.
Qed.
Print Assumptions C74_raw_helper_authenticates_refuted.
Example C74_example_raw :
  extract_tcb_info_from_raw sgx_demo (quote_demo [9;9;9] [1;2;3] 2 ++ [1;2;3]) =
    ROk ([0;144;110;161;0;0], mkTcbLevel [15;15;2;4;1;128;6;0;0;0;0;0;0;0;0;0] 11 TUnknown) /\
  verify_dcap_quote sgx_demo (quote_demo [9;9;9] [1;2;3] 2 ++ [1;2;3]) 5000 qe_demo = RErr SDcapQuoteIsTooLong /\
  extract_tcb_info_from_raw sgx_demo (takeN 1000 (quote_demo [9;9;9] [1;2;3] 2)) = RErr SDcapQuoteDecodingError.
Proof. vm_compute. auto. Qed.

(** ** Keys as signers and as report data *)
(** primitives/common/src/lib.rs:69-79 and 81-87 [AnySigner::from], of 32 and of 64 bytes *)
Definition signer_of_key (k : bytes) : any_signer := inl (k ++ zeros 34).
Definition signer_of_data (d : bytes) : any_signer := inl (d ++ zeros 2).
(** primitives/teerex/src/lib.rs:58-70 [SgxReportData::from], 79-83 [lower32] *)
Definition data_of_key (k : bytes) : bytes := k ++ zeros 32.
Definition lower32 (d : bytes) : bytes := takeN 32 d.
(** A key is read back from the data made of it. As a signer it is the one of the proxied enclaves with
    that data, and never that of a sovereign enclave; different keys are different signers, but the signer
    of 64 bytes is the signer of a key exactly if the upper half is zero. *)
Theorem C74_signers_of_keys : forall k k' d, lenN k = 32 -> lenN k' = 32 -> lenN d = 64 ->
  (lenN (data_of_key k) = 64 /\ lower32 (data_of_key k) = k) /\
  (signer_of_key k = signer_of_key k' <-> k = k') /\
  (signer_of_data d = signer_of_key k <-> d = data_of_key k) /\
  (exists x, signer_of_key k = inl x /\ lenN x = 66) /\
  (forall e, lenN (en_report_data e) = 64 ->
     instance_signer e = signer_of_key k <-> is_proxied e = true /\ en_report_data e = data_of_key k).
Proof.
  intros k k' d Hk Hk' Hd.
  assert (forall d, lenN d = 64 -> signer_of_data d = signer_of_key k <-> d = data_of_key k) as HS.
  { intros d0 Hd0. unfold signer_of_data, signer_of_key, data_of_key. change (zeros 34) with (zeros 32 ++ zeros 2). rewrite app_assoc. split; [|intros ->; reflexivity].
    intros [= H]. apply app_inj_2 in H as [H _]; [exact H|reflexivity]. }
  split; [split; [unfold data_of_key; rewrite lenN_app, Hk; reflexivity|]|].
  { unfold lower32, data_of_key, takeN. rewrite take_app_alt; [reflexivity|]. unfold lenN in Hk. lia. }
  split; [split; [intros [= H]; apply app_inj_2 in H as [H _]; [exact H|reflexivity]|intros ->; reflexivity]|].
  split; [apply HS, Hd|]. split; [eexists; split; [reflexivity|rewrite lenN_app, Hk; reflexivity]|].
  intros e He. unfold instance_signer. destruct (is_proxied e).
  - rewrite <- (HS _ He). unfold signer_of_data. tauto.
  - split; [discriminate|intros [[=] _]].
Qed.
Print Assumptions C74_signers_of_keys.

(** ** The version check of quoting enclaves *)
(** sgx-verify/src/collateral.rs:38-44 [Tcb::is_valid]: "everything older than 6 is outdated" *)
Definition svn_is_valid (svn : N) : bool := 6 <=? svn.
(** Nothing calls the check: old quoting enclaves are refused if the document lists no old level … *)
Theorem C37_old_versions_refused_if_not_listed : forall d q b, to_quoting_enclave d = ROk q ->
  Forall (fun l => svn_is_valid l.1 = true) (ei_levels d) -> verify_body (parse_body b) q = true ->
  svn_is_valid (le_val (sub_ 258 2 b)) = true.
Proof.
  intros d q b Hq Hl Hv. apply (C37_every_listed_level_is_trusted d q b Hq) in Hv as (_ & _ & _ & _ & svn & st & Hin & Hle).
  rewrite Forall_forall in Hl. apply Hl in Hin. unfold svn_is_valid in *. cbn [fst] in Hin. apply N.leb_le in Hin. apply N.leb_le. lia.
Qed.
Print Assumptions C37_old_versions_refused_if_not_listed.
(** … and accepted otherwise, even if the level listed is revoked. *)
Theorem C37_old_versions_refused_refuted : exists d q b, to_quoting_enclave d = ROk q /\ verify_body (parse_body b) q = true /\
  svn_is_valid (le_val (sub_ 258 2 b)) = false.
Proof.
  exists doc_demo, (mkQe 1 9000 (zeros 4) (zeros 4) (zeros 16) (zeros 16) (zeros 32) 1 [8;2]), (zeros 256 ++ [1;0;3;0] ++ zeros 124).
  split; [reflexivity|]. split; vm_compute; reflexivity.
Qed.
Print Assumptions C37_old_versions_refused_refuted.
Example C74_example_signers :
  signer_of_key (acc 7) = signer_of_data (acc 7 ++ zeros 32) /\ signer_of_key (acc 7) <> signer_of_key (acc 8) /\
  instance_signer (mkEnclave (data_of_key (acc 7)) [] [] 0 None MProduction (MDcap true) StOk) = signer_of_key (acc 7) /\
  instance_signer (mkEnclave (data_of_key (acc 7)) [] [] 0 None MProduction (MDcap false) StOk) <> signer_of_key (acc 7).
Proof. vm_compute. repeat split; discriminate. Qed.
