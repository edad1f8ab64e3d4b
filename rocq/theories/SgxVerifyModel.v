(** * Model of crate sgx-verify (teerex/sgx-verify/src). Pure code: no storage access.

    Cryptography, X.509, JSON, base64 and date parsing are the oracles of [sgx_oracles]. *)
From Verif Require Import Base State.

(** Result of a pure function: value, [sgx_verify::Error], or panic (slice out of range,
    [unwrap]/[expect] on a failure). *)
Inductive res (A : Type) := ROk (a : A) | RErr (e : sgx_error) | RPanic.
Arguments ROk {A} a.
Arguments RErr {A} e.
Arguments RPanic {A}.
Definition rbind {A B} (m : res A) (k : A -> res B) : res B :=
  match m with ROk a => k a | RErr e => RErr e | RPanic => RPanic end.
Definition rensure (b : bool) (e : sgx_error) : res unit := if b then ROk tt else RErr e.
Definition rok_or {A} (o : option A) (e : sgx_error) : res A :=
  match o with Some a => ROk a | None => RErr e end.
Notation "'rlet' x := m 'in' k" := (rbind m (fun x => k))
  (at level 200, x pattern, m at level 100, k at level 200, right associativity).
Notation "'rdo' m 'in' k" := (rbind m (fun _ => k))
  (at level 200, m at level 100, k at level 200, right associativity).

(** [&data[off .. off + len]]: panics when out of range *)
Definition slice (off len : N) (l : bytes) : res bytes :=
  match get_range off len l with Some x => ROk x | None => RPanic end.

(** ** Strings *)
Fixpoint is_prefix (p l : bytes) : bool :=
  match p, l with
  | [], _ => true
  | x :: p', y :: l' => (x =? y) && is_prefix p' l'
  | _ :: _, [] => false
  end.
(** [data.windows(pat.len()).position(|w| w == pat)] for a non-empty pattern *)
Fixpoint position (pat l : bytes) : option N :=
  if is_prefix pat l then Some 0 else
  match l with
  | [] => None
  | _ :: r => match position pat r with Some i => Some (1 + i) | None => None end
  end.
(** [s.split(pat)]: leftmost non-overlapping matches of a non-empty pattern *)
Fixpoint split_go (pat s : bytes) (skip : nat) (cur : bytes) : list bytes :=
  match s with
  | [] => [rev cur]
  | x :: r =>
      match skip with
      | S k => split_go pat r k cur
      | O => if is_prefix pat s then rev cur :: split_go pat r (length pat - 1) []
             else split_go pat r O (x :: cur)
      end
  end.
Definition split_on (pat s : bytes) : list bytes := split_go pat s O [].
(** [s.replace(pat, "")] *)
Definition remove_all (pat s : bytes) : bytes := concat (split_on pat s).

(** [String::from_utf8_lossy], as code points: every maximal ill-formed prefix becomes U+FFFD
    (core::str::lossy). [rest] is what follows the bytes consumed. *)
Definition cont (b : N) : bool := (128 <=? b) && (b <=? 191).
Definition in_rng (lo hi b : N) : bool := (lo <=? b) && (b <=? hi).
Definition second_ok (b0 b1 : N) : bool :=
  if b0 =? 224 then in_rng 160 191 b1
  else if b0 =? 237 then in_rng 128 159 b1
  else if b0 =? 240 then in_rng 144 191 b1
  else if b0 =? 244 then in_rng 128 143 b1
  else cont b1.
Definition replacement : N := 65533.
Fixpoint utf8_lossy_fuel (fuel : nat) (l : bytes) : list N :=
  match fuel with
  | O => []
  | S f =>
    match l with
    | [] => []
    | b0 :: r0 =>
        if b0 <? 128 then b0 :: utf8_lossy_fuel f r0
        else if in_rng 194 223 b0 then
          match r0 with
          | b1 :: r1 => if cont b1 then ((b0 - 192) * 64 + (b1 - 128)) :: utf8_lossy_fuel f r1
                        else replacement :: utf8_lossy_fuel f r0
          | [] => [replacement]
          end
        else if in_rng 224 239 b0 then
          match r0 with
          | b1 :: r1 =>
              if second_ok b0 b1 then
                match r1 with
                | b2 :: r2 => if cont b2
                              then ((b0 - 224) * 4096 + (b1 - 128) * 64 + (b2 - 128)) :: utf8_lossy_fuel f r2
                              else replacement :: utf8_lossy_fuel f r1
                | [] => [replacement]
                end
              else replacement :: utf8_lossy_fuel f r0
          | [] => [replacement]
          end
        else if in_rng 240 244 b0 then
          match r0 with
          | b1 :: r1 =>
              if second_ok b0 b1 then
                match r1 with
                | b2 :: r2 =>
                    if cont b2 then
                      match r2 with
                      | b3 :: r3 => if cont b3
                          then ((b0 - 240) * 262144 + (b1 - 128) * 4096 + (b2 - 128) * 64 + (b3 - 128))
                                 :: utf8_lossy_fuel f r3
                          else replacement :: utf8_lossy_fuel f r2
                      | [] => [replacement]
                      end
                    else replacement :: utf8_lossy_fuel f r1
                | [] => [replacement]
                end
              else replacement :: utf8_lossy_fuel f r0
          | [] => [replacement]
          end
        else replacement :: utf8_lossy_fuel f r0
    end
  end.
Definition utf8_lossy (l : bytes) : list N := utf8_lossy_fuel (length l) l.
(** [str::as_bytes]: UTF-8 encoding of code points *)
Definition utf8_enc1 (c : N) : bytes :=
  if c <? 128 then [c]
  else if c <? 2048 then [192 + c / 64; 128 + c mod 64]
  else if c <? 65536 then [224 + c / 4096; 128 + (c / 64) mod 64; 128 + c mod 64]
  else [240 + c / 262144; 128 + (c / 4096) mod 64; 128 + (c / 64) mod 64; 128 + c mod 64].
Definition utf8_enc (s : list N) : bytes := concat (map utf8_enc1 s).

(** The markers of sgx-verify/src/lib.rs:525,527 *)
Definition begin_marker : bytes :=
  [45;45;45;45;45;66;69;71;73;78;32;67;69;82;84;73;70;73;67;65;84;69;45;45;45;45;45].
Definition end_marker : bytes :=
  [45;45;45;45;45;69;78;68;32;67;69;82;84;73;70;73;67;65;84;69;45;45;45;45;45].
Definition newline : N := 10.

Section WithOracles.
Context (o : sgx_oracles).

(** sgx-verify/src/lib.rs:520-529 [extract_certs] *)
Definition extract_certs (chain : bytes) : list bytes :=
  let s := utf8_lossy chain in
  let s := filter (fun x => x <> newline) s in
  let s := remove_all begin_marker s in
  let parts := split_on end_marker s in
  omap (fun p => match p with [] => None | _ => or_b64 o (utf8_enc p) end) parts.

(** ** DER *)
(** der::asn1::UIntRef::new: leading zeros are stripped, keeping at least one byte *)
Fixpoint strip0 (l : bytes) : bytes :=
  match l with
  | 0 :: ((_ :: _) as r) => strip0 r
  | _ => l
  end.
(** der UIntRef encoding: INTEGER tag, length, 0x00 pad if the top bit is set. Contents are at most
    33 bytes here, so the length is one byte. *)
Definition der_uint (l : bytes) : bytes :=
  let v := strip0 l in
  let v := match v with b :: _ => if 128 <=? b then 0 :: v else v | [] => v end in
  2 :: lenN v :: v.
(** sgx-verify/src/lib.rs:462-478 [encode_as_der]; the 72 byte buffer of line 474 *)
Definition encode_as_der (data : bytes) : res bytes :=
  if negb (lenN data =? 64) then RErr SKeyLengthIsInvalid else
  let body := der_uint (takeN 32 data) ++ der_uint (dropN 32 data) in
  let out := 48 :: lenN body :: body in
  if lenN out <=? 72 then ROk out else RErr SDerEncodingError.

(** sgx-verify/src/utils.rs:18-31 [safe_indexing_one], [length_from_raw_data]: (length, new offset);
    [None] is the error *)
Definition length_from_raw_data (data : bytes) (off : N) : option (N * N) :=
  match data !! N.to_nat off with
  | None => None
  | Some l =>
      if 128 <? l then
        match data !! N.to_nat (off + 1), data !! N.to_nat (off + 2) with
        | Some h, Some lo => Some (h * 256 + lo, off + 2)
        | _, _ => None
        end
      else Some (l, off)
  end.

(** Bytes of the OIDs of sgx-verify/src/lib.rs:831-835 *)
Definition oid_sgx_ext : bytes := [42;134;72;134;248;77;1;13;1].
Definition oid_fmspc : bytes := oid_sgx_ext ++ [4].
Definition oid_pcesvn : bytes := oid_sgx_ext ++ [2;17].
Definition oid_cpusvn : bytes := oid_sgx_ext ++ [2;18].

(** sgx-verify/src/lib.rs:847-866 [get_intel_extension]: the value of the only extension with
    Intel's OID *)
Definition get_intel_extension (cert : bytes) : res bytes :=
  match or_x509_ext o cert with
  | None => RErr SIntelExtensionCertificateDecodingError
  | Some exts =>
      match filter (fun e => e.1 = oid_sgx_ext) exts with
      | [e] => ROk e.2
      | _ => RErr SIntelExtensionAmbiguity
      end
  end.
(** sgx-verify/src/lib.rs:868-879 [get_fmspc] *)
Definition get_fmspc (der : bytes) : res bytes :=
  rlet off := rok_or (position oid_fmspc der) SFmspcOidIsMissing in
  rok_or (get_range (off + 12) 6 der) SFmspcLengthMismatch.
(** sgx-verify/src/lib.rs:881-893 [get_cpusvn] *)
Definition get_cpusvn (der : bytes) : res bytes :=
  rlet off := rok_or (position oid_cpusvn der) SCpuSvnOidIsMissing in
  rok_or (get_range (off + 13) 16 der) SCpuSvnLengthMismatch.
(** sgx-verify/src/lib.rs:895-915 [get_pcesvn] *)
Definition get_pcesvn (der : bytes) : res N :=
  rlet off := rok_or (position oid_pcesvn der) SPceSvnOidIsMissing in
  let off := off + (lenN oid_pcesvn + 1) in
  rlet lo := rok_or (length_from_raw_data der off) SPceSvnDecodingError in
  let '(len, off) := lo in
  let off := off + 1 in
  rdo rensure ((len =? 1) || (len =? 2)) SPceSvnLengthMismatch in
  rlet data := rok_or (get_range off len der) SPceSvnLengthMismatch in
  ROk (be_val data).
(** sgx-verify/src/lib.rs:837-845 [extract_tcb_info] *)
Definition extract_tcb_info (cert : bytes) : res (bytes * tcb_level) :=
  rlet ext := get_intel_extension cert in
  rlet fmspc := get_fmspc ext in
  rlet cpusvn := get_cpusvn ext in
  rlet pcesvn := get_pcesvn ext in
  ROk (fmspc, mkTcbLevel cpusvn pcesvn TUnknown).

(** ** Report bodies and quotes *)
(** sgx-verify/src/lib.rs:234-303 [SgxReportBody]; only the fields that are read (offsets in the
    comments there). *)
Record report_body := mkBody {
  rb_misc : bytes;         (* 16, 4 bytes *)
  rb_flags : N;            (* 48, u64 *)
  rb_mr_enclave : bytes;   (* 64, 32 bytes *)
  rb_mr_signer : bytes;    (* 128, 32 bytes *)
  rb_prod_id : N;          (* 256, u16 *)
  rb_isv_svn : N;          (* 258, u16 *)
  rb_report_data : bytes   (* 320, 64 bytes *) }.
Definition sub_ (off len : N) (l : bytes) : bytes := takeN len (dropN off l).
Definition parse_body (l : bytes) : report_body :=
  mkBody (sub_ 16 4 l) (le_val (sub_ 48 8 l)) (sub_ 64 32 l) (sub_ 128 32 l)
         (le_val (sub_ 256 2 l)) (le_val (sub_ 258 2 l)) (sub_ 320 64 l).

(** sgx-verify/src/lib.rs:306-314 [sgx_build_mode] *)
Definition sgx_build_mode (b : report_body) : build_mode :=
  if N.land (rb_flags b) 2 =? 2 then MDebug else MProduction.
(** sgx-verify/src/lib.rs:316-325 [verify_misc_select_field]; the arrays have 4 elements *)
Definition verify_misc (b : report_body) (q : qenclave) : bool :=
  forallb (fun i => N.land (nth i (rb_misc b) 0) (nth i (q_misc_mask q) 0)
                    =? N.land (nth i (q_misc q) 0) (nth i (q_misc_mask q) 0)) [0%nat;1%nat;2%nat;3%nat].
(** sgx-verify/src/lib.rs:327-334 [verify_attributes_field]; primitives/teerex/src/lib.rs:312-320 *)
Definition verify_attributes (b : report_body) (q : qenclave) : bool :=
  N.land (rb_flags b) (le_val (takeN 8 (q_attr_mask q))) =? le_val (takeN 8 (q_attr q)).
(** sgx-verify/src/lib.rs:336-353 [SgxReportBody::verify] *)
Definition verify_body (b : report_body) (q : qenclave) : bool :=
  if negb (rb_prod_id b =? q_prodid q) || negb (beq (rb_mr_signer b) (q_mrsigner q)) then false
  else if negb (verify_misc b q) then false
  else if negb (verify_attributes b q) then false
  else existsb (fun svn => svn <=? rb_isv_svn b) (q_tcb q).

(** Reading from the SCALE input: [k] bytes and the rest *)
Definition read (k : N) (l : bytes) : option (bytes * bytes) :=
  if k <=? lenN l then Some (takeN k l, dropN k l) else None.

(** sgx-verify/src/lib.rs:118-166 [DcapQuote], its header and signature data; fields that are read *)
Record dcap_quote := mkQuote {
  dq_version : N; dq_key_type : N;
  dq_body : report_body;
  dq_isv_sig : bytes; dq_att_key : bytes;
  dq_qe_report : report_body; dq_qe_sig : bytes;
  dq_auth_data : bytes;
  dq_cert_type : N; dq_cert_data : bytes }.
(** The derived [Decode] of [DcapQuote] with the hand-written ones of lines 175-186 and 196-219:
    the quote and the remaining input *)
Definition decode_quote (l : bytes) : option (dcap_quote * bytes) :=
  match read 48 l with None => None | Some (header, l) =>
  match read 384 l with None => None | Some (body, l) =>
  match read 4 l with None => None | Some (_sig_len, l) =>
  match read 64 l with None => None | Some (isv_sig, l) =>
  match read 64 l with None => None | Some (att_key, l) =>
  match read 384 l with None => None | Some (qe_report, l) =>
  match read 64 l with None => None | Some (qe_sig, l) =>
  match read 2 l with None => None | Some (asz, l) =>
  match read (le_val asz) l with None => None | Some (auth, l) =>
  match read 2 l with None => None | Some (cty, l) =>
  match read 4 l with None => None | Some (csz, l) =>
  if 65000 <? le_val csz then None else
  match read (le_val csz) l with None => None | Some (cdata, l) =>
  Some (mkQuote (le_val (sub_ 0 2 header)) (le_val (sub_ 2 2 header)) (parse_body body)
                isv_sig att_key (parse_body qe_report) qe_sig auth (le_val cty) cdata, l)
  end end end end end end end end end end end end.

(** sgx-verify/src/lib.rs:370-379 [SgxVerifiedReport] *)
Record verified_report := mkReport {
  vr_mr_enclave : bytes; vr_mr_signer : bytes; vr_report_data : bytes;
  vr_status : sgx_status; vr_timestamp : N; vr_build_mode : build_mode }.

(** sgx-verify/src/lib.rs:562-581 [extract_tcb_info_from_raw_dcap_quote]; [certs[0]] panics on an
    empty list *)
Definition extract_tcb_info_from_raw (raw : bytes) : res (bytes * tcb_level) :=
  rlet qr := rok_or (decode_quote raw) SDcapQuoteDecodingError in
  let '(q, _rest) := qr in
  rdo rensure (dq_version q =? 3) SDcapQuoteVersionMismatch in
  rdo rensure (dq_key_type q =? 2) SDcapKeyTypeMismatch in
  rdo rensure (dq_cert_type q =? 5) SPckCertFormatMismatch in
  match extract_certs (dq_cert_data q) with
  | [] => RPanic
  | leaf :: _ => extract_tcb_info leaf
  end.

(** sgx-verify/src/lib.rs:533-560 [verify_certificate_chain] *)
Definition verify_certificate_chain (leaf : bytes) (inter : list bytes) (time : N) : res unit :=
  rensure (or_chain o leaf inter (time / 1000)) SCertificateChainIsInvalid.
(** sgx-verify/src/lib.rs:787-803 [verify_signature] *)
Definition verify_signature (ok : bool) : res unit := rensure ok SRsaSignatureIsInvalid.

(** sgx-verify/src/lib.rs:583-679 [verify_dcap_quote] *)
Definition verify_dcap_quote (raw : bytes) (time : N) (qe : qenclave)
  : res (bytes * tcb_level * verified_report) :=
  rlet qr := rok_or (decode_quote raw) SDcapQuoteDecodingError in
  let '(q, rest) := qr in
  rdo rensure (dq_version q =? 3) SDcapQuoteVersionMismatch in
  rdo rensure (dq_key_type q =? 2) SDcapKeyTypeMismatch in
  rdo rensure (dq_cert_type q =? 5) SPckCertFormatMismatch in
  rdo rensure (verify_body (dq_qe_report q) qe) SQeHasRejectedEnclave in
  match extract_certs (dq_cert_data q) with
  | leaf :: ((_ :: _) as inter) =>
      rdo rensure (or_ee_parse o leaf) SLeafCertificateParsingError in
      rdo verify_certificate_chain leaf inter time in
      rlet ft := extract_tcb_info leaf in
      let '(fmspc, tcb) := ft in
      let key_off := 48 + 384 + 4 + 64 in
      let auth_off := key_off + 64 + 384 + 64 + 2 in
      rlet key_raw := slice key_off 64 raw in
      rlet auth_raw := slice auth_off 32 raw in
      rdo rensure (beq (or_sha256 o (key_raw ++ auth_raw)) (takeN 32 (rb_report_data (dq_qe_report q))))
            SQeReportHashMismatch in
      rlet qe_report_slice := slice (key_off + 64) 384 raw in
      rlet isv_slice := slice 0 (48 + 384) raw in
      rdo rensure (or_p256_fixed o (4 :: dq_att_key q) isv_slice (dq_isv_sig q))
            SIsvEnclaveReportSignatureIsInvalid in
      rlet asn1 := encode_as_der (dq_qe_sig q) in
      rdo verify_signature (or_ecdsa_cert o leaf qe_report_slice asn1) in
      rdo rensure (match rest with [] => true | _ => false end) SDcapQuoteIsTooLong in
      ROk (fmspc, tcb,
           mkReport (rb_mr_enclave (dq_body q)) (rb_mr_signer (dq_body q)) (rb_report_data (dq_body q))
                    StInvalid time (sgx_build_mode (dq_body q)))
  | _ => RErr SCertificateChainIsTooShort
  end.

(** sgx-verify/src/lib.rs:483-493 [deserialize_enclave_identity] *)
Definition deserialize_enclave_identity (data sig leaf : bytes) : res enclave_identity :=
  rlet asn1 := encode_as_der sig in
  rdo rensure (or_ecdsa_cert o leaf data asn1) SEnclaveIdentitySignatureIsInvalid in
  rok_or (or_json_identity o data) SEnclaveIdentityDecodingError.
(** sgx-verify/src/lib.rs:498-516 [deserialize_tcb_info] *)
Definition deserialize_tcb_info (data sig leaf : bytes) : res tcb_info_json :=
  rlet asn1 := encode_as_der sig in
  rdo verify_signature (or_ecdsa_cert o leaf data asn1) in
  rok_or (or_json_tcb o data) STcbInfoIsInvalid.

(** ** IAS *)
(** sgx-verify/src/netscape_comment.rs:22-65 [NetscapeComment]: (report, signature, certificate) *)
Definition ns_cmt_oid : bytes := [6;9;96;134;72;1;134;248;66;1;13].
Definition netscape (cert : bytes) : option (bytes * bytes * bytes) :=
  match position ns_cmt_oid cert with None => None | Some off =>
  match length_from_raw_data cert (off + 12) with None => None | Some (len, off) =>
  match get_range (off + 1) len cert with None => None | Some raw =>
  match split_on [124] raw with
  | [report; s; c] =>
      match or_b64 o s, or_b64 o c with
      | Some sig, Some sig_cert => Some (report, sig, sig_cert)
      | _, _ => None
      end
  | _ => None
  end end end end.

(** ASCII of the status strings of sgx-verify/src/lib.rs:737-740 *)
Definition str_OK : bytes := [79;75].
Definition str_GROUP_OUT_OF_DATE : bytes := [71;82;79;85;80;95;79;85;84;95;79;70;95;68;65;84;69].
Definition str_GROUP_REVOKED : bytes := [71;82;79;85;80;95;82;69;86;79;75;69;68].
Definition str_CONFIGURATION_NEEDED : bytes :=
  [67;79;78;70;73;71;85;82;65;84;73;79;78;95;78;69;69;68;69;68].
Definition ias_status (s : bytes) : sgx_status :=
  if beq s str_OK then StOk
  else if beq s str_GROUP_OUT_OF_DATE then StGroupOutOfDate
  else if beq s str_GROUP_REVOKED then StGroupRevoked
  else if beq s str_CONFIGURATION_NEEDED then StConfigurationNeeded
  else StInvalid.

(** sgx-verify/src/lib.rs:709-784 [parse_report]. The date oracle gets the timestamp string with
    "+0000" already appended in mind. [* 1000] cannot overflow an i64: chrono dates are within
    +-262143 years. *)
Definition parse_report (raw : bytes) : res verified_report :=
  rlet j := rok_or (or_json_ias o raw) SSgxReportParsingError in
  rlet t := rok_or (ij_timestamp j) STimestampIsMissing in
  rlet d := rok_or (or_datetime o t) STimestampIsInvalid in
  let ms := (d * 1000)%Z in
  rdo rensure (0 <=? ms)%Z STimestampIsInvalid in
  rlet st := rok_or (ij_status j) SQuoteStatusMissing in
  rlet body := rok_or (ij_body j) SQuoteBodyMissing in
  rlet quote := rok_or (or_b64 o body) SQuoteBodyDecodingError in
  match read 48 quote with
  | None => RErr SQuoteBodyIsInvalid
  | Some (_, l) =>
      match read 384 l with
      | None => RErr SQuoteBodyIsInvalid
      | Some (b, _) =>
          let rb := parse_body b in
          ROk (mkReport (rb_mr_enclave rb) (rb_mr_signer rb) (rb_report_data rb)
                        (ias_status st) (Z.to_N ms) (sgx_build_mode rb))
      end
  end.

(** sgx-verify/src/lib.rs:682-707 [verify_ias_report], 805-827 [verify_server_cert]; the signing
    certificate is checked at the fixed time of line 703 *)
Definition ias_valid_until : N := 1573419050.
Definition verify_ias_report (cert : bytes) : res verified_report :=
  rlet ns := rok_or (netscape cert) SNetscapeDecodingError in
  let '(report, sig, sig_cert) := ns in
  rdo rensure (or_ee_parse o sig_cert) SNetscapeDerError in
  rdo verify_signature (or_rsa_cert o sig_cert report sig) in
  rdo rensure (or_ias_ca o sig_cert ias_valid_until) SCaVerificationFailed in
  parse_report report.

(** sgx-verify/src/ephemeral_key.rs:18-49 [EphemeralKey] (not called by the pallets); the range
    [offset + 2 .. offset + len] is [None] when reversed *)
Definition prime256v1_oid : bytes := [6;8;42;134;72;206;61;3;1;7].
Definition ephemeral_key (cert : bytes) : option bytes :=
  match position prime256v1_oid cert with None => None | Some off =>
  match length_from_raw_data cert (off + 11) with None => None | Some (len, off) =>
  let off := off + 1 in
  if off + len <? off + 2 then None else get_range (off + 2) (len - 2) cert
  end end.

End WithOracles.

(** ** Collateral *)
(** ASCII "QE", "SGX" *)
Definition str_QE : bytes := [81;69].
Definition str_SGX : bytes := [83;71;88].
(** [i64 -> u64 try_into().expect(..)] *)
Definition z_to_u64 (z : Z) : res N := if (0 <=? z)%Z then ROk (Z.to_N z) else RPanic.

(** sgx-verify/src/collateral.rs:157-162 [EnclaveIdentity::is_valid] *)
Definition identity_is_valid (e : enclave_identity) (t : Z) : bool :=
  beq (ei_id e) str_QE && (ei_version e =? 2) && (ei_issue e <? t)%Z && (t <? ei_next e)%Z.
(** sgx-verify/src/collateral.rs:133-155 [to_quoting_enclave]: all levels, whatever their status *)
Definition to_quoting_enclave (e : enclave_identity) : res qenclave :=
  rlet i := z_to_u64 (ei_issue e) in
  rlet n := z_to_u64 (ei_next e) in
  ROk (mkQe i n (ei_misc e) (ei_misc_mask e) (ei_attr e) (ei_attr_mask e)
            (ei_mrsigner e) (ei_prodid e) (map fst (ei_levels e))).
(** sgx-verify/src/collateral.rs:211-222 [TcbInfo::is_valid] *)
Definition tcb_is_valid (e : tcb_info_json) (t : Z) : bool :=
  beq (tj_id e) str_SGX && (tj_version e =? 3) && (tj_issue e <? t)%Z && (t <? tj_next e)%Z.
(** sgx-verify/src/collateral.rs:183-209 [to_chain_tcb_info] *)
Definition to_chain_tcb_info (e : tcb_info_json) : res (bytes * tcb_info) :=
  rlet i := z_to_u64 (tj_issue e) in
  rlet n := z_to_u64 (tj_next e) in
  ROk (tj_fmspc e, mkTcbInfo i n (map (fun l => mkTcbLevel l.1.1 l.1.2 l.2) (tj_levels e))).

(** ** primitives/teerex *)
(** primitives/teerex/src/lib.rs:96-108 [From<TcbStatus> for SgxStatus] *)
Definition status_of_tcb (t : tcb_status) : sgx_status :=
  match t with
  | TUpToDate => StOk
  | TSWHardeningNeeded => StOk
  | TConfigurationAndSWHardeningNeeded => StConfigurationNeeded
  | TOutOfDate => StGroupOutOfDate
  | TOutOfDateConfigurationNeeded => StGroupOutOfDate
  | TUnknown => StInvalid
  | TRevoked => StGroupRevoked
  end.
(** primitives/teerex/src/lib.rs:338-352 [TcbVersionStatus::verify_examinee] *)
Definition level_verify (ref ex : tcb_level) : bool :=
  forallb (fun vr => negb (vr.2 <? vr.1)) (zip (tl_cpusvn ref) (tl_cpusvn ex))
  && (tl_pcesvn ref <=? tl_pcesvn ex).
(** primitives/teerex/src/lib.rs:374-384 [SgxTcbInfoOnChain::verify_examinee] *)
Definition tcb_verify (i : tcb_info) (ex : tcb_level) : option sgx_status :=
  match List.find (fun l => level_verify l ex) (ti_levels i) with
  | Some l => Some (status_of_tcb (tl_status l))
  | None => None
  end.
