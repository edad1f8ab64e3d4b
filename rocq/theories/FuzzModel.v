(** * The fuzz targets of sgx-verify, teerex/sgx-verify/fuzz/fuzz_targets. A target is run on byte strings
    chosen by the fuzzer; it reports those on which it panics. *)
From Coq Require Import String.
From Verif Require Import Base State SgxVerifyModel CollateralModel TextModel TestData.

(** One target per file *)
Inductive target := FtDecodeQuote | FtDeserializeJson | FtExtractTcbInfo | FtSignatureCheck | FtVerifyIasReport.

(** [assert!(r.is_err())] *)
Definition assert_err {A} (r : res A) : res unit :=
  match r with ROk _ => RPanic | RErr _ => ROk tt | RPanic => RPanic end.
Definition unwrap {A} (x : option A) : res A := match x with Some a => ROk a | None => RPanic end.

(** signature_check.rs:22 *)
Definition fuzz_document : bytes := asc "{""id"":""QE"",""version"":2,""issueDate"":""2022-10-18T21:55:07Z"",""nextUpdate"":""2022-11-17T21:55:07Z"",""tcbEvaluationDataNumber"":12,""miscselect"":""00000000"",""miscselectMask"":""FFFFFFFF"",""attributes"":""11000000000000000000000000000000"",""attributesMask"":""FBFFFFFFFFFFFFFF0000000000000000"",""mrsigner"":""8C4F5775D796503E96137F77C68A829A0056AC8DED70140B081B094490C57BFF"",""isvprodid"":1,""tcbLevels"":[{""tcb"":{""isvsvn"":6},""tcbDate"":""2021-11-10T00:00:00Z"",""tcbStatus"":""UpToDate""},{""tcb"":{""isvsvn"":5},""tcbDate"":""2020-11-11T00:00:00Z"",""tcbStatus"":""OutOfDate""},{""tcb"":{""isvsvn"":4},""tcbDate"":""2019-11-13T00:00:00Z"",""tcbStatus"":""OutOfDate""},{""tcb"":{""isvsvn"":2},""tcbDate"":""2019-05-15T00:00:00Z"",""tcbStatus"":""OutOfDate""},{""tcb"":{""isvsvn"":1},""tcbDate"":""2018-08-15T00:00:00Z"",""tcbStatus"":""OutOfDate""}]}".

Section WithOracles.
Context (o : sgx_oracles).

Definition fuzz_target (t : target) (data : bytes) : res unit :=
  match t with
  (* decode_quote.rs:7-15: the result is dropped *)
  | FtDecodeQuote => let _quote := decode_quote data in ROk tt
  (* deserialize_json.rs:6-11 *)
  | FtDeserializeJson =>
      rdo assert_err (rok_or (or_json_identity o data) SEnclaveIdentityDecodingError) in
      assert_err (rok_or (or_json_tcb o data) STcbInfoIsInvalid)
  (* extract_tcb_info.rs:6-8 *)
  | FtExtractTcbInfo => assert_err (extract_tcb_info o data)
  (* signature_check.rs:10-27; the certificate is the file of line 15 without line feeds *)
  | FtSignatureCheck =>
      if lenN data <? 64 then ROk tt else
      rlet cert := unwrap (or_b64 o (filter (fun c => c <> 10) qe_identity_cert_base64)) in
      rdo (if or_ee_parse o cert then ROk tt else RPanic) in
      assert_err (deserialize_enclave_identity o fuzz_document (takeN 64 data) cert)
  (* verify_ias_report.rs:6-9 *)
  | FtVerifyIasReport => assert_err (verify_ias_report o data)
  end.
Definition reports (t : target) (data : bytes) : Prop := fuzz_target t data = RPanic.
End WithOracles.
