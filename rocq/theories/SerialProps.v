(** * C87: Intel's documents survive being read and written *)
From Coq Require Import String.
From Verif Require Import Base State SgxVerifyModel CollateralModel TextModel SerialModel SerialProofs TestData.

(** base64 texts give back the bytes they were made of. *)
Theorem C87_base64_round_trip : forall b, Forall (fun x => x < 256) b -> b64_decode (b64_encode b) = Some b.
Proof. exact b64_roundtrip. Qed.
Print Assumptions C87_base64_round_trip.
Example C87_example_base64 :
  b64_decode (asc "TWFu") = Some (asc "Man") /\ b64_decode (asc "TWE=") = Some (asc "Ma") /\
  b64_decode (asc "TQ==") = Some (asc "M") /\ b64_decode (asc "TQ") = Some (asc "M") /\
  b64_decode (asc "TR==") = None /\ b64_decode (asc "T===") = None /\ b64_decode (asc "TQ==TWFu") = None /\
  b64_encode (asc "Ma") = asc "TWE=".
Proof. vm_compute. repeat split. Qed.

(** A JSON value without fractions, with integers of 64 bits, valid strings and at most 127 levels of
    arrays and objects, is read back from its text; so two values with the same text are equal. *)
Theorem C87_json_round_trip : forall j, printable j -> nesting j < 128 -> json_parse (json_print j) = Some j.
Proof. exact json_roundtrip. Qed.
Print Assumptions C87_json_round_trip.
Example C87_example_json :
  json_parse (asc " {""a"" : [1, -2, true, null], ""b"":""xA\n"" } ")
  = Some (JObj [(asc "a", JArr [JInt 1; JInt (-2); JBool true; JNull]); (asc "b", JStr [120; 65; 10] true)]) /\
  json_print (JObj [(asc "a", JArr [JInt 1; JInt (-2); JBool true; JNull]); (asc "b", JStr [120; 65; 10] true)])
  = asc "{""a"":[1,-2,true,null],""b"":""xA\n""}" /\
  json_parse (asc "01") = None /\ json_parse (asc "1 2") = None /\ json_parse (asc "[1,]") = None /\
  json_parse (asc "1.5") = Some JFloat /\ json_parse (asc """\ud800""") = None.
Proof. vm_compute. repeat split. Qed.
(** the 128th level is refused, so the limit on nesting cannot be dropped *)
Fixpoint nest (n : nat) : json := match n with O => JArr [] | S n => JArr [nest n] end.
Example C87_example_nesting :
  nesting (nest 126) = 127 /\ json_parse (json_print (nest 126)) = Some (nest 126) /\
  nesting (nest 127) = 128 /\ json_parse (json_print (nest 127)) = None.
Proof. vm_compute. repeat split. Qed.

(** The bound on the recursion in the model of the reader makes no difference. *)
Theorem C87_reader_never_lacks_fuel : forall f d l, (2 * List.length l < f)%nat ->
  json_value f d l = json_value (S (2 * List.length l)) d l.
Proof. exact json_enough_fuel. Qed.
Print Assumptions C87_reader_never_lacks_fuel.

(** A date is read back as the instant it was written for, also in leap seconds. *)
Theorem C87_dates_round_trip : forall t,
  (-62167219200 <= i_secs t < 253402300800)%Z ->
  i_nanos t < 1000000000 \/ (i_nanos t < 2000000000 /\ (i_secs t mod 60 = 59)%Z) ->
  rfc3339 (write_date t) = Some t.
Proof. intros t H1 H2. apply rfc3339_write. split; assumption. Qed.
Print Assumptions C87_dates_round_trip.
Example C87_example_dates :
  write_date (mkInstant 0 0) = asc "1970-01-01T00:00:00Z" /\
  rfc3339 (asc "2000-02-29T23:59:60.5Z") = Some (mkInstant 951868799 1500000000) /\
  write_date (mkInstant 951868799 1500000000) = asc "2000-02-29T23:59:60.500Z" /\
  rfc3339 (asc "1900-02-29T00:00:00Z") = None /\
  rfc3339 (asc "0000-01-01T00:00:00Z") = Some (mkInstant (-62167219200) 0) /\
  rfc3339 (asc "9999-12-31T23:59:59Z") = Some (mkInstant 253402300799 0) /\
  rfc3339 (asc "2022-12-21T10:27:25+02:00") = Some (mkInstant 1671611245 0).
Proof. vm_compute. repeat split. Qed.

(** An enclave identity and a TCB info with values of the types of their fields are read back from the
    text they are written as, alone and with a signature as Intel's service delivers them. *)
Theorem C87_documents_round_trip :
  (forall v, identity_ok v -> identity_of_text (identity_text v) = Some v) /\
  (forall v, tcb_ok v -> tcb_of_text (tcb_text v) = Some v) /\
  (forall v sig, identity_ok v -> utf8_valid sig = true ->
     match json_parse (json_print (w_signed s_enclave_identity (w_identity v) sig)) with
     | Some j => r_signed s_enclave_identity r_identity j | None => None end = Some (v, sig)) /\
  (forall v sig, tcb_ok v -> utf8_valid sig = true ->
     match json_parse (json_print (w_signed s_tcb_info (w_tcb v) sig)) with
     | Some j => r_signed s_tcb_info r_tcb j | None => None end = Some (v, sig)).
Proof.
  split; [exact identity_roundtrip|]. split; [exact tcb_roundtrip|]. split.
  - intros v sig H Hs. apply signed_roundtrip; auto using jok_identity, r_identity_w.
  - intros v sig H Hs. apply signed_roundtrip; auto using jok_tcb, r_tcb_w.
Qed.
Print Assumptions C87_documents_round_trip.

(** Different documents are never written as the same text, so a signature of the text is a signature
    of the document. *)
Theorem C87_texts_determine_documents :
  (forall v v', identity_ok v -> identity_ok v' -> identity_text v = identity_text v' -> v = v') /\
  (forall v v', tcb_ok v -> tcb_ok v' -> tcb_text v = tcb_text v' -> v = v').
Proof.
  split; intros v v' H H' E.
  - pose proof (identity_roundtrip v H) as R. rewrite E, identity_roundtrip in R by assumption. congruence.
  - pose proof (tcb_roundtrip v H) as R. rewrite E, tcb_roundtrip in R by assumption. congruence.
Qed.
Print Assumptions C87_texts_determine_documents.

(** The pallet, which reads only part of the fields, reads the right values from a written text. *)
Theorem C87_pallet_reads_what_was_written : forall rsa ecdsa fixed,
  (forall v, identity_ok v -> or_json_identity (text_oracles rsa ecdsa fixed) (identity_text v) = Some (identity_used v)) /\
  (forall v, tcb_ok v -> or_json_tcb (text_oracles rsa ecdsa fixed) (tcb_text v) = Some (tcb_used v)) /\
  (forall b, or_json_identity (text_oracles rsa ecdsa fixed) b = option_map identity_used (identity_of_text b)) /\
  (forall b, or_json_tcb (text_oracles rsa ecdsa fixed) b = option_map tcb_used (tcb_of_text b)) /\
  reads_json json_parse date_millis (text_oracles rsa ecdsa fixed).
Proof.
  intros rsa ecdsa fixed.
  assert (HI : forall b, or_json_identity (text_oracles rsa ecdsa fixed) b = option_map identity_used (identity_of_text b)).
  { intros b. cbn. unfold identity_of_text. destruct (json_parse b); [apply identity_used_ok|reflexivity]. }
  assert (HT : forall b, or_json_tcb (text_oracles rsa ecdsa fixed) b = option_map tcb_used (tcb_of_text b)).
  { intros b. cbn. unfold tcb_of_text. destruct (json_parse b); [apply tcb_used_ok|reflexivity]. }
  split; [intros v H; rewrite HI, identity_roundtrip by exact H; reflexivity|].
  split; [intros v H; rewrite HT, tcb_roundtrip by exact H; reflexivity|].
  split; [exact HI|]. split; [exact HT|]. repeat split; reflexivity.
Qed.
Print Assumptions C87_pallet_reads_what_was_written.

(** Any text that is accepted holds a value that can be written and read back, if its dates lie in the
    years 0 to 9999 (an offset can move a date out of them). *)
Theorem C87_accepted_documents_survive_rewriting :
  (forall b v, identity_of_text b = Some v -> identity_dates v -> identity_ok v /\ identity_of_text (identity_text v) = Some v) /\
  (forall b v, tcb_of_text b = Some v -> tcb_dates v -> tcb_ok v /\ tcb_of_text (tcb_text v) = Some v).
Proof.
  split; intros b v H D.
  - unfold identity_of_text in H. destruct (json_parse b) as [j|] eqn:E; [|discriminate].
    assert (identity_ok v) by (eapply r_identity_ok; eauto using json_parse_texts). auto using identity_roundtrip.
  - unfold tcb_of_text in H. destruct (json_parse b) as [j|] eqn:E; [|discriminate].
    assert (tcb_ok v) by (eapply r_tcb_ok; eauto using json_parse_texts). auto using tcb_roundtrip.
Qed.
Print Assumptions C87_accepted_documents_survive_rewriting.

(** The two documents Intel signed that are in the repository come out byte for byte as they were
    signed, which is what makes the rewritten text verifiable. *)
Definition in_years (t : instant) : bool := (-62167219200 <=? i_secs t)%Z && (i_secs t <? 253402300800)%Z.
Example C87_example_signed_documents :
  match identity_of_text qe_identity_text with
  | Some v => in_years (iv_issue v) && in_years (iv_next v) && forallb (fun x => in_years (lv_date x)) (iv_levels v) = true /\
              identity_text v = qe_identity_text /\
              iv_id v = asc "QE" /\ iv_prodid v = 1 /\ List.length (iv_levels v) = 5%nat
  | None => False
  end /\
  match tcb_of_text tcb_info_text with
  | Some v => in_years (tv_issue v) && in_years (tv_next v) && forallb (fun x => in_years (fv_date x)) (tv_levels v) = true /\
              tcb_text v = tcb_info_text /\
              tv_fmspc v = [0; 144; 110; 161; 0; 0] /\ List.length (tv_levels v) = 18%nat
  | None => False
  end.
Proof. vm_compute. repeat split. Qed.

(** In general the bytes are not preserved: hex digits come out in upper case and spaces are lost, so the
    signature of an accepted text may be invalid for the rewritten one. The witness is a document in the
    repository (test-data/dcap/test2_tcb_info.json). *)
Theorem C87_rewriting_keeps_the_bytes_refuted :
  exists b v, match json_parse b with Some j => r_signed s_tcb_info r_tcb j | None => None end = Some v /\
              json_print (w_signed s_tcb_info (w_tcb v.1) v.2) <> b.
Proof.
  exists tcb_info2_json.
  assert (H : match match json_parse tcb_info2_json with Some j => r_signed s_tcb_info r_tcb j | None => None end with
              | Some v => beq (json_print (w_signed s_tcb_info (w_tcb v.1) v.2)) tcb_info2_json = false
              | None => False
              end) by (vm_compute; reflexivity).
  destruct (match json_parse tcb_info2_json with Some j => r_signed s_tcb_info r_tcb j | None => None end) as [v|];
    [|destruct H].
  exists v. split; [reflexivity|]. unfold beq in H. apply bool_decide_eq_false in H. exact H.
Qed.
Print Assumptions C87_rewriting_keeps_the_bytes_refuted.
