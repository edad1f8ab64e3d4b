(** * The unit tests of teerex and sgx-verify, with the documents they use *)
From Coq Require Import String.
From Verif Require Import Base State Env TeerexBase SgxVerifyModel TeerexModel Runtime Examples
  CollateralModel TextModel TestData SerialModel Conformance.

(** teerex/src/mock.rs:97-142 *)
Definition tx_cfg : cfg :=
  mkCfg true 1 u64_max u32_max 86400000 86400000 172800000 3 64 [] (fun _ => false) (fun _ => false)
        (fun _ => false) 0 0 0 (fun b => b) (fun _ _ => None) (fun _ => inr []) real_oracles.
(** teerex/src/mock.rs:144-192 [new_test_ext], [new_test_production_ext] *)
Definition tx_ext (allow : bool) : rt :=
  set_clock 0 1 (genesis_state (mkGenesis 0 {[k_alice := 1152921504606846976]} [] [] allow allow ∅)).
Definition tx_test (l : list line) : bool := test tx_cfg l (tx_ext true).
Definition tx_production_test (l : list line) : bool := test tx_cfg l (tx_ext false).

(** test-utils and sgx-verify/src/test_data.rs *)
Definition t4 : N := 1587899785000.
Definition t5 : N := 1587900013000.
Definition t7 : N := 1587900450000.
Definition t8 : N := 1634156700000.
Definition t_collateral : N := 1671606747000.
Definition mrenclave4 := hx "7a3454ec8f42e265cb5be7dfd111e1d95ac6076ed82a0948b2e2a45cf17b62a0".
Definition mrsigner4 := hx "83d719e77deaca1470f6baf62a4d774303c899db69020f9c70ee1dfc08c7ce9e".
Definition mrenclave8 := hx "bcf66abfc6b3ef259e9ecfe4cf8df667a7f5a546525dee16822741b38f6e6050".
Definition mrsigner8 := hx "117f95f65f06afb5764b572156b8b525c6230db7d6b1c94e8ebdb7fba068f4e8".
Definition quote1_mrenclave := hx "6f90120b5c1f03619112eac855e29d6e0be4f35b2902aa169affff7719277ebc".
Definition quote1_signer : acct :=
  [65;89;193;118;86;172;17;149;206;160;174;75;219;151;51;235;110;135;20;55;147;162;106;110;143;207;57;64;67;63;203;95].

Definition reg (a : acct) (proof : bytes) (u : option bytes) (m : att_method) : line :=
  Ok_ (Signed a) (CTx (TxRegister proof u m)).
(** teerex/src/test_helpers.rs:30-68 *)
Definition collateral : list line :=
  [Ok_ (Signed k_alice) (CTx (TxRegisterQe qe_identity_text qe_identity_sig qe_identity_chain));
   Ok_ (Signed k_alice) (CTx (TxRegisterTcb tcb_info_text tcb_info_sig tcb_info_chain))].
Definition sovereign (a : acct) (p : enclave -> bool) : line :=
  Check (fun s => match tx_sov (rt_tx s) !! a with Some e => p e | None => false end).
Definition no_sovereign (a : acct) : line := Check (fun s => bool_decide (tx_sov (rt_tx s) !! a = None)).
Definition proxied (a : eaddr) (p : enclave -> bool) : line :=
  Check (fun s => match tx_prox (rt_tx s) !! a with Some e => p e | None => false end).
Definition sovereigns (n : nat) : line := Check (fun s => Nat.eqb (size (tx_sov (rt_tx s))) n).
Definition proxieds (n : nat) : line := Check (fun s => Nat.eqb (size (tx_prox (rt_tx s))) n).
Definition there {A} (_ : A) : bool := true.

(** teerex/src/tests/test_cases.rs:68-80 *)
Example t_set_security_flags_works :
  tx_test
    [Ok_ Root (CTx (TxSetFlags true false));
     Check (fun s => tx_allow_skip (rt_tx s) && negb (tx_allow_debug (rt_tx s)));
     event_in (EvUpdatedSecurityFlags true false)] = true.
Proof. vm_compute. reflexivity. Qed.
(** teerex/src/tests/test_cases.rs:82-88 *)
Example t_set_security_flags_as_non_root_fails :
  tx_test [Err_ (Signed k_alice) (CTx (TxSetFlags true false))] = true.
Proof. vm_compute. reflexivity. Qed.
(** teerex/src/tests/test_cases.rs:90-117 *)
Example t_add_and_remove_dcap_enclave_works :
  tx_test
    ([At t_collateral] ++ collateral ++
     [reg quote1_signer quote1 (Some url) (MDcap false);
      sovereign quote1_signer (fun e => en_timestamp e =? t_collateral);
      At (t_collateral + 172800000 + 1);
      Ok_ (Signed k_alice) (CTx (TxUnregisterSovereign quote1_signer));
      no_sovereign quote1_signer; sovereigns 0]) = true.
Proof. vm_compute. reflexivity. Qed.
(** primitives/common/src/lib.rs:69-78 [AnySigner::from([u8; 32])] *)
Definition signer32 (b : bytes) : any_signer := inl (b ++ zeros 34).
Definition quote1_address : eaddr := (quote1_mrenclave, k_alice, signer32 quote1_signer).
(** teerex/src/tests/test_cases.rs:119-151 *)
Example t_add_and_remove_dcap_proxied_enclave_works :
  tx_test
    ([At t_collateral] ++ collateral ++
     [reg k_alice quote1 None (MDcap true);
      proxieds 1; proxied quote1_address there;
      At (t_collateral + 172800000 + 1);
      Ok_ (Signed k_alice) (CTx (TxUnregisterProxied quote1_address));
      proxieds 0]) = true.
Proof. vm_compute. reflexivity. Qed.
(** teerex/src/tests/test_cases.rs:153-172 *)
Example t_outdated_tcb_status_is_reported_correctly :
  match or_json_identity real_oracles qe_identity_text with
  | Some i =>
      match to_quoting_enclave i with
      | ROk qe =>
          match verify_dcap_quote real_oracles quote2 1693475073000 qe with
          | ROk (_, lvl, _) =>
              bool_decide (tcb_verify (mkTcbInfo 1693476000000 1914399873000
                 [mkTcbLevel (hx "0C0C0303FFFF00000000000000000000") 13 TOutOfDate]) lvl
                = Some StGroupOutOfDate)
          | _ => false
          end
      | _ => false
      end
  | None => false
  end = true.
Proof. vm_compute. reflexivity. Qed.
Definition put_skip (b : bool) : line :=
  Put (fun s => set_tx (let t := rt_tx s in mkTx (tx_sov t) (tx_prox t) (tx_qe t) (tx_tcb t) (tx_allow_debug t) b) s).
(** teerex/src/tests/test_cases.rs:174-207; [MrEnclave::decode] reads the first 32 bytes *)
Example t_skip_attestation_add_sovereign_enclave_works_if_allowed :
  tx_test
    [At t_collateral; put_skip true;
     reg k_alice quote1 (Some url) (MSkip false);
     sovereign k_alice (fun e => bool_decide (en_method e = MSkip false));
     put_skip false;
     ErrIs (Signed k_alice) (CTx (TxRegister quote1 (Some url) (MSkip false))) SkippingAttestationIsNotAllowed] = true.
Proof. vm_compute. reflexivity. Qed.
(** teerex/src/tests/test_cases.rs:209-249 *)
Example t_skip_attestation_add_proxied_enclave_works_if_allowed :
  tx_test
    [At t_collateral; put_skip true;
     reg k_alice quote1_mrenclave None (MSkip true);
     proxieds 1;
     proxied (quote1_mrenclave, k_alice, signer32 k_alice) (fun e => bool_decide (en_method e = MSkip true));
     put_skip false;
     ErrIs (Signed k_alice) (CTx (TxRegister quote1 (Some url) (MSkip false))) SkippingAttestationIsNotAllowed] = true.
Proof. vm_compute. reflexivity. Qed.
(** teerex/src/tests/test_cases.rs:251-282 *)
Example t_unregister_active_sovereign_enclave_fails :
  tx_test
    ([At t_collateral] ++ collateral ++
     [reg quote1_signer quote1 (Some url) (MDcap false);
      sovereign quote1_signer there;
      At (t_collateral + 172800000 / 2 + 1);
      ErrIs (Signed k_alice) (CTx (TxUnregisterSovereign quote1_signer)) UnregisterActiveEnclaveIsNotAllowed;
      sovereign quote1_signer there]) = true.
Proof. vm_compute. reflexivity. Qed.
(** teerex/src/tests/test_cases.rs:284-320 *)
Example t_unregister_active_proxied_enclave_fails :
  tx_test
    ([At t_collateral] ++ collateral ++
     [reg k_alice quote1 None (MDcap true);
      proxied quote1_address there;
      At (t_collateral + 172800000 / 2 + 1);
      ErrIs (Signed k_alice) (CTx (TxUnregisterProxied quote1_address)) UnregisterActiveEnclaveIsNotAllowed;
      proxied quote1_address there]) = true.
Proof. vm_compute. reflexivity. Qed.
(** teerex/src/tests/test_cases.rs:322-339 *)
Example t_register_quoting_enclave_works :
  tx_test
    ([Check (fun s => beq (q_mrsigner (tx_qe (rt_tx s))) (zeros 32) && (q_prodid (tx_qe (rt_tx s)) =? 0));
      At t_collateral] ++ take 1 collateral ++
     [Check (fun s => q_prodid (tx_qe (rt_tx s)) =? 1);
      Check (fun s => existsb (fun x => bool_decide (x = EvSgxQuotingEnclaveRegistered (tx_qe (rt_tx s)))) (rt_ev s))]) = true.
Proof. vm_compute. reflexivity. Qed.
(** teerex/src/tests/test_cases.rs:341-358 *)
Example t_register_tcb_info_works :
  tx_test
    ([At t_collateral] ++ drop 1 collateral ++
     [Check (fun s => match tx_tcb (rt_tx s) !! hx "00906EA10000" with
        | Some i => (ti_next i =? 1681649132000)
                    && existsb (fun x => bool_decide (x = EvSgxTcbInfoRegistered (hx "00906EA10000") i)) (rt_ev s)
        | None => false end)]) = true.
Proof. vm_compute. reflexivity. Qed.
(** teerex/src/tests/test_cases.rs:360-374 *)
Example t_add_enclave_works :
  tx_test [At t4; reg ias_signer4 ias_cert4 (Some url) MIas; sovereign ias_signer4 there] = true.
Proof. vm_compute. reflexivity. Qed.
(** teerex/src/tests/test_cases.rs:376-398 *)
Example t_add_and_remove_enclave_works :
  tx_test
    [At t4; reg ias_signer4 ias_cert4 (Some url) MIas; sovereign ias_signer4 there;
     At (t4 + 172800000 + 1); Ok_ (Signed k_alice) (CTx (TxUnregisterSovereign ias_signer4));
     no_sovereign ias_signer4; sovereigns 0] = true.
Proof. vm_compute. reflexivity. Qed.
(** teerex/src/tests/test_cases.rs:400-414 *)
Example t_add_enclave_without_timestamp_fails :
  tx_test
    [At 0; Err_ (Signed ias_signer4) (CTx (TxRegister ias_cert4 (Some url) MIas)); no_sovereign ias_signer4] = true.
Proof. vm_compute. reflexivity. Qed.
Definition enclave4 (u : bytes) : enclave :=
  mkEnclave (ias_signer4 ++ zeros 32) mrenclave4 mrsigner4 t4 (Some u) MDebug MIas StConfigurationNeeded.
Definition enclave8 : enclave :=
  mkEnclave (ias_signer8 ++ zeros 32) mrenclave8 mrsigner8 t8 (Some url) MProduction MIas StInvalid.
(** teerex/src/tests/test_cases.rs:416-441, 526-555 *)
Example t_list_enclaves_works :
  tx_test
    [At t4; reg ias_signer4 ias_cert4 (Some url) MIas;
     sovereign ias_signer4 (fun e => bool_decide (e = enclave4 url)); sovereigns 1] = true.
Proof. vm_compute. reflexivity. Qed.
(** teerex/src/tests/test_cases.rs:443-458 *)
Example t_register_ias_enclave_with_different_signer_fails :
  tx_test [At t7; ErrIs (Signed ias_signer7) (CTx (TxRegister ias_cert5 (Some url) MIas)) SenderIsNotAttestedEnclave] = true.
Proof. vm_compute. reflexivity. Qed.
(** teerex/src/tests/test_cases.rs:460-475 *)
Example t_register_ias_enclave_with_to_old_attestation_report_fails :
  tx_test [At (t7 + 86400000 + 1);
           ErrIs (Signed ias_signer7) (CTx (TxRegister ias_cert7 (Some url) MIas)) RemoteAttestationIsTooOld] = true.
Proof. vm_compute. reflexivity. Qed.
(** teerex/src/tests/test_cases.rs:477-489 *)
Example t_register_ias_enclave_with_almost_too_old_report_works :
  tx_test [At (t7 + 86400000 - 1); reg ias_signer7 ias_cert7 (Some url) MIas] = true.
Proof. vm_compute. reflexivity. Qed.
(** teerex/src/tests/test_cases.rs:491-524 *)
Example t_update_enclave_url_works :
  tx_test
    [At t4; reg ias_signer4 ias_cert4 (Some url) MIas;
     sovereign ias_signer4 (fun e => bool_decide (en_url e = Some url));
     reg ias_signer4 ias_cert4 (Some (asc "my fancy url")) MIas;
     sovereign ias_signer4 (fun e => bool_decide (en_url e = Some (asc "my fancy url")))] = true.
Proof. vm_compute. reflexivity. Qed.
(** teerex/src/tests/test_cases.rs:557-584 *)
Example t_production_mode_enclave_attest_works_when_sgx_debug_mode_is_allowed :
  tx_test
    [At t8; reg ias_signer8 ias_cert8 (Some url) MIas;
     sovereign ias_signer8 (fun e => bool_decide (e = enclave8))] = true.
Proof. vm_compute. reflexivity. Qed.
(** teerex/src/tests/test_cases.rs:586-603 *)
Example t_debug_mode_enclave_attest_fails_when_sgx_debug_mode_not_allowed :
  tx_production_test
    [At t4; ErrIs (Signed ias_signer4) (CTx (TxRegister ias_cert4 (Some url) MIas)) SgxModeIsNotAllowed;
     no_sovereign ias_signer4] = true.
Proof. vm_compute. reflexivity. Qed.
(** teerex/src/tests/test_cases.rs:604-631 *)
Example t_production_mode_enclave_attest_works_when_sgx_debug_mode_not_allowed :
  tx_production_test
    [At t8; reg ias_signer8 ias_cert8 (Some url) MIas;
     sovereign ias_signer8 (fun e => bool_decide (e = enclave8))] = true.
Proof. vm_compute. reflexivity. Qed.

(** ** sgx-verify/src/tests.rs *)
Definition refused {A} (r : res A) : bool := match r with RErr _ => true | _ => false end.
Definition report_of (r : res verified_report) (p : verified_report -> bool) : bool :=
  match r with ROk v => p v | _ => false end.
(** sgx-verify/src/tests.rs:43-81 *)
Example t_verify_ias_reports :
  report_of (verify_ias_report real_oracles ias_cert4)
    (fun v => beq (vr_mr_enclave v) mrenclave4 && (vr_timestamp v =? t4) && beq (takeN 32 (vr_report_data v)) ias_signer4
              && bool_decide (vr_status v = StConfigurationNeeded) && bool_decide (vr_build_mode v = MDebug))
  && forallb (fun c => refused (verify_ias_report real_oracles c))
       [[]; ias_cert_wrong_platform_blob; ias_cert_fake_quote_status; ias_cert_wrong_sig; ias_cert_too_short1; ias_cert_too_short2] = true.
Proof. vm_compute. reflexivity. Qed.
(** sgx-verify/src/tests.rs:83-98 *)
Example t_fix_incorrect_handling_of_iterator :
  match verify_ias_report real_oracles
    [224;224;224;224;224;224;224;224;235;2;0;1;5;40;0;8;255;6;8;42;134;72;206;61;3;1;7;0;2;183;64;48;48;0;1;10;23;3;6;9;
     96;134;72;1;134;248;66;1;13;0;0;0;13;1;14;177] with RErr e => e | _ => SCaVerificationFailed end = SNetscapeDecodingError.
Proof. vm_compute. reflexivity. Qed.
(** sgx-verify/src/tests.rs:100-110 *)
Example t_verify_sgx_build_mode_works :
  report_of (verify_ias_report real_oracles ias_cert4) (fun v => bool_decide (vr_build_mode v = MDebug))
  && report_of (verify_ias_report real_oracles ias_cert8) (fun v => bool_decide (vr_build_mode v = MProduction)) = true.
Proof. vm_compute. reflexivity. Qed.
(** sgx-verify/src/tests.rs:45-50 *)
Example t_decoding_dcap_quote_works : match decode_quote quote2 with Some _ => true | None => false end = true.
Proof. vm_compute. reflexivity. Qed.
(** sgx-verify/src/tests.rs:134-155: the document inside the signed file, written out again *)
Example t_deserialize_qe_identity_works :
  match extract_certs real_oracles qe_identity_chain with
  | leaf :: inter =>
      match verify_certificate_chain real_oracles leaf inter t_collateral,
            deserialize_enclave_identity real_oracles qe_identity_text qe_identity_sig leaf with
      | ROk _, ROk e => (ei_prodid e =? 1) && Nat.eqb (List.length (ei_levels e)) 5
      | _, _ => false
      end
  | [] => false
  end = true.
Proof. vm_compute. reflexivity. Qed.
(** sgx-verify/src/tests.rs:157-177 *)
Example t_deserialize_tcb_info_works :
  match extract_certs real_oracles tcb_info_chain with
  | leaf :: inter =>
      match verify_certificate_chain real_oracles leaf inter t_collateral,
            deserialize_tcb_info real_oracles tcb_info_text tcb_info_sig leaf with
      | ROk _, ROk e => beq (tj_fmspc e) (hx "00906EA10000")
      | _, _ => false
      end
  | [] => false
  end = true.
Proof. vm_compute. reflexivity. Qed.
(** sgx-verify/src/tests.rs:211-228 *)
Example t_parse_pck_certificate :
  match b64_decode (filter (fun c => c <> 10) pck_cert_base64) with
  | Some der =>
      match get_intel_extension real_oracles der with
      | ROk ext =>
          (lenN ext =? 453)
          && match get_fmspc ext, get_cpusvn ext, get_pcesvn ext with
             | ROk f, ROk c, ROk p => beq f (hx "00906EA10000") && beq c (hx "11110204018007000000000000000000") && (p =? 11)
             | _, _, _ => false
             end
      | _ => false
      end
  | None => false
  end = true.
Proof. vm_compute. reflexivity. Qed.
(** sgx-verify/src/tests.rs:112-133: the two decoders, as parts of a quote whose fixed-size fields are zero *)
Definition auth_part (b : bytes) : option bytes :=
  option_map (fun q => dq_auth_data q.1) (decode_quote (zeros 1012 ++ b)).
Definition cert_part (b : bytes) : option bytes :=
  option_map (fun q => dq_cert_data q.1) (decode_quote (zeros 1012 ++ [0; 0] ++ b)).
Example t_decode_qe_authentication_and_certification_data :
  bool_decide (auth_part [0] = None) && bool_decide (auth_part [1] = None)
  && bool_decide (auth_part ([0; 0] ++ zeros 6) = Some []) && bool_decide (auth_part ([1; 0; 5] ++ zeros 6) = Some [5])
  && bool_decide (cert_part [0] = None) && bool_decide (cert_part [1; 0; 0; 0; 0] = None)
  && bool_decide (cert_part [0; 0; 0; 0; 0; 0] = Some []) && bool_decide (cert_part [0; 0; 1; 0; 0; 0; 5] = Some [5])
  && bool_decide (cert_part [0; 0; 2; 0; 0; 0; 5] = None) = true.
Proof. vm_compute. reflexivity. Qed.
