(** * Model of pallet teerex (teerex/src/lib.rs). *)
From Verif Require Import Base State SgxVerifyModel TeerexBase.

(** Run a pure sgx-verify function; its errors are mapped one to one (teerex/src/lib.rs:174-222) *)
Definition lift_res {A} (r : res A) : RM A :=
  match r with ROk a => ret a | RErr e => fail (TxSgx e) | RPanic => panic end.

(** storage access, teerex/src/lib.rs:224-266 *)
Definition put_sov (a : acct) (e : enclave) (s : rt) : rt :=
  let t := rt_tx s in
  set_tx (mkTx (<[a := e]> (tx_sov t)) (tx_prox t) (tx_qe t) (tx_tcb t) (tx_allow_debug t) (tx_allow_skip t)) s.
Definition del_sov (a : acct) (s : rt) : rt :=
  let t := rt_tx s in
  set_tx (mkTx (delete a (tx_sov t)) (tx_prox t) (tx_qe t) (tx_tcb t) (tx_allow_debug t) (tx_allow_skip t)) s.
Definition put_prox (a : eaddr) (e : enclave) (s : rt) : rt :=
  let t := rt_tx s in
  set_tx (mkTx (tx_sov t) (<[a := e]> (tx_prox t)) (tx_qe t) (tx_tcb t) (tx_allow_debug t) (tx_allow_skip t)) s.
Definition del_prox (a : eaddr) (s : rt) : rt :=
  let t := rt_tx s in
  set_tx (mkTx (tx_sov t) (delete a (tx_prox t)) (tx_qe t) (tx_tcb t) (tx_allow_debug t) (tx_allow_skip t)) s.
Definition put_qe (q : qenclave) (s : rt) : rt :=
  let t := rt_tx s in
  set_tx (mkTx (tx_sov t) (tx_prox t) q (tx_tcb t) (tx_allow_debug t) (tx_allow_skip t)) s.
Definition put_tcb (f : bytes) (i : tcb_info) (s : rt) : rt :=
  let t := rt_tx s in
  set_tx (mkTx (tx_sov t) (tx_prox t) (tx_qe t) (<[f := i]> (tx_tcb t)) (tx_allow_debug t) (tx_allow_skip t)) s.
Definition put_flags (debug skip : bool) (s : rt) : rt :=
  let t := rt_tx s in
  set_tx (mkTx (tx_sov t) (tx_prox t) (tx_qe t) (tx_tcb t) debug skip) s.

(** primitives/teerex/src/lib.rs:178-187 [attestaion_proxied] *)
Definition is_proxied (e : enclave) : bool :=
  match en_method e with MSkip true | MDcap true => true | _ => false end.
(** primitives/teerex/src/lib.rs:157-165 [instance_signer], 222-236 [maybe_pubkey];
    primitives/common/src/lib.rs:81-87: the opaque signer is the 64 bytes of report data and 2 zeros *)
Definition instance_signer (e : enclave) : any_signer :=
  if is_proxied e then inl (en_report_data e ++ zeros 2)
  else inr (takeN 32 (en_report_data e)).
(** primitives/teerex/src/lib.rs:238-241 [with_url] *)
Definition with_url (e : enclave) (u : option bytes) : enclave :=
  match u with
  | Some x => mkEnclave (en_report_data e) (en_mr_enclave e) (en_mr_signer e) (en_timestamp e) (Some x)
                        (en_build_mode e) (en_method e) (en_status e)
  | None => e
  end.
(** primitives/teerex/src/lib.rs:203-220 [SgxEnclave::new], 243-246 [with_attestation_method] *)
Definition new_enclave (rd mre mrs : bytes) (t : N) (m : build_mode) (st : sgx_status) (am : att_method) : enclave :=
  mkEnclave rd mre mrs t None m am st.

Section WithCfg.
Context (c : cfg).

(** teerex/src/lib.rs:560-577 [add_enclave] *)
Definition add_enclave (sender : acct) (e : enclave) : RM unit :=
  if is_proxied e then modify (put_prox (fingerprint e, sender, instance_signer e) e)
  else modify (put_sov sender e).

(** teerex/src/lib.rs:638-650 [ensure_timestamp_within_24_hours] *)
Definition ensure_within_24h (ts : N) : RM unit :=
  let! now := gets rt_now in
  do! ensure (ts <=? now) TimestampUnderflow in
  ensure (now - ts <? c_day c) RemoteAttestationIsTooOld.

(** teerex/src/lib.rs:43-45 *)
Definition max_proof_len : N := 5000.
Definition max_url_len : N := 256.

(** teerex/src/lib.rs:312-341, the Ias branch of [register_sgx_enclave]. [AccountId::decode] of the
    lower 32 bytes yields these 32 bytes. *)
Definition reg_ias (sender : acct) (proof : bytes) : RM enclave :=
  let! r := lift_res (verify_ias_report (c_sgx c) proof) in
  do! ensure_within_24h (vr_timestamp r) in
  do! ensure (beq sender (takeN 32 (vr_report_data r))) SenderIsNotAttestedEnclave in
  ret (new_enclave (vr_report_data r) (vr_mr_enclave r) (vr_mr_signer r) (vr_timestamp r)
                   (vr_build_mode r) (vr_status r) MIas).

(** teerex/src/lib.rs:342-399, the Dcap branch *)
Definition reg_dcap (sender : acct) (proof : bytes) (proxied : bool) : RM enclave :=
  let! now := gets rt_now in
  let! qe := gets (fun s => tx_qe (rt_tx s)) in
  let! v := lift_res (verify_dcap_quote (c_sgx c) proof now qe) in
  let '(fmspc, tcb, r) := v in
  do! (if negb proxied then ensure (beq sender (takeN 32 (vr_report_data r))) SenderIsNotAttestedEnclave
       else ret tt) in
  let! ref := gets (fun s => tx_tcb (rt_tx s) !! fmspc) in
  let! ref := ok_or ref MissingTcbInfoForFmspc in
  let! st := ok_or (tcb_verify ref tcb) TcbInfoIsOutdated in
  ret (new_enclave (vr_report_data r) (vr_mr_enclave r) (vr_mr_signer r) (vr_timestamp r)
                   (vr_build_mode r) st (MDcap proxied)).

(** teerex/src/lib.rs:400-418, the Skip branch; primitives/teerex/src/lib.rs:248-253 [with_pubkey]
    panics when the encoded account exceeds the 64 bytes of report data *)
Definition reg_skip (sender : acct) (proof : bytes) (proxied : bool) : RM enclave :=
  let! allow := gets (fun s => tx_allow_skip (rt_tx s)) in
  do! ensure allow SkippingAttestationIsNotAllowed in
  let mre := if 32 <=? lenN proof then takeN 32 proof else zeros 32 in
  let! now := gets rt_now in
  if lenN sender <=? 64 then
    ret (new_enclave (sender ++ zeros (64 - lenN sender)) mre (zeros 32) now MProduction StInvalid (MSkip proxied))
  else panic.

(** teerex/src/lib.rs:295-446 [register_sgx_enclave] *)
Definition register_sgx_enclave (o : origin) (proof : bytes) (url : option bytes) (m : att_method) : RM unit :=
  let! sender := ensure_signed o in
  do! ensure (lenN proof <=? max_proof_len) RaProofIsTooLong in
  do! (match url with Some u => ensure (lenN u <=? max_url_len) EnclaveUrlIsTooLong | None => ret tt end) in
  let! e := (match m with
             | MIas => reg_ias sender proof
             | MDcap p => reg_dcap sender proof p
             | MSkip p => reg_skip sender proof p
             end) in
  let! debug := gets (fun s => tx_allow_debug (rt_tx s)) in
  do! ensure (debug || negb (bool_decide (en_build_mode e = MDebug))) SgxModeIsNotAllowed in
  let e := with_url e url in
  do! add_enclave sender e in
  deposit_event (EvAddedSgxEnclave sender url (en_status e) (en_method e)).

(** teerex/src/lib.rs:450-470 [unregister_sovereign_enclave] *)
Definition unregister_sovereign (o : origin) (who : acct) : RM unit :=
  let! _ := ensure_signed o in
  let! oe := gets (fun s => tx_sov (rt_tx s) !! who) in
  let! e := ok_or oe EnclaveIsNotRegistered in
  let! now := gets rt_now in
  do! ensure (en_timestamp e <? sat_sub now (c_renewal c)) UnregisterActiveEnclaveIsNotAllowed in
  do! modify (del_sov who) in
  deposit_event (EvRemovedSovereignEnclave who).

(** teerex/src/lib.rs:474-494 [unregister_proxied_enclave] *)
Definition unregister_proxied (o : origin) (addr : eaddr) : RM unit :=
  let! _ := ensure_signed o in
  let! oe := gets (fun s => tx_prox (rt_tx s) !! addr) in
  let! e := ok_or oe EnclaveIsNotRegistered in
  let! now := gets rt_now in
  do! ensure (en_timestamp e <? sat_sub now (c_renewal c)) UnregisterActiveEnclaveIsNotAllowed in
  do! modify (del_prox addr) in
  deposit_event (EvRemovedProxiedEnclave addr).

(** [verification_time.try_into().unwrap()] (teerex/src/lib.rs:605,630): u64 to i64 *)
Definition time_i64 (t : N) : res Z := if t <=? i64_max then ROk (Z.of_N t) else RPanic.

(** The common part of teerex/src/lib.rs:590-599 and 617-627: the leaf certificate *)
Definition collateral_leaf (chain : bytes) (now : N) : res bytes :=
  match extract_certs (c_sgx c) chain with
  | leaf :: ((_ :: _) as inter) =>
      rdo rensure (or_ee_parse (c_sgx c) leaf) SLeafCertificateParsingError in
      rdo verify_certificate_chain (c_sgx c) leaf inter now in
      ROk leaf
  | _ => RErr SCertificateChainIsTooShort
  end.

(** teerex/src/lib.rs:585-610 [verify_quoting_enclave] *)
Definition verify_quoting_enclave (id sig chain : bytes) : RM qenclave :=
  let! now := gets rt_now in
  let! leaf := lift_res (collateral_leaf chain now) in
  let! e := lift_res (deserialize_enclave_identity (c_sgx c) id sig leaf) in
  let! t := lift_res (time_i64 now) in
  do! ensure (identity_is_valid e t) CollateralIsInvalid in
  lift_res (to_quoting_enclave e).

(** teerex/src/lib.rs:612-636 [verify_tcb_info] *)
Definition verify_tcb_info (info sig chain : bytes) : RM (bytes * tcb_info) :=
  let! now := gets rt_now in
  let! leaf := lift_res (collateral_leaf chain now) in
  let! e := lift_res (deserialize_tcb_info (c_sgx c) info sig leaf) in
  let! t := lift_res (time_i64 now) in
  do! ensure (tcb_is_valid e t) CollateralIsInvalid in
  lift_res (to_chain_tcb_info e).

(** teerex/src/lib.rs:498-516 [register_quoting_enclave] *)
Definition register_quoting_enclave (o : origin) (id sig chain : bytes) : RM unit :=
  let! _ := ensure_signed o in
  let! q := verify_quoting_enclave id sig chain in
  do! modify (put_qe q) in
  deposit_event (EvSgxQuotingEnclaveRegistered q).

(** teerex/src/lib.rs:520-536 [register_tcb_info] *)
Definition register_tcb_info (o : origin) (info sig chain : bytes) : RM unit :=
  let! _ := ensure_signed o in
  let! fi := verify_tcb_info info sig chain in
  do! modify (put_tcb fi.1 fi.2) in
  deposit_event (EvSgxTcbInfoRegistered fi.1 fi.2).

(** teerex/src/lib.rs:540-555 [set_security_flags] *)
Definition set_security_flags (o : origin) (skip debug : bool) : RM unit :=
  do! ensure_root o in
  do! modify (put_flags debug skip) in
  deposit_event (EvUpdatedSecurityFlags skip debug).

End WithCfg.

(** The calls of the pallet, teerex/src/lib.rs:285-556 *)
Inductive tx_call :=
| TxRegister (proof : bytes) (url : option bytes) (m : att_method)
| TxUnregisterSovereign (who : acct)
| TxUnregisterProxied (a : eaddr)
| TxRegisterQe (id sig chain : bytes)
| TxRegisterTcb (info sig chain : bytes)
| TxSetFlags (skip debug : bool).
Definition tx_exec (c : cfg) (o : origin) (x : tx_call) : RM unit :=
  match x with
  | TxRegister p u m => register_sgx_enclave c o p u m
  | TxUnregisterSovereign w => unregister_sovereign c o w
  | TxUnregisterProxied a => unregister_proxied c o a
  | TxRegisterQe i s ch => register_quoting_enclave c o i s ch
  | TxRegisterTcb i s ch => register_tcb_info c o i s ch
  | TxSetFlags sk d => set_security_flags o sk d
  end.
