(** * Model of the benchmarks (benchmarking.rs of each pallet) and of test-utils/src/lib.rs.

    A benchmark prepares a state (its set-up), then the call it returns is measured, then the result is
    checked. It runs on the genesis state of the runtime it measures. *)
From Coq Require Import String.
From Verif Require Import Base State Env TeerdaysModel TeerexBase SgxVerifyModel TeerexModel
  EnclaveBridgeModel SidechainModel TeeracleModel ClaimsModel AssetRegistryModel XcmTransactorModel
  Runtime CollateralModel TextModel TestData SerialModel.

(** What the benchmarks take from their environment: frame_benchmarking's [account("dummy name", n, n)],
    [account("alice", 1, 1)] and [whitelisted_caller()], the hash function of the runtime, the asset of
    [T::BenchmarkHelper], and which of three proxied enclaves an iteration over the map finds first *)
Record benv := mkBenv {
  be_dummy : N -> acct; be_alice : acct; be_caller : acct;
  be_hash : bytes -> bytes; be_asset : N; be_first : N }.

(** [Currency::make_free_balance_be] (pallet-balances, outside /repo): sets the balance; an account that
    does not exist is not created with less than the existential deposit, one that exists is reaped.
    SIMPLIFIED: its events are left out, no benchmark looks at them *)
Definition make_free_balance_be (c : cfg) (a : acct) (v : N) : RM unit :=
  let! f := gets (fun s => free s a) in
  if v <? c_ed c then (if f =? 0 then ret tt else modify (put_free a 0)) else modify (put_free a v).
(** [pallet_timestamp::set_timestamp]; the slot of Aura that some set-ups write as well is not modelled *)
Definition set_timestamp (t : N) : RM unit := modify (fun s => set_clock t (rt_blk s) s).

(** [frame_system::reset_events] *)
Definition no_events (s : rt) : rt :=
  mkRt (rt_now s) (rt_blk s) (rt_bal s) (rt_vest s) (rt_td s) (rt_eb s) (rt_sc s) (rt_to s) (rt_tx s) (rt_cl s) (rt_ar s) (rt_out s) [].

(** primitives/teerex/src/lib.rs:190-200 [SgxEnclave::default], test-utils/src/lib.rs:34-36 [test_enclave] *)
Definition test_enclave : enclave :=
  mkEnclave (zeros 64) (zeros 32) (zeros 32) 0 None MProduction (MSkip false) StInvalid.
(** test-utils/src/lib.rs:38-41 [with_mr_enclave] *)
Definition with_mr_enclave (e : enclave) (m : bytes) : enclave :=
  mkEnclave (en_report_data e) m (en_mr_signer e) (en_timestamp e) (en_url e) (en_build_mode e) (en_method e) (en_status e).
(** primitives/teerex/src/lib.rs:248-253 [with_pubkey]; keys in the benchmarks have at most 64 bytes *)
Definition with_pubkey (e : enclave) (k : bytes) : enclave :=
  mkEnclave (k ++ zeros (64 - lenN k)) (en_mr_enclave e) (en_mr_signer e) (en_timestamp e) (en_url e) (en_build_mode e) (en_method e) (en_status e).
(** primitives/teerex/src/lib.rs:243-246 [with_attestation_method] *)
Definition with_method (e : enclave) (m : att_method) : enclave :=
  mkEnclave (en_report_data e) (en_mr_enclave e) (en_mr_signer e) (en_timestamp e) (en_url e) (en_build_mode e) m (en_status e).

(** teerex/sgx-verify/src/test_data.rs:118, 171, 155-169, 179 *)
Definition collateral_time : N := 1671606747000.
Definition test4_time : N := 1587899785000.
Definition test4_mrenclave : bytes := hx "7a3454ec8f42e265cb5be7dfd111e1d95ac6076ed82a0948b2e2a45cf17b62a0".
Definition test_url : bytes := asc "ws://127.0.0.1:9991".
(** teerex/sgx-verify/src/test_data.rs [TEST1_DCAP_QUOTE_SIGNER] *)
Definition dcap_signer : acct :=
  [65;89;193;118;86;172;17;149;206;160;174;75;219;151;51;235;110;135;20;55;147;162;106;110;143;207;57;64;67;63;203;95].
(** teerex/src/test_helpers.rs:30-68 *)
Definition register_qe_call : call := CTx (TxRegisterQe qe_identity_text qe_identity_sig qe_identity_chain).
Definition register_tcb_call : call := CTx (TxRegisterTcb tcb_info_text tcb_info_sig tcb_info_chain).
(** teerex/src/benchmarking.rs:38 *)
Definition bench_silence : N := 172800000.

(** The benchmarks; [publish_hash] has two parameters *)
Inductive bench :=
| BnBond | BnUnbond | BnUpdateOther | BnWithdraw
| BnInvoke | BnConfirm | BnShield | BnUnshield | BnPublish (l t : N) | BnUpdateConfig | BnPurge
| BnSidechain
| BnRate | BnOracle | BnAddWl | BnRemoveWl
| BnRegister | BnRegisterQe | BnRegisterTcb | BnUnregSovereign | BnUnregProxied | BnFlags
| BnAssetRegister | BnAssetUnregister.

Section WithCfg.
Context (c : cfg) (e : benv).

(** enclave-bridge/src/benchmarking.rs:162-170 [add_sovereign_enclaves_to_registry] *)
Definition add_operator (a : acct) : RM unit := add_enclave a (with_pubkey test_enclave a).
(** sidechain/src/benchmarking.rs:37-49 [add_enclaves_to_registry] *)
Definition add_sidechain_enclave (a : acct) : RM unit :=
  add_enclave a (with_mr_enclave (with_pubkey test_enclave a) test4_mrenclave).
(** teerex/src/benchmarking.rs:145-166 *)
Definition add_sovereign (a : acct) : RM unit := add_enclave a (with_mr_enclave test_enclave test4_mrenclave).
Definition proxied_enclave : enclave := with_method (with_mr_enclave test_enclave test4_mrenclave) (MDcap true).
Definition add_proxied (a : acct) : RM unit := add_enclave a proxied_enclave.
Definition proxied_key (a : acct) : eaddr := (test4_mrenclave, a, instance_signer proxied_enclave).
(** [BalanceOf::max_value() >> 2] *)
Definition quarter : N := N.shiftr (c_bal_max c) 2.
(** enclave-bridge/src/benchmarking.rs:177-187 [topics]: the slice panics beyond five *)
Definition bench_topics (t : N) : RM (list bytes) :=
  if t <=? 5 then ret (takeN t (map (fun i => be_hash e (replicate 32%nat i)) [0; 1; 2; 3; 4])) else panic.
Definition coingecko_src : bytes := asc "https://api.coingecko.com".
Definition rate_pair : bytes := asc "DOT/USD".
(** [U32F32::from_num(43.65)] *)
Definition bench_rate : N := 187475322470.
Definition oracle_name : bytes := asc "Test_Oracle_Name".
Definition oracle_src : bytes := asc "Test_Source_Name".
(** asset-registry/src/benchmarking.rs:33-36 *)
Definition bench_location : location := mkLoc 1 [JParachain 0; JPalletInstance 0; JGeneralIndex 0].
(** teeracle/src/benchmarking.rs:47-62 and 70-85: the enclave of the test certificate is registered and
    whitelisted for the source *)
Definition oracle_enclave (src : bytes) : RM unit :=
  do! set_timestamp test4_time in
  do! exec c (Signed ias_signer4) (CTx (TxRegister ias_cert4 (Some test_url) MIas)) in
  let! oe := gets (fun s => tx_sov (rt_tx s) !! ias_signer4) in
  match oe with
  | Some x => exec c Root (CTo (ToAdd src (fingerprint x)))
  | None => panic
  end.

(** The set-up: everything up to the colon. An error there ([?], [unwrap], [assert_ok!]) fails the
    benchmark. Returns origin and call to be measured. *)
Definition setup (b : bench) : RM (origin * call) :=
  let alice := be_alice e in let d0 := be_dummy e 0 in
  match b with
  (* teerdays/src/benchmarking.rs:31-35 *)
  | BnBond =>
      do! set_timestamp 0 in
      do! make_free_balance_be c alice 4000000000 in
      ret (Signed alice, CTd (TdBond 2000000000))
  (* teerdays/src/benchmarking.rs:40-45 *)
  | BnUnbond =>
      do! set_timestamp 0 in
      do! make_free_balance_be c alice 4000000000 in
      do! exec c (Signed alice) (CTd (TdBond 2000000000)) in
      ret (Signed alice, CTd (TdUnbond 1000000000))
  (* teerdays/src/benchmarking.rs:50-55 *)
  | BnUpdateOther =>
      do! set_timestamp 0 in
      do! make_free_balance_be c alice 4000000000 in
      do! exec c (Signed alice) (CTd (TdBond 1000000000)) in
      ret (Signed alice, CTd (TdUpdateOther alice))
  (* teerdays/src/benchmarking.rs:59-65 *)
  | BnWithdraw =>
      do! set_timestamp 42 in
      do! make_free_balance_be c alice 4000000000 in
      do! set_lock LTeerdays alice 1000000000 in
      do! modify (put_pending alice (42, 1000000000)) in
      ret (Signed alice, CTd TdWithdrawUnbonded)
  (* enclave-bridge/src/benchmarking.rs:46-49 *)
  | BnInvoke => ret (Signed d0, CEb (EbInvoke test4_mrenclave (replicate 2000 1)))
  (* enclave-bridge/src/benchmarking.rs:53-62 *)
  | BnConfirm =>
      do! add_operator d0 in
      ret (Signed d0, CEb (EbConfirm (zeros 32) (replicate 32 2) 0 (replicate 32 4)))
  (* enclave-bridge/src/benchmarking.rs:65-73 *)
  | BnShield =>
      do! make_free_balance_be c (be_caller e) (2 * quarter) in
      ret (Signed (be_caller e), CEb (EbShield (zeros 32) (zeros 4096) quarter))
  (* enclave-bridge/src/benchmarking.rs:82-95 *)
  | BnUnshield =>
      do! add_operator (be_caller e) in
      do! make_free_balance_be c (vault (zeros 32)) (2 * quarter) in
      ret (Signed (be_caller e), CEb (EbUnshield (zeros 32) d0 quarter (zeros 32)))
  (* enclave-bridge/src/benchmarking.rs:109-121 *)
  | BnPublish l t =>
      do! modify (fun s => set_clock (rt_now s) 1 s) in
      do! modify no_events in
      do! add_operator d0 in
      let! topics := bench_topics t in
      ret (Signed d0, CEb (EbPublish (replicate 32 1) topics (zeros l)))
  (* enclave-bridge/src/benchmarking.rs:130-141 *)
  | BnUpdateConfig =>
      do! add_operator d0 in
      do! modify (put_config (zeros 32) (from_scfg (new_scfg (zeros 32)))) in
      ret (Signed d0, CEb (EbUpdateConfig (zeros 32) (new_scfg (replicate 32 1)) 11))
  (* enclave-bridge/src/benchmarking.rs:149-159; the result of the call is dropped *)
  | BnPurge =>
      do! add_operator d0 in
      do! modify (fun s => (dispatch c (Signed d0) (CEb (EbUpdateConfig (zeros 32) (new_scfg (zeros 32)) 0)) s).2) in
      do! modify (put_config (zeros 32) (from_scfg (new_scfg (zeros 32)))) in
      ret (Root, CEb (EbPurge (zeros 32) d0))
  (* sidechain/src/benchmarking.rs:54-67 *)
  | BnSidechain =>
      do! add_sidechain_enclave d0 in
      ret (Signed d0, CSc (ScConfirm test4_mrenclave (Some (mkSconf 2 (replicate 32 2))) (mkSconf 25 (replicate 32 25))))
  (* teeracle/src/benchmarking.rs:46-64 *)
  | BnRate =>
      do! oracle_enclave coingecko_src in
      ret (Signed ias_signer4, CTo (ToUpdateRate coingecko_src rate_pair (Some bench_rate)))
  (* teeracle/src/benchmarking.rs:69-87; the blob must fit [MaxOracleBlobLen] *)
  | BnOracle =>
      do! (if 1 <=? c_max_blob c then ret tt else panic) in
      do! oracle_enclave oracle_src in
      ret (Signed ias_signer4, CTo (ToUpdateOracle oracle_name oracle_src [1]))
  (* teeracle/src/benchmarking.rs:92-96 *)
  | BnAddWl => ret (Root, CTo (ToAdd coingecko_src test4_mrenclave))
  (* teeracle/src/benchmarking.rs:101-107 *)
  | BnRemoveWl =>
      do! exec c Root (CTo (ToAdd coingecko_src test4_mrenclave)) in
      ret (Root, CTo (ToRemove coingecko_src test4_mrenclave))
  (* teerex/src/benchmarking.rs:60-68 *)
  | BnRegister =>
      do! set_timestamp collateral_time in
      do! exec c (Signed dcap_signer) register_qe_call in
      do! exec c (Signed dcap_signer) register_tcb_call in
      ret (Signed dcap_signer, CTx (TxRegister quote1 (Some test_url) (MDcap false)))
  (* teerex/src/benchmarking.rs:77-83 *)
  | BnRegisterQe =>
      do! set_timestamp collateral_time in
      ret (Signed dcap_signer, register_qe_call)
  (* teerex/src/benchmarking.rs:91-97 *)
  | BnRegisterTcb =>
      do! set_timestamp collateral_time in
      do! exec c (Signed dcap_signer) register_qe_call in
      ret (Signed dcap_signer, register_tcb_call)
  (* teerex/src/benchmarking.rs:106-114 *)
  | BnUnregSovereign =>
      do! add_sovereign d0 in
      do! add_sovereign (be_dummy e 1) in
      do! add_sovereign (be_dummy e 2) in
      do! set_timestamp (test4_time + bench_silence + 1) in
      ret (Signed d0, CTx (TxUnregisterSovereign d0))
  (* teerex/src/benchmarking.rs:122-132 *)
  | BnUnregProxied =>
      do! add_proxied d0 in
      do! add_proxied (be_dummy e 1) in
      do! add_proxied (be_dummy e 2) in
      do! set_timestamp (test4_time + bench_silence + 1) in
      ret (Signed d0, CTx (TxUnregisterProxied (proxied_key (be_dummy e (be_first e)))))
  (* teerex/src/benchmarking.rs:137-138 *)
  | BnFlags => ret (Root, CTx (TxSetFlags false true))
  (* asset-registry/src/benchmarking.rs:31-37 *)
  | BnAssetRegister => ret (Root, CAr (ArRegister (be_asset e) bench_location))
  (* asset-registry/src/benchmarking.rs:42-50 *)
  | BnAssetUnregister =>
      do! exec c Root (CAr (ArRegister (be_asset e) bench_location)) in
      ret (Root, CAr (ArUnregister (be_asset e)))
  end.

(** The [verify] block: what the state after the call must satisfy *)
Definition verify (b : bench) (s : rt) : Prop :=
  match b with
  | BnBond | BnUnbond | BnUpdateOther => is_Some (td_bonds (rt_td s) !! be_alice e)
  | BnWithdraw => td_pending (rt_td s) !! be_alice e = None
  | BnShield => quarter = free s (vault (zeros 32))
  | BnUnshield => quarter = free s (be_dummy e 0)
  | BnPublish _ _ | BnUpdateConfig => lenN (rt_ev s) = 1
  | BnSidechain => exists x, most_recent s test4_mrenclave = Some x /\ ss_signer x = be_dummy e 0
  | BnRate => exchange_rate s rate_pair coingecko_src = bench_rate
  | BnOracle => default [] (to_data (rt_to s) !! (oracle_name, oracle_src)) = [1]
  | BnAddWl => lenN (whitelist s coingecko_src) = 1
  | BnRemoveWl => lenN (whitelist s coingecko_src) = 0
  | BnRegister => size (tx_sov (rt_tx s)) = 1%nat
  | BnRegisterQe => q_prodid (tx_qe (rt_tx s)) = 1
  | BnRegisterTcb => exists x, tx_tcb (rt_tx s) !! hx "00906ea10000" = Some x /\ ti_next x = 1681649132000
  | BnUnregSovereign => tx_sov (rt_tx s) !! be_dummy e 0 = None
  | BnUnregProxied => tx_prox (rt_tx s) !! proxied_key (be_dummy e (be_first e)) = None
  | BnFlags => tx_allow_skip (rt_tx s) = false /\ tx_allow_debug (rt_tx s) = true
  | BnAssetRegister => ar_loc (rt_ar s) !! be_asset e = Some bench_location
  | BnAssetUnregister => ar_loc (rt_ar s) !! be_asset e = None
  | BnInvoke | BnConfirm | BnPurge => True
  end.

(** frame_benchmarking, outside /repo: the set-up runs in block 0, where events are not recorded; then
    the block number is set to 1 unless the set-up did so *)
Definition first_block (s : rt) : rt := if rt_blk s =? 0 then no_events (set_clock (rt_now s) 1 s) else s.
(** The benchmark measures the call [k] of [o], which takes [s] to [s'], and its check holds *)
Definition measures (g : genesis) (b : bench) (o : origin) (k : call) (s s' : rt) : Prop :=
  exists s0, setup b (genesis_state g) = Ok (o, k) s0 /\ s = first_block s0 /\
  dispatch c o k s = (Success, s') /\ verify b s'.
Definition passes (g : genesis) (b : bench) : Prop := exists o k s s', measures g b o k s s'.
End WithCfg.

(** ** The benchmarks of claims, claims/src/lib.rs:1405-1627. Their measured block also validates the call.
    The two extra benchmarks (1598-1623), which time keccak_256 and [eth_recover], are not modelled. *)
(** What they take from their environment: the public key of the secret key keccak_256(n) as 64 bytes,
    libsecp256k1's [sign] with that key, [account("user", 10000, 0)], [account("eth_address", 0, 0)] *)
Record clenv := mkClenv {
  ce_pub : N -> bytes; ce_sign : N -> bytes -> bytes; ce_user : acct; ce_address : bytes }.
Inductive cbench := BcClaim | BcMint | BcClaimAttest | BcAttest | BcMove.

(** claims/src/lib.rs:1415-1416 *)
Definition bench_claims : N := 10000.
Definition bench_value : N := 1000000.
Definition bench_vesting : option (N * N * N) := Some (100000, 1000, 100).

Fixpoint repeat_m (n : nat) (m : RM unit) : RM unit :=
  match n with O => ret tt | S p => do! m in repeat_m p m end.

Section Claims.
Context (c : cfg) (e : clenv).
(** claims/src/lib.rs:604-608 [eth] *)
Definition bench_eth (n : N) : bytes := dropN 12 (c_keccak c (ce_pub e n)).
(** claims/src/lib.rs:609-624 [sig] *)
Definition bench_sig (n : N) (what extra : bytes) : bytes :=
  ce_sign e n (c_keccak c (signable_message c (to_ascii_hex what) extra)).
(** claims/src/lib.rs:1418-1445 [create_claim], [create_claim_attest]; the default statement is
    [Regular], primitives/claims/src/lib.rs:66 *)
Definition create_claim (n : N) (st : option statement) : RM unit :=
  exec c Root (CCl (ClMint (bench_eth n) bench_value bench_vesting st)).
(** claims/src/lib.rs:1452-1455: the loop variable is not used *)
Definition fill_claims : RM unit :=
  repeat_m (N.to_nat (bench_claims / 2))
    (do! create_claim bench_claims None in create_claim (u32_max - bench_claims) (Some StRegular)).
Definition assert_m (p : rt -> bool) : RM unit := let! b := gets p in if b then ret tt else panic.
Definition is_claim (x : bytes) (s : rt) : bool := match cl_claims (rt_cl s) !! x with Some v => v =? bench_value | None => false end.
Definition has_claim (x : bytes) (s : rt) : bool := match cl_claims (rt_cl s) !! x with Some _ => true | None => false end.
Definition put_preclaim (a : acct) (x : bytes) (s : rt) : rt :=
  upd_cl (fun k => mkCl (cl_claims k) (cl_total k) (cl_vesting k) (cl_signing k) (<[a := x]> (cl_preclaims k))) s.

Definition plain_key : N := bench_claims.
Definition attest_key : N := u32_max - bench_claims.
Definition new_key : N := u32_max / 2.
Definition claim_setup (b : cbench) : RM (origin * cl_call) :=
  let user := ce_user e in
  match b with
  (* claims/src/lib.rs:1449-1468 *)
  | BcClaim =>
      do! fill_claims in
      do! create_claim plain_key None in
      do! assert_m (is_claim (bench_eth plain_key)) in
      ret (NoneO, ClClaim user (bench_sig plain_key user []))
  (* claims/src/lib.rs:1480-1491 *)
  | BcMint =>
      do! fill_claims in
      ret (Root, ClMint (ce_address e) bench_value bench_vesting (Some StRegular))
  (* claims/src/lib.rs:1497-1520 *)
  | BcClaimAttest =>
      do! fill_claims in
      do! create_claim attest_key (Some StRegular) in
      do! assert_m (is_claim (bench_eth attest_key)) in
      ret (NoneO, ClClaimAttest user (bench_sig attest_key user (to_text StRegular)) (to_text StRegular))
  (* claims/src/lib.rs:1532-1563 *)
  | BcAttest =>
      do! fill_claims in
      do! create_claim attest_key (Some StRegular) in
      do! modify (put_preclaim user (bench_eth attest_key)) in
      do! assert_m (is_claim (bench_eth attest_key)) in
      ret (Signed user, ClAttest (to_text StRegular))
  (* claims/src/lib.rs:1574-1593 *)
  | BcMove =>
      do! fill_claims in
      do! modify (put_preclaim user (bench_eth attest_key)) in
      do! assert_m (has_claim (bench_eth attest_key)) in
      do! assert_m (fun s => negb (has_claim (bench_eth new_key) s)) in
      ret (Root, ClMove (bench_eth attest_key) (bench_eth new_key) (Some user))
  end.
(** What the measured block checks before the call: [validate_unsigned] (1471, 1523), and for [attest] a
    copy of [PrevalidateAttests::validate] (1553-1561) *)
Definition claim_valid (b : cbench) (k : cl_call) (s : rt) : Prop :=
  match b with
  | BcClaim | BcClaimAttest => exists tag, validate_unsigned c s k = inr tag
  | BcAttest => prevalidate s (ce_user e) k = None
  | BcMint | BcMove => True
  end.
Definition claim_verify (b : cbench) (s : rt) : Prop :=
  match b with
  | BcClaim => cl_claims (rt_cl s) !! bench_eth plain_key = None
  | BcMint => cl_claims (rt_cl s) !! ce_address e = Some bench_value
  | BcClaimAttest | BcAttest => cl_claims (rt_cl s) !! bench_eth attest_key = None
  | BcMove => has_claim (bench_eth attest_key) s = false /\ has_claim (bench_eth new_key) s = true
  end.
Definition claim_measures (g : genesis) (b : cbench) (o : origin) (k : cl_call) (s s' : rt) : Prop :=
  exists s0, claim_setup b (genesis_state g) = Ok (o, k) s0 /\ s = first_block s0 /\
  claim_valid b k s /\ dispatch c o (CCl k) s = (Success, s') /\ claim_verify b s'.
Definition claim_passes (g : genesis) (b : cbench) : Prop := exists o k s s', claim_measures g b o k s s'.
End Claims.
