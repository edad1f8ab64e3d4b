(** * The unit tests of teerdays, enclave-bridge, sidechain, teeracle, asset-registry, xcm-transactor *)
From Coq Require Import String.
From Verif Require Import Base State Env TeerdaysModel TeerexBase SgxVerifyModel TeerexModel
  EnclaveBridgeModel SidechainModel TeeracleModel ClaimsModel AssetRegistryModel XcmTransactorModel
  Runtime Examples CollateralModel TextModel TestData Conformance ConformanceSgx.

#[global] Instance sstat_dec : EqDecision sstat. Proof. solve_decision. Defined.
#[global] Instance scfg_dec : EqDecision scfg. Proof. solve_decision. Defined.
#[global] Instance uscfg_dec : EqDecision uscfg. Proof. solve_decision. Defined.
#[global] Instance sconf_dec : EqDecision sconf. Proof. solve_decision. Defined.

(** ** teerdays/src/tests.rs; reference counters ([consumers]) are not modelled *)
(** teerdays/src/mock.rs:90-150 *)
Definition td_cfg : cfg :=
  mkCfg true 1 340282366920938463463374607431768211455 u32_max 86400000 86400000 172800000 3 64 [] (fun _ => false) (fun _ => false)
        (fun _ => false) 0 0 0 (fun b => b) (fun _ _ => None) (fun _ => inr []) real_oracles.
Definition mock_ext : rt :=
  set_clock 0 1 (genesis_state (mkGenesis 0 {[k_alice := 1152921504606846976]} [] [] true true ∅)).
Definition td_test (l : list line) : bool := test td_cfg l mock_ext.
(** [make_free_balance_be] *)
Definition put_free (a : acct) (v : N) : line :=
  Put (fun s => set_bal (mkBal (<[a := v]> (b_free (rt_bal s))) (b_locks (rt_bal s))) s).
Definition alice_td (x : td_call) : line := Ok_ (Signed k_alice) (CTd x).
Definition bond_is (v tt last : N) : line :=
  Check (fun s => bool_decide (td_bonds (rt_td s) !! k_alice = Some (mkBond v last tt))).
(** [System::account(&alice).data.frozen] *)
Definition frozen_is (v : N) : line :=
  Check (fun s => fold_right N.max 0 (map snd (default [] (b_locks (rt_bal s) !! k_alice))) =? v).
Definition t10 : N := 10000000000000.
(** teerdays/src/tests.rs:24-49 *)
Example t_bond_works :
  td_test [At 42; put_free k_alice 15000000000000; alice_td (TdBond t10);
           event_in (EvBonded k_alice t10); bond_is t10 0 42; frozen_is t10] = true.
Proof. vm_compute. reflexivity. Qed.
(** teerdays/src/tests.rs:51-78 *)
Example t_bond_saturates_at_free :
  td_test [At 42; put_free k_alice 5000000000000; alice_td (TdBond t10);
           event_in (EvBonded k_alice 5000000000000); bond_is 5000000000000 0 42; frozen_is 5000000000000] = true.
Proof. vm_compute. reflexivity. Qed.
(** teerdays/src/tests.rs:80-113 *)
Example t_bond_extra_works :
  td_test [At 42; alice_td (TdBond t10); BlockNr 2; At 10042; alice_td (TdBondExtra (t10 / 2));
           event_in (EvBonded k_alice (t10 / 2)); bond_is (t10 + t10 / 2) (t10 * 10000) 10042;
           frozen_is (t10 + t10 / 2)] = true.
Proof. vm_compute. reflexivity. Qed.
(** teerdays/src/tests.rs:115-159 *)
Example t_bond_extra_saturates_at_free_margin :
  td_test [At 42; put_free k_alice 11000000000000; alice_td (TdBond t10); bond_is t10 0 42; frozen_is t10;
           BlockNr 2; At 10042; alice_td (TdBondExtra (t10 / 2));
           event_last (EvBonded k_alice 1000000000000);
           bond_is (t10 + 1000000000000) (t10 * 10000) 10042; frozen_is (t10 + 1000000000000)] = true.
Proof. vm_compute. reflexivity. Qed.
(** teerdays/src/tests.rs:162-239 *)
Example t_withdrawing_unbonded_after_unlock_period_works :
  let day := 86400000 in
  td_test [At 42; frozen_is 0; alice_td (TdBond t10);
           BlockNr 2; At (42 + day); alice_td (TdUnbond (t10 / 5));
           event_in (EvUnbonded k_alice (t10 / 5) (t10 * day / 5));
           bond_is (t10 - t10 / 5) (t10 * day * (t10 - t10 / 5) / t10) (42 + day);
           ErrIs (Signed k_alice) (CTd (TdUnbond (t10 / 5))) PendingUnlock;
           ErrIs (Signed k_alice) (CTd TdWithdrawUnbonded) PendingUnlock;
           BlockNr 3; At (42 + 2 * day); alice_td TdWithdrawUnbonded; frozen_is (t10 - t10 / 5);
           BlockNr 4; At (42 + 3 * day); alice_td (TdUnbond t10);
           Check (fun s => bool_decide (td_bonds (rt_td s) !! k_alice = None));
           BlockNr 5; At (42 + 4 * day); alice_td TdWithdrawUnbonded; frozen_is 0] = true.
Proof. vm_compute. reflexivity. Qed.
(** teerdays/src/tests.rs:241-268 *)
Example t_unbonding_saturates_at_bonded :
  td_test [At 42; alice_td (TdBond t10); alice_td (TdUnbond (t10 * 2));
           event_in (EvUnbonded k_alice t10 0);
           Check (fun s => bool_decide (td_bonds (rt_td s) !! k_alice = None)
                           && match td_pending (rt_td s) !! k_alice with Some p => snd p =? t10 | None => false end)] = true.
Proof. vm_compute. reflexivity. Qed.
(** teerdays/src/tests.rs:270-296 *)
Example t_update_other_works :
  td_test [At 42; alice_td (TdBond t10); BlockNr 2; At (42 + 86400000); alice_td (TdUpdateOther k_alice);
           bond_is t10 (t10 * 86400000) (42 + 86400000)] = true.
Proof. vm_compute. reflexivity. Qed.

(** ** enclave-bridge/src/tests *)
Definition eb_test (l : list line) : bool := test tx_cfg l mock_ext.
Definition t_now : N := 1587899785000.
Definition b32 (n : N) : bytes := replicate 32 n.
(** enclave-bridge/src/tests/mod.rs:38-50 [register_sovereign_test_enclave] *)
Definition test_enclave (a : acct) (fp : bytes) : line :=
  RunOk (fun s => add_enclave a (mkEnclave (a ++ zeros 32) fp (zeros 32) (rt_now s) None MProduction (MSkip false) StInvalid) s).
Definition eb_ok (a : acct) (x : eb_call) : line := Ok_ (Signed a) (CEb x).
Definition new_config (fp : bytes) : scfg := mkScfg fp None None false.
Definition free_is (a : acct) (v : N) : line := Check (fun s => default 0 (b_free (rt_bal s) !! a) =? v).
(** enclave-bridge/src/tests/test_indirect_invocation.rs:25-40 *)
Example t_invoke_works :
  eb_test [eb_ok k_alice (EbInvoke (b32 0) [0;1;2;3;4]); event_in (EvIndirectInvocationRegistered (b32 0))] = true.
Proof. vm_compute. reflexivity. Qed.
Definition count_event (e : event) (n : nat) : line :=
  Check (fun s => Nat.eqb (List.length (filter (fun x => x = e) (rt_ev s))) n).
(** test_indirect_invocation.rs:42-93 *)
Example t_unshield_is_only_executed_once_for_the_same_call_hash :
  eb_test [At t_now; test_enclave k_eve (b32 0); Env (OTransfer k_alice (b32 0) 1125899906842624);
           free_is (b32 0) 1125899906842624;
           eb_ok k_eve (EbUnshield (b32 0) k_bob 50 (b32 1)); count_event (EvUnshieldedFunds (b32 0) k_bob 50) 1;
           eb_ok k_eve (EbUnshield (b32 0) k_bob 50 (b32 1)); count_event (EvUnshieldedFunds (b32 0) k_bob 50) 1;
           Check (fun s => bool_decide (eb_exec (rt_eb s) !! b32 1 = Some 2))] = true.
Proof. vm_compute. reflexivity. Qed.
(** test_indirect_invocation.rs:95-146 *)
Example t_verify_unshield_funds_works :
  eb_test [At t_now; test_enclave k_eve (b32 0); eb_ok k_alice (EbShield (b32 0) [1;2;3] 100); free_is (b32 0) 100;
           event_in (EvShieldFunds (b32 0) [1;2;3] 100);
           eb_ok k_eve (EbUnshield (b32 0) k_bob 50 (b32 1)); free_is (b32 0) 50;
           event_in (EvUnshieldedFunds (b32 0) k_bob 50)] = true.
Proof. vm_compute. reflexivity. Qed.
(** test_indirect_invocation.rs:148-167 *)
Example t_unshield_funds_from_not_registered_enclave_errs :
  eb_test [At t_now; ErrIs (Signed k_eve) (CEb (EbUnshield (b32 0) k_bob 51 (b32 1))) EnclaveIsNotRegistered] = true.
Proof. vm_compute. reflexivity. Qed.
(** test_indirect_invocation.rs:169-216 *)
Example t_unshield_funds_from_enclave_on_wrong_shard_errs :
  eb_test [At t_now; test_enclave k_eve (b32 0);
           eb_ok k_alice (EbShield (b32 0) [1;2;3] 100); eb_ok k_alice (EbShield (b32 222) [1;2;3] 100);
           ErrIs (Signed k_eve) (CEb (EbUnshield (b32 222) k_bob 50 (b32 1))) WrongFingerprintForShard;
           free_is (b32 0) 100; free_is (b32 222) 100] = true.
Proof. vm_compute. reflexivity. Qed.
(** test_indirect_invocation.rs:219-246 *)
Example t_confirm_processed_parentchain_block_works :
  eb_test [test_enclave k_eve (b32 0); eb_ok k_eve (EbConfirm (b32 0) (b32 0) 3 (b32 0));
           event_in (EvProcessedParentchainBlock (b32 0) (b32 0) (b32 0) 3)] = true.
Proof. vm_compute. reflexivity. Qed.
(** test_indirect_invocation.rs:248-286 *)
Example t_confirm_processed_parentchain_block_from_other_enclaves_fails :
  eb_test [ErrIs (Signed k_eve) (CEb (EbConfirm (b32 0) (b32 0) 3 (b32 0))) EnclaveIsNotRegistered;
           test_enclave k_eve (b32 0);
           ErrIs (Signed k_eve) (CEb (EbConfirm (b32 42) (b32 0) 3 (b32 0))) WrongFingerprintForShard] = true.
Proof. vm_compute. reflexivity. Qed.
(** test_indirect_invocation.rs:288-345 *)
Example t_confirm_processed_parentchain_block_from_updated_enclave_works :
  eb_test [At t_now; test_enclave k_eve (b32 0); eb_ok k_eve (EbUpdateConfig (b32 0) (new_config (b32 0)) 0);
           eb_ok k_eve (EbConfirm (b32 0) (b32 0) 1 (b32 0));
           eb_ok k_eve (EbUpdateConfig (b32 0) (new_config (b32 2)) 1);
           eb_ok k_eve (EbConfirm (b32 0) (b32 0) 1 (b32 0));
           BlockNr 2; test_enclave k_eve (b32 2);
           eb_ok k_eve (EbConfirm (b32 0) (b32 0) 2 (b32 0))] = true.
Proof. vm_compute. reflexivity. Qed.
(** test_publish_hash.rs:24-88: in the model the topics are part of the event *)
Example t_publish_hash_works :
  eb_test [test_enclave k_eve (b32 0);
           eb_ok k_eve (EbPublish (b32 1) [b32 2; b32 3] (asc "hello world"));
           eb_ok k_eve (EbPublish (b32 1) [] []);
           Check (fun s => bool_decide (rt_ev s =
             [EvPublishedHash [b32 0] (b32 0) (b32 1) [];
              EvPublishedHash [b32 2; b32 3; b32 0] (b32 0) (b32 1) (asc "hello world")]))] = true.
Proof. vm_compute. reflexivity. Qed.
(** test_publish_hash.rs:90-151 *)
Example t_publish_hash_fails :
  eb_test [ErrIs (Signed k_eve) (CEb (EbPublish (b32 1) [] [])) EnclaveIsNotRegistered;
           test_enclave k_eve (b32 0);
           ErrIs (Signed k_eve) (CEb (EbPublish (b32 1) (map b32 [0;1;2;3;4;5]) [])) TooManyTopics;
           ErrIs (Signed k_eve) (CEb (EbPublish (b32 1) [] (zeros 101))) DataTooLong] = true.
Proof. vm_compute. reflexivity. Qed.
(** test_shard_config.rs:25-90 *)
Example t_initial_update_shard_config :
  eb_test [At t_now;
           ErrIs (Signed k_eve) (CEb (EbUpdateConfig (b32 1) (new_config (b32 0)) 0)) EnclaveIsNotRegistered;
           test_enclave k_eve (b32 0);
           eb_ok k_eve (EbUpdateConfig (b32 0) (new_config (b32 0)) 0); event_in (EvShardConfigUpdated (b32 0));
           eb_ok k_eve (EbUpdateConfig (b32 1) (new_config (b32 0)) 0);
           Ok_ Root (CEb (EbUpdateConfig (b32 2) (new_config (b32 0)) 0))] = true.
Proof. vm_compute. reflexivity. Qed.
(** test_shard_config.rs:92-142 *)
Example t_update_shard_config_to_new_fingerprint_works :
  eb_test [At t_now; test_enclave k_eve (b32 0);
           eb_ok k_eve (EbUpdateConfig (b32 0) (new_config (b32 0)) 0); event_in (EvShardConfigUpdated (b32 0));
           eb_ok k_eve (EbUpdateConfig (b32 0) (new_config (b32 1)) 10);
           Ok_ Root (CEb (EbUpdateConfig (b32 2) (new_config (b32 2)) 0));
           Ok_ Root (CEb (EbUpdateConfig (b32 0) (new_config (b32 3)) 10));
           event_in (EvShardConfigUpdated (b32 2))] = true.
Proof. vm_compute. reflexivity. Qed.
(** test_shard_config.rs:144-203 *)
Example t_update_existing_shard_config_as_others_fails :
  eb_test [At t_now; test_enclave k_eve (b32 0); test_enclave k_ferdie (b32 1);
           eb_ok k_eve (EbUpdateConfig (b32 0) (new_config (b32 0)) 0);
           ErrIs (Signed k_alice) (CEb (EbUpdateConfig (b32 0) (new_config (b32 0)) 0)) EnclaveIsNotRegistered;
           ErrIs (Signed k_ferdie) (CEb (EbUpdateConfig (b32 0) (new_config (b32 1)) 0)) WrongFingerprintForShard] = true.
Proof. vm_compute. reflexivity. Qed.
Definition config_stored (x : uscfg) : line := Check (fun s => bool_decide (eb_config (rt_eb s) !! b32 0 = Some x)).
Definition config_seen (fp : bytes) (blk : N) (apply : bool) : line :=
  RunOk (fun s => match get_config (b32 0) blk apply s with
                  | Ok (Some k) s' => if beq (sc_fp k) fp then Ok tt s' else Panic
                  | _ => Panic
                  end).
(** test_shard_config.rs:205-289 *)
Example t_get_maybe_updated_shard_config_works :
  eb_test [At t_now; test_enclave k_eve (b32 0);
           eb_ok k_eve (EbUpdateConfig (b32 0) (new_config (b32 0)) 0);
           config_seen (b32 0) 1 false;
           eb_ok k_eve (EbUpdateConfig (b32 0) (new_config (b32 2)) 1);
           config_stored (mkUscfg (new_config (b32 0)) (Some (new_config (b32 2))) (Some 2));
           config_seen (b32 0) 1 false;
           BlockNr 2; config_seen (b32 2) 2 false;
           config_stored (mkUscfg (new_config (b32 0)) (Some (new_config (b32 2))) (Some 2));
           config_seen (b32 2) 2 true;
           config_stored (mkUscfg (new_config (b32 2)) None None)] = true.
Proof. vm_compute. reflexivity. Qed.
Definition touch (a : acct) (blk : N) : line :=
  RunOk (fun s => match touch_shard (b32 0) a (b32 0) blk s with Ok _ s => Ok tt s | Err e s => Err e s | Panic => Panic end).
Definition signers_are (l : list acct) : line :=
  Check (fun s => match eb_status (rt_eb s) !! b32 0 with
                  | Some x => bool_decide (map ss_signer x = l) | None => false end).
(** test_shard_status.rs:25-79 *)
Example t_purge_enclave_from_shard_status_works_if_present :
  eb_test [At t_now; touch k_eve 1; Ok_ Root (CEb (EbPurge (b32 0) k_eve)); event_in (EvPurgedEnclave (b32 0) k_eve);
           signers_are []; touch k_eve 2; touch k_ferdie 2;
           Check (fun s => match eb_status (rt_eb s) !! b32 0 with Some x => Nat.eqb (List.length x) 2 | None => false end);
           Ok_ Root (CEb (EbPurge (b32 0) k_eve)); signers_are [k_ferdie]] = true.
Proof. vm_compute. reflexivity. Qed.
(** test_shard_status.rs:81-119 *)
Example t_purge_enclave_from_shard_status_fails :
  eb_test [At t_now; ErrIs Root (CEb (EbPurge (b32 0) k_eve)) ShardNotFound; touch k_eve 1;
           Err_ (Signed k_eve) (CEb (EbPurge (b32 0) k_eve))] = true.
Proof. vm_compute. reflexivity. Qed.

(** ** sidechain/src/tests.rs *)
Definition shard7 : bytes := hx "f4dedfc9e5fcc48443332bc9b23161c34a3c3f5a692eaffdb228db27b704d9d1".
Definition conf (n : N) : sconf := mkSconf n (b32 n).
Definition sc_ok (a : acct) (sh : bytes) (anc : option sconf) (x : sconf) : list line :=
  [Ok_ (Signed a) (CSc (ScConfirm sh anc x)); event_in (EvFinalizedSidechainBlock sh (sn_number x) (sn_hash x) a)].
Definition register7 : list line := [At t7; reg ias_signer7 ias_cert7 (Some url) MIas; sovereign ias_signer7 there].
Definition latest_is (sh : bytes) (x : sconf) : line := Check (fun s => bool_decide (rt_sc s !! sh = Some x)).
(** sidechain/src/tests.rs:36-106 *)
Example t_confirm_imported_sidechain_block_works_for_correct_shard :
  eb_test (register7 ++
           [ErrIs (Signed ias_signer7) (CSc (ScConfirm mrenclave4 None (conf 2))) WrongFingerprintForShard] ++
           sc_ok ias_signer7 shard7 None (conf 2) ++ sc_ok ias_signer7 shard7 (Some (conf 2)) (conf 25)) = true.
Proof. vm_compute. reflexivity. Qed.
(** sidechain/src/tests.rs:108-148 *)
Example t_confirm_imported_sidechain_block_outdated_candidate_block_number_fails :
  eb_test (register7 ++ sc_ok ias_signer7 shard7 None (conf 100) ++
           [latest_is shard7 (conf 100);
            ErrIs (Signed ias_signer7) (CSc (ScConfirm shard7 None (conf 100))) AncestorMissing] ++
           sc_ok ias_signer7 shard7 (Some (conf 100)) (conf 101) ++
           [latest_is shard7 (conf 101);
            ErrIs (Signed ias_signer7) (CSc (ScConfirm shard7 (Some (conf 100)) (conf 101))) FinalizationCandidateIsOutdated;
            ErrIs (Signed ias_signer7) (CSc (ScConfirm shard7 (Some (conf 101)) (conf 101))) FinalizationCandidateIsOutdated;
            ErrIs (Signed ias_signer7) (CSc (ScConfirm shard7 (Some (conf 101)) (conf 100))) FinalizationCandidateIsOutdated]) = true.
Proof. vm_compute. reflexivity. Qed.
(** sidechain/src/tests.rs:150-182 *)
Example t_dont_process_confirmation_of_second_registered_enclave :
  eb_test (register7 ++ sc_ok ias_signer7 shard7 None (conf 1) ++
           [latest_is shard7 (conf 1); reg ias_signer6 ias_cert6 (Some url) MIas;
            Ok_ (Signed ias_signer6) (CSc (ScConfirm shard7 (Some (conf 1)) (conf 2)));
            latest_is shard7 (conf 1);
            Check (fun s => forallb (fun e => match e with EvFinalizedSidechainBlock _ _ _ a => negb (beq a ias_signer6) | _ => true end) (rt_ev s))]) = true.
Proof. vm_compute. reflexivity. Qed.
Definition conf0 (n : N) : sconf := mkSconf n (b32 0).
(** sidechain/src/tests.rs:184-282 *)
Example t_confirm_imported_sidechain_block_works_for_correct_shard_with_updated_fingerprint :
  eb_test ([At t7; test_enclave k_eve (b32 0); eb_ok k_eve (EbUpdateConfig (b32 0) (new_config (b32 0)) 0)] ++
           sc_ok k_eve (b32 0) None (conf0 1) ++
           [eb_ok k_eve (EbUpdateConfig (b32 0) (new_config (b32 2)) 1)] ++
           sc_ok k_eve (b32 0) (Some (conf0 1)) (conf0 2) ++
           [test_enclave k_eve (b32 2);
            ErrIs (Signed k_eve) (CSc (ScConfirm (b32 0) (Some (conf0 2)) (conf0 3))) WrongFingerprintForShard;
            BlockNr 2] ++
           sc_ok k_eve (b32 0) (Some (conf0 2)) (conf0 3)) = true.
Proof. vm_compute. reflexivity. Qed.
(** sidechain/src/tests.rs:284-364 *)
Example t_two_sidechains_with_different_fingerprint_works :
  eb_test ([At t7; test_enclave k_eve (b32 0)] ++ sc_ok k_eve (b32 0) None (conf0 1) ++
           [BlockNr 2; test_enclave k_ferdie (b32 1)] ++ sc_ok k_ferdie (b32 1) None (mkSconf 1 (b32 2)) ++
           [Check (fun s => bool_decide (eb_status (rt_eb s) !! b32 0 = Some [mkSstat k_eve (b32 0) 1])
                            && bool_decide (eb_status (rt_eb s) !! b32 1 = Some [mkSstat k_ferdie (b32 1) 2]));
            latest_is (b32 0) (conf0 1); latest_is (b32 1) (mkSconf 1 (b32 2))]) = true.
Proof. vm_compute. reflexivity. Qed.

(** ** teeracle/src/tests.rs *)
(** teeracle/src/mock.rs:137-156 *)
Definition to_cfg : cfg :=
  mkCfg true 1 u64_max u32_max 86400000 86400000 172800000 10 4096 [] (fun _ => false) (fun _ => false)
        (fun _ => false) 0 0 0 (fun b => b) (fun _ _ => None) (fun _ => inr []) real_oracles.
Definition to_test (l : list line) : bool := test to_cfg l mock_ext.
Definition coingecko := asc "https://api.coingecko.com".
Definition coinmarketcap := asc "https://coinmarketcap.com/".
Definition dot_usd := asc "DOT/USD".
Definition register4 : list line := [At t4; reg ias_signer4 ias_cert4 (Some url) MIas].
Definition add_wl (src fp : bytes) : line := Ok_ Root (CTo (ToAdd src fp)).
(** [U32F32::from_num(43.65)]: the nearest multiple of 2^-32 *)
Definition rate : N := 187475322470.
Definition update_rate (v : option N) : line := Ok_ (Signed ias_signer4) (CTo (ToUpdateRate coingecko dot_usd v)).
Definition rate_is (v : option N) : line :=
  Check (fun s => bool_decide (to_rates (rt_to s) !! (dot_usd, coingecko) = v)).
Definition whitelist_has (src : bytes) (n : nat) : line :=
  Check (fun s => Nat.eqb (List.length (default [] (to_wl (rt_to s) !! src))) n).
(** teeracle/src/tests.rs:70-95,126-151 *)
Example t_update_exchange_rate_works :
  to_test (register4 ++
    [add_wl coingecko mrenclave4; rate_is None; update_rate (Some rate);
     event_in (EvExchangeRateUpdated coingecko dot_usd rate); rate_is (Some rate);
     update_rate (Some 18446744072206313472); rate_is (Some 18446744072206313472)]) = true.
Proof. vm_compute. reflexivity. Qed.
(** teeracle/src/tests.rs:97-124 *)
Example t_update_oracle_works :
  to_test (register4 ++
    [add_wl (asc "Test_Source_Name") mrenclave4;
     Ok_ (Signed ias_signer4) (CTo (ToUpdateOracle (asc "Test_Oracle_Name") (asc "Test_Source_Name") [1]));
     event_in (EvOracleUpdated (asc "Test_Oracle_Name") (asc "Test_Source_Name"));
     Check (fun s => bool_decide (to_data (rt_to s) !! (asc "Test_Oracle_Name", asc "Test_Source_Name") = Some [1]))]) = true.
Proof. vm_compute. reflexivity. Qed.
(** teeracle/src/tests.rs:153-194 *)
Example t_update_exchange_rate_to_none_or_zero_delete_exchange_rate :
  to_test (register4 ++
    [add_wl coingecko mrenclave4; update_rate (Some rate); update_rate None;
     event_last (EvExchangeRateDeleted coingecko dot_usd); rate_is None;
     update_rate (Some rate); rate_is (Some rate); update_rate (Some 0);
     event_last (EvExchangeRateDeleted coingecko dot_usd); rate_is None]) = true.
Proof. vm_compute. reflexivity. Qed.
(** teeracle/src/tests.rs:196-296 *)
Example t_updates_by_others_fail :
  to_test
    ([ErrIs (Signed ias_signer4) (CTo (ToUpdateRate coingecko dot_usd (Some rate))) EnclaveIsNotRegistered;
      ErrIs (Signed ias_signer4) (CTo (ToUpdateOracle (asc "Test_Oracle_Name") (asc "Test_Source_Name") [0])) EnclaveIsNotRegistered]
     ++ register4 ++
     [ErrIs (Signed ias_signer4) (CTo (ToUpdateRate coingecko dot_usd (Some rate))) FingerprintNotWhitelisted;
      ErrIs (Signed ias_signer4) (CTo (ToUpdateOracle (asc "Test_Oracle_Name") (asc "Test_Source_Name") [0])) FingerprintNotWhitelisted;
      add_wl coingecko mrenclave4;
      ErrIs (Signed ias_signer4) (CTo (ToUpdateRate coingecko (asc "123456789_12") (Some rate))) TradingPairStringTooLong]) = true.
Proof. vm_compute. reflexivity. Qed.
(** teeracle/src/tests.rs:298-360 *)
Example t_add_to_whitelist_works :
  to_test [add_wl coingecko mrenclave4; event_in (EvAddedToWhitelist coingecko mrenclave4); whitelist_has coingecko 1;
           add_wl coinmarketcap mrenclave4; event_in (EvAddedToWhitelist coinmarketcap mrenclave4);
           whitelist_has coingecko 1; whitelist_has coinmarketcap 1;
           ErrIs Root (CTo (ToAdd coingecko mrenclave4)) FingerprintAlreadyWhitelisted; whitelist_has coingecko 1] = true.
Proof. vm_compute. reflexivity. Qed.
(** teeracle/src/tests.rs:362-441 *)
Example t_add_too_many_oracles_to_whitelist_fails :
  to_test ([add_wl coingecko mrenclave4] ++ map (fun i => add_wl coingecko (takeN 31 shard7 ++ [i])) [209;210;211;212;213;214;215;216;217] ++
           [ErrIs Root (CTo (ToAdd coingecko mrenclave8)) FingerprintWhitelistOverflow; whitelist_has coingecko 10]) = true.
Proof. vm_compute. reflexivity. Qed.
(** teeracle/src/tests.rs:442-472 *)
Example t_add_to_whitelist_fails :
  to_test [ErrIs Root (CTo (ToAdd (asc "123456789_223456789_323456789_423456789_1") mrenclave4)) DataSourceStringTooLong;
           ErrIs (Signed ias_signer5) (CTo (ToAdd coingecko mrenclave4)) BadOrigin; whitelist_has coingecko 0] = true.
Proof. vm_compute. reflexivity. Qed.
(** teeracle/src/tests.rs:474-553 *)
Example t_remove_from_whitelist :
  to_test [ErrIs Root (CTo (ToRemove coingecko shard7)) FingerprintNotWhitelisted; whitelist_has coingecko 0;
           add_wl coingecko mrenclave4; ErrIs Root (CTo (ToRemove coingecko shard7)) FingerprintNotWhitelisted;
           whitelist_has coingecko 1;
           ErrIs (Signed ias_signer5) (CTo (ToRemove coingecko mrenclave4)) BadOrigin; whitelist_has coingecko 1;
           Ok_ Root (CTo (ToRemove coingecko mrenclave4)); event_in (EvRemovedFromWhitelist coingecko mrenclave4);
           whitelist_has coingecko 0] = true.
Proof. vm_compute. reflexivity. Qed.

(** ** asset-registry/src/tests.rs; [cfg0] lets only root change assets, as mock.rs:87 *)
Definition ar_test (l : list line) : bool :=
  test cfg0 l (genesis_state (mkGenesis 0 ∅ [] [] true true {[10 := 1]})).
Definition hub_asset : location := mkLoc 1 [JParachain 1000; JPalletInstance 50; JGeneralIndex 1].
Definition register_at (l : location) : call := CAr (ArRegister 10 l).
(** asset-registry/src/tests.rs:38-92,193-221 *)
Example t_register_reserve_asset :
  ar_test [ErrIs Root (CAr (ArRegister 9999 hub_asset)) AssetDoesNotExist;
           ErrIs Root (CAr (ArUnregister 10)) AssetIsNotRegistered;
           Ok_ Root (register_at hub_asset);
           Check (fun s => bool_decide (ar_loc (rt_ar s) !! 10 = Some hub_asset) && bool_decide (ar_id (rt_ar s) !! hub_asset = Some 10));
           ErrIs Root (register_at hub_asset) AssetAlreadyRegistered;
           Ok_ Root (CAr (ArUnregister 10));
           Check (fun s => bool_decide (ar_loc (rt_ar s) !! 10 = None) && bool_decide (ar_id (rt_ar s) !! hub_asset = None))] = true.
Proof. vm_compute. reflexivity. Qed.
(** asset-registry/src/tests.rs:94-189; network and body ids are opaque numbers in the model *)
Example t_locations :
  forallb (fun l => ar_test [Ok_ Root (register_at l)])
    [mkLoc 1 [JParachain 1000; JPalletInstance 1]; mkLoc 1 [JParachain 1000; JPalletInstance 1; JGeneralIndex 2];
     mkLoc 1 []; mkLoc 1 [JParachain 1000; JPalletInstance 2; JAccountId32 (Some 4) (zeros 32)];
     mkLoc 1 [JParachain 2000; JAccountKey20 (Some 7) (zeros 20)]]
  && forallb (fun l => ar_test [ErrIs Root (register_at l) WrongLocation])
    [mkLoc 1 [JParachain 1000; JPlurality 3 0]; mkLoc 1 [JParachain 1000; JGeneralIndex 1]] = true.
Proof. vm_compute. reflexivity. Qed.

(** ** xcm-transactor/src/tests.rs *)
(** xcm-transactor/src/mock.rs:111-143 *)
Definition xt_cfg : cfg :=
  mkCfg true 1 u64_max u32_max 86400000 86400000 172800000 10 4096 [] (fun _ => false) (fun _ => false)
        (fun o => match o with Root => true | _ => false end) 2223 2015 2015
        (fun b => b) (fun _ _ => None) (fun _ => inr (zeros 32)) real_oracles.
Definition swap (a b : N) : call := CXt (XtSwap a b (10000000000, 0) 10000000000).
(** xcm-transactor/src/tests.rs:33-117; the last test decodes the call with Kusama's own types, which are
    outside /repo *)
Example t_swap_ump :
  test xt_cfg
    [ErrIs (Signed k_alice) (swap 2015 2014) BadOrigin; ErrIs Root (swap 2015 2015) SwapIdsEqual;
     ErrIs Root (swap 2223 20000) InvalidSwapIds; ErrIs Root (swap 2015 20000) InvalidSwapIds;
     Ok_ Root (swap 2223 2015);
     Check (fun s => existsb (fun e => match e with EvSwapTransactSent _ _ => true | _ => false end) (rt_ev s))] mock_ext = true.
Proof. vm_compute. reflexivity. Qed.
