(** * C96: every listed error is returned by some call of its kind in some reachable state *)
From Coq Require Import String.
From Verif Require Import Base State Env TeerdaysModel TeerexBase SgxVerifyModel TeerexModel
  EnclaveBridgeModel SidechainModel TeeracleModel ClaimsModel AssetRegistryModel XcmTransactorModel
  Runtime Frame EnvFacts Examples ClaimsProps TeeracleProps SgxProofs SgxProps TeerexProofs TeerexProps XcmProps
  PemProps AttestationProps AcceptProps ErrorProps SgxErrorProps EncodingProps ErrorModel ErrorWireProps.

(** ** A configuration in which everything can go wrong *)
(** Which check fails is decided by the second byte of the leaf certificate, the only byte of the IAS signing
    certificate and the first byte of the IAS report. *)
Definition ext_e (x : N) : bytes :=
  let fmspc := oid_fmspc ++ [4; 6] ++ [0;144;110;161;0;0] in
  let cpusvn := oid_cpusvn ++ [4; 16] ++ [15;15;2;4;1;128;6;0;0;0;0;0;0;0;0;0] in
  match x with
  | 71 => [48]
  | 72 => oid_fmspc ++ [4; 6; 0; 0]
  | 73 => fmspc
  | 74 => fmspc ++ oid_cpusvn ++ [4; 16; 0]
  | 75 => fmspc ++ cpusvn
  | 76 => fmspc ++ cpusvn ++ oid_pcesvn
  | 77 => fmspc ++ cpusvn ++ oid_pcesvn ++ [2; 3; 1; 1; 1]
  | _ => fmspc ++ cpusvn ++ oid_pcesvn ++ [2; 1; 11]
  end.
Definition sgx_e : sgx_oracles :=
  mkSgx (fun _ => zeros 32) (fun b => match b with [255] => None | _ => Some b end)
        (fun c => match c with [65; 66] | [4] => false | _ => true end)
        (fun c _ _ => match c with [65; 67] => false | _ => true end)
        (fun c _ => match c with [6] => false | _ => true end)
        (fun c _ _ => match c with [65; 68] => false | _ => true end)
        (fun c _ _ => match c with [5] => false | _ => true end)
        (fun _ _ sig => match sig with 1 :: _ => false | _ => true end)
        (fun c => match c with [65; 69] => None | [65; 70] => Some [] | [65; x] => Some [(oid_sgx_ext, ext_e x)] | _ => None end)
        (or_json_identity sgx_demo)
        (fun d => match d with
                  | [i; n; svn; _] => Some (mkTcbJson str_SGX 3 (Z.of_N i) (Z.of_N n) [0;144;110;161;0;0] [(replicate 16 svn, svn, TUpToDate)])
                  | _ => or_json_tcb sgx_demo d end)
        (fun d => match d with
                  | 10 :: _ => None
                  | 11 :: _ => Some (mkIas None (Some str_OK) (Some [1]))
                  | 12 :: _ => Some (mkIas (Some [255]) (Some str_OK) (Some [1]))
                  | 13 :: _ => Some (mkIas (Some [1]) None (Some [1]))
                  | 14 :: _ => Some (mkIas (Some [1]) (Some str_OK) None)
                  | 15 :: _ => Some (mkIas (Some [1]) (Some str_OK) (Some [255]))
                  | 16 :: _ => Some (mkIas (Some [1]) (Some str_OK) (Some [1]))
                  | _ => or_json_ias sgx_demo d end)
        (fun t => match t with [255] => None | _ => Some (Z.of_N (le_val t)) end).
Lemma sgx_e_typed : json_levels_typed sgx_e.
Proof.
  intros doc d H. destruct doc as [|i [|n [|svn [|x [|? ?]]]]]; try discriminate H; injection H as <-; cbn; repeat constructor.
Qed.
Definition cfg_e (ovf : bool) (r : list xcm_inst -> send_error + bytes) : cfg :=
  mkCfg ovf 10 1000 u32_max 1000 86400000 172800000 3 64 (c_prefix (cfg_cl ovf 5))
        is_carol is_carol is_carol 2267 2039 2039 (fun b => b) (c_secp (cfg_cl ovf 5)) r sgx_e.
Definition c0 : cfg := cfg_e true (fun _ => inr []).
Definition g0 : genesis := mkGenesis 5000 (list_to_map [(alice, 1000); (bob, 1000)])
  [(eth 1, 100, Some alice, None); (eth 2, 50, Some bob, Some StRegular); (eth 3, 30, Some carol, None)] [(eth 3, (10, 1, 0))] false true {[ 7 := 3 ]}.

Definition returned (k : call) (e : error) : Prop := exists c g l o k', kind k' = kind k /\ json_levels_typed (c_sgx c) /\ blob_fits c k' /\
  (dispatch c o k' (run c (genesis_state g) l)).1 = Failed e.
Lemma wit c g l o k' k e : kind k' = kind k -> c_sgx c = sgx_e -> blob_fits c k' ->
  (dispatch c o k' (run c (genesis_state g) l)).1 = Failed e -> returned k e.
Proof. intros K S B H. exists c, g, l, o, k'. rewrite S. auto using sgx_e_typed. Qed.
Ltac fails l o k' := apply (wit c0 g0 l o k'); [reflexivity|reflexivity|vm_compute; (exact I || discriminate)|vm_compute; reflexivity].
Ltac fails_in c l o k' := apply (wit c g0 l o k'); [reflexivity|reflexivity|exact I|vm_compute; reflexivity].
Ltac each H := repeat (destruct H as [<-|H]); [..|contradiction H].

(** ** teerdays *)
Definition bonded := [call_td alice (TdBond 500)].
Definition unbonding := [call_td alice (TdBond 500); call_td alice (TdUnbond 100)].
Lemma td_returned k e : In e (errors_of (CTd k)) -> returned (CTd k) e.
Proof.
  intros H. destruct k; cbn in H; each H.
  - fails (@nil op) Root (CTd (TdBond 1)).
  - fails bonded (Signed alice) (CTd (TdBond 100)).
  - fails (@nil op) (Signed alice) (CTd (TdBond 9)).
  - fails (@nil op) Root (CTd (TdBondExtra 1)).
  - fails unbonding (Signed alice) (CTd (TdBondExtra 100)).
  - fails bonded (Signed alice) (CTd (TdBondExtra 9)).
  - fails (@nil op) (Signed alice) (CTd (TdBondExtra 100)).
  - fails (@nil op) Root (CTd (TdUnbond 1)).
  - fails unbonding (Signed alice) (CTd (TdUnbond 100)).
  - fails bonded (Signed alice) (CTd (TdUnbond 9)).
  - fails (@nil op) (Signed alice) (CTd (TdUnbond 100)).
  - fails (@nil op) Root (CTd (TdUpdateOther alice)).
  - fails (@nil op) (Signed alice) (CTd (TdUpdateOther bob)).
  - fails (@nil op) Root (CTd TdWithdrawUnbonded).
  - fails bonded (Signed alice) (CTd TdWithdrawUnbonded).
  - fails unbonding (Signed alice) (CTd TdWithdrawUnbonded).
Qed.
(** ** enclave-bridge and sidechain *)
Definition one : list op := [register alice (acc 9)].
(** eleven enclaves, ten of which are listed *)
Definition crowd : list op := register alice (acc 9) ::
  flat_map (fun n => [register (acc n) (acc 9); call_eb (acc n) (EbConfirm (acc 9) [] 1 [])]) [101; 102; 103; 104; 105; 106; 107; 108; 109; 110].
Definition rules : scfg := mkScfg (acc 9) None None false.
Definition two : list op := [register alice (acc 9); register bob (acc 8); call_eb alice (EbUpdateConfig (acc 9) rules 0)].
Definition vault0 : list op := [register alice (acc 9); call_eb bob (EbShield (acc 9) [] 500)].
Lemma eb_returned k e : In e (errors_of (CEb k)) -> returned (CEb k) e.
Proof.
  intros H. destruct k; cbn in H; each H.
  - fails (@nil op) Root (CEb (EbInvoke [] [])).
  - fails (@nil op) Root (CEb (EbConfirm (acc 9) [] 1 [])).
  - fails (@nil op) (Signed bob) (CEb (EbConfirm (acc 9) [] 1 [])).
  - fails one (Signed alice) (CEb (EbConfirm (acc 8) [] 1 [])).
  - fails crowd (Signed alice) (CEb (EbConfirm (acc 9) [] 1 [])).
  - fails (@nil op) Root (CEb (EbShield (acc 9) [] 1)).
  - fails (@nil op) (Signed bob) (CEb (EbShield (acc 9) [] 1001)).
  - fails bonded (Signed alice) (CEb (EbShield (acc 9) [] 501)).
  - fails vault0 (Signed alice) (CEb (EbShield (acc 9) [] 501)).
  - fails (@nil op) (Signed bob) (CEb (EbShield (acc 9) [] 9)).
  - fails (@nil op) Root (CEb (EbUnshield (acc 9) bob 1 [])).
  - fails (@nil op) (Signed bob) (CEb (EbUnshield (acc 9) bob 1 [])).
  - fails one (Signed alice) (CEb (EbUnshield (acc 8) bob 1 [])).
  - fails crowd (Signed alice) (CEb (EbUnshield (acc 9) bob 1 [])).
  - fails one (Signed alice) (CEb (EbUnshield (acc 9) bob 1 [])).
  - fails (vault0 ++ [OLock (vault (acc 9)) 7 500]) (Signed alice) (CEb (EbUnshield (acc 9) carol 100 [])).
  - fails vault0 (Signed alice) (CEb (EbUnshield (acc 9) alice 100 [])).
  - fails vault0 (Signed alice) (CEb (EbUnshield (acc 9) carol 9 [])).
  - fails (@nil op) Root (CEb (EbPublish [] [] [])).
  - fails (@nil op) (Signed bob) (CEb (EbPublish [] [] [])).
  - fails crowd (Signed alice) (CEb (EbPublish [] [] [])).
  - fails one (Signed alice) (CEb (EbPublish [] (replicate 6 []) [])).
  - fails one (Signed alice) (CEb (EbPublish [] [] (zeros 101))).
  - fails (@nil op) NoneO (CEb (EbUpdateConfig (acc 9) rules 0)).
  - fails (@nil op) (Signed bob) (CEb (EbUpdateConfig (acc 9) rules 0)).
  - fails two (Signed bob) (CEb (EbUpdateConfig (acc 9) rules 0)).
  - fails crowd (Signed alice) (CEb (EbUpdateConfig (acc 9) rules 0)).
  - fails (@nil op) (Signed bob) (CEb (EbPurge (acc 9) bob)).
  - fails (@nil op) Root (CEb (EbPurge (acc 9) bob)).
Qed.
Definition final : list op := [register alice (acc 9); call_sc alice (ScConfirm (acc 9) None (mkSconf 5 [1]))].
Lemma sc_returned k e : In e (errors_of (CSc k)) -> returned (CSc k) e.
Proof.
  intros H. destruct k; cbn in H; each H.
  - fails (@nil op) Root (CSc (ScConfirm (acc 9) None (mkSconf 5 [1]))).
  - fails (@nil op) (Signed bob) (CSc (ScConfirm (acc 9) None (mkSconf 5 [1]))).
  - fails one (Signed alice) (CSc (ScConfirm (acc 8) None (mkSconf 5 [1]))).
  - fails crowd (Signed alice) (CSc (ScConfirm (acc 9) None (mkSconf 5 [1]))).
  - fails final (Signed alice) (CSc (ScConfirm (acc 9) None (mkSconf 6 [1]))).
  - fails final (Signed alice) (CSc (ScConfirm (acc 9) (Some (mkSconf 5 [1])) (mkSconf 5 [1]))).
  - fails final (Signed alice) (CSc (ScConfirm (acc 9) (Some (mkSconf 4 [1])) (mkSconf 6 [1]))).
  - fails final (Signed alice) (CSc (ScConfirm (acc 9) (Some (mkSconf 5 [2])) (mkSconf 6 [1]))).
Qed.
(** ** teeracle *)
Definition white (n : N) : op := OCall Root (CTo (ToAdd [1] (acc n))).
Lemma to_returned k e : In e (errors_of (CTo k)) -> returned (CTo k) e.
Proof.
  intros H. destruct k; cbn in H; each H.
  - fails (@nil op) (Signed bob) (CTo (ToAdd [1] (acc 9))).
  - fails (@nil op) Root (CTo (ToAdd (zeros 41) (acc 9))).
  - fails [white 9] Root (CTo (ToAdd [1] (acc 9))).
  - fails [white 6; white 7; white 8] Root (CTo (ToAdd [1] (acc 9))).
  - fails (@nil op) (Signed bob) (CTo (ToRemove [1] (acc 9))).
  - fails (@nil op) Root (CTo (ToRemove [1] (acc 9))).
  - fails (@nil op) Root (CTo (ToUpdateOracle [2] [1] [])).
  - fails [white 9] (Signed alice) (CTo (ToUpdateOracle [2] [1] [])).
  - fails one (Signed alice) (CTo (ToUpdateOracle [2] [1] [])).
  - fails (one ++ [white 9]) (Signed alice) (CTo (ToUpdateOracle (zeros 41) [1] [])).
  - fails (@nil op) Root (CTo (ToUpdateRate [1] [] (Some 3))).
  - fails [white 9] (Signed alice) (CTo (ToUpdateRate [1] [] (Some 3))).
  - fails one (Signed alice) (CTo (ToUpdateRate [1] (zeros 12) (Some 3))).
  - fails one (Signed alice) (CTo (ToUpdateRate [1] [] (Some 3))).
Qed.
(** ** teerex *)
Definition pem_e (x : N) : bytes := begin_marker ++ [65; x] ++ end_marker ++ [10] ++ begin_marker ++ [66; 66] ++ end_marker.
Definition pem_single : bytes := begin_marker ++ [65; 65] ++ end_marker.
(** version and key type, first byte of the report signature, version and report data of the quoting enclave, kind of certificates,
    certificates *)
Definition quote_e (head : bytes) (sig svn qrd cty : N) (pem : bytes) : bytes :=
  (head ++ zeros 44) ++ (zeros 48 ++ [2] ++ zeros 15 ++ acc 77 ++ zeros 32 ++ zeros 160 ++ zeros 32 ++ alice ++ zeros 32) ++
  zeros 4 ++ ([sig] ++ zeros 63) ++ zeros 64 ++ (zeros 256 ++ [1; 0; svn; 0] ++ zeros 60 ++ [qrd] ++ zeros 63) ++ zeros 64 ++
  [32; 0] ++ zeros 32 ++ [cty; 0] ++ le_bytes 4 (lenN pem) ++ pem.
Definition quote_leaf (x : N) : bytes := quote_e [3; 0; 2; 0] 0 7 0 5 (pem_e x).
Definition ias_e (report : bytes) (sc : N) : bytes :=
  let content := report ++ ascii "|" ++ [1; 2] ++ ascii "|" ++ [sc] in
  [48; 6] ++ comment_oid ++ [4] ++ [130; lenN content / 256; lenN content mod 256] ++ content ++ [1].
(** a report of a debug enclave, made at the given time in seconds *)
Definition report_e (t : bytes) : bytes :=
  t ++ zeros (8 - lenN t) ++ zeros 48 ++ (zeros 48 ++ [2] ++ zeros 15 ++ acc 9 ++ zeros 224 ++ alice ++ zeros 32).
Definition qe_known : list op := [OCall (Signed carol) (CTx (TxRegisterQe [100; 9000; 7] (zeros 64) (pem_e 65)))].
Definition tcb_known (n : N) : op := OCall (Signed carol) (CTx (TxRegisterTcb ([100; 9000; n] ++ (if n =? 255 then [0] else [])) (zeros 64) (pem_e 65))).
Lemma tx_returned k e : In e (errors_of (CTx k)) -> returned (CTx k) e.
Proof.
  intros H. destruct k as [p u [px| |[]]|w|w|d sg ch|d sg ch|sk dbg]; cbn in H; each H.
  (* skipped attestation *)
  - fails (@nil op) Root (CTx (TxRegister [] None (MSkip true))).
  - fails (@nil op) (Signed alice) (CTx (TxRegister (zeros 5001) None (MSkip true))).
  - fails (@nil op) (Signed alice) (CTx (TxRegister [] (Some (zeros 257)) (MSkip true))).
  - fails [OCall Root (CTx (TxSetFlags false false))] (Signed alice) (CTx (TxRegister [] None (MSkip true))).
  (* IAS *)
  - fails (@nil op) Root (CTx (TxRegister [] None MIas)).
  - fails (@nil op) (Signed alice) (CTx (TxRegister (zeros 5001) None MIas)).
  - fails (@nil op) (Signed alice) (CTx (TxRegister [] (Some (zeros 257)) MIas)).
  - fails (@nil op) (Signed alice) (CTx (TxRegister [] None MIas)).
  - fails (@nil op) (Signed alice) (CTx (TxRegister (ias_e [] 4) None MIas)).
  - fails (@nil op) (Signed alice) (CTx (TxRegister (ias_e [] 5) None MIas)).
  - fails (@nil op) (Signed alice) (CTx (TxRegister (ias_e [] 6) None MIas)).
  - fails (@nil op) (Signed alice) (CTx (TxRegister (ias_e [10] 7) None MIas)).
  - fails (@nil op) (Signed alice) (CTx (TxRegister (ias_e [11] 7) None MIas)).
  - fails (@nil op) (Signed alice) (CTx (TxRegister (ias_e [12] 7) None MIas)).
  - fails (@nil op) (Signed alice) (CTx (TxRegister (ias_e [13] 7) None MIas)).
  - fails (@nil op) (Signed alice) (CTx (TxRegister (ias_e [14] 7) None MIas)).
  - fails (@nil op) (Signed alice) (CTx (TxRegister (ias_e [15] 7) None MIas)).
  - fails (@nil op) (Signed alice) (CTx (TxRegister (ias_e [16] 7) None MIas)).
  - fails (@nil op) (Signed alice) (CTx (TxRegister (ias_e (report_e [6]) 7) None MIas)).
  - fails [ONextBlock 86400000] (Signed alice) (CTx (TxRegister (ias_e (report_e [4]) 7) None MIas)).
  - fails (@nil op) (Signed bob) (CTx (TxRegister (ias_e (report_e [4]) 7) None MIas)).
  - fails (@nil op) (Signed alice) (CTx (TxRegister (ias_e (report_e [4]) 7) None MIas)).
  (* DCAP, proxied *)
  - fails (@nil op) Root (CTx (TxRegister [] None (MDcap true))).
  - fails (@nil op) (Signed bob) (CTx (TxRegister (zeros 5001) None (MDcap true))).
  - fails (@nil op) (Signed bob) (CTx (TxRegister [] (Some (zeros 257)) (MDcap true))).
  - fails (@nil op) (Signed bob) (CTx (TxRegister [] None (MDcap true))).
  - fails (@nil op) (Signed bob) (CTx (TxRegister (quote_e [4; 0; 2; 0] 0 7 0 5 []) None (MDcap true))).
  - fails (@nil op) (Signed bob) (CTx (TxRegister (quote_e [3; 0; 3; 0] 0 7 0 5 []) None (MDcap true))).
  - fails (@nil op) (Signed bob) (CTx (TxRegister (quote_e [3; 0; 2; 0] 0 7 0 6 []) None (MDcap true))).
  - fails (@nil op) (Signed bob) (CTx (TxRegister (quote_e [3; 0; 2; 0] 0 7 0 5 []) None (MDcap true))).
  - fails qe_known (Signed bob) (CTx (TxRegister (quote_e [3; 0; 2; 0] 0 7 0 5 pem_single) None (MDcap true))).
  - fails qe_known (Signed bob) (CTx (TxRegister (quote_leaf 66) None (MDcap true))).
  - fails qe_known (Signed bob) (CTx (TxRegister (quote_leaf 67) None (MDcap true))).
  - fails qe_known (Signed bob) (CTx (TxRegister (quote_leaf 69) None (MDcap true))).
  - fails qe_known (Signed bob) (CTx (TxRegister (quote_leaf 70) None (MDcap true))).
  - fails qe_known (Signed bob) (CTx (TxRegister (quote_leaf 71) None (MDcap true))).
  - fails qe_known (Signed bob) (CTx (TxRegister (quote_leaf 72) None (MDcap true))).
  - fails qe_known (Signed bob) (CTx (TxRegister (quote_leaf 73) None (MDcap true))).
  - fails qe_known (Signed bob) (CTx (TxRegister (quote_leaf 74) None (MDcap true))).
  - fails qe_known (Signed bob) (CTx (TxRegister (quote_leaf 75) None (MDcap true))).
  - fails qe_known (Signed bob) (CTx (TxRegister (quote_leaf 76) None (MDcap true))).
  - fails qe_known (Signed bob) (CTx (TxRegister (quote_leaf 77) None (MDcap true))).
  - fails qe_known (Signed bob) (CTx (TxRegister (quote_e [3; 0; 2; 0] 0 7 1 5 (pem_e 65)) None (MDcap true))).
  - fails qe_known (Signed bob) (CTx (TxRegister (quote_e [3; 0; 2; 0] 1 7 0 5 (pem_e 65)) None (MDcap true))).
  - fails qe_known (Signed bob) (CTx (TxRegister (quote_leaf 68) None (MDcap true))).
  - fails qe_known (Signed bob) (CTx (TxRegister (quote_leaf 65 ++ [0]) None (MDcap true))).
  - fails qe_known (Signed bob) (CTx (TxRegister (quote_leaf 65) None (MDcap true))).
  - fails (qe_known ++ [tcb_known 255]) (Signed bob) (CTx (TxRegister (quote_leaf 65) None (MDcap true))).
  - fails (qe_known ++ [tcb_known 11]) (Signed bob) (CTx (TxRegister (quote_leaf 65) None (MDcap true))).
  (* DCAP *)
  - fails (@nil op) Root (CTx (TxRegister [] None (MDcap false))).
  - fails (@nil op) (Signed alice) (CTx (TxRegister (zeros 5001) None (MDcap false))).
  - fails (@nil op) (Signed alice) (CTx (TxRegister [] (Some (zeros 257)) (MDcap false))).
  - fails (@nil op) (Signed alice) (CTx (TxRegister [] None (MDcap false))).
  - fails (@nil op) (Signed alice) (CTx (TxRegister (quote_e [4; 0; 2; 0] 0 7 0 5 []) None (MDcap false))).
  - fails (@nil op) (Signed alice) (CTx (TxRegister (quote_e [3; 0; 3; 0] 0 7 0 5 []) None (MDcap false))).
  - fails (@nil op) (Signed alice) (CTx (TxRegister (quote_e [3; 0; 2; 0] 0 7 0 6 []) None (MDcap false))).
  - fails (@nil op) (Signed alice) (CTx (TxRegister (quote_e [3; 0; 2; 0] 0 7 0 5 []) None (MDcap false))).
  - fails qe_known (Signed alice) (CTx (TxRegister (quote_e [3; 0; 2; 0] 0 7 0 5 pem_single) None (MDcap false))).
  - fails qe_known (Signed alice) (CTx (TxRegister (quote_leaf 66) None (MDcap false))).
  - fails qe_known (Signed alice) (CTx (TxRegister (quote_leaf 67) None (MDcap false))).
  - fails qe_known (Signed alice) (CTx (TxRegister (quote_leaf 69) None (MDcap false))).
  - fails qe_known (Signed alice) (CTx (TxRegister (quote_leaf 70) None (MDcap false))).
  - fails qe_known (Signed alice) (CTx (TxRegister (quote_leaf 71) None (MDcap false))).
  - fails qe_known (Signed alice) (CTx (TxRegister (quote_leaf 72) None (MDcap false))).
  - fails qe_known (Signed alice) (CTx (TxRegister (quote_leaf 73) None (MDcap false))).
  - fails qe_known (Signed alice) (CTx (TxRegister (quote_leaf 74) None (MDcap false))).
  - fails qe_known (Signed alice) (CTx (TxRegister (quote_leaf 75) None (MDcap false))).
  - fails qe_known (Signed alice) (CTx (TxRegister (quote_leaf 76) None (MDcap false))).
  - fails qe_known (Signed alice) (CTx (TxRegister (quote_leaf 77) None (MDcap false))).
  - fails qe_known (Signed alice) (CTx (TxRegister (quote_e [3; 0; 2; 0] 0 7 1 5 (pem_e 65)) None (MDcap false))).
  - fails qe_known (Signed alice) (CTx (TxRegister (quote_e [3; 0; 2; 0] 1 7 0 5 (pem_e 65)) None (MDcap false))).
  - fails qe_known (Signed alice) (CTx (TxRegister (quote_leaf 68) None (MDcap false))).
  - fails qe_known (Signed alice) (CTx (TxRegister (quote_leaf 65 ++ [0]) None (MDcap false))).
  - fails qe_known (Signed bob) (CTx (TxRegister (quote_leaf 65) None (MDcap false))).
  - fails qe_known (Signed alice) (CTx (TxRegister (quote_leaf 65) None (MDcap false))).
  - fails (qe_known ++ [tcb_known 255]) (Signed alice) (CTx (TxRegister (quote_leaf 65) None (MDcap false))).
  - fails (qe_known ++ [tcb_known 11]) (Signed alice) (CTx (TxRegister (quote_leaf 65) None (MDcap false))).
  (* the other calls *)
  - fails (@nil op) Root (CTx (TxUnregisterSovereign alice)).
  - fails (@nil op) (Signed bob) (CTx (TxUnregisterSovereign alice)).
  - fails one (Signed bob) (CTx (TxUnregisterSovereign alice)).
  - fails (@nil op) Root (CTx (TxUnregisterProxied (acc 9, alice, inl []))).
  - fails (@nil op) (Signed bob) (CTx (TxUnregisterProxied (acc 9, alice, inl []))).
  - fails [OCall (Signed alice) (CTx (TxRegister (acc 9) None (MSkip true)))] (Signed bob)
      (CTx (TxUnregisterProxied (acc 9, alice, inl (alice ++ zeros 34)))).
  - fails (@nil op) Root (CTx (TxRegisterQe [] [] [])).
  - fails (@nil op) (Signed bob) (CTx (TxRegisterQe [] [] pem_single)).
  - fails (@nil op) (Signed bob) (CTx (TxRegisterQe [] [] (pem_e 66))).
  - fails (@nil op) (Signed bob) (CTx (TxRegisterQe [] [] (pem_e 67))).
  - fails (@nil op) (Signed bob) (CTx (TxRegisterQe [] [] (pem_e 65))).
  - fails (@nil op) (Signed bob) (CTx (TxRegisterQe [] (zeros 64) (pem_e 68))).
  - fails (@nil op) (Signed bob) (CTx (TxRegisterQe [] (zeros 64) (pem_e 65))).
  - fails (@nil op) (Signed bob) (CTx (TxRegisterQe [1; 2; 3] (zeros 64) (pem_e 65))).
  - fails (@nil op) Root (CTx (TxRegisterTcb [] [] [])).
  - fails (@nil op) (Signed bob) (CTx (TxRegisterTcb [] [] pem_single)).
  - fails (@nil op) (Signed bob) (CTx (TxRegisterTcb [] [] (pem_e 66))).
  - fails (@nil op) (Signed bob) (CTx (TxRegisterTcb [] [] (pem_e 67))).
  - fails (@nil op) (Signed bob) (CTx (TxRegisterTcb [] [] (pem_e 65))).
  - fails (@nil op) (Signed bob) (CTx (TxRegisterTcb [] (zeros 64) (pem_e 68))).
  - fails (@nil op) (Signed bob) (CTx (TxRegisterTcb [] (zeros 64) (pem_e 65))).
  - fails (@nil op) (Signed bob) (CTx (TxRegisterTcb [1; 2; 3] (zeros 64) (pem_e 65))).
  - fails (@nil op) (Signed bob) (CTx (TxSetFlags true true)).
Qed.
(** ** claims, asset registry, xcm-transactor *)
Definition c_wrap : cfg := cfg_e false (fun _ => inr []).
(** the total of open claims wraps around *)
Definition wrapped : list op := [do_mint 4 900].
Definition signed (n : N) (dest text : bytes) : bytes := toy_sign c0 n dest text.
Definition regular : bytes := to_text StRegular.
Definition vested : list op := [OAddVesting alice 10 1 0; OAddVesting carol 10 1 0].
Lemma cl_returned k e : In e (errors_of (CCl k)) -> returned (CCl k) e.
Proof.
  intros H. destruct k; cbn in H; each H.
  - fails (@nil op) Root (CCl (ClClaim alice [])).
  - fails (@nil op) NoneO (CCl (ClClaim alice [])).
  - fails (@nil op) NoneO (CCl (ClClaim alice (signed 2 alice []))).
  - fails (@nil op) NoneO (CCl (ClClaim alice (signed 9 alice []))).
  - fails_in c_wrap wrapped NoneO (CCl (ClClaim alice (signed 1 alice []))).
  - fails vested NoneO (CCl (ClClaim alice (signed 3 alice []))).
  - fails (@nil op) (Signed alice) (CCl (ClMint (eth 1) 1 None None)).
  - fails (@nil op) Root (CCl (ClClaimAttest alice [] [])).
  - fails (@nil op) NoneO (CCl (ClClaimAttest alice [] regular)).
  - fails (@nil op) NoneO (CCl (ClClaimAttest alice (signed 2 alice [7]) [7])).
  - fails (@nil op) NoneO (CCl (ClClaimAttest alice (signed 9 alice []) [])).
  - fails_in c_wrap wrapped NoneO (CCl (ClClaimAttest alice (signed 1 alice []) [])).
  - fails vested NoneO (CCl (ClClaimAttest alice (signed 3 alice []) [])).
  - fails (@nil op) Root (CCl (ClAttest [])).
  - fails (@nil op) (Signed (acc 5)) (CCl (ClAttest [])).
  - fails (@nil op) (Signed bob) (CCl (ClAttest [7])).
  - fails [OCall NoneO (CCl (ClClaim alice (signed 1 alice [])))] (Signed alice) (CCl (ClAttest [])).
  - fails_in c_wrap wrapped (Signed alice) (CCl (ClAttest [])).
  - fails vested (Signed carol) (CCl (ClAttest [])).
  - fails (@nil op) (Signed alice) (CCl (ClMove (eth 1) (eth 5) None)).
Qed.
Lemma ar_returned k e : In e (errors_of (CAr k)) -> returned (CAr k) e.
Proof.
  intros H. destruct k; cbn in H; each H.
  - fails (@nil op) (Signed alice) (CAr (ArRegister 7 (mkLoc 1 []))).
  - fails (@nil op) (Signed carol) (CAr (ArRegister 8 (mkLoc 1 []))).
  - fails [reg_x 7 (mkLoc 1 [])] (Signed carol) (CAr (ArRegister 7 (mkLoc 1 []))).
  - fails (@nil op) (Signed carol) (CAr (ArRegister 7 (mkLoc 1 [JGeneralIndex 4]))).
  - fails (@nil op) (Signed alice) (CAr (ArUnregister 7)).
  - fails (@nil op) (Signed carol) (CAr (ArUnregister 7)).
Qed.
Definition refusing (e : send_error) : cfg := cfg_e true (fun _ => inl e).
Lemma xt_returned k e : In e (errors_of (CXt k)) -> returned (CXt k) e.
Proof.
  intros H. destruct k; cbn in H; each H.
  - fails (@nil op) (Signed alice) (CXt (XtSwap 2267 2039 (1, 1) 5)).
  - fails (@nil op) (Signed carol) (CXt (XtSwap 2267 2267 (1, 1) 5)).
  - fails (@nil op) (Signed carol) (CXt (XtSwap 2267 1 (1, 1) 5)).
  - fails_in (refusing SENotApplicable) (@nil op) (Signed carol) (CXt (XtSwap 2267 2039 (1, 1) 5)).
  - fails_in (refusing SETransport) (@nil op) (Signed carol) (CXt (XtSwap 2267 2039 (1, 1) 5)).
  - fails_in (refusing SEUnroutable) (@nil op) (Signed carol) (CXt (XtSwap 2267 2039 (1, 1) 5)).
  - fails_in (refusing SEDestinationUnsupported) (@nil op) (Signed carol) (CXt (XtSwap 2267 2039 (1, 1) 5)).
  - fails_in (refusing SEFees) (@nil op) (Signed carol) (CXt (XtSwap 2267 2039 (1, 1) 5)).
  - fails_in (refusing SEOther) (@nil op) (Signed carol) (CXt (XtSwap 2267 2039 (1, 1) 5)).
Qed.
(** ** The table is exact *)
Lemma errors_of_kind k k' : kind k' = kind k -> errors_of k' = errors_of k.
Proof.
  destruct k as [[]|[]|[]|[]|[? ? []| | | | |]|[]|[]|[]]; try destruct proxied; cbn [kind];
    destruct k' as [[]|[]|[]|[]|[? ? []| | | | |]|[]|[]|[]]; try destruct proxied; cbn [kind]; intros K; try discriminate K; reflexivity.
Qed.
Theorem C96_errors_of_each_call : forall k e, In e (errors_of k) <->
  exists c g l o k', kind k' = kind k /\ json_levels_typed (c_sgx c) /\ blob_fits c k' /\
    (dispatch c o k' (run c (genesis_state g) l)).1 = Failed e.
Proof.
  intros k e. split.
  - destruct k; [apply td_returned|apply eb_returned|apply sc_returned|apply to_returned|apply tx_returned|apply cl_returned|apply ar_returned|apply xt_returned].
  - intros (c & g & l & o & k' & K & J & B & H). apply C96_no_other_errors in H; [|exact J|exact B].
    rewrite <- (errors_of_kind _ _ K). exact H.
Qed.
Print Assumptions C96_errors_of_each_call.
(** ** The numbers that appear on the chain *)
(** The declared numbers of each pallet that some call returns. Left out, in order: [BadState] of teerdays;
    [EnclaveNotFoundInShardStatus] of enclave-bridge; [OracleBlobTooBig] of teeracle; [EnclaveSignerDecodeError],
    [RemoteAttestationVerificationFailed], [EmptyEnclaveRegistry], [OtherSgxVerifyError], [CpuSvnDecodingError],
    [DerEncodingError], [FmspcDecodingError] and [PublicKeyIsInvalid] of teerex. *)
Definition live (p : N) : list N :=
  match p with
  | 0 => [0; 1; 2; 3; 4; 5]
  | 1 => [0; 1; 2; 3; 5]
  | 2 => [0; 1; 2; 3]
  | 3 => [0; 1; 2; 3; 4; 5]
  | 4 => [1; 3; 4; 5; 6; 7; 9; 10; 11; 12; 13; 15; 16; 17; 19; 20; 21; 22; 23; 24; 26; 27; 29; 30; 31; 32; 33; 34; 35; 36; 37; 38; 39; 40;
          41; 43; 44; 45; 46; 47; 48; 49; 50; 51; 52; 53]
  | 5 => [0; 1; 2; 3; 4; 5]
  | 6 => [0; 1; 2; 3]
  | 7 => [0; 1; 2; 3; 4; 5; 6; 7]
  | _ => []
  end.
(** one call of each kind *)
Definition all_calls : list call :=
  [CTd (TdBond 0); CTd (TdBondExtra 0); CTd (TdUnbond 0); CTd (TdUpdateOther []); CTd TdWithdrawUnbonded;
   CEb (EbInvoke [] []); CEb (EbConfirm [] [] 0 []); CEb (EbShield [] [] 0); CEb (EbUnshield [] [] 0 []); CEb (EbPublish [] [] []);
   CEb (EbUpdateConfig [] rules 0); CEb (EbPurge [] []); CSc (ScConfirm [] None (mkSconf 0 []));
   CTo (ToAdd [] []); CTo (ToRemove [] []); CTo (ToUpdateOracle [] [] []); CTo (ToUpdateRate [] [] None);
   CTx (TxRegister [] None MIas); CTx (TxRegister [] None (MDcap false)); CTx (TxRegister [] None (MDcap true)); CTx (TxRegister [] None (MSkip true));
   CTx (TxUnregisterSovereign []); CTx (TxUnregisterProxied ([], [], inl [])); CTx (TxRegisterQe [] [] []); CTx (TxRegisterTcb [] [] []); CTx (TxSetFlags true true);
   CCl (ClClaim [] []); CCl (ClMint [] 0 None None); CCl (ClClaimAttest [] [] []); CCl (ClAttest []); CCl (ClMove [] [] None);
   CAr (ArRegister 0 (mkLoc 0 [])); CAr (ArUnregister 0); CXt (XtSwap 0 0 (0, 0) 0)].
(** what is declared but in no call's list *)
Definition dead (e : error) : bool :=
  match e with
  | OracleBlobTooBig | TxSgx SCpuSvnDecodingError | TxSgx SDerEncodingError | TxSgx SFmspcDecodingError | TxSgx SPublicKeyIsInvalid => true
  | _ => false
  end.
Lemma none_dead k e : In e (errors_of k) -> dead e = false.
Proof.
  intros H. apply (proj1 (List.Forall_forall (fun e => dead e = false) (errors_of k))); [|exact H]. clear H.
  destruct k as [[]|[]|[]|[]|[? ? []| | | | |]|[]|[]|[]]; try destruct proxied; repeat constructor.
Qed.
Lemma live_number ix e b : dead e = false -> error_bytes ix e = Some b ->
  b = [2] \/ b = [0] \/ exists q m, q < 8 /\ b = [3; ix q; m; 0; 0; 0] /\ In m (live q).
Proof.
  each_error e; intros D E; try discriminate D; try discriminate E; injection E as <-; auto;
    right; right; (eexists _, _; split; [|split; [reflexivity|cbn; tauto]]); reflexivity.
Qed.
Theorem C96_numbers_on_chain : forall ix p n, sane_index ix -> p < 8 ->
  (In n (live p) <->
   exists c g l o k e, json_levels_typed (c_sgx c) /\ blob_fits c k /\ (dispatch c o k (run c (genesis_state g) l)).1 = Failed e /\
     error_bytes ix e = Some [3; ix p; n; 0; 0; 0]).
Proof.
  intros ix p n I P. split.
  - intros L. assert (exists e k, error_bytes ix e = of_pallet ix p n /\ In e (errors_of k)) as (e & k & E & K).
    + assert (p = 0 \/ p = 1 \/ p = 2 \/ p = 3 \/ p = 4 \/ p = 5 \/ p = 6 \/ p = 7) as HP by lia.
      assert (match named p n with Some (Used e) => error_bytes ix e = of_pallet ix p n /\ Exists (fun k => In e (errors_of k)) all_calls | _ => False end) as HN.
      { repeat (destruct HP as [->|HP]); try subst p; cbn in L; each L; cbn;
          (split; [reflexivity|repeat (first [apply Exists_cons_hd; cbn; tauto|apply Exists_cons_tl])]). }
      destruct (named p n) as [[e|]|]; [|contradiction HN|contradiction HN].
      destruct HN as [HE HX]. apply List.Exists_exists in HX as (k & _ & HK). eauto.
    + apply C96_errors_of_each_call in K as (c & g & l & o & k' & _ & J & B & H). exists c, g, l, o, k', e. auto.
  - intros (c & g & l & o & k & e & J & B & H & E). apply C96_no_other_errors in H; [|exact J|exact B]. 
    apply none_dead in H. destruct (live_number ix e _ H E) as [D|[D|(q & m & Q & D & M)]]; try discriminate D.
    injection D as D ->. apply (I p q P Q) in D as ->. exact M.
Qed.
Print Assumptions C96_numbers_on_chain.
(** [PotUnderflow] (pallet 5, number 3) is returned only without overflow checks after a wrapped total
    ([C43_pot_never_underflows]). *)
Example C96_example :
  error_bytes (fun i => 50 + i) (TxSgx SQeHasRejectedEnclave) = Some [3; 54; 43; 0; 0; 0] /\
  error_bytes (fun i => 50 + i) BadOrigin = Some [2] /\
  (dispatch c0 (Signed alice) (CTx (TxRegister (quote_e [3; 0; 2; 0] 0 7 0 5 []) None (MDcap false))) (genesis_state g0)).1
    = Failed (TxSgx SQeHasRejectedEnclave) /\
  (exists k, In (TxSgx SQeHasRejectedEnclave) (errors_of k)) /\ ~ In 42 (live 4).
Proof.
  split; [reflexivity|]. split; [reflexivity|]. split; [vm_compute; reflexivity|]. split; [exists (CTx (TxRegister [] None (MDcap false))); cbn; tauto|].
  cbn. lia.
Qed.

(** ** Refusals of the transaction pool *)
(** The bytes with which an unsigned call and a signed [attest] are refused before they are included; the code 2 of
    [ValidityError::NoPermission] (primitives/claims/src/lib.rs:39-40) is never used. *)
Definition pool_refusals (k : cl_call) : list bytes :=
  match k with ClClaim _ _ | ClClaimAttest _ _ _ => [[0; 7; 0]; [0; 7; 1]; [0; 7; 3]] | _ => [[0; 0]] end.
Definition attest_refusals (k : cl_call) : list bytes :=
  match k with ClAttest _ => [[0; 7; 1]; [0; 7; 3]] | _ => [] end.
Theorem C96_pool_refusals : forall k b, In b (pool_refusals k) <->
  exists c g l k' e, kind (CCl k') = kind (CCl k) /\
    validate_unsigned c (run c (genesis_state g) l) k' = inl e /\ enc_validity e = b.
Proof.
  intros k b. split.
  - assert (forall k' e, validate_unsigned c0 (run c0 (genesis_state g0) []) k' = inl e -> kind (CCl k') = kind (CCl k) -> exists c g l k' e',
      kind (CCl k') = kind (CCl k) /\ validate_unsigned c (run c (genesis_state g) l) k' = inl e' /\ enc_validity e' = enc_validity e) as W.
    { intros k' e H K. exists c0, g0, [], k', e. auto. }
    intros H. destruct k; cbn in H; each H.
    + apply (W (ClClaim alice []) VInvalidSignature); [vm_compute; reflexivity|reflexivity].
    + apply (W (ClClaim alice (signed 9 alice [])) VSignerHasNoClaim); [vm_compute; reflexivity|reflexivity].
    + apply (W (ClClaim alice (signed 2 alice [])) VInvalidStatement); [vm_compute; reflexivity|reflexivity].
    + apply (W (ClMint [] 0 None None) VNotUnsigned); reflexivity.
    + apply (W (ClClaimAttest alice [] []) VInvalidSignature); [vm_compute; reflexivity|reflexivity].
    + apply (W (ClClaimAttest alice (signed 9 alice []) []) VSignerHasNoClaim); [vm_compute; reflexivity|reflexivity].
    + apply (W (ClClaimAttest alice (signed 1 alice []) []) VInvalidStatement); [vm_compute; reflexivity|reflexivity].
    + apply (W (ClAttest []) VNotUnsigned); reflexivity.
    + apply (W (ClMove [] [] None) VNotUnsigned); reflexivity.
  - intros (c & g & l & k' & e & K & H & <-). unfold validate_unsigned in H.
    destruct k'; destruct k; try discriminate K; cbn in H |- *;
      repeat (case_match; try discriminate H); injection H as <-; cbn; tauto.
Qed.
Print Assumptions C96_pool_refusals.
Theorem C96_attest_refusals : forall k b, In b (attest_refusals k) <->
  exists c g l a k' e, kind (CCl k') = kind (CCl k) /\
    prevalidate (run c (genesis_state g) l) a k' = Some e /\ enc_validity e = b.
Proof.
  intros k b. split.
  - intros H. destruct k; cbn in H; each H.
    + exists c0, g0, [], (acc 5), (ClAttest []), VSignerHasNoClaim. split; [reflexivity|split; [vm_compute; reflexivity|reflexivity]].
    + exists c0, g0, [], bob, (ClAttest []), VInvalidStatement. split; [reflexivity|split; [vm_compute; reflexivity|reflexivity]].
  - intros (c & g & l & a & k' & e & K & H & <-).
    destruct k'; try discriminate H; destruct k; try discriminate K; cbn in H |- *;
      repeat (case_match; try discriminate H); injection H as <-; cbn; tauto.
Qed.
Print Assumptions C96_attest_refusals.
