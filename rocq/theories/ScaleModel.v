(** * SCALE: the encodings of stored values and calls (parity-scale-codec, outside /repo).

    Every type of /repo that is stored or passed in a call derives [Encode] and [Decode]. A [codec]
    is such a pair of functions together with the values of the Rust type ([wt]); the model's types
    are wider (bytes are numbers, arrays are lists). Decoding returns the value and what is left of
    the input. *)
From Coq Require Import String.
From Verif Require Import Base State TeerdaysModel TeerexBase SgxVerifyModel TeerexModel
  EnclaveBridgeModel SidechainModel TeeracleModel ClaimsModel AssetRegistryModel XcmTransactorModel.

Record codec (A : Type) := mkCodec {
  enc : A -> bytes;
  dec : bytes -> option (A * bytes);
  wt : A -> Prop }.
Arguments enc {A} _ _.
Arguments dec {A} _ _.
Arguments wt {A} _ _.

(** ** Combinators *)
(** unsigned integers of [k] bytes, little endian *)
Definition c_le (k : nat) : codec N :=
  mkCodec N (le_bytes k)
    (fun l => if lenN l <? N.of_nat k then None else Some (le_val (take k l), drop k l))
    (fun n => n < 256 ^ N.of_nat k).
(** arrays [[u8; k]] and the newtypes around them: H256, AccountId32, EthereumAddress *)
Definition c_arr (k : nat) : codec bytes :=
  mkCodec bytes (fun b => b)
    (fun l => if lenN l <? N.of_nat k then None else Some (take k l, drop k l))
    (fun b => wf_bytes b /\ length b = k).
Definition c_bool : codec bool :=
  mkCodec bool (fun b => [if b then 1 else 0])
    (fun l => match l with 0 :: r => Some (false, r) | 1 :: r => Some (true, r) | _ => None end)
    (fun _ => True).
Definition c_unit : codec unit := mkCodec unit (fun _ => []) (fun l => Some (tt, l)) (fun _ => True).
Definition c_pair {A B} (a : codec A) (b : codec B) : codec (A * B) :=
  mkCodec (A * B) (fun x => enc a x.1 ++ enc b x.2)
    (fun l => match dec a l with
              | None => None
              | Some (x, r) => match dec b r with None => None | Some (y, r') => Some ((x, y), r') end
              end)
    (fun x => wt a x.1 /\ wt b x.2).
(** structs: the fields in order *)
Definition c_iso {A B} (f : B -> A) (g : A -> B) (a : codec A) : codec B :=
  mkCodec B (fun x => enc a (f x))
    (fun l => match dec a l with None => None | Some (y, r) => Some (g y, r) end)
    (fun x => wt a (f x)).
Definition c_opt {A} (a : codec A) : codec (option A) :=
  mkCodec (option A) (fun x => match x with None => [0] | Some y => 1 :: enc a y end)
    (fun l => match l with
              | 0 :: r => Some (None, r)
              | 1 :: r => match dec a r with None => None | Some (y, r') => Some (Some y, r') end
              | _ => None
              end)
    (fun x => match x with None => True | Some y => wt a y end).
(** enums: the index of the variant, then its fields. [c_void] has no variant; [c_case t a inj prj rest]
    adds the variant with index [t]. *)
Definition c_void {B} : codec B := mkCodec B (fun _ => []) (fun _ => None) (fun _ => False).
Definition c_case {A B} (t : N) (a : codec A) (inj : A -> B) (prj : B -> option A) (rest : codec B) : codec B :=
  mkCodec B (fun x => match prj x with Some y => t :: enc a y | None => enc rest x end)
    (fun l => match l with
              | [] => None
              | b :: r => if b =? t then match dec a r with None => None | Some (y, r') => Some (inj y, r') end
                          else dec rest l
              end)
    (fun x => match prj x with Some y => wt a y | None => wt rest x end).

(** *** Compact integers of at most [k] bytes ([Compact<u32>]: 4, [Compact<u128>]: 16) *)
(** the least number of bytes, at least 4 *)
Fixpoint n_bytes (fuel : nat) (k : nat) (n : N) : nat :=
  match fuel with
  | O => k
  | S f => if n <? 256 ^ N.of_nat k then k else n_bytes f (S k) n
  end.
Definition enc_compact (mx : nat) (n : N) : bytes :=
  if n <? 64 then [4 * n]
  else if n <? 16384 then le_bytes 2 (4 * n + 1)
  else if n <? 1073741824 then le_bytes 4 (4 * n + 2)
  else let k := n_bytes (mx - 4) 4 n in (3 + 4 * (N.of_nat k - 4)) :: le_bytes k n.
(** non-canonical forms are refused *)
Definition dec_compact (mx : nat) (l : bytes) : option (N * bytes) :=
  match l with
  | [] => None
  | b :: r =>
      if b mod 4 =? 0 then Some (b / 4, r)
      else if b mod 4 =? 1 then
        match dec (c_le 2) l with
        | None => None
        | Some (x, r') => if 63 <? x / 4 then Some (x / 4, r') else None
        end
      else if b mod 4 =? 2 then
        match dec (c_le 4) l with
        | None => None
        | Some (x, r') => if 16383 <? x / 4 then Some (x / 4, r') else None
        end
      else
        let k := b / 4 + 4 in
        if N.of_nat mx <? k then None else
        match dec (c_le (N.to_nat k)) r with
        | None => None
        | Some (x, r') =>
            if (if k =? 4 then 1073741823 else 256 ^ (k - 1) - 1) <? x then Some (x, r') else None
        end
  end.
Definition c_compact (mx : nat) : codec N :=
  mkCodec N (enc_compact mx) (dec_compact mx) (fun n => n < 256 ^ N.of_nat mx).

(** *** Sequences *)
(** [n] elements; each takes at least one byte, so the length of the input is enough fuel *)
Fixpoint dec_seq {A} (a : codec A) (fuel : nat) (n : N) (l : bytes) : option (list A * bytes) :=
  if n =? 0 then Some ([], l) else
  match fuel with
  | O => None
  | S f =>
      match dec a l with
      | None => None
      | Some (x, r) => match dec_seq a f (n - 1) r with None => None | Some (xs, r') => Some (x :: xs, r') end
      end
  end.
Definition enc_seq {A} (a : codec A) (xs : list A) : bytes := concat (map (enc a) xs).
(** [Vec<T>] *)
Definition c_vec {A} (a : codec A) : codec (list A) :=
  mkCodec (list A) (fun xs => enc_compact 4 (lenN xs) ++ enc_seq a xs)
    (fun l => match dec_compact 4 l with None => None | Some (n, r) => dec_seq a (length r) n r end)
    (fun xs => Forall (wt a) xs /\ lenN xs <= u32_max).
(** [BoundedVec<T, N>]: longer vectors are refused *)
Definition c_bvec {A} (mx : N) (a : codec A) : codec (list A) :=
  mkCodec (list A) (enc (c_vec a))
    (fun l => match dec (c_vec a) l with
              | None => None
              | Some (xs, r) => if lenN xs <=? mx then Some (xs, r) else None
              end)
    (fun xs => wt (c_vec a) xs /\ lenN xs <= mx).
(** [Vec<u8>] *)
Definition c_bytes : codec bytes := c_vec (c_le 1).
(** enums whose variant with index [n] has [n] fields of the same type, up to [mx] *)
Definition c_count {A} (mx : N) (a : codec A) : codec (list A) :=
  mkCodec (list A) (fun xs => lenN xs :: enc_seq a xs)
    (fun l => match l with
              | [] => None
              | n :: r => if mx <? n then None else dec_seq a (length r) n r
              end)
    (fun xs => Forall (wt a) xs /\ lenN xs <= mx).

(** ** The widths of the runtime's number types: balance, block number, asset id (bytes) *)
Record widths := mkWidths { w_bal : nat; w_blk : nat; w_aid : nat }.
(** u128, u32 and u32, as in the mock runtimes and in production *)
Definition widths0 : widths := mkWidths 16 4 4.

(** ** Types of the primitives *)
Definition c_acct : codec acct := c_arr 32.
Definition c_hash : codec bytes := c_arr 32.
(** primitives/teerex/src/lib.rs:31-36 *)
Definition c_build_mode : codec build_mode :=
  c_case 0 c_unit (fun _ => MDebug) (fun x => match x with MDebug => Some tt | _ => None end)
 (c_case 1 c_unit (fun _ => MProduction) (fun x => match x with MProduction => Some tt | _ => None end) c_void).
(** primitives/teerex/src/lib.rs:38-43 *)
Definition c_att_method : codec att_method :=
  c_case 0 c_bool MSkip (fun x => match x with MSkip b => Some b | _ => None end)
 (c_case 1 c_unit (fun _ => MIas) (fun x => match x with MIas => Some tt | _ => None end)
 (c_case 2 c_bool MDcap (fun x => match x with MDcap b => Some b | _ => None end) c_void)).
(** primitives/teerex/src/lib.rs:86-94 *)
Definition c_sgx_status : codec sgx_status :=
  c_case 0 c_unit (fun _ => StInvalid) (fun x => match x with StInvalid => Some tt | _ => None end)
 (c_case 1 c_unit (fun _ => StOk) (fun x => match x with StOk => Some tt | _ => None end)
 (c_case 2 c_unit (fun _ => StGroupOutOfDate) (fun x => match x with StGroupOutOfDate => Some tt | _ => None end)
 (c_case 3 c_unit (fun _ => StGroupRevoked) (fun x => match x with StGroupRevoked => Some tt | _ => None end)
 (c_case 4 c_unit (fun _ => StConfigurationNeeded)
    (fun x => match x with StConfigurationNeeded => Some tt | _ => None end) c_void)))).
(** primitives/teerex/src/lib.rs:123-132 *)
Definition c_tcb_status : codec tcb_status :=
  c_case 0 c_unit (fun _ => TUnknown) (fun x => match x with TUnknown => Some tt | _ => None end)
 (c_case 1 c_unit (fun _ => TUpToDate) (fun x => match x with TUpToDate => Some tt | _ => None end)
 (c_case 2 c_unit (fun _ => TSWHardeningNeeded) (fun x => match x with TSWHardeningNeeded => Some tt | _ => None end)
 (c_case 3 c_unit (fun _ => TConfigurationAndSWHardeningNeeded)
    (fun x => match x with TConfigurationAndSWHardeningNeeded => Some tt | _ => None end)
 (c_case 4 c_unit (fun _ => TOutOfDate) (fun x => match x with TOutOfDate => Some tt | _ => None end)
 (c_case 5 c_unit (fun _ => TOutOfDateConfigurationNeeded)
    (fun x => match x with TOutOfDateConfigurationNeeded => Some tt | _ => None end)
 (c_case 6 c_unit (fun _ => TRevoked) (fun x => match x with TRevoked => Some tt | _ => None end) c_void)))))).
(** primitives/teerex/src/lib.rs:190-200 [SgxEnclave<Vec<u8>>] *)
Definition c_sgx_enclave : codec enclave :=
  c_iso (fun e => (en_report_data e, (en_mr_enclave e, (en_mr_signer e, (en_timestamp e, (en_url e,
                  (en_build_mode e, (en_method e, en_status e))))))))
        (fun '(a, (b, (c, (d, (e, (f, (g, h))))))) => mkEnclave a b c d e f g h)
    (c_pair (c_arr 64) (c_pair (c_arr 32) (c_pair (c_arr 32) (c_pair (c_le 8) (c_pair (c_opt c_bytes)
      (c_pair c_build_mode (c_pair c_att_method c_sgx_status))))))).
(** primitives/teerex/src/lib.rs:134-137 [MultiEnclave]: one variant *)
Definition c_enclave : codec enclave := c_case 0 c_sgx_enclave (fun e => e) Some c_void.
(** primitives/common/src/lib.rs:58-62 [AnySigner]; [MultiSigner] of sp_runtime: Ed25519 has index 0.
    SIMPLIFIED: the other two variants of [MultiSigner] have no counterpart in the model, their
    encodings are refused here. *)
Definition c_any_signer : codec any_signer :=
  c_case 0 (c_bvec 66 (c_le 1)) inl (fun x => match x with inl b => Some b | _ => None end)
 (c_case 1 (c_case 0 (c_arr 32) (fun b => b) Some c_void) inr (fun x => match x with inr b => Some b | _ => None end)
  c_void).
(** primitives/teerex/src/lib.rs:393-398 *)
Definition c_eaddr : codec eaddr := c_pair (c_pair c_hash c_acct) c_any_signer.
(** primitives/teerex/src/lib.rs:258-260, 270-284 *)
Definition c_qenclave : codec qenclave :=
  c_iso (fun q => (q_issue q, (q_next q, (q_misc q, (q_misc_mask q, (q_attr q, (q_attr_mask q,
                  (q_mrsigner q, (q_prodid q, q_tcb q)))))))))
        (fun '(a, (b, (c, (d, (e, (f, (g, (h, i)))))))) => mkQe a b c d e f g h i)
    (c_pair (c_le 8) (c_pair (c_le 8) (c_pair (c_arr 4) (c_pair (c_arr 4) (c_pair (c_arr 16) (c_pair (c_arr 16)
      (c_pair (c_arr 32) (c_pair (c_le 2) (c_vec (c_le 2)))))))))).
(** primitives/teerex/src/lib.rs:324-328 *)
Definition c_tcb_level : codec tcb_level :=
  c_iso (fun t => (tl_cpusvn t, (tl_pcesvn t, tl_status t))) (fun '(a, (b, c)) => mkTcbLevel a b c)
    (c_pair (c_arr 16) (c_pair (c_le 2) c_tcb_status)).
(** primitives/teerex/src/lib.rs:358-364 *)
Definition c_tcb_info : codec tcb_info :=
  c_iso (fun t => (ti_issue t, (ti_next t, ti_levels t))) (fun '(a, (b, c)) => mkTcbInfo a b c)
    (c_pair (c_le 8) (c_pair (c_le 8) (c_vec c_tcb_level))).
(** primitives/teerdays/src/lib.rs:6-12; the moment is u64 *)
Definition c_bond (w : widths) : codec bond :=
  c_iso (fun b => (bd_value b, (bd_last b, bd_tt b))) (fun '(a, (b, c)) => mkBond a b c)
    (c_pair (c_le (w_bal w)) (c_pair (c_le 8) (c_le (w_bal w)))).
(** teerdays/src/lib.rs:166 *)
Definition c_pending (w : widths) : codec (N * N) := c_pair (c_le 8) (c_le (w_bal w)).
(** primitives/enclave-bridge/src/lib.rs:32-38 *)
Definition c_sstat (w : widths) : codec sstat :=
  c_iso (fun x => (ss_signer x, (ss_fp x, ss_last x))) (fun '(a, (b, c)) => mkSstat a b c)
    (c_pair c_acct (c_pair c_hash (c_le (w_blk w)))).
(** primitives/enclave-bridge/src/lib.rs:41-51 *)
Definition c_scfg : codec scfg :=
  c_iso (fun x => (sc_fp x, (sc_max_instances x, (sc_authorities x, sc_maintenance x))))
        (fun '(a, (b, (c, d))) => mkScfg a b c d)
    (c_pair c_hash (c_pair (c_opt (c_le 4)) (c_pair (c_opt (c_vec c_acct)) c_bool))).
(** primitives/enclave-bridge/src/lib.rs:64-72 *)
Definition c_uscfg (w : widths) : codec uscfg :=
  c_iso (fun x => (uc_active x, (uc_pending x, uc_at x))) (fun '(a, (b, c)) => mkUscfg a b c)
    (c_pair c_scfg (c_pair (c_opt c_scfg) (c_opt (c_le (w_blk w))))).
(** primitives/sidechain/src/lib.rs:27-33 *)
Definition c_sconf : codec sconf :=
  c_iso (fun x => (sn_number x, sn_hash x)) (fun '(a, b) => mkSconf a b) (c_pair (c_le 8) c_hash).
(** primitives/claims/src/lib.rs:51-69 *)
Definition c_statement : codec statement :=
  c_case 0 c_unit (fun _ => StRegular) (fun x => match x with StRegular => Some tt | _ => None end)
 (c_case 1 c_unit (fun _ => StSaft) (fun x => match x with StSaft => Some tt | _ => None end) c_void).
(** claims/src/lib.rs:132 *)
Definition c_vesting (w : widths) : codec (N * N * N) :=
  c_pair (c_pair (c_le (w_bal w)) (c_le (w_bal w))) (c_le (w_blk w)).
(** primitives/enclave-bridge/src/lib.rs:26-30 [Request] *)
Definition c_request : codec (bytes * bytes) := c_pair c_hash c_bytes.

(** ** XCM locations (staging-xcm v4, outside /repo). Network ids, body ids and body parts are opaque
    in the model: their codecs are parameters. *)
Record xcm_codecs := mkXcmCodecs { x_net : codec N; x_body : codec N; x_part : codec N }.
Definition c_junction (x : xcm_codecs) : codec junction :=
  c_case 0 (c_compact 4) JParachain (fun j => match j with JParachain i => Some i | _ => None end)
 (c_case 1 (c_pair (c_opt (x_net x)) (c_arr 32)) (fun p => JAccountId32 p.1 p.2)
    (fun j => match j with JAccountId32 n b => Some (n, b) | _ => None end)
 (c_case 2 (c_pair (c_opt (x_net x)) (c_compact 8)) (fun p => JAccountIndex64 p.1 p.2)
    (fun j => match j with JAccountIndex64 n i => Some (n, i) | _ => None end)
 (c_case 3 (c_pair (c_opt (x_net x)) (c_arr 20)) (fun p => JAccountKey20 p.1 p.2)
    (fun j => match j with JAccountKey20 n b => Some (n, b) | _ => None end)
 (c_case 4 (c_le 1) JPalletInstance (fun j => match j with JPalletInstance i => Some i | _ => None end)
 (c_case 5 (c_compact 16) JGeneralIndex (fun j => match j with JGeneralIndex i => Some i | _ => None end)
 (c_case 6 (c_pair (c_le 1) (c_arr 32)) (fun p => JGeneralKey p.1 p.2)
    (fun j => match j with JGeneralKey l b => Some (l, b) | _ => None end)
 (c_case 7 c_unit (fun _ => JOnlyChild) (fun j => match j with JOnlyChild => Some tt | _ => None end)
 (c_case 8 (c_pair (x_body x) (x_part x)) (fun p => JPlurality p.1 p.2)
    (fun j => match j with JPlurality i p => Some (i, p) | _ => None end)
 (c_case 9 (x_net x) JGlobalConsensus (fun j => match j with JGlobalConsensus n => Some n | _ => None end)
  c_void))))))))).
(** parents, then [Here] or [X1] … [X8] *)
Definition c_location (x : xcm_codecs) : codec location :=
  c_iso (fun l => (loc_parents l, loc_interior l)) (fun '(p, i) => mkLoc p i)
    (c_pair (c_le 1) (c_count 8 (c_junction x))).

(** ** Calls: index of the call ([call_index]), then the arguments *)
(** teerdays/src/lib.rs:171-295; amounts are compact *)
Definition c_td_call (w : widths) : codec td_call :=
  c_case 0 (c_compact (w_bal w)) TdBond (fun x => match x with TdBond v => Some v | _ => None end)
 (c_case 1 (c_compact (w_bal w)) TdBondExtra (fun x => match x with TdBondExtra v => Some v | _ => None end)
 (c_case 2 (c_compact (w_bal w)) TdUnbond (fun x => match x with TdUnbond v => Some v | _ => None end)
 (c_case 3 c_acct TdUpdateOther (fun x => match x with TdUpdateOther a => Some a | _ => None end)
 (c_case 4 c_unit (fun _ => TdWithdrawUnbonded) (fun x => match x with TdWithdrawUnbonded => Some tt | _ => None end)
  c_void)))).
(** enclave-bridge/src/lib.rs:160-415 *)
Definition c_eb_call (w : widths) : codec eb_call :=
  c_case 0 c_request (fun p => EbInvoke p.1 p.2) (fun x => match x with EbInvoke a b => Some (a, b) | _ => None end)
 (c_case 1 (c_pair c_hash (c_pair c_hash (c_pair (c_le (w_blk w)) c_hash)))
    (fun '(a, (b, (n, r))) => EbConfirm a b n r)
    (fun x => match x with EbConfirm a b n r => Some (a, (b, (n, r))) | _ => None end)
 (c_case 2 (c_pair c_hash (c_pair c_bytes (c_le (w_bal w)))) (fun '(a, (b, v)) => EbShield a b v)
    (fun x => match x with EbShield a b v => Some (a, (b, v)) | _ => None end)
 (c_case 3 (c_pair c_hash (c_pair c_acct (c_pair (c_le (w_bal w)) c_hash)))
    (fun '(a, (b, (v, h))) => EbUnshield a b v h)
    (fun x => match x with EbUnshield a b v h => Some (a, (b, (v, h))) | _ => None end)
 (c_case 4 (c_pair c_hash (c_pair (c_vec c_hash) c_bytes)) (fun '(a, (t, d)) => EbPublish a t d)
    (fun x => match x with EbPublish a t d => Some (a, (t, d)) | _ => None end)
 (c_case 5 (c_pair c_hash (c_pair c_scfg (c_le (w_blk w)))) (fun '(a, (n, d)) => EbUpdateConfig a n d)
    (fun x => match x with EbUpdateConfig a n d => Some (a, (n, d)) | _ => None end)
 (c_case 6 (c_pair c_hash c_acct) (fun p => EbPurge p.1 p.2)
    (fun x => match x with EbPurge a b => Some (a, b) | _ => None end) c_void)))))).
(** sidechain/src/lib.rs:91-98 *)
Definition c_sc_call : codec sc_call :=
  c_case 0 (c_pair c_hash (c_pair (c_opt c_sconf) c_sconf)) (fun '(a, (b, c)) => ScConfirm a b c)
    (fun x => match x with ScConfirm a b c => Some (a, (b, c)) end) c_void.
(** teeracle/src/lib.rs:148-226; strings are [Vec<u8>] in the (no_std) runtime, the blob is a
    [BoundedVec] with the limit [mx]; an exchange rate is the 8 bytes of its bits *)
Definition c_to_call (mx : N) : codec to_call :=
  c_case 0 (c_pair c_bytes c_hash) (fun p => ToAdd p.1 p.2)
    (fun x => match x with ToAdd a b => Some (a, b) | _ => None end)
 (c_case 1 (c_pair c_bytes c_hash) (fun p => ToRemove p.1 p.2)
    (fun x => match x with ToRemove a b => Some (a, b) | _ => None end)
 (c_case 2 (c_pair c_bytes (c_pair c_bytes (c_bvec mx (c_le 1)))) (fun '(n, (a, b)) => ToUpdateOracle n a b)
    (fun x => match x with ToUpdateOracle n a b => Some (n, (a, b)) | _ => None end)
 (c_case 3 (c_pair c_bytes (c_pair c_bytes (c_opt (c_le 8)))) (fun '(a, (p, v)) => ToUpdateRate a p v)
    (fun x => match x with ToUpdateRate a p v => Some (a, (p, v)) | _ => None end) c_void))).
(** teerex/src/lib.rs:293-544 *)
Definition c_tx_call : codec tx_call :=
  c_case 0 (c_pair c_bytes (c_pair (c_opt c_bytes) c_att_method)) (fun '(p, (u, m)) => TxRegister p u m)
    (fun x => match x with TxRegister p u m => Some (p, (u, m)) | _ => None end)
 (c_case 1 c_acct TxUnregisterSovereign (fun x => match x with TxUnregisterSovereign a => Some a | _ => None end)
 (c_case 2 c_eaddr TxUnregisterProxied (fun x => match x with TxUnregisterProxied a => Some a | _ => None end)
 (c_case 3 (c_pair c_bytes (c_pair c_bytes c_bytes)) (fun '(a, (b, c)) => TxRegisterQe a b c)
    (fun x => match x with TxRegisterQe a b c => Some (a, (b, c)) | _ => None end)
 (c_case 4 (c_pair c_bytes (c_pair c_bytes c_bytes)) (fun '(a, (b, c)) => TxRegisterTcb a b c)
    (fun x => match x with TxRegisterTcb a b c => Some (a, (b, c)) | _ => None end)
 (c_case 5 (c_pair c_bool c_bool) (fun p => TxSetFlags p.1 p.2)
    (fun x => match x with TxSetFlags a b => Some (a, b) | _ => None end) c_void))))).
(** claims/src/lib.rs:213-365 *)
Definition c_cl_call (w : widths) : codec cl_call :=
  c_case 0 (c_pair c_acct (c_arr 65)) (fun p => ClClaim p.1 p.2)
    (fun x => match x with ClClaim a b => Some (a, b) | _ => None end)
 (c_case 1 (c_pair (c_arr 20) (c_pair (c_le (w_bal w)) (c_pair (c_opt (c_vesting w)) (c_opt c_statement))))
    (fun '(a, (v, (vs, st))) => ClMint a v vs st)
    (fun x => match x with ClMint a v vs st => Some (a, (v, (vs, st))) | _ => None end)
 (c_case 2 (c_pair c_acct (c_pair (c_arr 65) c_bytes)) (fun '(a, (b, c)) => ClClaimAttest a b c)
    (fun x => match x with ClClaimAttest a b c => Some (a, (b, c)) | _ => None end)
 (c_case 3 c_bytes ClAttest (fun x => match x with ClAttest a => Some a | _ => None end)
 (c_case 4 (c_pair (c_arr 20) (c_pair (c_arr 20) (c_opt c_acct))) (fun '(a, (b, c)) => ClMove a b c)
    (fun x => match x with ClMove a b c => Some (a, (b, c)) | _ => None end) c_void)))).
(** asset-registry/src/lib.rs:97-132 *)
Definition c_ar_call (w : widths) (x : xcm_codecs) : codec ar_call :=
  c_case 0 (c_pair (c_le (w_aid w)) (c_location x)) (fun p => ArRegister p.1 p.2)
    (fun k => match k with ArRegister a b => Some (a, b) | _ => None end)
 (c_case 1 (c_le (w_aid w)) ArUnregister (fun k => match k with ArUnregister a => Some a | _ => None end) c_void).
(** xcm-transactor/src/lib.rs:125-133; [Weight] (sp_weights): two compact u64 *)
Definition c_xt_call : codec xt_call :=
  c_case 0 (c_pair (c_le 4) (c_pair (c_le 4) (c_pair (c_pair (c_compact 8) (c_compact 8)) (c_le 16))))
    (fun '(a, (b, (wg, f))) => XtSwap a b wg f)
    (fun x => match x with XtSwap a b wg f => Some (a, (b, (wg, f))) end) c_void.
(** primitives/xcm-transactor/src/lib.rs:56-83 [RelayRuntimeCall]: pallet index 70, call index 3 *)
Definition c_relay_call : codec (N * N) :=
  c_case 70 (c_case 3 (c_pair (c_le 4) (c_le 4)) (fun p => p) Some c_void) (fun p => p) Some c_void.
