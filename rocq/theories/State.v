(** * State: data types, runtime storage, configuration.

    One record [rt] holds the storage of all pallets of /repo plus the parts of the
    surrounding runtime they rely on (clock, block number, balances, locks, vesting). *)
From Verif Require Import Base.

(** ** Origins: [frame_system::RawOrigin] *)
Inductive origin := Root | Signed (a : acct) | NoneO.

(** ** teerex-primitives *)
(** primitives/teerex/src/lib.rs:31-36 [SgxBuildMode] *)
Inductive build_mode := MDebug | MProduction.
(** primitives/teerex/src/lib.rs:38-43 [SgxAttestationMethod] *)
Inductive att_method := MSkip (proxied : bool) | MIas | MDcap (proxied : bool).
(** primitives/teerex/src/lib.rs:86-94 [SgxStatus] *)
Inductive sgx_status := StInvalid | StOk | StGroupOutOfDate | StGroupRevoked | StConfigurationNeeded.
(** primitives/teerex/src/lib.rs:123-132 [TcbStatus] *)
Inductive tcb_status := TUnknown | TUpToDate | TSWHardeningNeeded | TConfigurationAndSWHardeningNeeded
  | TOutOfDate | TOutOfDateConfigurationNeeded | TRevoked.

Global Instance build_mode_eqdec : EqDecision build_mode. Proof. solve_decision. Defined.
Global Instance att_method_eqdec : EqDecision att_method. Proof. solve_decision. Defined.
Global Instance sgx_status_eqdec : EqDecision sgx_status. Proof. solve_decision. Defined.
Global Instance tcb_status_eqdec : EqDecision tcb_status. Proof. solve_decision. Defined.

(** primitives/teerex/src/lib.rs:190-200 [SgxEnclave]; [MultiEnclave] (134-137) has this as its
    only variant and is identified with it. *)
Record enclave := mkEnclave {
  en_report_data : bytes;
  en_mr_enclave : bytes;
  en_mr_signer : bytes;
  en_timestamp : N;
  en_url : option bytes;
  en_build_mode : build_mode;
  en_method : att_method;
  en_status : sgx_status }.

(** primitives/common/src/lib.rs:58-62 [AnySigner]; of [MultiSigner] only the ed25519 variant is
    ever constructed (primitives/teerex/src/lib.rs:161). [inl] = Opaque, [inr] = Known ed25519. *)
Definition any_signer : Type := bytes + bytes.
(** primitives/teerex/src/lib.rs:393-398 [EnclaveInstanceAddress]: (fingerprint, registrar, signer) *)
Definition eaddr : Type := bytes * acct * any_signer.

(** primitives/teerex/src/lib.rs:270-284 [SgxQuotingEnclave]; [q_tcb] lists the ISVSVNs of [QeTcb] (258-260). *)
Record qenclave := mkQe {
  q_issue : N; q_next : N;
  q_misc : bytes; q_misc_mask : bytes;
  q_attr : bytes; q_attr_mask : bytes;
  q_mrsigner : bytes; q_prodid : N; q_tcb : list N }.

(** primitives/teerex/src/lib.rs:324-328 [TcbVersionStatus] *)
Record tcb_level := mkTcbLevel { tl_cpusvn : bytes; tl_pcesvn : N; tl_status : tcb_status }.
(** primitives/teerex/src/lib.rs:358-364 [SgxTcbInfoOnChain] *)
Record tcb_info := mkTcbInfo { ti_issue : N; ti_next : N; ti_levels : list tcb_level }.

(** teerex/src/lib.rs:224-266 storage of pallet teerex *)
Record tx_store := mkTx {
  tx_sov : gmap acct enclave;
  tx_prox : gmap eaddr enclave;
  tx_qe : qenclave;
  tx_tcb : gmap bytes tcb_info;
  tx_allow_debug : bool;
  tx_allow_skip : bool }.

(** ** teerdays *)
(** primitives/teerdays/src/lib.rs:7-12 [TeerDayBond] *)
Record bond := mkBond { bd_value : N; bd_last : N; bd_tt : N }.
(** teerdays/src/lib.rs:155-166 storage; a pending unlock is (due, amount) *)
Record td_store := mkTd { td_bonds : gmap acct bond; td_pending : gmap acct (N * N) }.

(** ** enclave-bridge *)
(** primitives/enclave-bridge/src/lib.rs:33-38 [ShardSignerStatus] *)
Record sstat := mkSstat { ss_signer : acct; ss_fp : bytes; ss_last : N }.
(** primitives/enclave-bridge/src/lib.rs:41-51 [ShardConfig] *)
Record scfg := mkScfg {
  sc_fp : bytes; sc_max_instances : option N; sc_authorities : option (list acct); sc_maintenance : bool }.
(** primitives/enclave-bridge/src/lib.rs:64-72 [UpgradableShardConfig] *)
Record uscfg := mkUscfg { uc_active : scfg; uc_pending : option scfg; uc_at : option N }.
(** enclave-bridge/src/lib.rs:129-151 storage *)
Record eb_store := mkEb {
  eb_status : gmap bytes (list sstat);
  eb_config : gmap bytes uscfg;
  eb_exec : gmap bytes N }.

(** ** sidechain *)
(** primitives/sidechain/src/lib.rs:27-33 [SidechainBlockConfirmation] *)
Record sconf := mkSconf { sn_number : N; sn_hash : bytes }.

(** ** teeracle *)
(** teeracle/src/lib.rs:70-104 storage. Rates are keyed by (trading pair, source), blobs by
    (name, source). [ExchangeRate] is the 64-bit fixed point [U32F32], modelled by its bits. *)
Record to_store := mkTo {
  to_rates : gmap (bytes * bytes) N;
  to_data : gmap (bytes * bytes) bytes;
  to_wl : gmap bytes (list bytes) }.

(** ** claims *)
(** primitives/claims/src/lib.rs:64-70 [StatementKind] *)
Inductive statement := StRegular | StSaft.
Global Instance statement_eqdec : EqDecision statement. Proof. solve_decision. Defined.
(** claims/src/lib.rs:117-140 storage; an Ethereum address is its 20 bytes; a vesting entry is
    (locked, per block, start block). *)
Record cl_store := mkCl {
  cl_claims : gmap bytes N;
  cl_total : N;
  cl_vesting : gmap bytes (N * N * N);
  cl_signing : gmap bytes statement;
  cl_preclaims : gmap acct bytes }.

(** ** XCM locations (staging-xcm v4, outside /repo); network ids and body ids are opaque numbers *)
Inductive junction :=
| JParachain (id : N)
| JAccountId32 (network : option N) (id : bytes)
| JAccountIndex64 (network : option N) (index : N)
| JAccountKey20 (network : option N) (key : bytes)
| JPalletInstance (i : N)
| JGeneralIndex (i : N)
| JGeneralKey (len : N) (data : bytes)
| JOnlyChild
| JPlurality (id part : N)
| JGlobalConsensus (network : N).
Record location := mkLoc { loc_parents : N; loc_interior : list junction }.

Global Instance junction_eqdec : EqDecision junction. Proof. solve_decision. Defined.
Global Instance location_eqdec : EqDecision location. Proof. solve_decision. Defined.

Definition junction_enc (j : junction) : N * option N * N * bytes :=
  match j with
  | JParachain i => (0, None, i, [])
  | JAccountId32 n b => (1, n, 0, b)
  | JAccountIndex64 n i => (2, n, i, [])
  | JAccountKey20 n b => (3, n, 0, b)
  | JPalletInstance i => (4, None, i, [])
  | JGeneralIndex i => (5, None, i, [])
  | JGeneralKey l b => (6, None, l, b)
  | JOnlyChild => (7, None, 0, [])
  | JPlurality i p => (8, None, i, [p])
  | JGlobalConsensus n => (9, None, n, [])
  end.
Definition junction_dec (x : N * option N * N * bytes) : junction :=
  match x with
  | (0, _, i, _) => JParachain i
  | (1, n, _, b) => JAccountId32 n b
  | (2, n, i, _) => JAccountIndex64 n i
  | (3, n, _, b) => JAccountKey20 n b
  | (4, _, i, _) => JPalletInstance i
  | (5, _, i, _) => JGeneralIndex i
  | (6, _, l, b) => JGeneralKey l b
  | (8, _, i, [p]) => JPlurality i p
  | (9, _, n, _) => JGlobalConsensus n
  | _ => JOnlyChild
  end.
Global Instance junction_countable : Countable junction.
Proof. apply (inj_countable' junction_enc junction_dec). intros []; reflexivity. Defined.
Global Instance location_countable : Countable location.
Proof.
  apply (inj_countable' (fun l => (loc_parents l, loc_interior l)) (fun p => mkLoc p.1 p.2)).
  intros []; reflexivity.
Defined.

(** ** asset-registry *)
(** asset-registry/src/lib.rs:69-73 storage; [ar_assets] (id -> minimum balance) stands for the
    assets existing in pallet-assets (outside /repo). *)
Record ar_store := mkAr {
  ar_loc : gmap N location;
  ar_id : gmap location N;
  ar_assets : gmap N N }.

(** ** xcm-transactor: XCM instructions it uses (staging-xcm v4, outside /repo) *)
Inductive xcm_inst :=
| XWithdrawAsset (asset : location) (amount : N)
| XBuyExecution (asset : location) (amount : N)      (* weight_limit: Unlimited *)
| XTransact (weight : N * N) (call : bytes)          (* origin_kind: Native *)
| XRefundSurplus
| XDepositAsset (beneficiary : location).            (* assets: All *)
Inductive send_error := SENotApplicable | SETransport | SEUnroutable | SEDestinationUnsupported
  | SEFees | SEOther.

(** ** Environment: balances, locks, vesting *)
(** teerdays/src/lib.rs:68 [TEERDAYS_ID]; pallet-vesting's id; any other lock *)
Inductive lock_id := LTeerdays | LVesting | LOther (n : N).
Global Instance lock_id_eqdec : EqDecision lock_id. Proof. solve_decision. Defined.
(** Simplified storage of pallet-balances 37: free balance and the vector of named locks.
    Not modelled: reserves, holds, freezes, reference counters, total issuance. *)
Record bal_store := mkBal {
  b_free : gmap acct N;
  b_locks : gmap acct (list (lock_id * N)) }.
(** pallet-vesting 36: schedules (locked, per block, start block) of an account *)
Definition vest_store : Type := gmap acct (list (N * N * N)).

(** ** Events *)
Inductive event :=
(* pallet-balances *)
| EvTransfer (src dst : acct) (v : N)
| EvDust (a : acct) (v : N)
| EvDeposit (a : acct) (v : N)
| EvWithdraw (a : acct) (v : N)
(* teerdays/src/lib.rs:126-135 *)
| EvBonded (a : acct) (amount : N)
| EvUnbonded (a : acct) (amount burned : N)
| EvTokenTimeUpdated (a : acct) (b : bond)
| EvWithdrawn (a : acct) (amount : N)
(* enclave-bridge/src/lib.rs:77-111 *)
| EvIndirectInvocationRegistered (shard : bytes)
| EvShieldFunds (shard benef : bytes) (amount : N)
| EvUnshieldedFunds (shard : bytes) (benef : acct) (amount : N)
| EvProcessedParentchainBlock (shard hash root : bytes) (number : N)
| EvPublishedHash (topics : list bytes) (fp hash data : bytes)
| EvShardConfigUpdated (shard : bytes)
| EvPurgedEnclave (shard : bytes) (subject : acct)
(* sidechain/src/lib.rs:57-67 *)
| EvFinalizedSidechainBlock (shard : bytes) (number : N) (hash : bytes) (validateer : acct)
(* teeracle/src/lib.rs:106-123 *)
| EvExchangeRateUpdated (source pair : bytes) (rate : N)
| EvExchangeRateDeleted (source pair : bytes)
| EvOracleUpdated (name source : bytes)
| EvAddedToWhitelist (source fp : bytes)
| EvRemovedFromWhitelist (source fp : bytes)
(* teerex/src/lib.rs:77-97 *)
| EvAddedSgxEnclave (by_ : acct) (url : option bytes) (st : sgx_status) (m : att_method)
| EvRemovedSovereignEnclave (a : acct)
| EvRemovedProxiedEnclave (a : eaddr)
| EvSgxTcbInfoRegistered (fmspc : bytes) (i : tcb_info)
| EvSgxQuotingEnclaveRegistered (q : qenclave)
| EvUpdatedSecurityFlags (skip debug : bool)
(* claims/src/lib.rs:93-98 *)
| EvClaimed (who : acct) (eth : bytes) (v : N)
(* asset-registry/src/lib.rs:75-80 *)
| EvReserveAssetRegistered (id : N) (l : location)
| EvReserveAssetUnregistered (id : N) (l : location)
(* xcm-transactor/src/lib.rs:66-69 *)
| EvSentXcm (hash : bytes)
| EvSwapTransactSent (a b : N).

(** ** Errors *)
(** teerex/sgx-verify/src/lib.rs:67-108 *)
Inductive sgx_error :=
| SCaVerificationFailed | SCertificateChainIsInvalid | SCertificateChainIsTooShort
| SCpuSvnDecodingError | SCpuSvnLengthMismatch | SCpuSvnOidIsMissing
| SDcapKeyTypeMismatch | SDcapQuoteDecodingError | SDcapQuoteIsTooLong | SDcapQuoteVersionMismatch
| SDerEncodingError | SEnclaveIdentityDecodingError | SEnclaveIdentitySignatureIsInvalid
| SFmspcDecodingError | SFmspcLengthMismatch | SFmspcOidIsMissing
| SIntelExtensionAmbiguity | SIntelExtensionCertificateDecodingError
| SIsvEnclaveReportSignatureIsInvalid | SKeyLengthIsInvalid | SLeafCertificateParsingError
| SNetscapeDecodingError | SNetscapeDerError
| SPceSvnDecodingError | SPceSvnLengthMismatch | SPceSvnOidIsMissing
| SPckCertFormatMismatch | SPublicKeyIsInvalid | SQeHasRejectedEnclave | SQeReportHashMismatch
| SQuoteBodyDecodingError | SQuoteBodyIsInvalid | SQuoteBodyMissing | SQuoteStatusMissing
| SRsaSignatureIsInvalid | SSgxReportParsingError | STcbInfoIsInvalid
| STimestampIsInvalid | STimestampIsMissing.

Inductive error :=
| BadOrigin
(* pallet-balances / Token errors *)
| FundsUnavailable | Frozen | BelowMinimum | ArithmeticOverflow
(* teerdays/src/lib.rs:138-153 *)
| AlreadyBonded | InsufficientBond | InsufficientUnbond | NoBond | PendingUnlock | NotUnlocking
(* enclave-bridge/src/lib.rs:114-127 *)
| WrongFingerprintForShard | TooManyTopics | DataTooLong | TooManyEnclaves | ShardNotFound
(* sidechain/src/lib.rs:69-81 *)
| FinalizationCandidateIsOutdated | AncestorNumberMismatch | AncestorHashMismatch | AncestorMissing
(* teeracle/src/lib.rs:125-141 *)
| FingerprintWhitelistOverflow | FingerprintNotWhitelisted | FingerprintAlreadyWhitelisted
| TradingPairStringTooLong | OracleDataNameStringTooLong | DataSourceStringTooLong | OracleBlobTooBig
(* teerex/src/lib.rs:99-172; the mapped errors (174-222) are [TxSgx] *)
| SenderIsNotAttestedEnclave | RemoteAttestationIsTooOld | SgxModeIsNotAllowed | EnclaveIsNotRegistered
| EnclaveUrlIsTooLong | RaProofIsTooLong | CollateralIsInvalid | UnregisterActiveEnclaveIsNotAllowed
| SkippingAttestationIsNotAllowed | MissingTcbInfoForFmspc | TcbInfoIsOutdated
| TimestampUnderflow | TxSgx (e : sgx_error)
(* claims/src/lib.rs:100-115 *)
| InvalidEthereumSignature | SignerHasNoClaim | SenderHasNoClaim | PotUnderflow | InvalidStatement
| VestedBalanceExists
(* asset-registry/src/lib.rs:82-92 *)
| AssetAlreadyRegistered | AssetDoesNotExist | AssetIsNotRegistered | WrongLocation
(* xcm-transactor/src/lib.rs:71-92 *)
| InvalidSwapIds | SwapIdsEqual | XUnreachable | XTransport | XUnroutable | XDestinationUnsupported
| XFeesNotMet | XXcmSendError.

(** ** The runtime state *)
Record rt := mkRt {
  rt_now : N;                 (* pallet_timestamp, milliseconds *)
  rt_blk : N;                 (* frame_system block number *)
  rt_bal : bal_store;
  rt_vest : vest_store;
  rt_td : td_store;
  rt_eb : eb_store;
  rt_sc : gmap bytes sconf;   (* sidechain/src/lib.rs:83-86 *)
  rt_to : to_store;
  rt_tx : tx_store;
  rt_cl : cl_store;
  rt_ar : ar_store;
  rt_out : list (list xcm_inst);   (* XCM messages handed to the parent, newest first *)
  rt_ev : list event }.            (* event log, newest first; never truncated *)

Definition set_clock (now blk : N) (s : rt) : rt :=
  mkRt now blk (rt_bal s) (rt_vest s) (rt_td s) (rt_eb s) (rt_sc s) (rt_to s) (rt_tx s) (rt_cl s) (rt_ar s) (rt_out s) (rt_ev s).
Definition set_bal (x : bal_store) (s : rt) : rt :=
  mkRt (rt_now s) (rt_blk s) x (rt_vest s) (rt_td s) (rt_eb s) (rt_sc s) (rt_to s) (rt_tx s) (rt_cl s) (rt_ar s) (rt_out s) (rt_ev s).
Definition set_vest (x : vest_store) (s : rt) : rt :=
  mkRt (rt_now s) (rt_blk s) (rt_bal s) x (rt_td s) (rt_eb s) (rt_sc s) (rt_to s) (rt_tx s) (rt_cl s) (rt_ar s) (rt_out s) (rt_ev s).
Definition set_td (x : td_store) (s : rt) : rt :=
  mkRt (rt_now s) (rt_blk s) (rt_bal s) (rt_vest s) x (rt_eb s) (rt_sc s) (rt_to s) (rt_tx s) (rt_cl s) (rt_ar s) (rt_out s) (rt_ev s).
Definition set_eb (x : eb_store) (s : rt) : rt :=
  mkRt (rt_now s) (rt_blk s) (rt_bal s) (rt_vest s) (rt_td s) x (rt_sc s) (rt_to s) (rt_tx s) (rt_cl s) (rt_ar s) (rt_out s) (rt_ev s).
Definition set_sc (x : gmap bytes sconf) (s : rt) : rt :=
  mkRt (rt_now s) (rt_blk s) (rt_bal s) (rt_vest s) (rt_td s) (rt_eb s) x (rt_to s) (rt_tx s) (rt_cl s) (rt_ar s) (rt_out s) (rt_ev s).
Definition set_to (x : to_store) (s : rt) : rt :=
  mkRt (rt_now s) (rt_blk s) (rt_bal s) (rt_vest s) (rt_td s) (rt_eb s) (rt_sc s) x (rt_tx s) (rt_cl s) (rt_ar s) (rt_out s) (rt_ev s).
Definition set_tx (x : tx_store) (s : rt) : rt :=
  mkRt (rt_now s) (rt_blk s) (rt_bal s) (rt_vest s) (rt_td s) (rt_eb s) (rt_sc s) (rt_to s) x (rt_cl s) (rt_ar s) (rt_out s) (rt_ev s).
Definition set_cl (x : cl_store) (s : rt) : rt :=
  mkRt (rt_now s) (rt_blk s) (rt_bal s) (rt_vest s) (rt_td s) (rt_eb s) (rt_sc s) (rt_to s) (rt_tx s) x (rt_ar s) (rt_out s) (rt_ev s).
Definition set_ar (x : ar_store) (s : rt) : rt :=
  mkRt (rt_now s) (rt_blk s) (rt_bal s) (rt_vest s) (rt_td s) (rt_eb s) (rt_sc s) (rt_to s) (rt_tx s) (rt_cl s) x (rt_out s) (rt_ev s).
Definition set_out (x : list (list xcm_inst)) (s : rt) : rt :=
  mkRt (rt_now s) (rt_blk s) (rt_bal s) (rt_vest s) (rt_td s) (rt_eb s) (rt_sc s) (rt_to s) (rt_tx s) (rt_cl s) (rt_ar s) x (rt_ev s).
(** [deposit_event] *)
Definition add_ev (e : event) (s : rt) : rt :=
  mkRt (rt_now s) (rt_blk s) (rt_bal s) (rt_vest s) (rt_td s) (rt_eb s) (rt_sc s) (rt_to s) (rt_tx s) (rt_cl s) (rt_ar s) (rt_out s) (e :: rt_ev s).

(** Monad of the runtime *)
Notation RM := (M rt error).
Definition deposit_event (e : event) : RM unit := modify (add_ev e).

(** [ensure_signed], [ensure_root], [ensure_none], [ensure_signed_or_root] of frame_system *)
Definition ensure_signed (o : origin) : RM acct :=
  match o with Signed a => ret a | _ => fail BadOrigin end.
Definition ensure_root (o : origin) : RM unit :=
  match o with Root => ret tt | _ => fail BadOrigin end.
Definition ensure_none (o : origin) : RM unit :=
  match o with NoneO => ret tt | _ => fail BadOrigin end.
Definition ensure_signed_or_root (o : origin) : RM (option acct) :=
  match o with Signed a => ret (Some a) | Root => ret None | NoneO => fail BadOrigin end.

(** ** Oracles for the libraries used by sgx-verify. Arbitrary functions: every theorem holds for
    all of them. *)

(** teerex/sgx-verify/src/collateral.rs:88-113 [EnclaveIdentity] as produced by serde_json; dates in
    milliseconds since the epoch, possibly negative; levels as (isvsvn, status). *)
Record enclave_identity := mkIdentity {
  ei_id : bytes; ei_version : N; ei_issue : Z; ei_next : Z;
  ei_misc : bytes; ei_misc_mask : bytes; ei_attr : bytes; ei_attr_mask : bytes;
  ei_mrsigner : bytes; ei_prodid : N; ei_levels : list (N * tcb_status) }.
(** teerex/sgx-verify/src/collateral.rs:165-179 [TcbInfo] *)
Record tcb_info_json := mkTcbJson {
  tj_id : bytes; tj_version : N; tj_issue : Z; tj_next : Z; tj_fmspc : bytes;
  tj_levels : list (bytes * N * tcb_status) }.   (* 16 component svns, pcesvn, status *)
(** The three fields of an IAS report read by [parse_report] (sgx-verify/src/lib.rs:716-747);
    [None] if missing or not a string *)
Record ias_json := mkIas { ij_timestamp : option bytes; ij_status : option bytes; ij_body : option bytes }.

Record sgx_oracles := mkSgx {
  or_sha256 : bytes -> bytes;                               (* ring SHA-256 *)
  or_b64 : bytes -> option bytes;                           (* base64::decode *)
  or_ee_parse : bytes -> bool;                              (* webpki::EndEntityCert::try_from *)
  or_chain : bytes -> list bytes -> N -> bool;              (* path to DCAP root: leaf, intermediates, unix seconds *)
  or_ias_ca : bytes -> N -> bool;                           (* path to IAS root: cert, unix seconds *)
  or_ecdsa_cert : bytes -> bytes -> bytes -> bool;          (* ECDSA_P256_SHA256 under a cert's key: cert, data, DER signature *)
  or_rsa_cert : bytes -> bytes -> bytes -> bool;            (* RSA_PKCS1 under a cert's key: cert, data, signature *)
  or_p256_fixed : bytes -> bytes -> bytes -> bool;          (* ring ECDSA_P256_SHA256_FIXED: key, data, signature *)
  or_x509_ext : bytes -> option (list (bytes * bytes));     (* x509_cert parser: extensions (oid bytes, value) *)
  or_json_identity : bytes -> option enclave_identity;
  or_json_tcb : bytes -> option tcb_info_json;
  or_json_ias : bytes -> option ias_json;
  or_datetime : bytes -> option Z }.                        (* chrono parse, unix seconds *)

(** ** Runtime configuration: the [Config] traits of the pallets *)
Record cfg := mkCfg {
  c_ovf : bool;              (* arithmetic overflow checks compiled in *)
  c_ed : N;                  (* existential deposit *)
  c_bal_max : N;             (* largest Balance *)
  c_blk_max : N;             (* largest BlockNumber *)
  c_unlock : N;              (* teerdays UnlockPeriod *)
  c_day : N;                 (* teerex MomentsPerDay *)
  c_renewal : N;             (* teerex MaxAttestationRenewalPeriod *)
  c_max_wl : N;              (* teeracle MaxWhitelistedReleases *)
  c_max_blob : N;            (* teeracle MaxOracleBlobLen *)
  c_prefix : bytes;          (* claims Prefix *)
  c_move_origin : origin -> bool;   (* claims MoveClaimOrigin *)
  c_asset_origin : origin -> bool;  (* asset-registry ReserveAssetModifierOrigin *)
  c_swap_origin : origin -> bool;   (* xcm-transactor SwapOrigin *)
  c_shell_id : N; c_integritee_id : N; c_own_para : N;
  c_keccak : bytes -> bytes;                        (* keccak_256 *)
  c_secp : bytes -> bytes -> option bytes;          (* secp256k1_ecdsa_recover: signature, message hash *)
  c_router : list xcm_inst -> send_error + bytes;   (* XcmSender: error or message hash *)
  c_sgx : sgx_oracles }.
