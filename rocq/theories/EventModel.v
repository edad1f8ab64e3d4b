(** * Events as they are written to the chain: the event types of the pallets and their encodings *)
From Verif Require Import Base State ScaleModel StorageModel.

(** The hidden variant [__Ignore], which FRAME adds to a generic event type, is skipped by the codec: the
    variants have the indices 0, 1, … in the order of their declaration. *)
(** teerdays/src/lib.rs:126-135 *)
Inductive td_event :=
| WBonded (account : acct) (amount : N)
| WUnbonded (account : acct) (amount burned_tokentime : N)
| WTokenTimeUpdated (account : acct) (b : bond)
| WWithdrawn (account : acct) (amount : N).
(** enclave-bridge/src/lib.rs:77-111 *)
Inductive eb_event :=
| WIndirectInvocationRegistered (shard : bytes)
| WShieldFunds (shard encrypted_beneficiary : bytes) (amount : N)
| WUnshieldedFunds (shard : bytes) (beneficiary : acct) (amount : N)
| WProcessedParentchainBlock (shard block_hash trusted_calls_merkle_root : bytes) (block_number : N)
| WPublishedHash (enclave_fingerprint hash data : bytes)
| WShardConfigUpdated (shard : bytes)
| WPurgedEnclaveFromShardConfig (shard : bytes) (subject : acct).
(** sidechain/src/lib.rs:59-67 *)
Inductive sc_event := WFinalizedSidechainBlock (shard : bytes) (block_number : N) (block_header_hash : bytes) (validateer : acct).
(** teeracle/src/lib.rs:108-123 *)
Inductive to_event :=
| WExchangeRateUpdated (data_source trading_pair : bytes) (exchange_rate : N)
| WExchangeRateDeleted (data_source trading_pair : bytes)
| WOracleUpdated (oracle_data_name data_source : bytes)
| WAddedToWhitelist (data_source enclave_fingerprint : bytes)
| WRemovedFromWhitelist (data_source enclave_fingerprint : bytes).
(** teerex/src/lib.rs:79-97 *)
Inductive tx_event :=
| WAddedSgxEnclave (registered_by : acct) (worker_url : option bytes) (tcb_status : option sgx_status) (attestation_method : att_method)
| WRemovedSovereignEnclave (a : acct)
| WRemovedProxiedEnclave (a : eaddr)
| WSgxTcbInfoRegistered (fmspc : bytes) (on_chain_info : tcb_info)
| WSgxQuotingEnclaveRegistered (quoting_enclave : qenclave)
| WUpdatedSecurityFlags (allow_skipping_attestation sgx_allow_debug_mode : bool).
(** claims/src/lib.rs:95-98 *)
Inductive cl_event := WClaimed (who : acct) (ethereum_address : bytes) (amount : N).
(** asset-registry/src/lib.rs:77-80 *)
Inductive ar_event :=
| WReserveAssetRegistered (asset_id : N) (asset_location : location)
| WReserveAssetUnregistered (asset_id : N) (asset_location : location).
(** xcm-transactor/src/lib.rs:66-69 *)
Inductive xt_event := WSentXcm (hash : bytes) | WSwapTransactSent (para_a para_b : N).
(** [RuntimeEvent] of the runtime, as far as these pallets *)
Inductive wire_event :=
| WTd (e : td_event) | WEb (e : eb_event) | WSc (e : sc_event) | WTo (e : to_event)
| WTx (e : tx_event) | WCl (e : cl_event) | WAr (e : ar_event) | WXt (e : xt_event).

(** The event a log entry of the model stands for; none for those of pallet-balances. The status of an
    enclave is deposited as [Some] (teerex/src/lib.rs:439-444); the topics of [PublishedHash] are not part
    of the event but of its record (enclave-bridge/src/lib.rs:300-310, 504-509). *)
Definition wire (e : event) : option wire_event :=
  match e with
  | EvTransfer _ _ _ | EvDust _ _ | EvDeposit _ _ | EvWithdraw _ _ => None
  | EvBonded a v => Some (WTd (WBonded a v))
  | EvUnbonded a v t => Some (WTd (WUnbonded a v t))
  | EvTokenTimeUpdated a b => Some (WTd (WTokenTimeUpdated a b))
  | EvWithdrawn a v => Some (WTd (WWithdrawn a v))
  | EvIndirectInvocationRegistered sh => Some (WEb (WIndirectInvocationRegistered sh))
  | EvShieldFunds sh b v => Some (WEb (WShieldFunds sh b v))
  | EvUnshieldedFunds sh b v => Some (WEb (WUnshieldedFunds sh b v))
  | EvProcessedParentchainBlock sh h r n => Some (WEb (WProcessedParentchainBlock sh h r n))
  | EvPublishedHash _ f h d => Some (WEb (WPublishedHash f h d))
  | EvShardConfigUpdated sh => Some (WEb (WShardConfigUpdated sh))
  | EvPurgedEnclave sh a => Some (WEb (WPurgedEnclaveFromShardConfig sh a))
  | EvFinalizedSidechainBlock sh n h a => Some (WSc (WFinalizedSidechainBlock sh n h a))
  | EvExchangeRateUpdated s p r => Some (WTo (WExchangeRateUpdated s p r))
  | EvExchangeRateDeleted s p => Some (WTo (WExchangeRateDeleted s p))
  | EvOracleUpdated n s => Some (WTo (WOracleUpdated n s))
  | EvAddedToWhitelist s f => Some (WTo (WAddedToWhitelist s f))
  | EvRemovedFromWhitelist s f => Some (WTo (WRemovedFromWhitelist s f))
  | EvAddedSgxEnclave a u st m => Some (WTx (WAddedSgxEnclave a u (Some st) m))
  | EvRemovedSovereignEnclave a => Some (WTx (WRemovedSovereignEnclave a))
  | EvRemovedProxiedEnclave a => Some (WTx (WRemovedProxiedEnclave a))
  | EvSgxTcbInfoRegistered f i => Some (WTx (WSgxTcbInfoRegistered f i))
  | EvSgxQuotingEnclaveRegistered q => Some (WTx (WSgxQuotingEnclaveRegistered q))
  | EvUpdatedSecurityFlags s d => Some (WTx (WUpdatedSecurityFlags s d))
  | EvClaimed a e v => Some (WCl (WClaimed a e v))
  | EvReserveAssetRegistered i l => Some (WAr (WReserveAssetRegistered i l))
  | EvReserveAssetUnregistered i l => Some (WAr (WReserveAssetUnregistered i l))
  | EvSentXcm h => Some (WXt (WSentXcm h))
  | EvSwapTransactSent a b => Some (WXt (WSwapTransactSent a b))
  end.
(** the topics of the record; [deposit_event] gives none *)
Definition event_topics (e : event) : list bytes := match e with EvPublishedHash t _ _ _ => t | _ => [] end.

(** ** Encodings: index of the variant, then the fields *)
Definition c_td_event (w : widths) : codec td_event :=
  c_case 0 (c_pair c_acct (c_le (w_bal w))) (fun p => WBonded p.1 p.2)
    (fun x => match x with WBonded a v => Some (a, v) | _ => None end)
 (c_case 1 (c_pair c_acct (c_pair (c_le (w_bal w)) (c_le (w_bal w)))) (fun '(a, (v, t)) => WUnbonded a v t)
    (fun x => match x with WUnbonded a v t => Some (a, (v, t)) | _ => None end)
 (c_case 2 (c_pair c_acct (c_bond w)) (fun p => WTokenTimeUpdated p.1 p.2)
    (fun x => match x with WTokenTimeUpdated a b => Some (a, b) | _ => None end)
 (c_case 3 (c_pair c_acct (c_le (w_bal w))) (fun p => WWithdrawn p.1 p.2)
    (fun x => match x with WWithdrawn a v => Some (a, v) | _ => None end) c_void))).
Definition c_eb_event (w : widths) : codec eb_event :=
  c_case 0 c_hash WIndirectInvocationRegistered
    (fun x => match x with WIndirectInvocationRegistered sh => Some sh | _ => None end)
 (c_case 1 (c_pair c_hash (c_pair c_bytes (c_le (w_bal w)))) (fun '(a, (b, v)) => WShieldFunds a b v)
    (fun x => match x with WShieldFunds a b v => Some (a, (b, v)) | _ => None end)
 (c_case 2 (c_pair c_hash (c_pair c_acct (c_le (w_bal w)))) (fun '(a, (b, v)) => WUnshieldedFunds a b v)
    (fun x => match x with WUnshieldedFunds a b v => Some (a, (b, v)) | _ => None end)
 (c_case 3 (c_pair c_hash (c_pair c_hash (c_pair c_hash (c_le (w_blk w)))))
    (fun '(a, (b, (r, n))) => WProcessedParentchainBlock a b r n)
    (fun x => match x with WProcessedParentchainBlock a b r n => Some (a, (b, (r, n))) | _ => None end)
 (c_case 4 (c_pair c_hash (c_pair c_hash c_bytes)) (fun '(f, (h, d)) => WPublishedHash f h d)
    (fun x => match x with WPublishedHash f h d => Some (f, (h, d)) | _ => None end)
 (c_case 5 c_hash WShardConfigUpdated (fun x => match x with WShardConfigUpdated sh => Some sh | _ => None end)
 (c_case 6 (c_pair c_hash c_acct) (fun p => WPurgedEnclaveFromShardConfig p.1 p.2)
    (fun x => match x with WPurgedEnclaveFromShardConfig a b => Some (a, b) | _ => None end) c_void)))))).
Definition c_sc_event : codec sc_event :=
  c_case 0 (c_pair c_hash (c_pair (c_le 8) (c_pair c_hash c_acct))) (fun '(s, (n, (h, a))) => WFinalizedSidechainBlock s n h a)
    (fun x => match x with WFinalizedSidechainBlock s n h a => Some (s, (n, (h, a))) end) c_void.
Definition c_to_event : codec to_event :=
  c_case 0 (c_pair c_bytes (c_pair c_bytes (c_le 8))) (fun '(s, (p, r)) => WExchangeRateUpdated s p r)
    (fun x => match x with WExchangeRateUpdated s p r => Some (s, (p, r)) | _ => None end)
 (c_case 1 (c_pair c_bytes c_bytes) (fun p => WExchangeRateDeleted p.1 p.2)
    (fun x => match x with WExchangeRateDeleted s p => Some (s, p) | _ => None end)
 (c_case 2 (c_pair c_bytes c_bytes) (fun p => WOracleUpdated p.1 p.2)
    (fun x => match x with WOracleUpdated n s => Some (n, s) | _ => None end)
 (c_case 3 (c_pair c_bytes c_hash) (fun p => WAddedToWhitelist p.1 p.2)
    (fun x => match x with WAddedToWhitelist s f => Some (s, f) | _ => None end)
 (c_case 4 (c_pair c_bytes c_hash) (fun p => WRemovedFromWhitelist p.1 p.2)
    (fun x => match x with WRemovedFromWhitelist s f => Some (s, f) | _ => None end) c_void)))).
Definition c_tx_event : codec tx_event :=
  c_case 0 (c_pair c_acct (c_pair (c_opt c_bytes) (c_pair (c_opt c_sgx_status) c_att_method)))
    (fun '(a, (u, (st, m))) => WAddedSgxEnclave a u st m)
    (fun x => match x with WAddedSgxEnclave a u st m => Some (a, (u, (st, m))) | _ => None end)
 (c_case 1 c_acct WRemovedSovereignEnclave (fun x => match x with WRemovedSovereignEnclave a => Some a | _ => None end)
 (c_case 2 c_eaddr WRemovedProxiedEnclave (fun x => match x with WRemovedProxiedEnclave a => Some a | _ => None end)
 (c_case 3 (c_pair (c_arr 6) c_tcb_info) (fun p => WSgxTcbInfoRegistered p.1 p.2)
    (fun x => match x with WSgxTcbInfoRegistered f i => Some (f, i) | _ => None end)
 (c_case 4 c_qenclave WSgxQuotingEnclaveRegistered
    (fun x => match x with WSgxQuotingEnclaveRegistered q => Some q | _ => None end)
 (c_case 5 (c_pair c_bool c_bool) (fun p => WUpdatedSecurityFlags p.1 p.2)
    (fun x => match x with WUpdatedSecurityFlags s d => Some (s, d) | _ => None end) c_void))))).
Definition c_cl_event (w : widths) : codec cl_event :=
  c_case 0 (c_pair c_acct (c_pair (c_arr 20) (c_le (w_bal w)))) (fun '(a, (e, v)) => WClaimed a e v)
    (fun x => match x with WClaimed a e v => Some (a, (e, v)) end) c_void.
Definition c_ar_event (w : widths) (x : xcm_codecs) : codec ar_event :=
  c_case 0 (c_pair (c_le (w_aid w)) (c_location x)) (fun p => WReserveAssetRegistered p.1 p.2)
    (fun k => match k with WReserveAssetRegistered a b => Some (a, b) | _ => None end)
 (c_case 1 (c_pair (c_le (w_aid w)) (c_location x)) (fun p => WReserveAssetUnregistered p.1 p.2)
    (fun k => match k with WReserveAssetUnregistered a b => Some (a, b) | _ => None end) c_void).
(** [XcmHash] is [u8; 32]; [ParaId] a u32 (primitives/xcm-transactor/src/lib.rs) *)
Definition c_xt_event : codec xt_event :=
  c_case 0 (c_arr 32) WSentXcm (fun x => match x with WSentXcm h => Some h | _ => None end)
 (c_case 1 (c_pair (c_le 4) (c_le 4)) (fun p => WSwapTransactSent p.1 p.2)
    (fun x => match x with WSwapTransactSent a b => Some (a, b) | _ => None end) c_void).
(** the index of the pallet in the runtime, numbered as for calls *)
Definition c_wire (y : layout) (ix : N -> N) : codec wire_event :=
  c_case (ix 0) (c_td_event (ly_w y)) WTd (fun k => match k with WTd x => Some x | _ => None end)
 (c_case (ix 1) (c_eb_event (ly_w y)) WEb (fun k => match k with WEb x => Some x | _ => None end)
 (c_case (ix 2) c_sc_event WSc (fun k => match k with WSc x => Some x | _ => None end)
 (c_case (ix 3) c_to_event WTo (fun k => match k with WTo x => Some x | _ => None end)
 (c_case (ix 4) c_tx_event WTx (fun k => match k with WTx x => Some x | _ => None end)
 (c_case (ix 5) (c_cl_event (ly_w y)) WCl (fun k => match k with WCl x => Some x | _ => None end)
 (c_case (ix 6) (c_ar_event (ly_w y) (ly_xcm y)) WAr (fun k => match k with WAr x => Some x | _ => None end)
 (c_case (ix 7) c_xt_event WXt (fun k => match k with WXt x => Some x | _ => None end) c_void))))))).

(** frame_system [Phase] and [EventRecord] (outside /repo): when, what, under which topics *)
Inductive phase := PhApply (i : N) | PhFinalization | PhInitialization.
Definition c_phase : codec phase :=
  c_case 0 (c_le 4) PhApply (fun x => match x with PhApply i => Some i | _ => None end)
 (c_case 1 c_unit (fun _ => PhFinalization) (fun x => match x with PhFinalization => Some tt | _ => None end)
 (c_case 2 c_unit (fun _ => PhInitialization) (fun x => match x with PhInitialization => Some tt | _ => None end) c_void)).
Definition c_record (y : layout) (ix : N -> N) : codec (phase * (wire_event * list bytes)) :=
  c_pair c_phase (c_pair (c_wire y ix) (c_vec c_hash)).
(** The record an event is kept in *)
Definition record_of (ph : phase) (e : event) : option (phase * (wire_event * list bytes)) :=
  (fun w => (ph, (w, event_topics e))) <$> wire e.
