(** * Errors as they are written to the chain: the error types of the pallets and their encodings *)
From Coq Require Import String.
From Verif Require Import Base State ClaimsModel.

(** A declared error: one of those modelled, or one that no code of /repo mentions beyond its declaration. *)
Inductive declared := Used (e : error) | Unused (name : string).

(** teerdays/src/lib.rs:138-153 *)
Definition td_errors : list declared :=
  [Used AlreadyBonded; Used InsufficientBond; Used InsufficientUnbond; Used NoBond; Used PendingUnlock; Used NotUnlocking;
   Unused "BadState"].
(** enclave-bridge/src/lib.rs:114-127 *)
Definition eb_errors : list declared :=
  [Used WrongFingerprintForShard; Used TooManyTopics; Used DataTooLong; Used TooManyEnclaves;
   Unused "EnclaveNotFoundInShardStatus"; Used ShardNotFound].
(** sidechain/src/lib.rs:70-81 *)
Definition sc_errors : list declared :=
  [Used FinalizationCandidateIsOutdated; Used AncestorNumberMismatch; Used AncestorHashMismatch; Used AncestorMissing].
(** teeracle/src/lib.rs:126-141 *)
Definition to_errors : list declared :=
  [Used FingerprintWhitelistOverflow; Used FingerprintNotWhitelisted; Used FingerprintAlreadyWhitelisted;
   Used TradingPairStringTooLong; Used OracleDataNameStringTooLong; Used DataSourceStringTooLong; Used OracleBlobTooBig].
(** sgx_verify's errors in the order teerex declares them, teerex/src/lib.rs:133-171. sgx_verify declares the
    same ones (teerex/sgx-verify/src/lib.rs:68-107) and each is mapped to its namesake (teerex/src/lib.rs:174-222). *)
Definition mapped_errors : list sgx_error :=
  [SCaVerificationFailed; SCertificateChainIsInvalid; SCertificateChainIsTooShort; SCpuSvnDecodingError;
   SCpuSvnLengthMismatch; SCpuSvnOidIsMissing; SDcapKeyTypeMismatch; SDcapQuoteDecodingError; SDcapQuoteIsTooLong;
   SDcapQuoteVersionMismatch; SDerEncodingError; SEnclaveIdentityDecodingError; SEnclaveIdentitySignatureIsInvalid;
   SFmspcDecodingError; SFmspcLengthMismatch; SFmspcOidIsMissing; SIntelExtensionAmbiguity;
   SIntelExtensionCertificateDecodingError; SIsvEnclaveReportSignatureIsInvalid; SKeyLengthIsInvalid;
   SLeafCertificateParsingError; SNetscapeDecodingError; SNetscapeDerError; SPceSvnDecodingError; SPceSvnLengthMismatch;
   SPceSvnOidIsMissing; SPckCertFormatMismatch; SPublicKeyIsInvalid; SQeHasRejectedEnclave; SQeReportHashMismatch;
   SQuoteBodyDecodingError; SQuoteBodyIsInvalid; SQuoteBodyMissing; SQuoteStatusMissing; SRsaSignatureIsInvalid;
   SSgxReportParsingError; STcbInfoIsInvalid; STimestampIsInvalid; STimestampIsMissing].
(** teerex/src/lib.rs:100-172 *)
Definition tx_errors : list declared :=
  [Unused "EnclaveSignerDecodeError"; Used SenderIsNotAttestedEnclave; Unused "RemoteAttestationVerificationFailed";
   Used RemoteAttestationIsTooOld; Used SgxModeIsNotAllowed; Used EnclaveIsNotRegistered; Used EnclaveUrlIsTooLong;
   Used RaProofIsTooLong; Unused "EmptyEnclaveRegistry"; Used CollateralIsInvalid; Used UnregisterActiveEnclaveIsNotAllowed;
   Used SkippingAttestationIsNotAllowed; Used MissingTcbInfoForFmspc; Used TcbInfoIsOutdated; Unused "OtherSgxVerifyError"] ++
  map (fun e => Used (TxSgx e)) mapped_errors.
(** claims/src/lib.rs:101-115 *)
Definition cl_errors : list declared :=
  [Used InvalidEthereumSignature; Used SignerHasNoClaim; Used SenderHasNoClaim; Used PotUnderflow; Used InvalidStatement;
   Used VestedBalanceExists].
(** asset-registry/src/lib.rs:83-92 *)
Definition ar_errors : list declared :=
  [Used AssetAlreadyRegistered; Used AssetDoesNotExist; Used AssetIsNotRegistered; Used WrongLocation].
(** xcm-transactor/src/lib.rs:72-92 *)
Definition xt_errors : list declared :=
  [Used InvalidSwapIds; Used SwapIdsEqual; Used XUnreachable; Used XTransport; Used XUnroutable; Used XDestinationUnsupported;
   Used XFeesNotMet; Used XXcmSendError].
(** The pallets in the order of [StorageModel]'s calls *)
Definition declared_errors : list (list declared) :=
  [td_errors; eb_errors; sc_errors; to_errors; tx_errors; cl_errors; ar_errors; xt_errors].

(** ** [DispatchError] (sp_runtime), as far as the pallets return it *)
(** [Other] carries a text that is not encoded; the error field of a module error is the encoded error padded to
    four bytes with zeros (FRAME's [From<Error<T>>]). The hidden variant [__Ignore] of a generic error type is
    skipped by the codec. *)
Inductive dispatch_error := DOther | DBadOrigin | DModule (index : N) (error : bytes).

Global Instance sgx_error_eq : EqDecision sgx_error.
Proof. solve_decision. Defined.
Global Instance error_eq : EqDecision error.
Proof. solve_decision. Defined.
Fixpoint find_error (e : error) (l : list declared) (n : N) : option N :=
  match l with
  | [] => None
  | Used x :: l' => if decide (x = e) then Some n else find_error e l' (n + 1)
  | Unused _ :: l' => find_error e l' (n + 1)
  end.
Fixpoint find_pallet (e : error) (ls : list (list declared)) (p : N) : option (N * N) :=
  match ls with
  | [] => None
  | l :: ls' => match find_error e l 0 with Some n => Some (p, n) | None => find_pallet e ls' (p + 1) end
  end.
(** None for the errors of pallet-balances. [TimestampUnderflow] is a [&'static str] (teerex/src/lib.rs:643) *)
Definition to_dispatch (ix : N -> N) (e : error) : option dispatch_error :=
  match e with
  | BadOrigin => Some DBadOrigin
  | TimestampUnderflow => Some DOther
  | _ => match find_pallet e declared_errors 0 with
         | Some (p, n) => Some (DModule (ix p) [n; 0; 0; 0])
         | None => None
         end
  end.
Definition enc_dispatch (d : dispatch_error) : bytes :=
  match d with DOther => [0] | DBadOrigin => [2] | DModule i e => [3; i] ++ e end.
Definition dec_dispatch (b : bytes) : option (dispatch_error * bytes) :=
  match b with
  | 0 :: r => Some (DOther, r)
  | 2 :: r => Some (DBadOrigin, r)
  | 3 :: i :: a :: b :: c :: d :: r => Some (DModule i [a; b; c; d], r)
  | _ => None
  end.

(** ** [TransactionValidityError]: [Invalid] (0), and in it [Call] (0) or [Custom] (7) with a code *)
(** primitives/claims/src/lib.rs:33-48 *)
Definition validity_code (e : validity_error) : option N :=
  match e with VInvalidSignature => Some 0 | VSignerHasNoClaim => Some 1 | VInvalidStatement => Some 3 | VNotUnsigned => None end.
(** claims/src/lib.rs:403-417, 585-590 *)
Definition enc_validity (e : validity_error) : bytes :=
  match validity_code e with Some n => [0; 7; n] | None => [0; 0] end.
