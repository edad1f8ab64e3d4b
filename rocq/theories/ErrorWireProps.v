(** * C96: errors on the wire, and which errors each call returns *)
From Coq Require Import String.
From Verif Require Import Base State Env TeerdaysModel TeerexBase SgxVerifyModel TeerexModel
  EnclaveBridgeModel SidechainModel TeeracleModel ClaimsModel AssetRegistryModel XcmTransactorModel
  Runtime Frame EnvFacts Examples ClaimsProps TeeracleProps SgxProofs SgxProps TeerexProofs TeerexProps XcmProps
  AttestationProps AcceptProps ErrorProps SgxErrorProps EncodingProps ErrorModel.

(** ** The bytes, spelled out *)
Section Spec.
Context (ix : N -> N).
Definition of_pallet (p n : N) : option bytes := Some [3; ix p; n; 0; 0; 0].
Definition sgx_number (e : sgx_error) : N :=
  match e with
  | SCaVerificationFailed => 15 | SCertificateChainIsInvalid => 16 | SCertificateChainIsTooShort => 17
  | SCpuSvnDecodingError => 18 | SCpuSvnLengthMismatch => 19 | SCpuSvnOidIsMissing => 20
  | SDcapKeyTypeMismatch => 21 | SDcapQuoteDecodingError => 22 | SDcapQuoteIsTooLong => 23 | SDcapQuoteVersionMismatch => 24
  | SDerEncodingError => 25 | SEnclaveIdentityDecodingError => 26 | SEnclaveIdentitySignatureIsInvalid => 27
  | SFmspcDecodingError => 28 | SFmspcLengthMismatch => 29 | SFmspcOidIsMissing => 30
  | SIntelExtensionAmbiguity => 31 | SIntelExtensionCertificateDecodingError => 32
  | SIsvEnclaveReportSignatureIsInvalid => 33 | SKeyLengthIsInvalid => 34 | SLeafCertificateParsingError => 35
  | SNetscapeDecodingError => 36 | SNetscapeDerError => 37
  | SPceSvnDecodingError => 38 | SPceSvnLengthMismatch => 39 | SPceSvnOidIsMissing => 40
  | SPckCertFormatMismatch => 41 | SPublicKeyIsInvalid => 42 | SQeHasRejectedEnclave => 43 | SQeReportHashMismatch => 44
  | SQuoteBodyDecodingError => 45 | SQuoteBodyIsInvalid => 46 | SQuoteBodyMissing => 47 | SQuoteStatusMissing => 48
  | SRsaSignatureIsInvalid => 49 | SSgxReportParsingError => 50 | STcbInfoIsInvalid => 51
  | STimestampIsInvalid => 52 | STimestampIsMissing => 53
  end.
Definition error_bytes (e : error) : option bytes :=
  match e with
  | BadOrigin => Some [2]
  | TimestampUnderflow => Some [0]
  | FundsUnavailable | Frozen | BelowMinimum | ArithmeticOverflow => None
  (* teerdays *)
  | AlreadyBonded => of_pallet 0 0 | InsufficientBond => of_pallet 0 1 | InsufficientUnbond => of_pallet 0 2
  | NoBond => of_pallet 0 3 | PendingUnlock => of_pallet 0 4 | NotUnlocking => of_pallet 0 5
  (* enclave-bridge *)
  | WrongFingerprintForShard => of_pallet 1 0 | TooManyTopics => of_pallet 1 1 | DataTooLong => of_pallet 1 2
  | TooManyEnclaves => of_pallet 1 3 | ShardNotFound => of_pallet 1 5
  (* sidechain *)
  | FinalizationCandidateIsOutdated => of_pallet 2 0 | AncestorNumberMismatch => of_pallet 2 1
  | AncestorHashMismatch => of_pallet 2 2 | AncestorMissing => of_pallet 2 3
  (* teeracle *)
  | FingerprintWhitelistOverflow => of_pallet 3 0 | FingerprintNotWhitelisted => of_pallet 3 1
  | FingerprintAlreadyWhitelisted => of_pallet 3 2 | TradingPairStringTooLong => of_pallet 3 3
  | OracleDataNameStringTooLong => of_pallet 3 4 | DataSourceStringTooLong => of_pallet 3 5 | OracleBlobTooBig => of_pallet 3 6
  (* teerex *)
  | SenderIsNotAttestedEnclave => of_pallet 4 1 | RemoteAttestationIsTooOld => of_pallet 4 3 | SgxModeIsNotAllowed => of_pallet 4 4
  | EnclaveIsNotRegistered => of_pallet 4 5 | EnclaveUrlIsTooLong => of_pallet 4 6 | RaProofIsTooLong => of_pallet 4 7
  | CollateralIsInvalid => of_pallet 4 9 | UnregisterActiveEnclaveIsNotAllowed => of_pallet 4 10
  | SkippingAttestationIsNotAllowed => of_pallet 4 11 | MissingTcbInfoForFmspc => of_pallet 4 12 | TcbInfoIsOutdated => of_pallet 4 13
  | TxSgx e => of_pallet 4 (sgx_number e)
  (* claims *)
  | InvalidEthereumSignature => of_pallet 5 0 | SignerHasNoClaim => of_pallet 5 1 | SenderHasNoClaim => of_pallet 5 2
  | PotUnderflow => of_pallet 5 3 | InvalidStatement => of_pallet 5 4 | VestedBalanceExists => of_pallet 5 5
  (* asset-registry *)
  | AssetAlreadyRegistered => of_pallet 6 0 | AssetDoesNotExist => of_pallet 6 1 | AssetIsNotRegistered => of_pallet 6 2
  | WrongLocation => of_pallet 6 3
  (* xcm-transactor *)
  | InvalidSwapIds => of_pallet 7 0 | SwapIdsEqual => of_pallet 7 1 | XUnreachable => of_pallet 7 2 | XTransport => of_pallet 7 3
  | XUnroutable => of_pallet 7 4 | XDestinationUnsupported => of_pallet 7 5 | XFeesNotMet => of_pallet 7 6 | XXcmSendError => of_pallet 7 7
  end.
End Spec.
Theorem C96_errors_are_these_bytes : forall ix e, (enc_dispatch <$> to_dispatch ix e) = error_bytes ix e.
Proof. intros ix e. destruct e as [| | | | | | | | | | | | | | | | | | | | | | | | | | | | | | | | | | | | | | | [] | | | | | | | | | | | | | | | | | |]; reflexivity. Qed.
Print Assumptions C96_errors_are_these_bytes.

(** Whoever reads the bytes knows the error: no two share theirs, not even as a prefix. *)
(** the declared error with number [n] of pallet [p] *)
Definition named (p n : N) : option declared := l ← declared_errors !! N.to_nat p; l !! N.to_nat n.
Ltac each_error e := destruct e as [| | | | | | | | | | | | | | | | | | | | | | | | | | | | | | | | | | | | | | | [] | | | | | | | | | | | | | | | | | |].
Lemma bytes_cases ix e : e = BadOrigin \/ e = TimestampUnderflow \/ error_bytes ix e = None \/
  exists p n, p < 8 /\ error_bytes ix e = of_pallet ix p n /\ named p n = Some (Used e).
Proof.
  each_error e; try (left; reflexivity); try (right; left; reflexivity); try (right; right; left; reflexivity);
    right; right; right; (eexists _, _; split; [|split; [reflexivity|reflexivity]]); reflexivity.
Qed.
Theorem C96_errors_differ : forall ix e e' b b' r r', sane_index ix ->
  error_bytes ix e = Some b -> error_bytes ix e' = Some b' -> b ++ r = b' ++ r' -> e = e' /\ r = r'.
Proof.
  intros ix e e' b b' r r' I. 
  destruct (bytes_cases ix e) as [->|[->|[->|(p & n & P & -> & Q)]]]; try discriminate;
    destruct (bytes_cases ix e') as [->|[->|[->|(p' & n' & P' & -> & Q')]]]; try discriminate; unfold of_pallet; cbn [error_bytes];
    intros [= <-] [= <-]; cbn [app]; try discriminate.
  1,2: intros [= <-]; split; reflexivity.
  intros [= E <- <-]. split; [|reflexivity]. apply (I p p' P P') in E as ->. congruence.
Qed.
Print Assumptions C96_errors_differ.
Theorem C96_errors_are_read_back : forall ix e b r, error_bytes ix e = Some b ->
  exists d, to_dispatch ix e = Some d /\ dec_dispatch (b ++ r) = Some (d, r).
Proof.
  intros ix e b r H. rewrite <- C96_errors_are_these_bytes in H. destruct (to_dispatch ix e) as [d|] eqn:E; [|discriminate H].
  exists d. split; [reflexivity|]. cbn in H. injection H as <-.
  assert (d = DOther \/ d = DBadOrigin \/ exists i n, d = DModule i [n; 0; 0; 0]) as [->|[->|(i & n & ->)]]; try reflexivity.
  unfold to_dispatch in E. destruct (find_pallet e declared_errors 0) as [[p n]|]; destruct e; try discriminate E; injection E as <-; eauto.
Qed.
Print Assumptions C96_errors_are_read_back.

(** ** The errors of each call *)
(** A blob longer than its type admits cannot be decoded, see C81 *)
Definition blob_fits (c : cfg) (k : call) : Prop :=
  match k with CTo (ToUpdateOracle _ _ blob) => lenN blob <= c_max_blob c | _ => True end.
(** Calls that differ in their arguments only; registrations also by the attestation method *)
Definition kind (k : call) : N * N * N :=
  match k with
  | CTd (TdBond _) => (0, 0, 0) | CTd (TdBondExtra _) => (0, 1, 0) | CTd (TdUnbond _) => (0, 2, 0) | CTd (TdUpdateOther _) => (0, 3, 0)
  | CTd TdWithdrawUnbonded => (0, 4, 0)
  | CEb (EbInvoke _ _) => (1, 0, 0) | CEb (EbConfirm _ _ _ _) => (1, 1, 0) | CEb (EbShield _ _ _) => (1, 2, 0)
  | CEb (EbUnshield _ _ _ _) => (1, 3, 0) | CEb (EbPublish _ _ _) => (1, 4, 0) | CEb (EbUpdateConfig _ _ _) => (1, 5, 0)
  | CEb (EbPurge _ _) => (1, 6, 0)
  | CSc (ScConfirm _ _ _) => (2, 0, 0)
  | CTo (ToAdd _ _) => (3, 0, 0) | CTo (ToRemove _ _) => (3, 1, 0) | CTo (ToUpdateOracle _ _ _) => (3, 2, 0) | CTo (ToUpdateRate _ _ _) => (3, 3, 0)
  | CTx (TxRegister _ _ MIas) => (4, 0, 0) | CTx (TxRegister _ _ (MDcap false)) => (4, 0, 1) | CTx (TxRegister _ _ (MDcap true)) => (4, 0, 2)
  | CTx (TxRegister _ _ (MSkip _)) => (4, 0, 3)
  | CTx (TxUnregisterSovereign _) => (4, 1, 0) | CTx (TxUnregisterProxied _) => (4, 2, 0) | CTx (TxRegisterQe _ _ _) => (4, 3, 0)
  | CTx (TxRegisterTcb _ _ _) => (4, 4, 0) | CTx (TxSetFlags _ _) => (4, 5, 0)
  | CCl (ClClaim _ _) => (5, 0, 0) | CCl (ClMint _ _ _ _) => (5, 1, 0) | CCl (ClClaimAttest _ _ _) => (5, 2, 0) | CCl (ClAttest _) => (5, 3, 0)
  | CCl (ClMove _ _ _) => (5, 4, 0)
  | CAr (ArRegister _ _) => (6, 0, 0) | CAr (ArUnregister _) => (6, 1, 0)
  | CXt (XtSwap _ _ _ _) => (7, 0, 0)
  end.
Definition of_transfer : list error := [FundsUnavailable; Frozen; ArithmeticOverflow; BelowMinimum].
Definition of_operator : list error := [EnclaveIsNotRegistered; WrongFingerprintForShard; TooManyEnclaves].
Definition of_payout : list error := [SignerHasNoClaim; PotUnderflow; VestedBalanceExists].
Definition of_chain : list sgx_error := [SCertificateChainIsTooShort; SLeafCertificateParsingError; SCertificateChainIsInvalid].
Definition of_platform : list sgx_error :=
  [SIntelExtensionCertificateDecodingError; SIntelExtensionAmbiguity; SFmspcOidIsMissing; SFmspcLengthMismatch; SCpuSvnOidIsMissing;
   SCpuSvnLengthMismatch; SPceSvnOidIsMissing; SPceSvnDecodingError; SPceSvnLengthMismatch].
Definition of_ias : list sgx_error :=
  [SNetscapeDecodingError; SNetscapeDerError; SRsaSignatureIsInvalid; SCaVerificationFailed; SSgxReportParsingError; STimestampIsMissing;
   STimestampIsInvalid; SQuoteStatusMissing; SQuoteBodyMissing; SQuoteBodyDecodingError; SQuoteBodyIsInvalid].
Definition of_quote : list sgx_error :=
  [SDcapQuoteDecodingError; SDcapQuoteVersionMismatch; SDcapKeyTypeMismatch; SPckCertFormatMismatch; SQeHasRejectedEnclave] ++
  of_chain ++ of_platform ++
  [SQeReportHashMismatch; SIsvEnclaveReportSignatureIsInvalid; SRsaSignatureIsInvalid; SDcapQuoteIsTooLong].
Definition errors_of (k : call) : list error :=
  match k with
  | CTd (TdBond _) => [BadOrigin; AlreadyBonded; InsufficientBond]
  | CTd (TdBondExtra _) => [BadOrigin; PendingUnlock; InsufficientBond; NoBond]
  | CTd (TdUnbond _) => [BadOrigin; PendingUnlock; InsufficientUnbond; NoBond]
  | CTd (TdUpdateOther _) => [BadOrigin; NoBond]
  | CTd TdWithdrawUnbonded => [BadOrigin; NotUnlocking; PendingUnlock]
  | CEb (EbInvoke _ _) => [BadOrigin]
  | CEb (EbConfirm _ _ _ _) => BadOrigin :: of_operator
  | CEb (EbShield _ _ _) => BadOrigin :: of_transfer
  | CEb (EbUnshield _ _ _ _) => BadOrigin :: of_operator ++ of_transfer
  | CEb (EbPublish _ _ _) => [BadOrigin; EnclaveIsNotRegistered; TooManyEnclaves; TooManyTopics; DataTooLong]
  | CEb (EbUpdateConfig _ _ _) => BadOrigin :: of_operator
  | CEb (EbPurge _ _) => [BadOrigin; ShardNotFound]
  | CSc (ScConfirm _ _ _) => BadOrigin :: of_operator ++
      [AncestorMissing; FinalizationCandidateIsOutdated; AncestorNumberMismatch; AncestorHashMismatch]
  | CTo (ToAdd _ _) => [BadOrigin; DataSourceStringTooLong; FingerprintAlreadyWhitelisted; FingerprintWhitelistOverflow]
  | CTo (ToRemove _ _) => [BadOrigin; FingerprintNotWhitelisted]
  | CTo (ToUpdateOracle _ _ _) =>
      [BadOrigin; EnclaveIsNotRegistered; FingerprintNotWhitelisted; OracleDataNameStringTooLong]
  | CTo (ToUpdateRate _ _ _) => [BadOrigin; EnclaveIsNotRegistered; TradingPairStringTooLong; FingerprintNotWhitelisted]
  | CTx (TxRegister _ _ m) => [BadOrigin; RaProofIsTooLong; EnclaveUrlIsTooLong] ++
      match m with
      | MIas => map TxSgx of_ias ++ [TimestampUnderflow; RemoteAttestationIsTooOld; SenderIsNotAttestedEnclave; SgxModeIsNotAllowed]
      | MDcap proxied => map TxSgx of_quote ++ (if proxied then [] else [SenderIsNotAttestedEnclave]) ++
          [MissingTcbInfoForFmspc; TcbInfoIsOutdated; SgxModeIsNotAllowed]
      | MSkip _ => [SkippingAttestationIsNotAllowed]
      end
  | CTx (TxUnregisterSovereign _) | CTx (TxUnregisterProxied _) => [BadOrigin; EnclaveIsNotRegistered; UnregisterActiveEnclaveIsNotAllowed]
  | CTx (TxRegisterQe _ _ _) => BadOrigin :: map TxSgx (of_chain ++
      [SKeyLengthIsInvalid; SEnclaveIdentitySignatureIsInvalid; SEnclaveIdentityDecodingError]) ++ [CollateralIsInvalid]
  | CTx (TxRegisterTcb _ _ _) => BadOrigin :: map TxSgx (of_chain ++
      [SKeyLengthIsInvalid; SRsaSignatureIsInvalid; STcbInfoIsInvalid]) ++ [CollateralIsInvalid]
  | CTx (TxSetFlags _ _) => [BadOrigin]
  | CCl (ClClaim _ _) | CCl (ClClaimAttest _ _ _) => [BadOrigin; InvalidEthereumSignature; InvalidStatement] ++ of_payout
  | CCl (ClAttest _) => [BadOrigin; SenderHasNoClaim; InvalidStatement] ++ of_payout
  | CCl (ClMint _ _ _ _) | CCl (ClMove _ _ _) => [BadOrigin]
  | CAr (ArRegister _ _) => [BadOrigin; AssetDoesNotExist; AssetAlreadyRegistered; WrongLocation]
  | CAr (ArUnregister _) => [BadOrigin; AssetIsNotRegistered]
  | CXt (XtSwap _ _ _ _) => [BadOrigin; SwapIdsEqual; InvalidSwapIds; XUnreachable; XTransport; XUnroutable; XDestinationUnsupported;
      XFeesNotMet; XXcmSendError]
  end.
(** what answers can be given *)
Lemma answers_in l e : answers l (Failed e) -> In (Failed e) (map snd l).
Proof. induction l as [|[P r] l IH]; cbn; [discriminate|]. intros [[_ H]|[_ H]]; [right; auto|left; auto]. Qed.
Lemma answers_unmet l e : answers l (Failed e) -> exists P, In (P, Failed e) l /\ ~ P.
Proof. induction l as [|[P r] l IH]; cbn; [discriminate|]. intros [[_ H]|[Q ->]]; [destruct (IH H) as (R & ? & ?); eauto|eauto]. Qed.
(** ** No call returns another error *)
Lemma pair_parts {A B} (a a' : A) (b b' : B) : (a, b) = (a', b') -> a = a' /\ b = b'.
Proof. intros [= -> ->]. auto. Qed.
Lemma failed_inj e e' : Failed e = Failed e' -> e = e'.
Proof. congruence. Qed.
Ltac in_table := repeat match goal with
  | H : False |- _ => contradiction H
  | H : _ \/ _ |- _ => destruct H as [H|H]
  | H : Failed _ = Failed _ |- _ => apply failed_inj in H; subst
  | H : Panicked = Failed _ |- _ => discriminate H
  end; cbn; tauto.
Theorem C96_no_other_errors : forall c g l o k e, json_levels_typed (c_sgx c) -> blob_fits c k ->
  (dispatch c o k (run c (genesis_state g) l)).1 = Failed e -> In e (errors_of k).
Proof.
  intros c g l o k e J B H. destruct k as [k|k|k|k|k|k|k|k].
  - apply C70_teerdays_answers, answers_in in H. destruct k, o; cbn in H |- *; in_table.
  - apply C70_bridge_answers, answers_in in H.
    destruct k, o; cbn [eb_demands] in H; try destruct (decide _); cbn in H |- *; in_table.
  - apply C70_sidechain_answers, answers_in in H. destruct k, o; cbn in H |- *; in_table.
  - destruct (C27_stored_rates_and_keys_well_formed c g l) as (_ & _ & W).
    apply C70_teeracle_answers in H. destruct k as [src fp|src fp|name src blob|src tp v]; try (apply answers_in in H; cbn in H |- *; in_table).
    cbn in H. cbn [blob_fits] in B. destruct H as [[(a & ->) H]|[_ H]]; [|apply failed_inj in H; subst; cbn; tauto].
    destruct H as [[H1 H]|[_ H]]; [|apply failed_inj in H; subst; cbn; tauto].
    destruct H as [[H2 H]|[_ H]]; [|apply failed_inj in H; subst; cbn; tauto].
    destruct H as [[_ H]|[_ H]]; [|apply failed_inj in H; subst; cbn; tauto].
    exfalso. destruct H as [[_ H]|[H _]].
    + destruct H as [[_ H]|[H _]]; [discriminate H|apply H, B].
    + apply H. destruct (H1 a eq_refl) as [x Hx]. specialize (H2 a x eq_refl Hx).
      destruct (to_wl (rt_to (run c (genesis_state g) l)) !! src) as [w|] eqn:E; [exact (W src w E)|contradiction H2].
  - apply C70_teerex_answers in H; [|exact J].
    destruct k as [p u [[]| |px]|w|w|d sg ch|d sg ch|sk dbg]; try (apply answers_in in H; destruct o; cbn in H |- *; in_table).
    destruct o as [|a|]; try (apply answers_in in H; cbn in H |- *; in_table).
    apply answers_unmet in H as (P & H & NP). cbn [tx_demands attestation_demands app] in H. unfold dcap_demands in H. cbv zeta in H.
    destruct (extract_certs (c_sgx c) _) as [|leaf certs]; destruct px.
    all: cbn in H; repeat match goal with
    | H : False |- _ => contradiction H
    | H : _ \/ _ |- _ => destruct H as [H|H]
    end; apply pair_parts in H as [HP H]; try (apply failed_inj in H; subst e; cbn; tauto).
    all: exfalso; apply NP; rewrite <- HP; discriminate.
  - apply C70_claims_answers, answers_in in H. destruct k, o; cbn in H |- *; in_table.
  - apply C70_registry_answers, answers_in in H. destruct k; cbn in H |- *; in_table.
  - apply C70_swap_answers, answers_in in H. destruct k; cbn in H |- *; in_table.
Qed.
Print Assumptions C96_no_other_errors.
