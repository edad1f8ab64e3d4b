(** * Weights and fees: what a call is declared to cost ([#\[pallet::weight(..)\]] and weights.rs). *)
From Verif Require Import Base State Env TeerdaysModel TeerexBase SgxVerifyModel TeerexModel
  EnclaveBridgeModel SidechainModel TeeracleModel ClaimsModel AssetRegistryModel XcmTransactorModel
  Runtime.

(** sp_weights (outside /repo): a weight is (computation time in picoseconds, proof size in bytes),
    two u64 with saturating arithmetic *)
Definition weight : Type := N * N.
Definition sat64 (n : N) : N := N.min n u64_max.
Definition w_parts (time proof : N) : weight := (time, proof).
Definition w_add (a b : weight) : weight := (sat64 (a.1 + b.1), sat64 (a.2 + b.2)).
Definition w_mul (a : weight) (n : N) : weight := (sat64 (a.1 * n), sat64 (a.2 * n)).
(** [RuntimeDbWeight]: the price of a read and of a write, set by the runtime *)
Record dbw := mkDbw { db_read : N; db_write : N }.
Definition reads (d : dbw) (n : N) : weight := (sat64 (db_read d * n), 0).
Definition writes (d : dbw) (n : N) : weight := (sat64 (db_write d * n), 0).
(** Most benchmarked weights have this form *)
Definition w4 (d : dbw) (time proof r w : N) : weight :=
  w_add (w_add (w_add (w_parts time 0) (w_parts 0 proof)) (reads d r)) (writes d w).

(** The weights of claims are chosen by the runtime: /repo only has zero weights for tests
    (claims/src/lib.rs:44-69). *)
Record cl_weights := mkClw { clw_claim : weight; clw_mint : weight; clw_claim_attest : weight; clw_attest : weight; clw_move : weight }.

(** teerdays/src/weights.rs:41-101; [bond_extra] is charged as [bond] (teerdays/src/lib.rs:198) *)
Definition td_weight (d : dbw) (k : td_call) : weight :=
  match k with
  | TdBond _ => w4 d 86401000 4764 5 3
  | TdBondExtra _ => w4 d 86401000 4764 5 3
  | TdUnbond _ => w4 d 56711000 3718 3 2
  | TdUpdateOther _ => w4 d 37183000 3718 2 1
  | TdWithdrawUnbonded => w4 d 82512000 4764 5 3
  end.

(** enclave-bridge/src/weights.rs:100-116 [publish_hash(l, t)]; by the benchmark
    (enclave-bridge/src/benchmarking.rs:98-113) [l] is the length of the data and [t] the number of topics *)
Definition publish_hash_weight (d : dbw) (l t : N) : weight :=
  let w := w_add (w_parts 28179644 0) (w_parts 0 8511) in
  let w := w_add w (w_mul (w_parts 318271 0) l) in
  let w := w_add w (w_mul (w_parts 7329090 0) t) in
  let w := w_add w (reads d 3) in
  let w := w_add w (reads d (sat64 (1 * t))) in
  let w := w_add w (writes d 1) in
  let w := w_add w (writes d (sat64 (1 * t))) in
  w_add w (w_mul (w_parts 0 2475) t).
(** enclave-bridge/src/weights.rs:65-138; the arguments for [publish_hash] are those of
    enclave-bridge/src/lib.rs:281 *)
Definition eb_weight (d : dbw) (k : eb_call) : weight :=
  match k with
  | EbInvoke _ _ => w_add (w_parts 26600000 0) (w_parts 0 0)
  | EbConfirm _ _ _ _ => w_add (w_add (w_parts 28700000 0) (w_parts 0 2717)) (reads d 1)
  | EbShield _ _ _ => w_add (w_parts 26600000 0) (w_parts 0 0)
  | EbUnshield _ _ _ _ => w_add (w_parts 26600000 0) (w_parts 0 0)
  | EbPublish _ topics data => publish_hash_weight d (N.min (lenN topics) u32_max) (N.min (lenN data) u32_max)
  | EbUpdateConfig _ _ _ => w4 d 28742000 3928 3 2
  | EbPurge _ _ => w_add (w_add (w_parts 10000000 0) (reads d 1)) (writes d 1)
  end.
(** sidechain/src/weights.rs:32-36 *)
Definition sc_weight (d : dbw) (k : sc_call) : weight :=
  w_add (w_add (w_parts 46200000 0) (reads d 1)) (writes d 2).
(** teeracle/src/weights.rs:36-85 *)
Definition to_weight (d : dbw) (k : to_call) : weight :=
  match k with
  | ToUpdateRate _ _ _ => w4 d 49230000 3919 3 1
  | ToUpdateOracle _ _ _ => w4 d 41294000 3910 2 1
  | ToAdd _ _ => w4 d 19529000 3471 1 1
  | ToRemove _ _ => w4 d 21866000 3572 1 1
  end.
(** teerex/src/weights.rs:74-143 *)
Definition tx_weight (d : dbw) (k : tx_call) : weight :=
  match k with
  | TxRegister _ _ _ => w4 d 2049028000 3859 4 1
  | TxRegisterQe _ _ _ => w4 d 1031990000 1493 1 1
  | TxRegisterTcb _ _ _ => w4 d 1128361000 1493 1 1
  | TxUnregisterSovereign _ => w4 d 18139000 3938 2 1
  | TxUnregisterProxied _ => w4 d 21264000 4040 2 1
  | TxSetFlags _ _ => w_parts 46200000 0
  end.
(** claims/src/lib.rs:214, 247, 295, 332-336, 349 *)
Definition cl_weight (w : cl_weights) (k : cl_call) : weight :=
  match k with
  | ClClaim _ _ => clw_claim w
  | ClMint _ _ _ _ => clw_mint w
  | ClClaimAttest _ _ _ => clw_claim_attest w
  | ClAttest _ => clw_attest w
  | ClMove _ _ _ => clw_move w
  end.
(** asset-registry/src/weights.rs:66-89 *)
Definition ar_weight (d : dbw) (k : ar_call) : weight :=
  match k with
  | ArRegister _ _ => w4 d 22970000 7762 2 2
  | ArUnregister _ => w4 d 18454000 4087 1 2
  end.
(** xcm-transactor/src/lib.rs:126 *)
Definition xt_weight (k : xt_call) : weight := w_parts 46200000 0.
Definition call_weight (d : dbw) (w : cl_weights) (k : call) : weight :=
  match k with
  | CTd x => td_weight d x | CEb x => eb_weight d x | CSc x => sc_weight d x | CTo x => to_weight d x
  | CTx x => tx_weight d x | CCl x => cl_weight w x | CAr x => ar_weight d x | CXt x => xt_weight x
  end.

(** The declared [Pays] (default [Yes]): enclave-bridge/src/lib.rs:378, claims/src/lib.rs:332-336.
    All calls are of class Normal. *)
Definition declared_pays (k : call) : bool :=
  match k with CEb (EbPurge _ _) => false | CCl (ClAttest _) => false | _ => true end.
(** [PostDispatchInfo::pays_fee]: only [move_claim] ever returns [No] (claims/src/lib.rs:377), on
    success; an error comes with the default, [Yes]. *)
Definition post_pays (k : call) (st : status) : bool :=
  match k, st with CCl (ClMove _ _ _), Success => false | _, _ => true end.
(** frame_support [extract_actual_pays_fee] and pallet-transaction-payment (both outside /repo): the
    sender of a signed extrinsic pays unless one of the two says [No]; nobody pays for an unsigned
    one, and root calls are made by other pallets. A call that panics is not included in a block. *)
Definition fee_due (c : cfg) (o : origin) (k : call) (s : rt) : bool :=
  match o, (dispatch c o k s).1 with
  | Signed _, Panicked => false
  | Signed _, st => declared_pays k && post_pays k st
  | _, _ => false
  end.
(** Signed transactions are checked by the extension [PrevalidateAttests] before they are accepted
    (claims/src/lib.rs:577-594): it looks at calls of claims only. *)
Definition admitted (s : rt) (who : acct) (k : call) : bool :=
  match k with CCl x => match prevalidate s who x with None => true | Some _ => false end | _ => true end.
