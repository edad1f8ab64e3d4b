(** * Model of the storage migrations of pallet teerex (teerex/src/migrations.rs). *)
From Verif Require Import Base State.

(** Storage seen by the migrations: on-chain version, the v0 items (migrations.rs:5-32; values of
    the registry are opaque), and the current items. The v1 and current [SgxTcbInfo] share their
    storage prefix; they are identified, the value type is irrelevant for clearing. *)
Record mig := mkMig {
  mg_version : N;
  mg_v0_registry : gmap N bytes;
  mg_v0_count : N;
  mg_v0_index : gmap acct N;
  mg_v0_debug : bool;
  mg_tx : tx_store }.

(** teerex/src/lib.rs:47 [STORAGE_VERSION] *)
Definition in_code_version : N := 2.

(** teerex/src/migrations.rs:75-103 [MigrateV0toV1::on_runtime_upgrade]. [clear(u32::MAX, None)]
    removes everything: maps are taken to have fewer than 2^32 keys. The returned weight is in
    RawMigrationsModel.v. *)
Definition migrate_v0_v1 (m : mig) : mig :=
  if 1 <=? mg_version m then m else
  let t := mg_tx m in
  mkMig 1 ∅ 0 ∅ false
    (mkTx (tx_sov t) (tx_prox t) (tx_qe t) (tx_tcb t) (mg_v0_debug m) (tx_allow_skip t)).

(** teerex/src/migrations.rs:153-177 [MigrateV1toV2::on_runtime_upgrade] *)
Definition migrate_v1_v2 (m : mig) : mig :=
  if in_code_version <=? mg_version m then m else
  let t := mg_tx m in
  mkMig 2 (mg_v0_registry m) (mg_v0_count m) (mg_v0_index m) (mg_v0_debug m)
    (mkTx (tx_sov t) (tx_prox t) (tx_qe t) ∅ (tx_allow_debug t) (tx_allow_skip t)).

(** ** The checks run by try-runtime (feature [try-runtime]) *)
(** A check passes, returns an error, or fails an assertion (a panic). *)
Inductive check := Passed | Refused | Asserted.
(** SCALE encoding of (StorageVersion = u16, u64, bool); decoding ignores what follows *)
Definition dec_state (st : bytes) : option (N * N * bool) :=
  match dropN 10 st with
  | 0 :: _ => Some (le_val (takeN 2 st), le_val (takeN 8 (dropN 2 st)), false)
  | 1 :: _ => Some (le_val (takeN 2 st), le_val (takeN 8 (dropN 2 st)), true)
  | _ => None
  end.
(** teerex/src/migrations.rs:55-73 [MigrateV0toV1::pre_upgrade]: (version, enclave count, debug flag) *)
Definition pre_upgrade_v1 (m : mig) : bytes :=
  le_bytes 2 (mg_version m) ++ le_bytes 8 (mg_v0_count m) ++ [if mg_v0_debug m then 1 else 0].
(** teerex/src/migrations.rs:105-126 [MigrateV0toV1::post_upgrade] *)
Definition post_upgrade_v1 (st : bytes) (m : mig) : check :=
  match dec_state st with
  | None => Asserted
  | Some (pre, _, debug) =>
      if mg_version m <=? pre then Passed
      else if negb (mg_version m =? 1) then Asserted
      else if negb (mg_v0_count m =? 0) then Asserted
      else if negb (eqb (tx_allow_debug (mg_tx m)) debug) then Asserted
      else Passed
  end.
(** teerex/src/migrations.rs:138-151 [MigrateV1toV2::pre_upgrade]: [None] = error *)
Definition pre_upgrade_v2 (m : mig) : option bytes :=
  if (mg_version m =? 1) && (in_code_version =? 2)
  then Some (le_bytes 8 (N.of_nat (size (tx_tcb (mg_tx m))))) else None.
(** teerex/src/migrations.rs:179-190 [MigrateV1toV2::post_upgrade] *)
Definition post_upgrade_v2 (st : bytes) (m : mig) : check :=
  if negb (mg_version m =? 2) then Asserted
  else if lenN st <? 8 then Asserted
  else if negb (N.of_nat (size (tx_tcb (mg_tx m))) =? 0) then Asserted
  else Passed.
(** [OnRuntimeUpgrade::try_on_runtime_upgrade(true)] of frame_support (outside /repo): check before,
    migrate, check after *)
Definition try_v1 (m : mig) : check * mig :=
  let m' := migrate_v0_v1 m in (post_upgrade_v1 (pre_upgrade_v1 m) m', m').
Definition try_v2 (m : mig) : check * mig :=
  match pre_upgrade_v2 m with
  | None => (Refused, m)
  | Some st => let m' := migrate_v1_v2 m in (post_upgrade_v2 st m', m')
  end.
