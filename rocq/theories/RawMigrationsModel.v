(** * The migrations of pallet teerex on the raw key-value store (teerex/src/migrations.rs).

    [MigrationsModel] has the migrations on the decoded state. Here they read and write the store of
    [StorageModel], whatever bytes it holds, and the weights they return are modelled as the numbers
    of reads and writes charged for. *)
From Verif Require Import Base State TeerdaysModel TeerexBase MigrationsModel Runtime ScaleModel StorageModel.

Section WithLayout.
Context (y : layout).

(** [get] of an item with a default *)
Definition getv (k : skey) (z : val_of k) (d : kv) : val_of k := default z (read y k d).
(** the keys that start with the prefix of an item *)
Definition under (i : item) (d : kv) : kv := filter (fun '(k, _) => starts_with (item_prefix y i) k) d.
(** [clear(u32::MAX, None).unique]: how many keys went; maps are taken to have fewer than 2^32 keys *)
Definition purged (i : item) (d : kv) : N := N.of_nat (size (under i d)).

(** The returned weight, as (reads, writes): [T::DbWeight::get().reads_writes] and [.reads] *)
Notation weight := (N * N)%type.

(** teerex/src/migrations.rs:75-103 [MigrateV0toV1::on_runtime_upgrade] *)
Definition raw_v0_v1 (d : kv) : kv * weight :=
  if 1 <=? getv KVersion 0 d then (d, (1, 0)) else
  let allow_debug_mode := getv KV0Debug false d in
  let d := write y KV0Debug None d in
  let d := write y KDebug (Some allow_debug_mode) d in
  let d := write y KV0Count None d in
  let n := purged IV0Registry d in
  let d := clear y IV0Registry d in
  let n := n + purged IV0Index d in
  let d := clear y IV0Index d in
  let d := write y KVersion (Some 1) d in
  (d, (n + 1, n + 3)).

(** teerex/src/migrations.rs:153-177 [MigrateV1toV2::on_runtime_upgrade] *)
Definition raw_v1_v2 (d : kv) : kv * weight :=
  if in_code_version <=? getv KVersion 0 d then (d, (1, 0)) else
  let n := purged ITcb d in
  let d := clear y ITcb d in
  let d := write y KVersion (Some 2) d in
  (d, (n + 1, n + 3)).

(** The upgrade of this release: both in order *)
Definition raw_upgrade (d : kv) : kv := (raw_v1_v2 (raw_v0_v1 d).1).1.

(** [v1::SgxTcbInfo::get] (migrations.rs:48-50): the item of the current pallet with the old value type *)
Definition read_v1_tcb (f : bytes) (d : kv) : option (N * N) :=
  match d !! raw_key y (KTcb f) with
  | None => None
  | Some b => match dec c_tcb_info_v1 b with None => None | Some (v, _) => Some v end
  end.
(** [v1::SgxTcbInfo::iter_keys().count()]: keys below the prefix whose part after the 16 bytes of
    hash can be decoded; the others are skipped *)
Definition tcb_keys (d : kv) : N :=
  N.of_nat (size (filter (fun '(k, _) => dec (c_arr 6) (drop 48 k) <> None) (under ITcb d))).

(** ** The checks of try-runtime *)
(** teerex/src/migrations.rs:55-73 [MigrateV0toV1::pre_upgrade] *)
Definition raw_pre_v1 (d : kv) : bytes :=
  enc (c_pair (c_le 2) (c_pair (c_le 8) c_bool)) (getv KVersion 0 d, (getv KV0Count 0 d, getv KV0Debug false d)).
(** teerex/src/migrations.rs:105-126 [MigrateV0toV1::post_upgrade] *)
Definition raw_post_v1 (st : bytes) (d : kv) : check :=
  match dec (c_pair (c_le 2) (c_pair (c_le 8) c_bool)) st with
  | None => Asserted
  | Some ((pre, (_, debug)), _) =>
      if getv KVersion 0 d <=? pre then Passed
      else if negb (getv KVersion 0 d =? 1) then Asserted
      else if negb (getv KV0Count 0 d =? 0) then Asserted
      else if negb (eqb (getv KDebug false d) debug) then Asserted
      else Passed
  end.
(** teerex/src/migrations.rs:138-151 [MigrateV1toV2::pre_upgrade]: [None] = error *)
Definition raw_pre_v2 (d : kv) : option bytes :=
  if (getv KVersion 0 d =? 1) && (in_code_version =? 2) then Some (enc (c_le 8) (tcb_keys d)) else None.
(** teerex/src/migrations.rs:179-190 [MigrateV1toV2::post_upgrade] *)
Definition raw_post_v2 (st : bytes) (d : kv) : check :=
  if negb (getv KVersion 0 d =? 2) then Asserted
  else match dec (c_le 8) st with
  | None => Asserted
  | Some _ => if negb (tcb_keys d =? 0) then Asserted else Passed
  end.
Definition raw_try_v1 (d : kv) : check * kv :=
  let d' := (raw_v0_v1 d).1 in (raw_post_v1 (raw_pre_v1 d) d', d').
Definition raw_try_v2 (d : kv) : check * kv :=
  match raw_pre_v2 d with
  | None => (Refused, d)
  | Some st => let d' := (raw_v1_v2 d).1 in (raw_post_v2 st d', d')
  end.
End WithLayout.
