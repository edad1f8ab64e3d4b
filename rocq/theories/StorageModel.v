(** * Storage: how the entries of the pallets are laid out in the key-value store of the chain.

    frame_support (outside /repo) puts an entry under twox128(pallet name) ++ twox128(item name),
    followed, for maps, by the hashed key. The names of the items are those of /repo; the names of
    the pallets are chosen by the runtime and are a parameter, as is the Blake2 hash. *)
From Coq Require Import String.
From Verif Require Import Base State TeerdaysModel TeerexBase SgxVerifyModel TeerexModel
  EnclaveBridgeModel SidechainModel TeeracleModel ClaimsModel AssetRegistryModel XcmTransactorModel
  MigrationsModel Runtime ScaleModel.

(** ** XXH64 and [sp_core::hashing::twox_128] *)
Definition w64 (n : N) : N := n mod 18446744073709551616.
Definition rotl (n k : N) : N := w64 (N.lor (N.shiftl n k) (N.shiftr n (64 - k))).
Definition xp1 : N := 11400714785074694791.
Definition xp2 : N := 14029467366897019727.
Definition xp3 : N := 1609587929392839161.
Definition xp4 : N := 9650029242287828579.
Definition xp5 : N := 2870177450012600261.
Definition xround (acc x : N) : N := w64 (rotl (w64 (acc + x * xp2)) 31 * xp1).
Definition xmerge (acc v : N) : N := w64 (N.lxor acc (xround 0 v) * xp1 + xp4).
Definition lane (i : nat) (l : bytes) : N := le_val (take 8 (drop (8 * i) l)).
(** stripes of 32 bytes *)
Fixpoint xstripes (fuel : nat) (v : N * N * N * N) (l : bytes) : (N * N * N * N) * bytes :=
  match fuel with
  | O => (v, l)
  | S f =>
      if lenN l <? 32 then (v, l) else
      let '(v1, v2, v3, v4) := v in
      xstripes f (xround v1 (lane 0 l), xround v2 (lane 1 l), xround v3 (lane 2 l), xround v4 (lane 3 l)) (drop 32 l)
  end.
Fixpoint xwords (fuel : nat) (h : N) (l : bytes) : N * bytes :=
  match fuel with
  | O => (h, l)
  | S f =>
      if lenN l <? 8 then (h, l)
      else xwords f (w64 (rotl (N.lxor h (xround 0 (lane 0 l))) 27 * xp1 + xp4)) (drop 8 l)
  end.
Definition xbyte (h b : N) : N := w64 (rotl (N.lxor h (w64 (b * xp5))) 11 * xp1).
Definition xxh64 (seed : N) (l : bytes) : N :=
  let '(h, r) :=
    if lenN l <? 32 then (w64 (seed + xp5), l) else
    let '((v1, v2, v3, v4), r) :=
      xstripes (length l) (w64 (seed + xp1 + xp2), w64 (seed + xp2), seed, w64 (seed + 18446744073709551616 - xp1)) l in
    (xmerge (xmerge (xmerge (xmerge (w64 (rotl v1 1 + rotl v2 7 + rotl v3 12 + rotl v4 18)) v1) v2) v3) v4, r) in
  let '(h, r) := xwords (length r) (w64 (h + lenN l)) r in
  let '(h, r) :=
    if lenN r <? 4 then (h, r)
    else (w64 (rotl (N.lxor h (w64 (le_val (take 4 r) * xp1))) 23 * xp2 + xp3), drop 4 r) in
  let h := fold_left xbyte r h in
  let h := w64 (N.lxor h (N.shiftr h 33) * xp2) in
  let h := w64 (N.lxor h (N.shiftr h 29) * xp3) in
  N.lxor h (N.shiftr h 32).
Definition twox128 (l : bytes) : bytes := le_bytes 8 (xxh64 0 l) ++ le_bytes 8 (xxh64 1 l).

(** ** The storage items *)
Inductive pallet := PalTeerex | PalBridge | PalSidechain | PalTeeracle | PalTeerdays | PalClaims | PalAssets.
Inductive item :=
(* teerex/src/lib.rs:224-266 *)
| ISov | IProx | IQe | ITcb | IDebug | ISkip
(* teerex/src/migrations.rs:5-32; the storage version of frame_support *)
| IV0Registry | IV0Count | IV0Index | IV0Debug | IVersion
(* enclave-bridge/src/lib.rs:129-151 *)
| IStatus | IConfig | IExec
(* sidechain/src/lib.rs:83-86 *)
| ILatest
(* teeracle/src/lib.rs:70-104 *)
| IRates | IData | IWhitelist
(* teerdays/src/lib.rs:155-166 *)
| IBonds | IPending
(* claims/src/lib.rs:117-140 *)
| IClaims | ITotal | IVesting | ISigning | IPreclaims
(* asset-registry/src/lib.rs:69-73 *)
| IAssetLoc | IAssetId.
Global Instance pallet_eqdec : EqDecision pallet. Proof. solve_decision. Defined.
Global Instance item_eqdec : EqDecision item. Proof. solve_decision. Defined.
Definition item_pallet (i : item) : pallet :=
  match i with
  | ISov | IProx | IQe | ITcb | IDebug | ISkip | IV0Registry | IV0Count | IV0Index | IV0Debug | IVersion => PalTeerex
  | IStatus | IConfig | IExec => PalBridge
  | ILatest => PalSidechain
  | IRates | IData | IWhitelist => PalTeeracle
  | IBonds | IPending => PalTeerdays
  | IClaims | ITotal | IVesting | ISigning | IPreclaims => PalClaims
  | IAssetLoc | IAssetId => PalAssets
  end.
Definition item_name (i : item) : bytes :=
  bytes_of_string
  match i with
  | ISov => "SovereignEnclaves" | IProx => "ProxiedEnclaves" | IQe => "SgxQuotingEnclaveRegistry"
  | ITcb => "SgxTcbInfo" | IDebug => "SgxAllowDebugMode" | ISkip => "AllowSkippingAttestation"
  | IV0Registry => "EnclaveRegistry" | IV0Count => "EnclaveCount" | IV0Index => "EnclaveIndex"
  | IV0Debug => "AllowSGXDebugMode" | IVersion => ":__STORAGE_VERSION__:"
  | IStatus => "ShardStatus" | IConfig => "ShardConfigRegistry" | IExec => "ExecutedUnshieldCalls"
  | ILatest => "LatestSidechainBlockConfirmation"
  | IRates => "ExchangeRates" | IData => "OracleData" | IWhitelist => "Whitelists"
  | IBonds => "TeerDayBonds" | IPending => "PendingUnlock"
  | IClaims => "Claims" | ITotal => "Total" | IVesting => "Vesting" | ISigning => "Signing" | IPreclaims => "Preclaims"
  | IAssetLoc => "AssetIdLocation" | IAssetId => "AssetLocationId"
  end%string.

(** A storage entry: an item, and for maps the key *)
Inductive skey :=
| KSov (a : acct) | KProx (a : eaddr) | KQe | KTcb (f : bytes) | KDebug | KSkip
| KV0Registry (n : N) | KV0Count | KV0Index (a : acct) | KV0Debug | KVersion
| KStatus (sh : bytes) | KConfig (sh : bytes) | KExec (h : bytes)
| KLatest (sh : bytes)
| KRates (pair src : bytes) | KData (name src : bytes) | KWhitelist (src : bytes)
| KBonds (a : acct) | KPending (a : acct)
| KClaims (e : bytes) | KTotal | KVesting (e : bytes) | KSigning (e : bytes) | KPreclaims (a : acct)
| KAssetLoc (i : N) | KAssetId (l : location).
Definition key_item (k : skey) : item :=
  match k with
  | KSov _ => ISov | KProx _ => IProx | KQe => IQe | KTcb _ => ITcb | KDebug => IDebug | KSkip => ISkip
  | KV0Registry _ => IV0Registry | KV0Count => IV0Count | KV0Index _ => IV0Index | KV0Debug => IV0Debug
  | KVersion => IVersion
  | KStatus _ => IStatus | KConfig _ => IConfig | KExec _ => IExec | KLatest _ => ILatest
  | KRates _ _ => IRates | KData _ _ => IData | KWhitelist _ => IWhitelist
  | KBonds _ => IBonds | KPending _ => IPending
  | KClaims _ => IClaims | KTotal => ITotal | KVesting _ => IVesting | KSigning _ => ISigning
  | KPreclaims _ => IPreclaims | KAssetLoc _ => IAssetLoc | KAssetId _ => IAssetId
  end.

(** teerex/src/migrations.rs:8-17 [EnclaveV0] *)
Definition enclave_v0 : Type := acct * (bytes * (N * (bytes * build_mode))).
Definition c_enclave_v0 : codec enclave_v0 :=
  c_pair c_acct (c_pair (c_arr 32) (c_pair (c_le 8) (c_pair c_bytes c_build_mode))).
(** teerex/src/migrations.rs:42-46 [SgxTcbInfoOnChainV1] *)
Definition c_tcb_info_v1 : codec (N * N) := c_pair (c_le 8) (c_le 8).

(** What the runtime fixes: number types, XCM codecs, pallet names, Blake2_128, the limit for blobs *)
Record layout := mkLayout {
  ly_w : widths;
  ly_xcm : xcm_codecs;
  ly_name : pallet -> bytes;
  ly_blake : bytes -> bytes;
  ly_max_blob : N }.

(** The store of the chain *)
Notation kv := (gmap bytes bytes).

Section WithLayout.
Context (y : layout).

(** The hashed key. [Blake2_128Concat] puts the hash before the encoded key, [Identity] nothing. *)
Definition blake_concat (b : bytes) : bytes := ly_blake y b ++ b.
Definition key_tail (k : skey) : bytes :=
  match k with
  | KSov a | KV0Index a | KBonds a | KPending a => blake_concat (enc c_acct a)
  | KProx a => blake_concat (enc c_eaddr a)
  | KTcb f => blake_concat (enc (c_arr 6) f)
  | KV0Registry n => blake_concat (enc (c_le 8) n)
  | KStatus h | KConfig h | KExec h | KLatest h => blake_concat (enc c_hash h)
  | KRates a b | KData a b => blake_concat (enc c_bytes a) ++ blake_concat (enc c_bytes b)
  | KWhitelist a => blake_concat (enc c_bytes a)
  | KClaims e | KVesting e | KSigning e => enc (c_arr 20) e
  | KPreclaims a => enc c_acct a
  | KAssetLoc i => blake_concat (enc (c_le (w_aid (ly_w y))) i)
  | KAssetId l => blake_concat (enc (c_location (ly_xcm y)) l)
  | KQe | KDebug | KSkip | KV0Count | KV0Debug | KVersion | KTotal => []
  end.
(** the keys of the Rust types *)
Definition key_wt (k : skey) : Prop :=
  match k with
  | KSov a | KV0Index a | KBonds a | KPending a | KPreclaims a => wt c_acct a
  | KProx a => wt c_eaddr a
  | KTcb f => wt (c_arr 6) f
  | KV0Registry n => wt (c_le 8) n
  | KStatus h | KConfig h | KExec h | KLatest h => wt c_hash h
  | KRates a b | KData a b => wt c_bytes a /\ wt c_bytes b
  | KWhitelist a => wt c_bytes a
  | KClaims e | KVesting e | KSigning e => wt (c_arr 20) e
  | KAssetLoc i => wt (c_le (w_aid (ly_w y))) i
  | KAssetId l => wt (c_location (ly_xcm y)) l
  | KQe | KDebug | KSkip | KV0Count | KV0Debug | KVersion | KTotal => True
  end.
Definition item_prefix (i : item) : bytes := twox128 (ly_name y (item_pallet i)) ++ twox128 (item_name i).
Definition raw_key (k : skey) : bytes := item_prefix (key_item k) ++ key_tail k.

(** The values: types and codecs *)
Definition val_of (k : skey) : Type :=
  match k with
  | KSov _ | KProx _ => enclave
  | KQe => qenclave
  | KTcb _ => tcb_info
  | KDebug | KSkip | KV0Debug => bool
  | KV0Registry _ => enclave_v0
  | KV0Count | KV0Index _ | KExec _ | KRates _ _ => N
  | KVersion => N
  | KStatus _ => list sstat
  | KConfig _ => uscfg
  | KLatest _ => sconf
  | KData _ _ => bytes
  | KWhitelist _ => list bytes
  | KBonds _ => bond
  | KPending _ => N * N
  | KClaims _ | KTotal => N
  | KVesting _ => N * N * N
  | KSigning _ => statement
  | KPreclaims _ => bytes
  | KAssetLoc _ => location
  | KAssetId _ => N
  end.
Definition val_codec (k : skey) : codec (val_of k) :=
  match k return codec (val_of k) with
  | KSov _ | KProx _ => c_enclave
  | KQe => c_qenclave
  | KTcb _ => c_tcb_info
  | KDebug | KSkip | KV0Debug => c_bool
  | KV0Registry _ => c_enclave_v0
  | KV0Count | KV0Index _ | KExec _ | KRates _ _ => c_le 8
  | KVersion => c_le 2
  | KStatus _ => c_bvec 10 (c_sstat (ly_w y))
  | KConfig _ => c_uscfg (ly_w y)
  | KLatest _ => c_sconf
  | KData _ _ => c_bvec (ly_max_blob y) (c_le 1)
  | KWhitelist _ => c_vec c_hash
  | KBonds _ => c_bond (ly_w y)
  | KPending _ => c_pending (ly_w y)
  | KClaims _ | KTotal => c_le (w_bal (ly_w y))
  | KVesting _ => c_vesting (ly_w y)
  | KSigning _ => c_statement
  | KPreclaims _ => c_arr 20
  | KAssetLoc _ => c_location (ly_xcm y)
  | KAssetId _ => c_le (w_aid (ly_w y))
  end.
(** what a read of an absent entry gives: [None] for OptionQuery, the default for ValueQuery *)
Definition val_default (k : skey) : option (val_of k) :=
  match k return option (val_of k) with
  | KQe => Some qe_default
  | KDebug | KSkip | KV0Debug => Some false
  | KV0Count | KV0Index _ | KExec _ | KRates _ _ | KVersion | KTotal => Some 0
  | KData _ _ | KWhitelist _ => Some []
  | _ => None
  end.

(** ** Access *)
(** [get]: an entry that cannot be decoded counts as absent; what follows the value is ignored *)
Definition read (k : skey) (d : kv) : option (val_of k) :=
  match d !! raw_key k with
  | None => val_default k
  | Some b => match dec (val_codec k) b with None => val_default k | Some (v, _) => Some v end
  end.
(** [insert]/[put] and [remove]/[kill] *)
Definition write (k : skey) (v : option (val_of k)) (d : kv) : kv :=
  match v with
  | Some x => <[raw_key k := enc (val_codec k) x]> d
  | None => delete (raw_key k) d
  end.
(** [clear(u32::MAX, None)]: remove every key that starts with the prefix of the item *)
Definition starts_with (p b : bytes) : Prop := take (length p) b = p.
Global Instance starts_with_dec p b : Decision (starts_with p b).
Proof. unfold starts_with. apply _. Defined.
Definition clear (i : item) (d : kv) : kv :=
  filter (fun '(k, _) => ~ starts_with (item_prefix i) k) d.

(** ** The state as the model has it *)
(** the runtime state and what the migrations see besides *)
Record disk := mkDisk {
  dk_rt : rt;
  dk_version : N;
  dk_v0_registry : gmap N enclave_v0;
  dk_v0_count : N;
  dk_v0_index : gmap acct N;
  dk_v0_debug : bool }.
Definition entry (k : skey) (x : disk) : option (val_of k) :=
  let s := dk_rt x in
  match k return option (val_of k) with
  | KSov a => tx_sov (rt_tx s) !! a
  | KProx a => tx_prox (rt_tx s) !! a
  | KQe => Some (tx_qe (rt_tx s))
  | KTcb f => tx_tcb (rt_tx s) !! f
  | KDebug => Some (tx_allow_debug (rt_tx s))
  | KSkip => Some (tx_allow_skip (rt_tx s))
  | KV0Registry n => dk_v0_registry x !! n
  | KV0Count => Some (dk_v0_count x)
  | KV0Index a => Some (default 0 (dk_v0_index x !! a))
  | KV0Debug => Some (dk_v0_debug x)
  | KVersion => Some (dk_version x)
  | KStatus h => eb_status (rt_eb s) !! h
  | KConfig h => eb_config (rt_eb s) !! h
  | KExec h => Some (default 0 (eb_exec (rt_eb s) !! h))
  | KLatest h => rt_sc s !! h
  | KRates p a => Some (default 0 (to_rates (rt_to s) !! (p, a)))
  | KData n a => Some (default [] (to_data (rt_to s) !! (n, a)))
  | KWhitelist a => Some (default [] (to_wl (rt_to s) !! a))
  | KBonds a => td_bonds (rt_td s) !! a
  | KPending a => td_pending (rt_td s) !! a
  | KClaims e => cl_claims (rt_cl s) !! e
  | KTotal => Some (cl_total (rt_cl s))
  | KVesting e => cl_vesting (rt_cl s) !! e
  | KSigning e => cl_signing (rt_cl s) !! e
  | KPreclaims a => cl_preclaims (rt_cl s) !! a
  | KAssetLoc i => ar_loc (rt_ar s) !! i
  | KAssetId l => ar_id (rt_ar s) !! l
  end.
(** [d] holds the state [x]: every read gives what the model has *)
Definition holds (d : kv) (x : disk) : Prop := forall k, key_wt k -> read k d = entry k x.
End WithLayout.
