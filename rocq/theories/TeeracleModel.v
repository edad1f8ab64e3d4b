(** * Model of pallet teeracle (teeracle/src/lib.rs). *)
From Verif Require Import Base State TeerexBase.

(** teeracle/src/lib.rs:40-41; primitives/teeracle/src/lib.rs [MAX_ORACLE_DATA_NAME_LEN] *)
Definition max_pair_len : N := 11.
Definition max_source_len : N := 40.
Definition max_name_len : N := 40.

(** storage access, teeracle/src/lib.rs:70-104 *)
Definition put_rate (k : bytes * bytes) (v : option N) (s : rt) : rt :=
  let t := rt_to s in
  set_to (mkTo (match v with Some r => <[k := r]> (to_rates t) | None => delete k (to_rates t) end)
               (to_data t) (to_wl t)) s.
Definition put_data (k : bytes * bytes) (v : bytes) (s : rt) : rt :=
  let t := rt_to s in set_to (mkTo (to_rates t) (<[k := v]> (to_data t)) (to_wl t)) s.
Definition put_wl (src : bytes) (l : list bytes) (s : rt) : rt :=
  let t := rt_to s in set_to (mkTo (to_rates t) (to_data t) (<[src := l]> (to_wl t))) s.
Definition whitelist (s : rt) (src : bytes) : list bytes := default [] (to_wl (rt_to s) !! src).

(** teeracle/src/lib.rs:258-262 [is_whitelisted] *)
Definition is_whitelisted (src fp : bytes) (s : rt) : bool := bool_decide (fp ∈ whitelist s src).

Section WithCfg.
Context (c : cfg).

(** teeracle/src/lib.rs:150-167 [add_to_whitelist]; [WeakBoundedVec::try_push] *)
Definition add_to_whitelist (o : origin) (src fp : bytes) : RM unit :=
  do! ensure_root o in
  do! ensure (lenN src <=? max_source_len) DataSourceStringTooLong in
  let! w := gets (is_whitelisted src fp) in
  do! ensure (negb w) FingerprintAlreadyWhitelisted in
  let! l := gets (fun s => whitelist s src) in
  do! ensure (lenN l <? c_max_wl c) FingerprintWhitelistOverflow in
  do! modify (put_wl src (l ++ [fp])) in
  deposit_event (EvAddedToWhitelist src fp).

(** teeracle/src/lib.rs:170-185 [remove_from_whitelist] *)
Definition remove_from_whitelist (o : origin) (src fp : bytes) : RM unit :=
  do! ensure_root o in
  let! w := gets (is_whitelisted src fp) in
  do! ensure w FingerprintNotWhitelisted in
  let! l := gets (fun s => whitelist s src) in
  do! modify (put_wl src (filter (fun m => m <> fp) l)) in
  deposit_event (EvRemovedFromWhitelist src fp).

(** teeracle/src/lib.rs:189-216 [update_oracle] *)
Definition update_oracle (o : origin) (name src blob : bytes) : RM unit :=
  let! sender := ensure_signed o in
  let! e := get_sovereign_enclave sender in
  let! w := gets (is_whitelisted src (fingerprint e)) in
  do! ensure w FingerprintNotWhitelisted in
  do! ensure (lenN name <=? max_name_len) OracleDataNameStringTooLong in
  do! ensure (lenN src <=? max_source_len) DataSourceStringTooLong in
  do! ensure (lenN blob <=? c_max_blob c) OracleBlobTooBig in
  do! modify (put_data (name, src) blob) in
  deposit_event (EvOracleUpdated name src).

(** teeracle/src/lib.rs:220-255 [update_exchange_rate] *)
Definition update_exchange_rate (o : origin) (src pair : bytes) (v : option N) : RM unit :=
  let! sender := ensure_signed o in
  let! e := get_sovereign_enclave sender in
  do! ensure (lenN pair <=? max_pair_len) TradingPairStringTooLong in
  let! w := gets (is_whitelisted src (fingerprint e)) in
  do! ensure w FingerprintNotWhitelisted in
  match v with
  | None | Some 0 =>
      do! modify (put_rate (pair, src) None) in
      deposit_event (EvExchangeRateDeleted src pair)
  | Some r =>
      do! modify (put_rate (pair, src) (Some r)) in
      deposit_event (EvExchangeRateUpdated src pair r)
  end.

End WithCfg.

(** The getter [exchange_rate] (ValueQuery, teeracle/src/lib.rs:72): 0 when absent *)
Definition exchange_rate (s : rt) (pair src : bytes) : N := default 0 (to_rates (rt_to s) !! (pair, src)).

(** The calls of the pallet *)
Inductive to_call :=
| ToAdd (src fp : bytes) | ToRemove (src fp : bytes)
| ToUpdateOracle (name src blob : bytes)
| ToUpdateRate (src pair : bytes) (v : option N).
Definition to_exec (c : cfg) (o : origin) (x : to_call) : RM unit :=
  match x with
  | ToAdd a b => add_to_whitelist c o a b
  | ToRemove a b => remove_from_whitelist o a b
  | ToUpdateOracle n a b => update_oracle c o n a b
  | ToUpdateRate a p v => update_exchange_rate o a p v
  end.
