(** * Model of pallet asset-registry (asset-registry/src/lib.rs) and primitives/xcm. *)
From Verif Require Import Base State.

(** asset-registry/src/lib.rs:150-170 [valid_asset_location]; [split_last_interior] gives the last
    junction and the location without it *)
Definition valid_asset_location (l : location) : bool :=
  match rev (loc_interior l) with
  | [] => true
  | JAccountId32 _ _ :: _ | JAccountKey20 _ _ :: _ | JPalletInstance _ :: _ | JParachain _ :: _ => true
  | JGeneralIndex _ :: JPalletInstance _ :: _ => true
  | _ => false
  end.

(** storage access, asset-registry/src/lib.rs:69-73 *)
Definition upd_ar (f : ar_store -> ar_store) (s : rt) : rt := set_ar (f (rt_ar s)) s.

Section WithCfg.
Context (c : cfg).

(** asset-registry/src/lib.rs:99-125 [register_reserve_asset] *)
Definition register_asset (o : origin) (id : N) (l : location) : RM unit :=
  do! ensure (c_asset_origin c o) BadOrigin in
  let! ex := gets (fun s => ar_assets (rt_ar s) !! id) in
  do! ensure (match ex with Some _ => true | None => false end) AssetDoesNotExist in
  let! old := gets (fun s => ar_loc (rt_ar s) !! id) in
  do! ensure (match old with Some _ => false | None => true end) AssetAlreadyRegistered in
  do! ensure (valid_asset_location l) WrongLocation in
  do! modify (upd_ar (fun a => mkAr (<[id := l]> (ar_loc a)) (<[l := id]> (ar_id a)) (ar_assets a))) in
  deposit_event (EvReserveAssetRegistered id l).

(** asset-registry/src/lib.rs:129-144 [unregister_reserve_asset] *)
Definition unregister_asset (o : origin) (id : N) : RM unit :=
  do! ensure (c_asset_origin c o) BadOrigin in
  let! old := gets (fun s => ar_loc (rt_ar s) !! id) in
  let! l := ok_or old AssetIsNotRegistered in
  do! modify (upd_ar (fun a => mkAr (delete id (ar_loc a)) (delete l (ar_id a)) (ar_assets a))) in
  deposit_event (EvReserveAssetUnregistered id l).

End WithCfg.

(** asset-registry/src/lib.rs:173-181 [AssetLocationGetter]; primitives/xcm/src/lib.rs:38-52
    [AsAssetLocation] passes these on *)
Definition get_asset_location (s : rt) (id : N) : option location := ar_loc (rt_ar s) !! id.
Definition get_asset_id (s : rt) (l : location) : option N := ar_id (rt_ar s) !! l.

Inductive ar_call := ArRegister (id : N) (l : location) | ArUnregister (id : N).
Definition ar_exec (c : cfg) (o : origin) (x : ar_call) : RM unit :=
  match x with
  | ArRegister i l => register_asset c o i l
  | ArUnregister i => unregister_asset c o i
  end.

(** ** primitives/xcm *)
(** XCM v4 asset: id is a location *)
Inductive fungibility := Fungible (n : N) | NonFungible (instance : N).
Inductive match_error := AssetNotHandled | AmountConversionFailed.
(** primitives/xcm/src/lib.rs:70-79 [matches_fungibles]; [conv] is [ConvertBalance::convert_back] *)
Definition matches_fungibles (conv : N -> option N) (s : rt) (id : location) (f : fungibility)
  : match_error + (N * N) :=
  match f with
  | NonFungible _ => inl AssetNotHandled
  | Fungible n =>
      match get_asset_id s id with
      | None => inl AssetNotHandled
      | Some a => match conv n with None => inl AmountConversionFailed | Some b => inr (a, b) end
      end
  end.

(** [Weight]: (ref time, proof size), saturating at u64 *)
Definition weight : Type := N * N.
Definition w_add (a b : weight) : weight := (sat_add u64_max a.1 b.1, sat_add u64_max a.2 b.2).
(** [AssetsInHolding]: fungibles in key order, non-fungibles *)
Record holding := mkHolding { h_fun : list (location * N); h_non : list (location * N) }.
(** The type parameters of [IntegriteeDropAssets] (primitives/xcm/src/lib.rs:87-105): weights,
    maximal balance of the assets pallet, and the trap of the XCM pallet *)
Record drop_env := mkDropEnv {
  de_fungible : weight; de_native : weight; de_default : weight;
  de_asset_max : N; de_trap : holding -> weight }.
(** [Location { parents: 0, interior: Here }], primitives/xcm/src/lib.rs:128 *)
Definition native_location : location := mkLoc 0 [].
(** pallet-assets [minimum_balance]: 0 for an unknown asset *)
Definition asset_min (s : rt) (id : N) : N := default 0 (ar_assets (rt_ar s) !! id).
(** The closure of [retain], primitives/xcm/src/lib.rs:135-157: keep? and weight added *)
Definition drop_one (c : cfg) (e : drop_env) (s : rt) (x : location * N) : bool * weight :=
  match get_asset_id s x.1 with
  | Some id => (asset_min s id <=? N.min x.2 (de_asset_max e), de_fungible e)
  | None => (bool_decide (x.1 = native_location) && (c_ed c <=? N.min x.2 (c_bal_max c)), de_native e)
  end.
Fixpoint drop_loop (c : cfg) (e : drop_env) (s : rt) (l : list (location * N)) (w : weight)
  : list (location * N) * weight :=
  match l with
  | [] => ([], w)
  | x :: r =>
      let '(keep, wx) := drop_one c e s x in
      let '(r', w') := drop_loop c e s r (w_add w wx) in
      ((if keep then x :: r' else r'), w')
  end.
(** primitives/xcm/src/lib.rs:127-162 [drop_assets]: what is handed to the trap, and the weight *)
Definition drop_assets (c : cfg) (e : drop_env) (s : rt) (h : holding) : holding * weight :=
  let '(f, w) := drop_loop c e s (h_fun h) (de_default e) in
  let h' := mkHolding f [] in
  (h', w_add w (de_trap e h')).
