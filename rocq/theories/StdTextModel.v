(** * Text in builds with the standard library
    primitives/common/src/lib.rs:30-36: [PalletString] is [Vec<u8>] in the runtime (no_std, the wasm blob)
    and [String] in every build with the standard library: a native runtime, and clients that use the
    types of the workspace. The two have the same encoding; but decoding a [String]
    (parity-scale-codec, outside /repo) decodes a [Vec<u8>] and refuses it unless it is UTF-8.
    Only teeracle uses the type (primitives/teeracle/src/lib.rs:9-12). Lengths are counted in bytes in both
    ([String::len], primitives/common/src/lib.rs:42-55 [as_bytes_or_noop] for the strings themselves). *)
From Coq Require Import String.
From Verif Require Import Base State TeerdaysModel TeerexBase SgxVerifyModel TeerexModel TextModel
  EnclaveBridgeModel SidechainModel TeeracleModel ClaimsModel AssetRegistryModel XcmTransactorModel
  MigrationsModel Runtime ScaleModel StorageModel EncodingProps EventModel.

(** [String] *)
Definition c_string : codec bytes :=
  mkCodec bytes (enc c_bytes)
    (fun l => match dec c_bytes l with
              | None => None
              | Some (b, r) => if utf8_valid b then Some (b, r) else None
              end)
    (fun b => wt c_bytes b /\ utf8_valid b = true).
(** teeracle/src/lib.rs:148-226, as [ScaleModel.c_to_call] *)
Definition c_to_call_std (mx : N) : codec to_call :=
  c_case 0 (c_pair c_string c_hash) (fun p => ToAdd p.1 p.2)
    (fun x => match x with ToAdd a b => Some (a, b) | _ => None end)
 (c_case 1 (c_pair c_string c_hash) (fun p => ToRemove p.1 p.2)
    (fun x => match x with ToRemove a b => Some (a, b) | _ => None end)
 (c_case 2 (c_pair c_string (c_pair c_string (c_bvec mx (c_le 1)))) (fun '(n, (a, b)) => ToUpdateOracle n a b)
    (fun x => match x with ToUpdateOracle n a b => Some (n, (a, b)) | _ => None end)
 (c_case 3 (c_pair c_string (c_pair c_string (c_opt (c_le 8)))) (fun '(a, (p, v)) => ToUpdateRate a p v)
    (fun x => match x with ToUpdateRate a p v => Some (a, (p, v)) | _ => None end) c_void))).
(** all calls, as [EncodingProps.c_call] *)
Definition c_call_std (y : layout) (ix : N -> N) : codec call :=
  c_case (ix 0) (c_td_call (ly_w y)) CTd (fun k => match k with CTd x => Some x | _ => None end)
 (c_case (ix 1) (c_eb_call (ly_w y)) CEb (fun k => match k with CEb x => Some x | _ => None end)
 (c_case (ix 2) c_sc_call CSc (fun k => match k with CSc x => Some x | _ => None end)
 (c_case (ix 3) (c_to_call_std (ly_max_blob y)) CTo (fun k => match k with CTo x => Some x | _ => None end)
 (c_case (ix 4) c_tx_call CTx (fun k => match k with CTx x => Some x | _ => None end)
 (c_case (ix 5) (c_cl_call (ly_w y)) CCl (fun k => match k with CCl x => Some x | _ => None end)
 (c_case (ix 6) (c_ar_call (ly_w y) (ly_xcm y)) CAr (fun k => match k with CAr x => Some x | _ => None end)
 (c_case (ix 7) c_xt_call CXt (fun k => match k with CXt x => Some x | _ => None end) c_void))))))).
(** teeracle/src/lib.rs:106-123, as [EventModel.c_to_event] *)
Definition c_to_event_std : codec to_event :=
  c_case 0 (c_pair c_string (c_pair c_string (c_le 8))) (fun '(s, (p, r)) => WExchangeRateUpdated s p r)
    (fun x => match x with WExchangeRateUpdated s p r => Some (s, (p, r)) | _ => None end)
 (c_case 1 (c_pair c_string c_string) (fun p => WExchangeRateDeleted p.1 p.2)
    (fun x => match x with WExchangeRateDeleted s p => Some (s, p) | _ => None end)
 (c_case 2 (c_pair c_string c_string) (fun p => WOracleUpdated p.1 p.2)
    (fun x => match x with WOracleUpdated n s => Some (n, s) | _ => None end)
 (c_case 3 (c_pair c_string c_hash) (fun p => WAddedToWhitelist p.1 p.2)
    (fun x => match x with WAddedToWhitelist s f => Some (s, f) | _ => None end)
 (c_case 4 (c_pair c_string c_hash) (fun p => WRemovedFromWhitelist p.1 p.2)
    (fun x => match x with WRemovedFromWhitelist s f => Some (s, f) | _ => None end) c_void)))).
Definition c_wire_std (y : layout) (ix : N -> N) : codec wire_event :=
  c_case (ix 0) (c_td_event (ly_w y)) WTd (fun k => match k with WTd x => Some x | _ => None end)
 (c_case (ix 1) (c_eb_event (ly_w y)) WEb (fun k => match k with WEb x => Some x | _ => None end)
 (c_case (ix 2) c_sc_event WSc (fun k => match k with WSc x => Some x | _ => None end)
 (c_case (ix 3) c_to_event_std WTo (fun k => match k with WTo x => Some x | _ => None end)
 (c_case (ix 4) c_tx_event WTx (fun k => match k with WTx x => Some x | _ => None end)
 (c_case (ix 5) (c_cl_event (ly_w y)) WCl (fun k => match k with WCl x => Some x | _ => None end)
 (c_case (ix 6) (c_ar_event (ly_w y) (ly_xcm y)) WAr (fun k => match k with WAr x => Some x | _ => None end)
 (c_case (ix 7) c_xt_event WXt (fun k => match k with WXt x => Some x | _ => None end) c_void))))))).
Definition c_record_std (y : layout) (ix : N -> N) : codec (phase * (wire_event * list bytes)) :=
  c_pair c_phase (c_pair (c_wire_std y ix) (c_vec c_hash)).
