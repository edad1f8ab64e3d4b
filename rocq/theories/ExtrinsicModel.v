(** * Extrinsics: how calls get into blocks.

    The histories of Runtime.v let any origin make any call. On a chain, calls arrive as extrinsics:
    unsigned ones only if the [ValidateUnsigned] of their pallet accepts them, signed ones only if the
    signed extensions do, and then for a fee. This file adds that layer. *)
From Verif Require Import Base State Env TeerdaysModel TeerexBase SgxVerifyModel TeerexModel
  EnclaveBridgeModel SidechainModel TeeracleModel ClaimsModel AssetRegistryModel XcmTransactorModel
  Runtime WeightsModel.

(** What happens on a chain, one after the other *)
Inductive item :=
| IUnsigned (k : call)                        (* an unsigned extrinsic *)
| ISigned (a : acct) (k : call) (fee : N)     (* a signed extrinsic and the fee its weight and length come to *)
| IInner (o : origin) (k : call)              (* a call made by another pallet: governance, sudo, batch, proxy *)
| IEnv (x : op).                              (* anything else the runtime does, see [op] *)

(** pallet-transaction-payment (outside /repo): the fee is withdrawn before the call, keeping the
    sender alive *)
Definition charge (c : cfg) (a : acct) (fee : N) (s : rt) : option rt :=
  if fee =? 0 then Some s else
  if c_ed c <=? free s a - fee then
    match run_call (withdraw c a fee) s with (Success, s') => Some s' | _ => None end
  else None.
(** … and given back afterwards if it turns out not to be due, to an account that still exists *)
Definition refund (c : cfg) (a : acct) (fee : N) (s : rt) : rt :=
  if free s a =? 0 then s else (run_call (deposit_creating c a fee) s).2.

(** [None]: the extrinsic cannot be part of a block. A call that panics aborts the block and is
    dropped by its author.
    - Unsigned: the default [ValidateUnsigned::pre_dispatch] asks [validate_unsigned] again
      (claims/src/lib.rs:381-430); the other pallets have no [ValidateUnsigned], so the runtime
      refuses unsigned calls of them.
    - Signed: [PrevalidateAttests::pre_dispatch] (claims/src/lib.rs:564-572) is its [validate].
    Not modelled: nonces, eras, tips, and limits on weight and length. *)
Definition apply_unsigned (c : cfg) (k : call) (s : rt) : option (status * rt) :=
  match k with
  | CCl x =>
      match validate_unsigned c s x with
      | inl _ => None
      | inr _ => match dispatch c NoneO k s with (Panicked, _) => None | r => Some r end
      end
  | _ => None
  end.
Definition apply_signed (c : cfg) (a : acct) (k : call) (fee : N) (s : rt) : option (status * rt) :=
  if admitted s a k then
    let due := if declared_pays k then fee else 0 in
    match charge c a due s with
    | None => None
    | Some s1 =>
        match dispatch c (Signed a) k s1 with
        | (Panicked, _) => None
        | (st, s2) => Some (st, if post_pays k st then s2 else refund c a due s2)
        end
    end
  else None.

Definition next (c : cfg) (s : rt) (i : item) : rt :=
  match i with
  | IUnsigned k => match apply_unsigned c k s with Some r => r.2 | None => s end
  | ISigned a k fee => match apply_signed c a k fee s with Some r => r.2 | None => s end
  | IInner NoneO _ => s          (* other pallets do not hand out the origin None *)
  | IInner o k => step c s (OCall o k)
  | IEnv (OCall _ _) => s
  | IEnv x => step c s x
  end.
Definition chain (c : cfg) (s : rt) (l : list item) : rt := fold_left (next c) l s.
