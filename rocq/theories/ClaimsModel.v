(** * Model of pallet claims (claims/src/lib.rs) and primitives/claims. *)
From Coq Require Import String.
From Verif Require Import Base State Env.

(** primitives/claims/src/lib.rs:72-86 [StatementKind::to_text] *)
Definition to_text (k : statement) : bytes :=
  match k with
  | StRegular => bytes_of_string "I hereby agree to the terms of the statement whose SHA-256 multihash is Qmc1XYqT6S39WNp2UeiRUrZichUWUPpGEThDE6dAb3f6Ny. (This may be found at the URL: https://statement.polkadot.network/regular.html)"%string
  | StSaft => bytes_of_string "I hereby agree to the terms of the statement whose SHA-256 multihash is QmXEkMahfhHJPzT3RjkXiZVFi77ZeVeuxtAjhojGRNYckz. (This may be found at the URL: https://statement.polkadot.network/saft.html)"%string
  end.

(** claims/src/lib.rs:434-442 [to_ascii_hex] *)
Definition nibble (n : N) : N := if n <? 10 then 48 + n else 97 - 10 + n.
Definition to_ascii_hex (data : bytes) : bytes :=
  flat_map (fun b => [nibble (b / 16); nibble (b mod 16)]) data.

(** claims/src/lib.rs:448-453: least significant digit first; no digit for 0 *)
Fixpoint rev_digits (fuel : nat) (l : N) : bytes :=
  match fuel with
  | O => []
  | S f => if l =? 0 then [] else (48 + l mod 10) :: rev_digits f (l / 10)
  end.
Definition decimal (l : N) : bytes := rev (rev_digits (N.size_nat l) l).

Section WithCfg.
Context (c : cfg).

(** claims/src/lib.rs:446-460 [ethereum_signable_message] *)
Definition eth_prefix : bytes := 25 :: bytes_of_string "Ethereum Signed Message:"%string ++ [10].
Definition signable_message (what extra : bytes) : bytes :=
  eth_prefix ++ decimal (lenN (c_prefix c) + lenN what + lenN extra) ++ c_prefix c ++ what ++ extra.

(** claims/src/lib.rs:464-470 [eth_recover]; keccak_256 returns 32 bytes, the last 20 are the address *)
Definition eth_recover (sig what extra : bytes) : option bytes :=
  match c_secp c sig (c_keccak c (signable_message what extra)) with
  | Some pk => Some (dropN 12 (c_keccak c pk))
  | None => None
  end.

(** storage access, claims/src/lib.rs:117-140 *)
Definition upd_cl (f : cl_store -> cl_store) (s : rt) : rt := set_cl (f (rt_cl s)) s.

(** claims/src/lib.rs:472-502 [process_claim]; the [expect] of line 489 *)
Definition process_claim (signer : bytes) (dest : acct) : RM unit :=
  let! oc := gets (fun s => cl_claims (rt_cl s) !! signer) in
  let! due := ok_or oc SignerHasNoClaim in
  let! total := gets (fun s => cl_total (rt_cl s)) in
  do! ensure (due <=? total) PotUnderflow in
  let! vesting := gets (fun s => cl_vesting (rt_cl s) !! signer) in
  let! hv := gets (fun s => has_vesting s dest) in
  do! ensure (negb (match vesting with Some _ => hv | None => false end)) VestedBalanceExists in
  do! deposit_creating c dest due in
  do! (match vesting with
       | Some (l, pb, st) =>
           let! ok := add_vesting_schedule dest l pb st in
           if (ok : bool) then ret tt else panic
       | None => ret tt
       end) in
  do! modify (upd_cl (fun k => mkCl (delete signer (cl_claims k)) (total - due)
                                    (delete signer (cl_vesting k)) (delete signer (cl_signing k))
                                    (cl_preclaims k))) in
  deposit_event (EvClaimed dest signer due).

(** claims/src/lib.rs:215-229 [claim] *)
Definition claim (o : origin) (dest : acct) (sig : bytes) : RM unit :=
  do! ensure_none o in
  let! signer := ok_or (eth_recover sig (to_ascii_hex dest) []) InvalidEthereumSignature in
  let! st := gets (fun s => cl_signing (rt_cl s) !! signer) in
  do! ensure (match st with None => true | Some _ => false end) InvalidStatement in
  process_claim signer dest.

(** claims/src/lib.rs:248-266 [mint_claim]; [*t += value] is a plain addition *)
Definition mint_claim (o : origin) (who : bytes) (value : N) (vs : option (N * N * N))
    (st : option statement) : RM unit :=
  do! ensure_root o in
  let! t := gets (fun s => cl_total (rt_cl s)) in
  let! t' := plain_add (c_ovf c) (c_bal_max c) t value in
  modify (upd_cl (fun k =>
    mkCl (<[who := value]> (cl_claims k)) t'
         (match vs with Some v => <[who := v]> (cl_vesting k) | None => cl_vesting k end)
         (match st with Some x => <[who := x]> (cl_signing k) | None => cl_signing k end)
         (cl_preclaims k))).

(** The statement check of claims/src/lib.rs:307-309, 340-342 *)
Definition statement_ok (st : option statement) (text : bytes) : bool :=
  match st with Some k => beq (to_text k) text | None => true end.

(** claims/src/lib.rs:296-312 [claim_attest] *)
Definition claim_attest (o : origin) (dest : acct) (sig text : bytes) : RM unit :=
  do! ensure_none o in
  let! signer := ok_or (eth_recover sig (to_ascii_hex dest) text) InvalidEthereumSignature in
  let! st := gets (fun s => cl_signing (rt_cl s) !! signer) in
  do! ensure (statement_ok st text) InvalidStatement in
  process_claim signer dest.

(** claims/src/lib.rs:337-346 [attest] *)
Definition attest (o : origin) (text : bytes) : RM unit :=
  let! who := ensure_signed o in
  let! op := gets (fun s => cl_preclaims (rt_cl s) !! who) in
  let! signer := ok_or op SenderHasNoClaim in
  let! st := gets (fun s => cl_signing (rt_cl s) !! signer) in
  do! ensure (statement_ok st text) InvalidStatement in
  do! process_claim signer who in
  modify (upd_cl (fun k => mkCl (cl_claims k) (cl_total k) (cl_vesting k) (cl_signing k)
                                (delete who (cl_preclaims k)))).

(** [Map::take(old)] then [insert(new, ..)] if there was a value *)
Definition move_key {A} (old new : bytes) (m : gmap bytes A) : gmap bytes A :=
  match m !! old with Some x => <[new := x]> (delete old m) | None => m end.

(** claims/src/lib.rs:350-378 [move_claim] *)
Definition move_claim (o : origin) (old new : bytes) (pre : option acct) : RM unit :=
  do! ensure (c_move_origin c o || match o with Root => true | _ => false end) BadOrigin in
  modify (upd_cl (fun k =>
    mkCl (move_key old new (cl_claims k)) (cl_total k) (move_key old new (cl_vesting k))
         (move_key old new (cl_signing k))
         (match pre with
          | Some p => match cl_preclaims k !! p with
                      | Some a => if beq a old then <[p := new]> (cl_preclaims k) else cl_preclaims k
                      | None => cl_preclaims k
                      end
          | None => cl_preclaims k
          end))).

End WithCfg.

(** The calls of the pallet, claims/src/lib.rs:187-379 *)
Inductive cl_call :=
| ClClaim (dest : acct) (sig : bytes)
| ClMint (who : bytes) (value : N) (vs : option (N * N * N)) (st : option statement)
| ClClaimAttest (dest : acct) (sig text : bytes)
| ClAttest (text : bytes)
| ClMove (old new : bytes) (pre : option acct).
Definition cl_exec (c : cfg) (o : origin) (x : cl_call) : RM unit :=
  match x with
  | ClClaim d s => claim c o d s
  | ClMint w v vs st => mint_claim c o w v vs st
  | ClClaimAttest d s t => claim_attest c o d s t
  | ClAttest t => attest c o t
  | ClMove a b p => move_claim c o a b p
  end.

(** primitives/claims/src/lib.rs:32-48 [ValidityError]; claims/src/lib.rs:404 [InvalidTransaction::Call] *)
Inductive validity_error := VInvalidSignature | VSignerHasNoClaim | VInvalidStatement | VNotUnsigned.
(** SCALE encoding of ("claims", address), claims/src/lib.rs:425 *)
Definition provides_tag (a : bytes) : bytes := 24 :: bytes_of_string "claims"%string ++ a.
(** claims/src/lib.rs:381-430 [validate_unsigned]: the error or the provides tag *)
Definition validate_unsigned (c : cfg) (s : rt) (x : cl_call) : validity_error + bytes :=
  match (match x with
         | ClClaim d sg => Some (eth_recover c sg (to_ascii_hex d) [], None)
         | ClClaimAttest d sg t => Some (eth_recover c sg (to_ascii_hex d) t, Some t)
         | _ => None
         end) with
  | None => inl VNotUnsigned
  | Some (ms, mt) =>
      match ms with
      | None => inl VInvalidSignature
      | Some signer =>
          match cl_claims (rt_cl s) !! signer with
          | None => inl VSignerHasNoClaim
          | Some _ =>
              if match cl_signing (rt_cl s) !! signer, mt with
                 | None, None => true
                 | None, Some _ => false
                 | Some k, Some t => beq (to_text k) t
                 | Some _, None => false
                 end
              then inr (provides_tag signer) else inl VInvalidStatement
          end
      end
  end.
(** claims/src/lib.rs:577-594 [PrevalidateAttests::validate] for a call of this pallet: [None] = valid *)
Definition prevalidate (s : rt) (who : acct) (x : cl_call) : option validity_error :=
  match x with
  | ClAttest text =>
      match cl_preclaims (rt_cl s) !! who with
      | None => Some VSignerHasNoClaim
      | Some signer =>
          match cl_signing (rt_cl s) !! signer with
          | Some k => if beq text (to_text k) then None else Some VInvalidStatement
          | None => None
          end
      end
  | _ => None
  end.

(** claims/src/lib.rs:142-182 genesis: claims (address, value, pre-claiming account, statement) and
    vesting entries. The total is folded over all listed claims with plain [+]; the sum is kept
    exact here, so theorems about genesis states assume that it fits the balance type. *)
Definition claims_genesis (claims : list (bytes * N * option acct * option statement))
    (vesting : list (bytes * (N * N * N))) : cl_store :=
  mkCl (fold_left (fun m x => <[x.1.1.1 := x.1.1.2]> m) claims ∅)
       (fold_left (fun t x => t + x.1.1.2) claims 0)
       (fold_left (fun m x => <[x.1 := x.2]> m) vesting ∅)
       (fold_left (fun m x => match x.2 with Some k => <[x.1.1.1 := k]> m | None => m end) claims ∅)
       (fold_left (fun m x => match x.1.2 with Some a => <[a := x.1.1.1]> m | None => m end) claims ∅).

(** ** Text form of Ethereum addresses *)
(** primitives/claims/src/lib.rs:94-102 [Serialize]: "0x" and lower-case hex *)
Definition eth_serialize (a : bytes) : bytes := 48 :: 120 :: to_ascii_hex a.
(** rustc-hex 2 [from_hex] (outside /repo): white space is skipped; [None] on another character or
    an odd number of digits. [hi] is the pending high nibble. *)
Definition hex_digit (b : N) : option N :=
  if (48 <=? b) && (b <=? 57) then Some (b - 48)
  else if (65 <=? b) && (b <=? 70) then Some (b - 55)
  else if (97 <=? b) && (b <=? 102) then Some (b - 87)
  else None.
Definition hex_space (b : N) : bool := (b =? 32) || (b =? 13) || (b =? 10) || (b =? 9).
Fixpoint from_hex (s : bytes) (hi : option N) : option bytes :=
  match s with
  | [] => match hi with None => Some [] | Some _ => None end
  | b :: r =>
      match hex_digit b with
      | Some d => match hi with
                  | None => from_hex r (Some d)
                  | Some h => match from_hex r None with Some t => Some (16 * h + d :: t) | None => None end
                  end
      | None => if hex_space b then from_hex r hi else None
      end
  end.
Inductive parsed := PAddress (a : bytes) | PError | PPanic.
(** primitives/claims/src/lib.rs:104-123 [Deserialize]; [copy_from_slice] panics unless 20 bytes *)
Definition eth_deserialize (base : bytes) : parsed :=
  let s := match base with 48 :: 120 :: r => r | _ => base end in
  if negb (lenN s =? 40) then PError else
  match from_hex s None with
  | None => PError
  | Some raw => if lenN raw =? 20 then PAddress raw else PPanic
  end.
