(** * Concrete configuration and values used by the examples and witnesses. *)
From Coq Require Import String.
From Verif Require Import Base State Env TeerdaysModel TeerexBase SgxVerifyModel TeerexModel
  EnclaveBridgeModel SidechainModel TeeracleModel ClaimsModel AssetRegistryModel XcmTransactorModel
  Runtime.

(** A 32-byte account *)
Definition acc (n : N) : acct := replicate 32 n.
Definition alice := acc 1.
Definition bob := acc 2.
Definition carol := acc 3.

(** Permissive oracles: every signature and certificate is valid, nothing parses *)
Definition sgx_permissive : sgx_oracles :=
  mkSgx (fun _ => zeros 32) (fun b => Some b) (fun _ => true) (fun _ _ _ => true) (fun _ _ => true)
        (fun _ _ _ => true) (fun _ _ _ => true) (fun _ _ _ => true) (fun _ => None) (fun _ => None)
        (fun _ => None) (fun _ => None) (fun _ => None).

(** 128-bit balances, 32-bit block numbers; existential deposit and unlock period as given *)
Definition mk_cfg (ovf : bool) (ed unlock : N) : cfg :=
  mkCfg ovf ed 340282366920938463463374607431768211455 u32_max unlock 86400000 172800000 3 64
        (bytes_of_string "Pay TEERs to the account:"%string)
        (fun o => match o with Root => true | _ => false end)
        (fun o => match o with Root => true | _ => false end)
        (fun o => match o with Root => true | _ => false end)
        2267 2039 2039
        (fun b => takeN 32 (b ++ zeros 32))
        (fun sig _ => if lenN sig =? 65 then Some (takeN 64 sig) else None)
        (fun _ => inr (zeros 32))
        sgx_permissive.
(** Overflow checks on, existential deposit 10, unlock period 1000 ms *)
Definition cfg0 : cfg := mk_cfg true 10 1000.
(** Genesis in which the listed accounts hold 1000 each; skipping attestation is allowed *)
Definition gen0 (l : list acct) : genesis :=
  mkGenesis 5000 (list_to_map (map (fun a => (a, 1000)) l)) [] [] false true ∅.
Definition call_td (a : acct) (y : td_call) : op := OCall (Signed a) (CTd y).
(** Registration of a sovereign enclave with the given 32-byte MRENCLAVE, skipping attestation *)
Definition register (a : acct) (mre : bytes) : op := OCall (Signed a) (CTx (TxRegister mre None (MSkip false))).
Definition call_eb (a : acct) (y : eb_call) : op := OCall (Signed a) (CEb y).
Definition call_sc (a : acct) (y : sc_call) : op := OCall (Signed a) (CSc y).
