(** * The part of pallet teerex other pallets use. *)
From Verif Require Import Base State.

(** primitives/teerex/src/lib.rs:151-155 [MultiEnclave::fingerprint] *)
Definition fingerprint (e : enclave) : bytes := en_mr_enclave e.
(** teerex/src/lib.rs:579-583 [get_sovereign_enclave] *)
Definition get_sovereign_enclave (a : acct) : RM enclave :=
  let! oe := gets (fun s => tx_sov (rt_tx s) !! a) in
  ok_or oe EnclaveIsNotRegistered.
