(** * Model of pallet sidechain (sidechain/src/lib.rs). *)
From Verif Require Import Base State Env TeerexBase EnclaveBridgeModel.

(** sidechain/src/lib.rs:141-161 [finalize_block] *)
Definition finalize_block (shard : bytes) (x : sconf) (sender : acct) : RM unit :=
  do! modify (fun s => set_sc (<[shard := x]> (rt_sc s)) s) in
  deposit_event (EvFinalizedSidechainBlock shard (sn_number x) (sn_hash x) sender).

(** sidechain/src/lib.rs:93-136 [confirm_imported_sidechain_block]; [shard_status[0]] (110) panics on
    an empty status *)
Definition confirm_sidechain (o : origin) (shard : bytes) (ancestor : option sconf) (cand : sconf) : RM unit :=
  let! sender := ensure_signed o in
  let! blk := gets rt_blk in
  let! es := get_enclave_and_touch sender shard blk in
  match es.2 with
  | [] => panic
  | first :: _ =>
      if negb (beq sender (ss_signer first)) then ret tt else
      let! known := gets (fun s => rt_sc s !! shard) in
      do! (match known with
           | None => ret tt
           | Some k =>
               let! p := ok_or ancestor AncestorMissing in
               do! ensure (sn_number k <? sn_number cand) FinalizationCandidateIsOutdated in
               do! ensure (sn_number k =? sn_number p) AncestorNumberMismatch in
               ensure (beq (sn_hash k) (sn_hash p)) AncestorHashMismatch
           end) in
      finalize_block shard cand sender
  end.

(** The only call of the pallet *)
Inductive sc_call := ScConfirm (shard : bytes) (ancestor : option sconf) (cand : sconf).
Definition sc_exec (o : origin) (x : sc_call) : RM unit :=
  match x with ScConfirm sh a k => confirm_sidechain o sh a k end.
