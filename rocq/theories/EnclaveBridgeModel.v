(** * Model of pallet enclave-bridge (enclave-bridge/src/lib.rs) and primitives/enclave-bridge. *)
From Verif Require Import Base State Env TeerexBase.

(** storage access, enclave-bridge/src/lib.rs:129-151 *)
Definition put_status (sh : bytes) (l : list sstat) (s : rt) : rt :=
  set_eb (mkEb (<[sh := l]> (eb_status (rt_eb s))) (eb_config (rt_eb s)) (eb_exec (rt_eb s))) s.
Definition put_config (sh : bytes) (u : uscfg) (s : rt) : rt :=
  set_eb (mkEb (eb_status (rt_eb s)) (<[sh := u]> (eb_config (rt_eb s))) (eb_exec (rt_eb s))) s.
Definition put_exec (h : bytes) (n : N) (s : rt) : rt :=
  set_eb (mkEb (eb_status (rt_eb s)) (eb_config (rt_eb s)) (<[h := n]> (eb_exec (rt_eb s)))) s.

(** enclave-bridge/src/lib.rs:48-51; primitives/enclave-bridge/src/lib.rs:39 *)
Definition topics_limit : N := 5.
Definition data_length_limit : N := 100.
Definition max_signers : N := 10.

(** primitives/enclave-bridge/src/lib.rs:53-62 [ShardConfig::new] *)
Definition new_scfg (fp : bytes) : scfg := mkScfg fp None None false.
(** primitives/enclave-bridge/src/lib.rs:74-83 [From<ShardConfig> for UpgradableShardConfig] *)
Definition from_scfg (x : scfg) : uscfg := mkUscfg x None None.
(** primitives/enclave-bridge/src/lib.rs:86-95 [with_pending_upgrade] *)
Definition with_pending (u : uscfg) (x : scfg) (at_ : N) : uscfg := mkUscfg (uc_active u) (Some x) (Some at_).

(** The account that holds a shard's funds: the shard identifier itself read as an account id
    (enclave-bridge/src/lib.rs:213-214, 245-246) *)
Definition vault (shard : bytes) : acct := shard.

(** enclave-bridge/src/lib.rs:464-477: replace the first entry of the signer or append *)
Fixpoint touch_list (x : sstat) (l : list sstat) : list sstat :=
  match l with
  | [] => [x]
  | y :: r => if beq (ss_signer y) (ss_signer x) then x :: r else y :: touch_list x r
  end.
(** enclave-bridge/src/lib.rs:456-490 [touch_shard] *)
Definition touch_shard (shard : bytes) (signer : acct) (fp : bytes) (blk : N) : RM (list sstat) :=
  let x := mkSstat signer fp blk in
  let! ol := gets (fun s => eb_status (rt_eb s) !! shard) in
  let l := match ol with Some l => touch_list x l | None => [x] end in
  do! ensure (lenN l <=? max_signers) TooManyEnclaves in
  do! modify (put_status shard l) in
  ret l.

(** enclave-bridge/src/lib.rs:432-453 [get_maybe_updated_shard_config] *)
Definition get_config (shard : bytes) (blk : N) (apply : bool) : RM (option scfg) :=
  let! oc := gets (fun s => eb_config (rt_eb s) !! shard) in
  match oc with
  | None => ret None
  | Some cur =>
      match uc_at cur with
      | Some at_ =>
          if at_ <=? blk then
            match uc_pending cur with
            | Some due =>
                do! (if apply then modify (put_config shard (from_scfg due)) else ret tt) in
                ret (Some due)
            | None => ret (Some (uc_active cur))
            end
          else ret (Some (uc_active cur))
      | None => ret (Some (uc_active cur))
      end
  end.

(** enclave-bridge/src/lib.rs:414-430 [get_sovereign_enclave_and_touch_shard] *)
Definition get_enclave_and_touch (signer : acct) (shard : bytes) (blk : N) : RM (enclave * list sstat) :=
  let! e := get_sovereign_enclave signer in
  let! oc := get_config shard blk true in
  let cfg0 := match oc with Some x => x | None => new_scfg shard end in
  do! ensure (beq (fingerprint e) (sc_fp cfg0)) WrongFingerprintForShard in
  let! l := touch_shard shard signer (fingerprint e) blk in
  ret (e, l).

(** enclave-bridge/src/lib.rs:492-499 [most_recent_shard_update]: stable sort by activity, last *)
Fixpoint insert_by (x : sstat) (l : list sstat) : list sstat :=
  match l with
  | [] => [x]
  | y :: r => if ss_last y <=? ss_last x then y :: insert_by x r else x :: l
  end.
Definition sort_by_activity (l : list sstat) : list sstat := fold_left (fun acc x => insert_by x acc) l [].
Definition most_recent (s : rt) (shard : bytes) : option sstat :=
  match eb_status (rt_eb s) !! shard with
  | Some l => list.last (sort_by_activity l)
  | None => None
  end.

Section WithCfg.
Context (c : cfg).

(** enclave-bridge/src/lib.rs:162-167 [invoke] *)
Definition invoke (o : origin) (shard cyphertext : bytes) : RM unit :=
  let! _sender := ensure_signed o in
  deposit_event (EvIndirectInvocationRegistered shard).

(** enclave-bridge/src/lib.rs:172-199 [confirm_processed_parentchain_block] *)
Definition confirm_processed (o : origin) (shard hash : bytes) (number : N) (root : bytes) : RM unit :=
  let! sender := ensure_signed o in
  let! blk := gets rt_blk in
  let! _ := get_enclave_and_touch sender shard blk in
  deposit_event (EvProcessedParentchainBlock shard hash root number).

(** enclave-bridge/src/lib.rs:206-227 [shield_funds] *)
Definition shield_funds (o : origin) (shard benef : bytes) (amount : N) : RM unit :=
  let! sender := ensure_signed o in
  do! transfer c sender (vault shard) amount in
  deposit_event (EvShieldFunds shard benef amount).

(** enclave-bridge/src/lib.rs:232-267 [unshield_funds]; [+= 1] on a u64 (265) *)
Definition unshield_funds (o : origin) (shard : bytes) (benef : acct) (amount : N) (call_hash : bytes) : RM unit :=
  let! sender := ensure_signed o in
  let! blk := gets rt_blk in
  let! _ := get_enclave_and_touch sender shard blk in
  let! done_ := gets (fun s => eb_exec (rt_eb s) !! call_hash) in
  do! (match done_ with
       | None =>
           do! transfer c (vault shard) benef amount in
           do! modify (put_exec call_hash 0) in
           deposit_event (EvUnshieldedFunds shard benef amount)
       | Some _ => ret tt
       end) in
  let! n := gets (fun s => default 0 (eb_exec (rt_eb s) !! call_hash)) in
  let! n1 := plain_add (c_ovf c) u64_max n 1 in
  modify (put_exec call_hash n1).

(** enclave-bridge/src/lib.rs:282-309 [publish_hash] *)
Definition publish_hash (o : origin) (hash : bytes) (topics : list bytes) (data : bytes) : RM unit :=
  let! sender := ensure_signed o in
  let! e := get_sovereign_enclave sender in
  let! blk := gets rt_blk in
  let! _ := touch_shard (fingerprint e) sender (fingerprint e) blk in
  do! ensure (lenN topics <=? topics_limit) TooManyTopics in
  do! ensure (lenN data <=? data_length_limit) DataTooLong in
  deposit_event (EvPublishedHash (topics ++ [fingerprint e]) (fingerprint e) hash data).

(** enclave-bridge/src/lib.rs:317-374 [update_shard_config] *)
Definition update_shard_config (o : origin) (shard : bytes) (new : scfg) (delay : N) : RM unit :=
  let! maybe := ensure_signed_or_root o in
  let! blk := gets rt_blk in
  let! oc := get_config shard blk false in
  let! u := (match oc with
             | Some old =>
                 do! (match maybe with
                      | Some sender =>
                          let! e := get_sovereign_enclave sender in
                          do! ensure (beq (sc_fp old) (fingerprint e)) WrongFingerprintForShard in
                          let! _ := touch_shard shard sender (fingerprint e) blk in ret tt
                      | None => ret tt
                      end) in
                 ret (with_pending (from_scfg old) new (sat_add (c_blk_max c) blk delay))
             | None =>
                 do! (match maybe with
                      | Some sender =>
                          let! e := get_sovereign_enclave sender in
                          let! _ := touch_shard shard sender (fingerprint e) blk in ret tt
                      | None => ret tt
                      end) in
                 ret (from_scfg new)
             end) in
  do! modify (put_config shard u) in
  deposit_event (EvShardConfigUpdated shard).

(** enclave-bridge/src/lib.rs:379-408 [purge_enclave_from_shard_status]; the [expect] of line 393 *)
Definition purge (o : origin) (shard : bytes) (subject : acct) : RM unit :=
  do! ensure_root o in
  let! ol := gets (fun s => eb_status (rt_eb s) !! shard) in
  let! l := ok_or ol ShardNotFound in
  let l' := filter (fun x => ss_signer x <> subject) l in
  do! (if lenN l' <=? max_signers then ret tt else panic) in
  do! modify (put_status shard l') in
  deposit_event (EvPurgedEnclave shard subject).

End WithCfg.

(** The calls of the pallet, enclave-bridge/src/lib.rs:153-409 *)
Inductive eb_call :=
| EbInvoke (shard cyphertext : bytes)
| EbConfirm (shard hash : bytes) (number : N) (root : bytes)
| EbShield (shard benef : bytes) (amount : N)
| EbUnshield (shard : bytes) (benef : acct) (amount : N) (call_hash : bytes)
| EbPublish (hash : bytes) (topics : list bytes) (data : bytes)
| EbUpdateConfig (shard : bytes) (new : scfg) (delay : N)
| EbPurge (shard : bytes) (subject : acct).
Definition eb_exec_call (c : cfg) (o : origin) (x : eb_call) : RM unit :=
  match x with
  | EbInvoke sh cy => invoke o sh cy
  | EbConfirm sh h n r => confirm_processed o sh h n r
  | EbShield sh b a => shield_funds c o sh b a
  | EbUnshield sh b a h => unshield_funds c o sh b a h
  | EbPublish h t d => publish_hash o h t d
  | EbUpdateConfig sh n d => update_shard_config c o sh n d
  | EbPurge sh a => purge o sh a
  end.
