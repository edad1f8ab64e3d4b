(** * Env: the parts of the surrounding Substrate runtime the pallets call.

    Source of truth is pallet-balances 37.0.0 and pallet-vesting 36.0.0 (versions of
    /repo/Cargo.lock); these crates are not in /repo. Modelled from their documented behaviour. *)
From Verif Require Import Base State.

(** [Currency::free_balance] *)
Definition free (s : rt) (a : acct) : N := default 0 (b_free (rt_bal s) !! a).
(** The locks of an account *)
Definition locks_of (s : rt) (a : acct) : list (lock_id * N) := default [] (b_locks (rt_bal s) !! a).
(** [InspectLockableCurrency::balance_locked(id, who)]: sum of the amounts of the locks with this id *)
Definition lock_amount (id : lock_id) (l : list (lock_id * N)) : N :=
  foldr (fun x acc => if decide (x.1 = id) then x.2 + acc else acc) 0 l.
Definition locked (s : rt) (id : lock_id) (a : acct) : N := lock_amount id (locks_of s a).
(** [AccountData::frozen]: the largest lock *)
Definition max_lock (l : list (lock_id * N)) : N := foldr (fun x acc => N.max x.2 acc) 0 l.
Definition frozen (s : rt) (a : acct) : N := max_lock (locks_of s a).

Definition put_free (a : acct) (v : N) (s : rt) : rt :=
  set_bal (mkBal (if v =? 0 then delete a (b_free (rt_bal s)) else <[a := v]> (b_free (rt_bal s)))
                 (b_locks (rt_bal s))) s.
Definition put_locks (a : acct) (l : list (lock_id * N)) (s : rt) : rt :=
  set_bal (mkBal (b_free (rt_bal s)) (<[a := l]> (b_locks (rt_bal s)))) s.

(** [LockableCurrency::set_lock]: amount 0 is ignored; an existing lock with the same id is
    replaced in place (a second one dropped), otherwise the lock is appended. *)
Fixpoint replace_lock (id : lock_id) (v : option N) (l : list (lock_id * N)) : list (lock_id * N) :=
  match l with
  | [] => match v with Some x => [(id, x)] | None => [] end
  | (i, x) :: r =>
      if decide (i = id) then
        match v with Some y => (id, y) :: replace_lock id None r | None => replace_lock id None r end
      else (i, x) :: replace_lock id v r
  end.
Definition set_lock (id : lock_id) (a : acct) (v : N) : RM unit :=
  modify (fun s => if v =? 0 then s else put_locks a (replace_lock id (Some v) (locks_of s a)) s).
(** [LockableCurrency::remove_lock] *)
Definition remove_lock (id : lock_id) (a : acct) : RM unit :=
  modify (fun s => put_locks a (filter (fun x => x.1 <> id) (locks_of s a)) s).

(** Balance that [a] may spend with AllowDeath: free minus the frozen amount; with any lock in
    place the account must also keep the existential deposit (its consumer reference). *)
Definition untouchable (c : cfg) (s : rt) (a : acct) : N :=
  if frozen s a =? 0 then 0 else N.max (frozen s a) (c_ed c).
Definition spendable (c : cfg) (s : rt) (a : acct) : N := free s a - untouchable c s a.

(** Write a reduced balance; what is left below the existential deposit is dust and lost. *)
Definition reap (c : cfg) (a : acct) (v : N) : RM unit :=
  if v <? c_ed c then
    do! modify (put_free a 0) in
    if v =? 0 then ret tt else deposit_event (EvDust a v)
  else modify (put_free a v).

(** [Currency::transfer(.., AllowDeath)] *)
Definition transfer (c : cfg) (src dst : acct) (v : N) : RM unit :=
  if (v =? 0) || beq src dst then ret tt else
  let! fs := gets (fun s => free s src) in
  let! sp := gets (fun s => spendable c s src) in
  let! fd := gets (fun s => free s dst) in
  do! ensure (v <=? fs) FundsUnavailable in
  do! ensure (v <=? sp) Frozen in
  do! ensure (fd + v <=? c_bal_max c) ArithmeticOverflow in
  do! ensure (c_ed c <=? fd + v) BelowMinimum in
  do! reap c src (fs - v) in
  do! modify (put_free dst (fd + v)) in
  deposit_event (EvTransfer src dst v).

(** [Currency::deposit_creating]: does nothing for value 0, on overflow, or when the account does
    not exist and the value is below the existential deposit. *)
Definition deposit_creating (c : cfg) (a : acct) (v : N) : RM unit :=
  if v =? 0 then ret tt else
  let! f := gets (fun s => free s a) in
  if (f =? 0) && (v <? c_ed c) then ret tt
  else if c_bal_max c <? f + v then ret tt
  else do! modify (put_free a (f + v)) in deposit_event (EvDeposit a v).

(** Withdrawal of a fee or burn by the runtime: only what is spendable *)
Definition withdraw (c : cfg) (a : acct) (v : N) : RM unit :=
  if v =? 0 then ret tt else
  let! f := gets (fun s => free s a) in
  let! sp := gets (fun s => spendable c s a) in
  do! ensure (v <=? sp) FundsUnavailable in
  do! reap c a (f - v) in
  deposit_event (EvWithdraw a v).

(** ** pallet-vesting *)
(** [VestingInfo::locked_at] *)
Definition locked_at (sch : N * N * N) (blk : N) : N :=
  let '(l, pb, st) := sch in l - (blk - st) * N.max pb 1.
(** [VestingSchedule::vesting_balance(who).is_some()] *)
Definition has_vesting (s : rt) (a : acct) : bool :=
  match rt_vest s !! a with Some _ => true | None => false end.
(** Drop finished schedules, rewrite the lock ([exec_action(Passive)], [write_vesting], [write_lock]) *)
Definition write_vesting (a : acct) (l : list (N * N * N)) : RM unit :=
  let! blk := gets rt_blk in
  let keep := filter (fun x => locked_at x blk <> 0) l in
  let total := foldr (fun x acc => locked_at x blk + acc) 0 keep in
  do! modify (fun s => set_vest (match keep with [] => delete a (rt_vest s) | _ => <[a := keep]> (rt_vest s) end) s) in
  if total =? 0 then remove_lock LVesting a else set_lock LVesting a total.
(** [VestingSchedule::add_vesting_schedule]: [false] stands for an error. SIMPLIFIED: the maximal
    number of schedules per account is assumed to be at least one. *)
Definition add_vesting_schedule (a : acct) (locked per_block start : N) : RM bool :=
  if locked =? 0 then ret true
  else if per_block =? 0 then ret false
  else
    let! old := gets (fun s => default [] (rt_vest s !! a)) in
    do! write_vesting a (old ++ [(locked, per_block, start)]) in
    ret true.
(** The [vest] call of pallet-vesting *)
Definition vest (a : acct) : RM unit :=
  let! old := gets (fun s => rt_vest s !! a) in
  match old with None => fail BadOrigin | Some l => write_vesting a l end.
