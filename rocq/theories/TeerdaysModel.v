(** * Model of pallet teerdays (teerdays/src/lib.rs) and primitives/teerdays. *)
From Verif Require Import Base State Env.

Section WithCfg.
Context (c : cfg).

(** primitives/teerdays/src/lib.rs:19-24 [TeerDayBond::update] *)
Definition bond_update (b : bond) (now : N) : bond :=
  let elapsed := sat_sub now (bd_last b) in
  mkBond (bd_value b) now
         (sat_add (c_bal_max c) (bd_tt b) (sat_mul (c_bal_max c) (bd_value b) elapsed)).

(** storage access, teerdays/src/lib.rs:155-166 *)
Definition put_bond (a : acct) (b : bond) (s : rt) : rt :=
  set_td (mkTd (<[a := b]> (td_bonds (rt_td s))) (td_pending (rt_td s))) s.
Definition del_bond (a : acct) (s : rt) : rt :=
  set_td (mkTd (delete a (td_bonds (rt_td s))) (td_pending (rt_td s))) s.
Definition put_pending (a : acct) (p : N * N) (s : rt) : rt :=
  set_td (mkTd (td_bonds (rt_td s)) (<[a := p]> (td_pending (rt_td s)))) s.
Definition del_pending (a : acct) (s : rt) : rt :=
  set_td (mkTd (td_bonds (rt_td s)) (delete a (td_pending (rt_td s)))) s.

(** teerdays/src/lib.rs:301-310 [do_update_teerdays] *)
Definition do_update_teerdays (a : acct) : RM bond :=
  let! ob := gets (fun s => td_bonds (rt_td s) !! a) in
  let! b := ok_or ob NoBond in
  let! now := gets rt_now in
  let b' := bond_update b now in
  do! modify (put_bond a b') in
  do! deposit_event (EvTokenTimeUpdated a b') in
  ret b'.

(** teerdays/src/lib.rs:174-193 [bond] *)
Definition td_bond (o : origin) (value : N) : RM unit :=
  let! signer := ensure_signed o in
  let! ob := gets (fun s => td_bonds (rt_td s) !! signer) in
  do! ensure (match ob with None => true | Some _ => false end) AlreadyBonded in
  do! ensure (c_ed c <=? value) InsufficientBond in
  let! fb := gets (fun s => free s signer) in
  let value := N.min value fb in
  do! deposit_event (EvBonded signer value) in
  do! set_lock LTeerdays signer value in
  let! now := gets rt_now in
  modify (put_bond signer (mkBond value now 0)).

(** teerdays/src/lib.rs:199-220 [bond_extra] *)
Definition td_bond_extra (o : origin) (value : N) : RM unit :=
  let! signer := ensure_signed o in
  let! op := gets (fun s => td_pending (rt_td s) !! signer) in
  do! ensure (match op with None => true | Some _ => false end) PendingUnlock in
  do! ensure (c_ed c <=? value) InsufficientBond in
  let! b := do_update_teerdays signer in
  let! fb := gets (fun s => free s signer) in
  let value := N.min value (sat_sub fb (bd_value b)) in
  let nv := sat_add (c_bal_max c) (bd_value b) value in
  do! deposit_event (EvBonded signer value) in
  do! set_lock LTeerdays signer nv in
  modify (put_bond signer (mkBond nv (bd_last b) (bd_tt b))).

(** teerdays/src/lib.rs:229-269 [unbond]; [now + UnlockPeriod] (261) is a plain addition on the
    64-bit Moment *)
Definition td_unbond (o : origin) (value : N) : RM unit :=
  let! signer := ensure_signed o in
  let! op := gets (fun s => td_pending (rt_td s) !! signer) in
  do! ensure (match op with None => true | Some _ => false end) PendingUnlock in
  do! ensure (c_ed c <=? value) InsufficientUnbond in
  let! b := do_update_teerdays signer in
  let now := bd_last b in
  let new_amount := sat_sub (bd_value b) value in
  let unbonded := sat_sub (bd_value b) new_amount in
  let pre_tt := bd_tt b in
  let quot := if bd_value b =? 0 then 0 else bd_tt b / bd_value b in
  let new_tt := sat_mul (c_bal_max c) quot new_amount in
  do! (if new_amount <? c_ed c then modify (del_bond signer)
       else modify (put_bond signer (mkBond new_amount now new_tt))) in
  let! due := plain_add (c_ovf c) u64_max now (c_unlock c) in
  do! modify (put_pending signer (due, unbonded)) in
  deposit_event (EvUnbonded signer unbonded (sat_sub pre_tt new_tt)).

(** teerdays/src/lib.rs:276-280 [update_other] *)
Definition td_update_other (o : origin) (who : acct) : RM unit :=
  let! _signer := ensure_signed o in
  do! do_update_teerdays who in
  ret tt.

(** teerdays/src/lib.rs:312-334 [try_withdraw_unbonded] *)
Definition try_withdraw_unbonded (a : acct) : RM N :=
  let! op := gets (fun s => td_pending (rt_td s) !! a) in
  let! p := ok_or op NotUnlocking in
  let '(due, amount) := p in
  let! now := gets rt_now in
  if now <? due then fail PendingUnlock else
  let! lk := gets (fun s => locked s LTeerdays a) in
  let amount := N.min amount lk in
  do! (if amount =? lk then remove_lock LTeerdays a
       else set_lock LTeerdays a (sat_sub lk amount)) in
  do! modify (del_pending a) in
  ret amount.

(** teerdays/src/lib.rs:285-293 [withdraw_unbonded] *)
Definition td_withdraw_unbonded (o : origin) : RM unit :=
  let! signer := ensure_signed o in
  let! unlocked := try_withdraw_unbonded signer in
  deposit_event (EvWithdrawn signer unlocked).

End WithCfg.

(** The calls of the pallet, teerdays/src/lib.rs:168-294 *)
Inductive td_call :=
| TdBond (value : N) | TdBondExtra (value : N) | TdUnbond (value : N)
| TdUpdateOther (who : acct) | TdWithdrawUnbonded.
Definition td_exec (c : cfg) (o : origin) (x : td_call) : RM unit :=
  match x with
  | TdBond v => td_bond c o v
  | TdBondExtra v => td_bond_extra c o v
  | TdUnbond v => td_unbond c o v
  | TdUpdateOther w => td_update_other c o w
  | TdWithdrawUnbonded => td_withdraw_unbonded o
  end.
