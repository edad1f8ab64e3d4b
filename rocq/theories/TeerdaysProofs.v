(** * TEERdays: what each call does, and the invariants. *)
From Verif Require Import Base State Env TeerdaysModel TeerexBase SgxVerifyModel TeerexModel
  EnclaveBridgeModel SidechainModel TeeracleModel ClaimsModel AssetRegistryModel XcmTransactorModel
  Runtime Frame EnvFacts.

(** ** Observables *)
Definition bond_of (s : rt) (a : acct) : option bond := td_bonds (rt_td s) !! a.
Definition bonded (s : rt) (a : acct) : N := match bond_of s a with Some b => bd_value b | None => 0 end.
Definition pending_of (s : rt) (a : acct) : option (N * N) := td_pending (rt_td s) !! a.
Definition unbonding (s : rt) (a : acct) : N := match pending_of s a with Some p => p.2 | None => 0 end.
Definition td_lock (s : rt) (a : acct) : N := locked s LTeerdays a.

(** ** What each call does when it succeeds *)
Definition lock_after (old v : N) : N := if v =? 0 then old else v.
Lemma td_lock_set a v s u s' : set_lock LTeerdays a v s = Ok u s' ->
  forall b, td_lock s' b = if decide (b = a) then lock_after (td_lock s a) v else td_lock s b.
Proof.
  intros H b. unfold td_lock, lock_after. destruct (decide (b = a)) as [->|].
  - destruct (N.eqb_spec v 0) as [->|Hv]; [|eapply locked_set_lock; eauto].
    apply set_lock_ok in H. subst. reflexivity.
  - eapply locked_set_lock_other; eauto.
Qed.
Lemma td_lock_remove a s u s' : remove_lock LTeerdays a s = Ok u s' ->
  forall b, td_lock s' b = if decide (b = a) then 0 else td_lock s b.
Proof.
  intros H b. unfold td_lock. destruct (decide (b = a)) as [->|].
  - eapply locked_remove_lock; eauto.
  - eapply locked_remove_lock_other; eauto.
Qed.
Lemma set_lock_td id a v s u s' : set_lock id a v s = Ok u s' ->
  rt_td s' = rt_td s /\ rt_now s' = rt_now s /\ rt_ev s' = rt_ev s /\ (forall b, free s' b = free s b).
Proof. intros H. apply set_lock_ok in H. subst. destruct (v =? 0); auto. Qed.
Lemma remove_lock_td id a s u s' : remove_lock id a s = Ok u s' ->
  rt_td s' = rt_td s /\ rt_now s' = rt_now s /\ rt_ev s' = rt_ev s /\ (forall b, free s' b = free s b).
Proof. intros H. apply remove_lock_ok in H. subst. auto. Qed.

Lemma bond_ok c o v s u s' : td_bond c o v s = Ok u s' ->
  exists a, o = Signed a /\ bond_of s a = None /\ c_ed c <= v /\
  td_bonds (rt_td s') = <[a := mkBond (N.min v (free s a)) (rt_now s) 0]> (td_bonds (rt_td s)) /\
  td_pending (rt_td s') = td_pending (rt_td s) /\
  (forall b, td_lock s' b = if decide (b = a) then lock_after (td_lock s a) (N.min v (free s a)) else td_lock s b) /\
  rt_ev s' = EvBonded a (N.min v (free s a)) :: rt_ev s.
Proof.
  unfold td_bond. intros H. inv_rt H. bools. exists a.
  match goal with Hx : set_lock _ _ _ _ = Ok _ _ |- _ => rename Hx into HL end.
  destruct (set_lock_td _ _ _ _ _ _ HL) as (E1 & E2 & E3 & E4). cbn in *. rewrite E1, E2, E3.
  repeat split; auto.
  - unfold bond_of. destruct (td_bonds _ !! a); [discriminate|auto].
  - intros b. refine (td_lock_set _ _ _ _ _ HL b).
Qed.

Lemma update_ok c a s b' s' : do_update_teerdays c a s = Ok b' s' ->
  exists b, bond_of s a = Some b /\ b' = bond_update c b (rt_now s) /\
  s' = add_ev (EvTokenTimeUpdated a b') (put_bond a b' s).
Proof.
  unfold do_update_teerdays. intros H. inv_rt H. eexists. repeat split; eauto.
Qed.

Lemma bond_extra_ok c o v s u s' : td_bond_extra c o v s = Ok u s' ->
  exists a b, o = Signed a /\ bond_of s a = Some b /\ pending_of s a = None /\ c_ed c <= v /\
  let add := N.min v (free s a - bd_value b) in
  let nv := sat_add (c_bal_max c) (bd_value b) add in
  let b1 := bond_update c b (rt_now s) in
  td_bonds (rt_td s') = <[a := mkBond nv (rt_now s) (bd_tt b1)]> (td_bonds (rt_td s)) /\
  td_pending (rt_td s') = td_pending (rt_td s) /\
  (forall x, td_lock s' x = if decide (x = a) then lock_after (td_lock s a) nv else td_lock s x) /\
  rt_ev s' = EvBonded a add :: EvTokenTimeUpdated a b1 :: rt_ev s.
Proof.
  unfold td_bond_extra. intros H. inv_rt H. bools.
  match goal with Hx : do_update_teerdays _ _ _ = Ok _ _ |- _ => apply update_ok in Hx as (b & Hb & -> & ->) end.
  match goal with Hx : set_lock _ _ _ _ = Ok _ _ |- _ => rename Hx into HL end.
  destruct (set_lock_td _ _ _ _ _ _ HL) as (E1 & E2 & E3 & E4).
  exists a, b. split; [auto|]. split; [auto|].
  split; [unfold pending_of; destruct (td_pending _ !! a); [discriminate|auto]|].
  split; [auto|]. cbn. cbn in E1, E2, E3. rewrite E1, E3. cbn. repeat split; auto.
  - rewrite insert_insert. reflexivity.
  - intros x. refine (td_lock_set _ _ _ _ _ HL x).
Qed.

(** The token-time divided by the bonded value (integer division), 0 for an empty bond *)
Definition tt_quot (b : bond) : N := if bd_value b =? 0 then 0 else bd_tt b / bd_value b.
Lemma unbond_ok c o v s u s' : td_unbond c o v s = Ok u s' ->
  exists a b due, o = Signed a /\ bond_of s a = Some b /\ pending_of s a = None /\ c_ed c <= v /\
  let b1 := bond_update c b (rt_now s) in
  let rest := bd_value b - v in
  let ntt := sat_mul (c_bal_max c) (tt_quot b1) rest in
  (rt_now s + c_unlock c <= u64_max /\ due = rt_now s + c_unlock c \/
   u64_max < rt_now s + c_unlock c /\ c_ovf c = false /\ due = (rt_now s + c_unlock c) mod (u64_max + 1)) /\
  td_bonds (rt_td s') =
    (if rest <? c_ed c then delete a (td_bonds (rt_td s))
     else <[a := mkBond rest (rt_now s) ntt]> (td_bonds (rt_td s))) /\
  td_pending (rt_td s') = <[a := (due, bd_value b - rest)]> (td_pending (rt_td s)) /\
  v_locks s' = v_locks s /\
  rt_ev s' = EvUnbonded a (bd_value b - rest) (bd_tt b1 - ntt) :: EvTokenTimeUpdated a b1 :: rt_ev s.
Proof.
  unfold td_unbond. intros H. inv_rt H. bools.
  match goal with Hx : do_update_teerdays _ _ _ = Ok _ _ |- _ => apply update_ok in Hx as (b & Hb & -> & ->) end.
  match goal with Hx : plain_add _ _ _ _ _ = Ok ?d _ |- _ => apply plain_add_ok in Hx as [-> Hd]; rename d into due end.
  exists a, b, due. split; [auto|]. split; [auto|].
  split; [unfold pending_of; destruct (td_pending _ !! a); [discriminate|auto]|].
  split; [auto|]. cbv zeta. unfold bond_update in *. cbn [bd_value bd_last bd_tt] in *. unfold sat_sub in *.
  split; [tauto|].
  destruct (bd_value b - v <? c_ed c) eqn:Hr;
  match goal with Hx : modify _ _ = Ok _ _ |- _ => inv_rt Hx end; cbn.
  - rewrite delete_insert_delete. auto.
  - rewrite insert_insert. auto.
Qed.

Lemma update_other_ok c o w s u s' : td_update_other c o w s = Ok u s' ->
  exists a b, o = Signed a /\ bond_of s w = Some b /\
  td_bonds (rt_td s') = <[w := bond_update c b (rt_now s)]> (td_bonds (rt_td s)) /\
  td_pending (rt_td s') = td_pending (rt_td s) /\
  v_locks s' = v_locks s /\
  rt_ev s' = EvTokenTimeUpdated w (bond_update c b (rt_now s)) :: rt_ev s.
Proof.
  unfold td_update_other. intros H. inv_rt H.
  match goal with Hx : do_update_teerdays _ _ _ = Ok _ _ |- _ => apply update_ok in Hx as (b & Hb & -> & ->) end.
  exists a, b. repeat split; auto.
Qed.

Lemma withdraw_unbonded_ok o s u s' : td_withdraw_unbonded o s = Ok u s' ->
  exists a due amt, o = Signed a /\ pending_of s a = Some (due, amt) /\ due <= rt_now s /\
  let w := N.min amt (td_lock s a) in
  td_bonds (rt_td s') = td_bonds (rt_td s) /\
  td_pending (rt_td s') = delete a (td_pending (rt_td s)) /\
  (forall b, td_lock s' b = if decide (b = a) then td_lock s a - w else td_lock s b) /\
  rt_ev s' = EvWithdrawn a w :: rt_ev s.
Proof.
  unfold td_withdraw_unbonded, try_withdraw_unbonded. intros H. inv_rt H. destruct a1 as [due amt].
  apply bind_ok in H0 as (n & s2 & H0 & H2). inv_rt H0.
  destruct (rt_now s2 <? due) eqn:Hd; [inv_rt H2|]. bools. 
  apply bind_ok in H2 as (lk & s3 & H2 & H3). inv_rt H2.
  apply bind_ok in H3 as (z & s4 & HL & H3). inv_rt H3.
  exists a, due, amt. split; [auto|]. split; [auto|]. split; [auto|].
  cbv zeta. change (locked s3 LTeerdays a) with (td_lock s3 a) in *.
  destruct (N.eqb_spec (N.min amt (td_lock s3 a)) (td_lock s3 a)) as [E|E].
  - destruct (remove_lock_td _ _ _ _ _ HL) as (E1 & E2 & E3 & E4). cbn. rewrite E1, E3.
    repeat split; auto. intros b. pose proof (td_lock_remove _ _ _ _ HL b) as Hb.
    change (td_lock (add_ev ?e ?t) b) with (td_lock t b). unfold td_lock in *.
    change (locked (del_pending a s4) LTeerdays b) with (locked s4 LTeerdays b). rewrite Hb.
    destruct (decide (b = a)); [lia|auto].
  - destruct (set_lock_td _ _ _ _ _ _ HL) as (E1 & E2 & E3 & E4). cbn. rewrite E1, E3.
    repeat split; auto. intros b. pose proof (td_lock_set _ _ _ _ _ HL b) as Hb.
    change (td_lock (add_ev ?e ?t) b) with (td_lock t b).
    change (td_lock (del_pending a s4) b) with (td_lock s4 b). rewrite Hb.
    destruct (decide (b = a)); [|auto]. unfold lock_after, sat_sub.
    destruct (N.eqb_spec (td_lock s3 a - N.min amt (td_lock s3 a)) 0); [lia|auto].
Qed.

(** ** Steps *)
Lemma td_step c s x :
  (exists o y s', x = OCall o (CTd y) /\ td_exec c o y s = Ok tt s' /\ step c s x = s') \/
  (rt_td (step c s x) = rt_td s /\ (forall a, td_lock (step c s x) a = td_lock s a)).
Proof.
  destruct (is_td x) eqn:Ht.
  - destruct x as [o k| | | | | | | | | |]; try discriminate Ht. destruct k; try discriminate Ht.
    destruct (step_call c s o (CTd x)) as [(s' & E & E')|E].
    + left. exists o, x, s'. auto.
    + right. rewrite E. auto.
  - right. split; [|intros a; apply td_lock_step, Ht].
    apply (step_same c s x PTd). destruct x as [o k| | | | | | | | | |]; try reflexivity.
    destruct k; try reflexivity. discriminate Ht.
Qed.
Lemma td_free c o y s s' : td_exec c o y s = Ok tt s' -> forall a, free s' a = free s a.
Proof. intros H. apply free_view. exact (td_keeps c o y PFree eq_refl _ _ _ H). Qed.
Lemma td_clock c o y s s' : td_exec c o y s = Ok tt s' -> rt_now s' = rt_now s.
Proof. intros H. destruct (call_clock c o (CTd y) s s' H) as [E _]. auto. Qed.

(** Pointwise reading of the storage after a call *)
Lemma bond_of_eq s s' : td_bonds (rt_td s') = td_bonds (rt_td s) -> forall a, bond_of s' a = bond_of s a.
Proof. unfold bond_of. intros -> a. auto. Qed.
Lemma pending_of_eq s s' : td_pending (rt_td s') = td_pending (rt_td s) -> forall a, pending_of s' a = pending_of s a.
Proof. unfold pending_of. intros -> a. auto. Qed.
Lemma bond_of_insert s s' a b : td_bonds (rt_td s') = <[a := b]> (td_bonds (rt_td s)) ->
  forall x, bond_of s' x = if decide (x = a) then Some b else bond_of s x.
Proof.
  unfold bond_of. intros -> x. destruct (decide (x = a)) as [->|];
  [rewrite lookup_insert|rewrite lookup_insert_ne by auto]; auto.
Qed.
Lemma bond_of_delete s s' a : td_bonds (rt_td s') = delete a (td_bonds (rt_td s)) ->
  forall x, bond_of s' x = if decide (x = a) then None else bond_of s x.
Proof.
  unfold bond_of. intros -> x. destruct (decide (x = a)) as [->|];
  [rewrite lookup_delete|rewrite lookup_delete_ne by auto]; auto.
Qed.
Lemma pending_of_insert s s' a b : td_pending (rt_td s') = <[a := b]> (td_pending (rt_td s)) ->
  forall x, pending_of s' x = if decide (x = a) then Some b else pending_of s x.
Proof.
  unfold pending_of. intros -> x. destruct (decide (x = a)) as [->|];
  [rewrite lookup_insert|rewrite lookup_insert_ne by auto]; auto.
Qed.
Lemma pending_of_delete s s' a : td_pending (rt_td s') = delete a (td_pending (rt_td s)) ->
  forall x, pending_of s' x = if decide (x = a) then None else pending_of s x.
Proof.
  unfold pending_of. intros -> x. destruct (decide (x = a)) as [->|];
  [rewrite lookup_delete|rewrite lookup_delete_ne by auto]; auto.
Qed.

(** All effects of one successful TEERdays call signed by [a] on account [x] *)
Lemma td_effect c o y s s' : td_exec c o y s = Ok tt s' -> exists a, o = Signed a /\
  match y with
  | TdBond v => bond_of s a = None /\ c_ed c <= v /\
      let n := N.min v (free s a) in
      (forall x, bond_of s' x = if decide (x = a) then Some (mkBond n (rt_now s) 0) else bond_of s x) /\
      (forall x, pending_of s' x = pending_of s x) /\
      (forall x, td_lock s' x = if decide (x = a) then lock_after (td_lock s a) n else td_lock s x)
  | TdBondExtra v => exists b, bond_of s a = Some b /\ pending_of s a = None /\
      let n := sat_add (c_bal_max c) (bd_value b) (N.min v (free s a - bd_value b)) in
      (forall x, bond_of s' x = if decide (x = a)
          then Some (mkBond n (rt_now s) (bd_tt (bond_update c b (rt_now s)))) else bond_of s x) /\
      (forall x, pending_of s' x = pending_of s x) /\
      (forall x, td_lock s' x = if decide (x = a) then lock_after (td_lock s a) n else td_lock s x)
  | TdUnbond v => exists b due, bond_of s a = Some b /\ pending_of s a = None /\
      let rest := bd_value b - v in
      (rt_now s + c_unlock c <= u64_max -> due = rt_now s + c_unlock c) /\
      (forall x, bond_of s' x = if decide (x = a)
          then (if rest <? c_ed c then None
                else Some (mkBond rest (rt_now s) (sat_mul (c_bal_max c) (tt_quot (bond_update c b (rt_now s))) rest)))
          else bond_of s x) /\
      (forall x, pending_of s' x = if decide (x = a) then Some (due, bd_value b - rest) else pending_of s x) /\
      (forall x, td_lock s' x = td_lock s x)
  | TdUpdateOther w => exists b, bond_of s w = Some b /\
      (forall x, bond_of s' x = if decide (x = w) then Some (bond_update c b (rt_now s)) else bond_of s x) /\
      (forall x, pending_of s' x = pending_of s x) /\
      (forall x, td_lock s' x = td_lock s x)
  | TdWithdrawUnbonded => exists due amt, pending_of s a = Some (due, amt) /\ due <= rt_now s /\
      (forall x, bond_of s' x = bond_of s x) /\
      (forall x, pending_of s' x = if decide (x = a) then None else pending_of s x) /\
      (forall x, td_lock s' x = if decide (x = a) then td_lock s a - N.min amt (td_lock s a) else td_lock s x)
  end.
Proof.
  destruct y; cbn [td_exec]; intros H.
  - apply bond_ok in H as (a & -> & H1 & H2 & H3 & H4 & H5 & _). exists a. repeat split; auto.
    + apply bond_of_insert, H3.
    + apply pending_of_eq, H4.
  - apply bond_extra_ok in H as (a & b & -> & H1 & H2 & H0 & H3 & H4 & H5 & _). exists a. split; [auto|].
    exists b. repeat split; auto.
    + apply bond_of_insert, H3.
    + apply pending_of_eq, H4.
  - apply unbond_ok in H as (a & b & due & -> & H1 & H2 & H0 & H3 & H4 & H5 & H6 & _). exists a. split; [auto|].
    exists b, due. cbv zeta in *. repeat split; auto.
    + intros Hd. destruct H3 as [[_ ?]|[? _]]; lia.
    + destruct (_ <? _); [apply bond_of_delete, H4|apply bond_of_insert, H4].
    + apply pending_of_insert, H5.
    + intros x. apply locked_view, H6.
  - apply update_other_ok in H as (a & b & -> & H1 & H2 & H3 & H4 & _). exists a. split; [auto|].
    exists b. repeat split; auto.
    + apply bond_of_insert, H2.
    + apply pending_of_eq, H3.
    + intros x. apply locked_view, H4.
  - apply withdraw_unbonded_ok in H as (a & due & amt & -> & H1 & H2 & H3 & H4 & H5 & _). exists a. split; [auto|].
    exists due, amt. repeat split; auto.
    + apply bond_of_eq, H3.
    + apply pending_of_delete, H4.
Qed.

Lemma bond_update_value c b t : bd_value (bond_update c b t) = bd_value b.
Proof. reflexivity. Qed.
Lemma bond_update_last c b t : bd_last (bond_update c b t) = t.
Proof. reflexivity. Qed.

(** ** C01: locked covers bonded + unbonding, if nobody bonds during a pending unlock *)
Definition bonds_during_unlock (s : rt) (x : op) : Prop :=
  exists a v, x = OCall (Signed a) (CTd (TdBond v)) /\ pending_of s a <> None.
Fixpoint careful (c : cfg) (s : rt) (l : list op) : Prop :=
  match l with
  | [] => True
  | x :: r => ~ bonds_during_unlock s x /\ careful c (step c s x) r
  end.
Definition fully_locked (s : rt) : Prop := forall a, bonded s a + unbonding s a <= td_lock s a.

Ltac dec := repeat match goal with
  | |- context [decide (?x = ?y)] => destruct (decide (x = y)); subst
  | H : context [decide (?x = ?y)] |- _ => destruct (decide (x = y)); subst
  end.

Lemma fully_locked_step c s x : fully_locked s -> ~ bonds_during_unlock s x -> fully_locked (step c s x).
Proof.
  intros Hs Hc. destruct (td_step c s x) as [(o & y & s' & -> & H & ->)|[E1 E2]].
  2: { intros a. specialize (Hs a). unfold bonded, unbonding, bond_of, pending_of in *. rewrite E1, E2. auto. }
  destruct (td_effect _ _ _ _ _ H) as (a & -> & Heff). clear H.
  intros z. pose proof (Hs z) as Hz.
  destruct y as [v|v|v|w|].
  - destruct Heff as (HbN & _ & Hb & Hp & HL). unfold bonded, unbonding in *. rewrite Hb, Hp, HL.
    destruct (decide (z = a)) as [->|]; [|auto]. cbn [bd_value].
    assert (pending_of s a = None) as HpN.
    { destruct (pending_of s a) eqn:E; auto. exfalso. apply Hc. exists a, v. rewrite E. auto. }
    rewrite HpN in *. unfold lock_after. destruct (N.eqb_spec (N.min v (free s a)) 0); lia.
  - destruct Heff as (b & HbS & HpN & Hb & Hp & HL). cbv zeta in *. unfold bonded, unbonding in *. rewrite Hb, Hp, HL.
    destruct (decide (z = a)) as [->|]; [|auto]. cbn [bd_value]. rewrite HpN in *. unfold lock_after.
    match goal with |- context [?n =? 0] => destruct (N.eqb_spec n 0) end; lia.
  - destruct Heff as (b & due & HbS & HpN & _ & Hb & Hp & HL). cbv zeta in *. unfold bonded, unbonding in *. rewrite Hb, Hp, HL.
    destruct (decide (z = a)) as [->|]; [|auto]. rewrite HpN, HbS in Hz. cbn [snd].
    destruct (_ <? _); cbn [bd_value]; lia.
  - destruct Heff as (b & HbS & Hb & Hp & HL). unfold bonded, unbonding in *. rewrite Hb, Hp, HL.
    destruct (decide (z = w)) as [->|]; [|auto]. rewrite HbS in Hz. exact Hz.
  - destruct Heff as (due & amt & HpS & _ & Hb & Hp & HL). unfold bonded, unbonding in *. rewrite Hb, Hp, HL.
    destruct (decide (z = a)) as [->|]; [|auto]. rewrite HpS in Hz. cbn [snd] in Hz. lia.
Qed.
Lemma fully_locked_run c s l : fully_locked s -> careful c s l -> fully_locked (run c s l).
Proof.
  revert s. induction l as [|x l IH]; intros s Hs Hc; [auto|]. destruct Hc. rewrite run_cons.
  apply IH; auto. apply fully_locked_step; auto.
Qed.
Lemma fully_locked_genesis g : fully_locked (genesis_state g).
Proof. intros a. unfold bonded, unbonding, bond_of, pending_of. cbn. rewrite !lookup_empty. lia. Qed.

(** The lock is covered by the free balance, under the same condition *)
Definition lock_covered (s : rt) : Prop := forall a, td_lock s a <= free s a.
Lemma lock_covered_step c s x : locks_wf s -> fully_locked s -> lock_covered s ->
  ~ bonds_during_unlock s x -> lock_covered (step c s x).
Proof.
  intros Hw Hfl Hs Hc z. destruct (is_td x) eqn:Ht.
  2: { apply (covered_step c s x z Ht Hw (Hs z)). }
  destruct (td_step c s x) as [(o & y & s' & -> & H & ->)|[E1 E2]].
  2: { destruct x as [o k| | | | | | | | | |]; try discriminate Ht. destruct k; try discriminate Ht.
       rewrite E2. rewrite (free_view _ _ (step_same c s (OCall o (CTd x)) PFree eq_refl)). auto. }
  rewrite (td_free _ _ _ _ _ H). destruct (td_effect _ _ _ _ _ H) as (a & -> & Heff). clear H.
  pose proof (Hs z) as Hz. pose proof (Hs a) as Ha. pose proof (Hfl a) as Hfa. unfold bonded in Hfa.
  destruct y as [v|v|v|w|].
  - destruct Heff as (_ & _ & _ & _ & HL). rewrite HL. destruct (decide (z = a)) as [->|]; [|auto].
    unfold lock_after. match goal with |- context [?n =? 0] => destruct (N.eqb_spec n 0) end; lia.
  - destruct Heff as (b & HbS & _ & _ & _ & HL). rewrite HL. destruct (decide (z = a)) as [->|]; [|auto].
    rewrite HbS in Hfa. unfold lock_after, sat_add.
    match goal with |- context [?n =? 0] => destruct (N.eqb_spec n 0) end; lia.
  - destruct Heff as (b & due & _ & _ & _ & _ & _ & HL). rewrite HL. auto.
  - destruct Heff as (b & _ & _ & _ & HL). rewrite HL. auto.
  - destruct Heff as (due & amt & _ & _ & _ & _ & HL). rewrite HL. destruct (decide (z = a)) as [->|]; [lia|auto].
Qed.
Lemma careful_run c s l : locks_wf s -> fully_locked s -> lock_covered s -> careful c s l ->
  locks_wf (run c s l) /\ fully_locked (run c s l) /\ lock_covered (run c s l).
Proof.
  revert s. induction l as [|x l IH]; intros s H1 H2 H3 Hc; [auto|]. destruct Hc as [Hx Hc]. rewrite run_cons.
  apply IH; auto using locks_wf_step, fully_locked_step, lock_covered_step.
Qed.
Lemma lock_covered_genesis g : lock_covered (genesis_state g).
Proof. intros a. unfold td_lock, locked, locks_of. cbn. rewrite lookup_empty. cbn. lia. Qed.

(** ** A pending unlock stays until its due time *)
Lemma pending_step c s x a due amt : pending_of s a = Some (due, amt) -> rt_now s < due ->
  pending_of (step c s x) a = Some (due, amt).
Proof.
  intros Hp Hn. destruct (td_step c s x) as [(o & y & s' & -> & H & ->)|[E1 E2]].
  2: { unfold pending_of in *. rewrite E1. auto. }
  destruct (td_effect _ _ _ _ _ H) as (b & -> & Heff). clear H.
  destruct y as [v|v|v|w|].
  - destruct Heff as (_ & _ & _ & Hq & _). rewrite Hq. auto.
  - destruct Heff as (? & _ & _ & _ & Hq & _). rewrite Hq. auto.
  - destruct Heff as (? & ? & _ & HpN & _ & _ & Hq & _). rewrite Hq. destruct (decide (a = b)); congruence.
  - destruct Heff as (? & _ & _ & Hq & _). rewrite Hq. auto.
  - destruct Heff as (d & m & HpS & Hd & _ & Hq & _). rewrite Hq. destruct (decide (a = b)) as [->|]; [|auto].
    rewrite Hp in HpS. inversion HpS. lia.
Qed.
Lemma pending_run c s l a due amt : pending_of s a = Some (due, amt) -> rt_now (run c s l) < due ->
  pending_of (run c s l) a = Some (due, amt).
Proof.
  revert s. induction l as [|x l IH]; intros s Hp Hn; [auto|]. rewrite run_cons in *. apply IH; auto.
  apply pending_step; auto. pose proof (clock_run c (step c s x) l). pose proof (clock_step c s x). lia.
Qed.

(** ** C04: token-time is the integral of the bonded value *)
(** Sum over the history of (bonded value) x (time passing), read off the states only *)
Fixpoint exposure (c : cfg) (s : rt) (l : list op) (a : acct) : N :=
  match l with
  | [] => 0
  | x :: r => bonded s a * (rt_now (step c s x) - rt_now s) + exposure c (step c s x) r a
  end.
Definition no_unbond (a : acct) (x : op) : Prop := forall v, x <> OCall (Signed a) (CTd (TdUnbond v)).

(** what an update at time [t] would credit in total *)
Definition accrued (mx : N) (b : bond) (t : N) : N := N.min mx (bd_tt b + bd_value b * (t - bd_last b)).
Lemma accrued_update c b t : bd_tt (bond_update c b t) = accrued (c_bal_max c) b t.
Proof. unfold bond_update, accrued, sat_add, sat_mul, sat_sub. cbn [bd_tt]. lia. Qed.

Lemma exposure_step c s x a b : no_unbond a x -> bond_of s a = Some b -> bd_last b <= rt_now s ->
  exists b', bond_of (step c s x) a = Some b' /\ bd_last b' <= rt_now (step c s x) /\
  (forall e,
    N.min (c_bal_max c) (accrued (c_bal_max c) b' (rt_now (step c s x)) + e) =
    N.min (c_bal_max c) (accrued (c_bal_max c) b (rt_now s) + (bd_value b * (rt_now (step c s x) - rt_now s) + e))).
Proof.
  intros Hnu Hb Hlast. pose proof (clock_step c s x) as [Hclk _].
  destruct (td_step c s x) as [(o & y & s' & -> & H & E)|[E1 E2]].
  2: { exists b. unfold bond_of in *. rewrite E1. split; [auto|]. split; [lia|]. intros e.
       unfold accrued. remember (rt_now (step c s x)) as n eqn:En.
       replace (n - bd_last b) with ((rt_now s - bd_last b) + (n - rt_now s)) by lia.
       rewrite N.mul_add_distr_l. lia. }
  rewrite E in *. pose proof (td_clock _ _ _ _ _ H) as Hclk'. rewrite Hclk' in *.
  replace (rt_now s - rt_now s) with 0 by lia. rewrite N.mul_0_r.
  assert (exists b', bond_of s' a = Some b' /\ bd_last b' <= rt_now s /\
     accrued (c_bal_max c) b' (rt_now s) = accrued (c_bal_max c) b (rt_now s)) as (b' & Hb' & Hl' & Ha').
  2: { exists b'. split; [auto|]. split; [auto|]. intros. rewrite Ha'. f_equal. }
  destruct (td_effect _ _ _ _ _ H) as (z & -> & Heff). clear H.
  destruct y as [v|v|v|w|].
  - destruct Heff as (HbN & _ & Hq & _ & _). rewrite Hq. destruct (decide (a = z)) as [->|]; [congruence|]. eauto.
  - destruct Heff as (b0 & HbS & _ & Hq & _ & _). rewrite Hq. destruct (decide (a = z)) as [->|]; [|eauto].
    assert (b0 = b) as -> by congruence. eexists. split; [reflexivity|]. cbn [bd_last]. split; [lia|].
    rewrite accrued_update. unfold accrued. cbn [bd_tt bd_value bd_last].
    replace (rt_now s - rt_now s) with 0 by lia. rewrite N.mul_0_r. lia.
  - destruct Heff as (b0 & due & HbS & _ & _ & Hq & _ & _). rewrite Hq. destruct (decide (a = z)) as [->|]; [|eauto].
    exfalso. eapply Hnu. reflexivity.
  - destruct Heff as (b0 & HbS & Hq & _ & _). rewrite Hq. destruct (decide (a = w)) as [->|]; [|eauto].
    assert (b0 = b) as -> by congruence. eexists. split; [reflexivity|]. cbn [bond_update bd_last]. split; [lia|].
    unfold accrued at 1. rewrite accrued_update, bond_update_value, bond_update_last.
    replace (rt_now s - rt_now s) with 0 by lia. rewrite N.mul_0_r. unfold accrued. lia.
  - destruct Heff as (due & amt & _ & _ & Hq & _ & _). rewrite Hq. eauto.
Qed.

Lemma exposure_run c s l a b : Forall (no_unbond a) l -> bond_of s a = Some b -> bd_last b <= rt_now s ->
  exists b', bond_of (run c s l) a = Some b' /\ bd_last b' <= rt_now (run c s l) /\
  accrued (c_bal_max c) b' (rt_now (run c s l)) =
  N.min (c_bal_max c) (accrued (c_bal_max c) b (rt_now s) + exposure c s l a).
Proof.
  revert s b. induction l as [|x l IH]; intros s b Hf Hb Hl.
  - exists b. cbn. split; [auto|]. split; [auto|]. unfold accrued. lia.
  - inversion Hf; subst. destruct (exposure_step c s x a b H1 Hb Hl) as (b1 & Hb1 & Hl1 & He1).
    rewrite run_cons. destruct (IH (step c s x) b1 H2 Hb1 Hl1) as (b' & Hb' & Hl' & He').
    exists b'. split; [auto|]. split; [auto|]. rewrite He'. cbn [exposure]. unfold bonded at 1. rewrite Hb.
    apply He1.
Qed.

(** ** Bounds *)
Definition td_bounded (c : cfg) (s : rt) : Prop :=
  (forall a b, bond_of s a = Some b -> bd_value b <= c_bal_max c /\ bd_tt b <= c_bal_max c) /\
  (forall a p, pending_of s a = Some p -> p.2 <= c_bal_max c).
Lemma td_bounded_step c s x : free_bounded c s -> td_bounded c s -> td_bounded c (step c s x).
Proof.
  intros Hfb [Hb Hp]. destruct (td_step c s x) as [(o & y & s' & -> & H & ->)|[E1 E2]].
  2: { split; [intros a b|intros a p]; unfold bond_of, pending_of in *; rewrite E1; eauto. }
  destruct (td_effect _ _ _ _ _ H) as (z & -> & Heff). clear H.
  destruct y as [v|v|v|w|].
  - destruct Heff as (_ & _ & Hq & Hr & _). split.
    + intros a b. rewrite Hq. destruct (decide (a = z)) as [->|]; [|apply Hb]. intros [= <-]. cbn.
      pose proof (Hfb z). lia.
    + intros a p. rewrite Hr. apply Hp.
  - destruct Heff as (b0 & HbS & _ & Hq & Hr & _). split.
    + intros a b. rewrite Hq. destruct (decide (a = z)) as [->|]; [|apply Hb]. intros [= <-].
      cbn [bd_value bd_tt bond_update]. unfold sat_add. lia.
    + intros a p. rewrite Hr. apply Hp.
  - destruct Heff as (b0 & due & HbS & _ & _ & Hq & Hr & _). destruct (Hb _ _ HbS). split.
    + intros a b. rewrite Hq. destruct (decide (a = z)) as [->|]; [|apply Hb].
      destruct (_ <? _); intros [= <-]. cbn [bd_value bd_tt]. unfold sat_mul. lia.
    + intros a p. rewrite Hr. destruct (decide (a = z)) as [->|]; [|apply Hp].
      intros [= <-]. cbn [snd]. lia.
  - destruct Heff as (b0 & HbS & Hq & Hr & _). destruct (Hb _ _ HbS). split.
    + intros a b. rewrite Hq. destruct (decide (a = w)) as [->|]; [|apply Hb]. intros [= <-].
      cbn [bd_value bd_tt bond_update]. unfold sat_add. lia.
    + intros a p. rewrite Hr. apply Hp.
  - destruct Heff as (due & amt & _ & _ & Hq & Hr & _). split.
    + intros a b. rewrite Hq. apply Hb.
    + intros a p. rewrite Hr. destruct (decide (a = z)); [discriminate|apply Hp].
Qed.
Lemma td_bounded_genesis c g : td_bounded c (genesis_state g).
Proof. split; intros a b; unfold bond_of, pending_of; cbn; rewrite lookup_empty; discriminate. Qed.
