(** * Facts about the environment: balances and locks. *)
From Verif Require Import Base State Env TeerdaysModel TeerexBase SgxVerifyModel TeerexModel
  EnclaveBridgeModel SidechainModel TeeracleModel ClaimsModel AssetRegistryModel XcmTransactorModel
  Runtime Frame.

(** ** Locks *)
Lemma lock_amount_replace_none id l : lock_amount id (replace_lock id None l) = 0.
Proof.
  induction l as [|[i x] r IH]; cbn; [reflexivity|].
  destruct (decide (i = id)); [exact IH|]. cbn. destruct (decide (i = id)); [contradiction|exact IH].
Qed.
Lemma lock_amount_replace id v l : lock_amount id (replace_lock id (Some v) l) = v.
Proof.
  induction l as [|[i x] r IH]; cbn.
  - destruct (decide (id = id)); [lia|contradiction].
  - destruct (decide (i = id)).
    + cbn. destruct (decide (id = id)); [|contradiction].
      change (foldr _ 0 (replace_lock id None r)) with (lock_amount id (replace_lock id None r)).
      rewrite lock_amount_replace_none. lia.
    + cbn. destruct (decide (i = id)); [contradiction|exact IH].
Qed.
Lemma lock_amount_replace_other id id' v l :
  id <> id' -> lock_amount id' (replace_lock id v l) = lock_amount id' l.
Proof.
  intros Hn. revert v. induction l as [|[i x] r IH]; intros v; cbn.
  - destruct v; cbn; [|reflexivity]. destruct (decide (id = id')); [contradiction|reflexivity].
  - destruct (decide (i = id)).
    + subst i. destruct (decide (id = id')); [contradiction|].
      destruct v; cbn; [destruct (decide (id = id')); [contradiction|]|]; apply IH.
    + cbn. destruct (decide (i = id')); unfold lock_amount in IH; rewrite IH; reflexivity.
Qed.
Lemma lock_amount_filter id l : lock_amount id (filter (fun x => x.1 <> id) l) = 0.
Proof.
  induction l as [|[i x] r IH]; [reflexivity|]. rewrite filter_cons. cbn.
  destruct (decide (i <> id)).
  - cbn. destruct (decide (i = id)); [contradiction|exact IH].
  - exact IH.
Qed.
Lemma lock_amount_filter_other id id' l :
  id <> id' -> lock_amount id' (filter (fun x => x.1 <> id) l) = lock_amount id' l.
Proof.
  intros Hn. induction l as [|[i x] r IH]; [reflexivity|]. rewrite filter_cons. cbn.
  destruct (decide (i <> id)).
  - cbn. destruct (decide (i = id')); unfold lock_amount in IH; rewrite IH; reflexivity.
  - destruct (decide (i = id')); [|exact IH]. exfalso. apply n. congruence.
Qed.

Lemma locks_of_put a l s b : locks_of (put_locks a l s) b = if decide (a = b) then l else locks_of s b.
Proof.
  unfold locks_of, put_locks. cbn. destruct (decide (a = b)) as [->|Hn].
  - rewrite lookup_insert. reflexivity.
  - rewrite lookup_insert_ne by auto. reflexivity.
Qed.

(** The effect of [set_lock] and [remove_lock] on every lock *)
Lemma set_lock_ok id a v s u s' : set_lock id a v s = Ok u s' ->
  s' = (if v =? 0 then s else put_locks a (replace_lock id (Some v) (locks_of s a)) s).
Proof. intros H. unfold set_lock, modify in H. inversion H. reflexivity. Qed.
Lemma locked_set_lock id a v s u s' : set_lock id a v s = Ok u s' -> v <> 0 -> locked s' id a = v.
Proof.
  intros H Hv. apply set_lock_ok in H. subst s'. destruct (N.eqb_spec v 0); [contradiction|].
  unfold locked. rewrite locks_of_put. destruct (decide (a = a)); [|contradiction].
  apply lock_amount_replace.
Qed.
Lemma locked_set_lock_other id a v s u s' id' b :
  set_lock id a v s = Ok u s' -> (id <> id' \/ a <> b) -> locked s' id' b = locked s id' b.
Proof.
  intros H Hn. apply set_lock_ok in H. subst s'. destruct (v =? 0); [reflexivity|].
  unfold locked. rewrite locks_of_put. destruct (decide (a = b)) as [->|]; [|reflexivity].
  destruct Hn as [Hn|]; [|contradiction]. apply lock_amount_replace_other, Hn.
Qed.
Lemma remove_lock_ok id a s u s' : remove_lock id a s = Ok u s' ->
  s' = put_locks a (filter (fun x => x.1 <> id) (locks_of s a)) s.
Proof. intros H. unfold remove_lock, modify in H. inversion H. reflexivity. Qed.
Lemma locked_remove_lock id a s u s' : remove_lock id a s = Ok u s' -> locked s' id a = 0.
Proof.
  intros H. apply remove_lock_ok in H. subst s'.
  unfold locked. rewrite locks_of_put. destruct (decide (a = a)); [|contradiction].
  apply lock_amount_filter.
Qed.
Lemma locked_remove_lock_other id a s u s' id' b :
  remove_lock id a s = Ok u s' -> (id <> id' \/ a <> b) -> locked s' id' b = locked s id' b.
Proof.
  intros H Hn. apply remove_lock_ok in H. subst s'.
  unfold locked. rewrite locks_of_put. destruct (decide (a = b)) as [->|]; [|reflexivity].
  destruct Hn as [Hn|]; [|contradiction]. apply lock_amount_filter_other, Hn.
Qed.

(** One lock per identifier: an invariant of all histories *)
Definition locks_wf (s : rt) : Prop := forall a, NoDup (map fst (locks_of s a)).
Lemma locks_wf_put a l s : locks_wf s -> NoDup (map fst l) -> locks_wf (put_locks a l s).
Proof. intros H Hl b. rewrite locks_of_put. destruct (decide (a = b)); auto. Qed.
Lemma replace_none_filter id l : replace_lock id None l = filter (fun x => x.1 <> id) l.
Proof.
  induction l as [|[i x] r IH]; [reflexivity|]. rewrite filter_cons. cbn.
  destruct (decide (i = id)); destruct (decide (i <> id)); try (subst; contradiction); rewrite ?IH; auto.
Qed.
Lemma map_fst_filter_sub id l i : In i (map fst (filter (fun x : lock_id * N => x.1 <> id) l)) -> In i (map fst l).
Proof.
  intros H. apply in_map_iff in H as (x & <- & H). apply in_map.
  apply elem_of_list_In, elem_of_list_filter in H as [_ H]. apply elem_of_list_In, H.
Qed.
Lemma NoDup_filter_ids id (l : list (lock_id * N)) :
  NoDup (map fst l) -> NoDup (map fst (filter (fun x => x.1 <> id) l)).
Proof.
  induction l as [|[i x] r IH]; [auto|]. rewrite filter_cons. cbn.
  intros H. apply NoDup_cons in H as [H1 H2]. destruct (decide (i <> id)); [|auto].
  cbn. apply NoDup_cons. split; [|auto]. rewrite elem_of_list_In in *. intros Hi. apply H1.
  eapply map_fst_filter_sub; eauto.
Qed.
Lemma in_replace id v (l : list (lock_id * N)) i :
  In i (map fst (replace_lock id v l)) -> i = id \/ In i (map fst l).
Proof.
  revert v. induction l as [|[j x] r IH]; intros v; cbn.
  - destruct v; cbn; intuition.
  - destruct (decide (j = id)); cbn.
    + destruct v; cbn; intros H; [destruct H as [H|H]|]; auto; apply IH in H; intuition.
    + intros [H|H]; auto. apply IH in H. intuition.
Qed.
Lemma NoDup_replace id v l : NoDup (map fst l) -> NoDup (map fst (replace_lock id v l)).
Proof.
  revert v. induction l as [|[j x] r IH]; intros v; cbn.
  - destruct v; cbn; intros _; [apply NoDup_singleton|apply NoDup_nil_2].
  - intros H. apply NoDup_cons in H as [H1 H2]. destruct (decide (j = id)).
    + subst j. destruct v; [|auto]. cbn. apply NoDup_cons. split; [|auto].
      rewrite replace_none_filter. rewrite elem_of_list_In in *. intros Hi. apply H1.
      eapply map_fst_filter_sub; eauto.
    + cbn. apply NoDup_cons. split; [|auto]. rewrite elem_of_list_In in *. intros Hi.
      apply in_replace in Hi as [?|?]; auto.
Qed.

(** Predicates kept by a computation *)
Definition keepsP (P : rt -> Prop) {A} (m : RM A) : Prop := forall s a s', P s -> m s = Ok a s' -> P s'.
Section KeepsP.
Context (P : rt -> Prop).
Lemma keepsP_bind {A D} (m : RM A) (k : A -> RM D) :
  keepsP P m -> (forall a, keepsP P (k a)) -> keepsP P (bind m k).
Proof. intros Hm Hk s b s' Hs H. apply bind_ok in H as (a & s1 & H1 & H2). eapply Hk; [|exact H2]. eauto. Qed.
Lemma keepsP_pres {A B} (f : rt -> B) (m : RM A) :
  (forall s s', f s' = f s -> P s -> P s') -> pres f m -> keepsP P m.
Proof. intros Hf Hm s a s' Hs H. apply Hm in H. eauto. Qed.
Lemma keepsP_ret {A} (a : A) : keepsP P (ret a).
Proof. intros s b s' Hs H. inv_ok H. auto. Qed.
Lemma keepsP_fail {A} e : keepsP P (fail e : RM A).
Proof. intros s b s' Hs H. inv_ok H. Qed.
Lemma keepsP_panic {A} : keepsP P (panic : RM A).
Proof. intros s b s' Hs H. inv_ok H. Qed.
Lemma keepsP_gets {A} (g : rt -> A) : keepsP P (gets g).
Proof. intros s b s' Hs H. inv_ok H. auto. Qed.
Lemma keepsP_modify g : (forall s, P s -> P (g s)) -> keepsP P (modify g).
Proof. intros Hg s b s' Hs H. inv_ok H. auto. Qed.
Lemma keepsP_ensure b e : keepsP P (ensure b e).
Proof. intros s u s' Hs H. inv_ok H. auto. Qed.
Lemma keepsP_ok_or {A} (o : option A) e : keepsP P (ok_or o e).
Proof. intros s u s' Hs H. inv_ok H. auto. Qed.
Lemma keepsP_plain_add ovf mx a b : keepsP P (plain_add ovf mx a b).
Proof. intros s u s' Hs H. apply plain_add_ok in H as [-> _]. auto. Qed.
Lemma keepsP_lift {A} (r : res A) : keepsP P (lift_res r).
Proof. destruct r; [apply keepsP_ret|apply keepsP_fail|apply keepsP_panic]. Qed.
End KeepsP.
Ltac keepsP_step :=
  first
  [ apply keepsP_bind; [|intros ?]
  | apply keepsP_ret | apply keepsP_fail | apply keepsP_panic | apply keepsP_gets | apply keepsP_ensure
  | apply keepsP_ok_or | apply keepsP_plain_add | apply keepsP_lift
  | match goal with
    | |- keepsP _ (match ?x with _ => _ end) => destruct x eqn:?
    | |- keepsP _ (if ?x then _ else _) => destruct x eqn:?
    | |- keepsP _ (let '(_, _) := ?x in _) => destruct x eqn:?
    end
  | progress (cbv beta zeta) ].
Lemma run_call_keepsP P m s : keepsP P m -> P s -> P (run_call m s).2.
Proof.
  intros H Hs. destruct (run_call_cases m s) as [(s' & E & ->)|[_ ->]]; [|exact Hs].
  exact (H _ _ _ Hs E).
Qed.

Lemma locks_wf_set_lock id a v : keepsP locks_wf (set_lock id a v).
Proof.
  intros s u s' Hs H. apply set_lock_ok in H. subst. destruct (v =? 0); auto.
  apply locks_wf_put; auto. apply NoDup_replace, Hs.
Qed.
Lemma locks_wf_remove_lock id a : keepsP locks_wf (remove_lock id a).
Proof.
  intros s u s' Hs H. apply remove_lock_ok in H. subst.
  apply locks_wf_put; auto. apply NoDup_filter_ids, Hs.
Qed.
Lemma locks_wf_view s s' : v_locks s' = v_locks s -> locks_wf s -> locks_wf s'.
Proof. unfold v_locks, locks_wf, locks_of. intros ->. auto. Qed.

Ltac lwf := first
  [ apply locks_wf_set_lock | apply locks_wf_remove_lock
  | apply (keepsP_modify locks_wf); intros ? Hlw; refine (locks_wf_view _ _ _ Hlw); reflexivity
  | keepsP_step ].

Lemma locks_wf_write_vesting a l : keepsP locks_wf (write_vesting a l).
Proof. unfold write_vesting. repeat lwf. Qed.

Lemma locks_wf_step c s x : locks_wf s -> locks_wf (step c s x).
Proof.
  intros Hs. destruct (op_may_write x PLocks) eqn:Hw.
  2: { exact (locks_wf_view _ _ (step_same c s x PLocks Hw) Hs). }
  destruct x as [o k| | | | | | | | | |]; try discriminate Hw; cbn [step].
  - unfold dispatch. apply run_call_keepsP; [|exact Hs]. destruct k as [x| | | | |x| |]; try discriminate Hw; cbn [exec].
    + destruct x; cbn [td_exec];
      unfold td_bond, td_bond_extra, td_unbond, td_update_other, td_withdraw_unbonded,
        try_withdraw_unbonded, do_update_teerdays, deposit_event, ensure_signed; repeat lwf.
    + destruct x; cbn [cl_exec]; unfold claim, mint_claim, claim_attest, attest, move_claim, process_claim,
        deposit_creating, add_vesting_schedule, deposit_event, ensure_signed, ensure_root, ensure_none;
      repeat first [apply locks_wf_write_vesting | lwf].
  - apply run_call_keepsP; [|exact Hs]. unfold vest. repeat first [apply locks_wf_write_vesting | lwf].
  - apply run_call_keepsP; [|exact Hs]. unfold add_vesting_schedule.
    repeat first [apply locks_wf_write_vesting | lwf].
  - apply run_call_keepsP; [|exact Hs]. lwf.
  - apply run_call_keepsP; [|exact Hs]. lwf.
Qed.
Lemma locks_wf_genesis g : locks_wf (genesis_state g).
Proof. intros a. unfold locks_of. cbn. rewrite lookup_empty. apply NoDup_nil_2. Qed.

Lemma lock_le_max id l : NoDup (map fst l) -> lock_amount id l <= max_lock l.
Proof.
  induction l as [|[i x] r IH]; cbn; intros H; [lia|].
  apply NoDup_cons in H as [H1 H2]. specialize (IH H2). unfold lock_amount, max_lock in IH.
  destruct (decide (i = id)); [|lia]. subst i.
  assert (lock_amount id r = 0) as E.
  { clear IH H2. induction r as [|[j y] r IH]; [reflexivity|]. cbn in *.
    destruct (decide (j = id)); [subst; exfalso; apply H1; left|]. apply IH. intros Hi. apply H1. right. auto. }
  unfold lock_amount in E. rewrite E. lia.
Qed.
Lemma locked_le_frozen s id a : locks_wf s -> locked s id a <= frozen s a.
Proof. intros H. apply lock_le_max, H. Qed.

(** Splitting a successful run, with the origin checks *)
Lemma ensure_signed_ok o s a s' : ensure_signed o s = Ok a s' -> o = Signed a /\ s' = s.
Proof. destruct o; cbn; intros H; inv_ok H; auto. Qed.
Lemma ensure_root_ok o s a s' : ensure_root o s = Ok a s' -> o = Root /\ s' = s.
Proof. destruct o; cbn; intros H; inv_ok H; auto. Qed.
Lemma ensure_none_ok o s a s' : ensure_none o s = Ok a s' -> o = NoneO /\ s' = s.
Proof. destruct o; cbn; intros H; inv_ok H; auto. Qed.
Lemma ensure_sor_ok o s a s' : ensure_signed_or_root o s = Ok a s' ->
  s' = s /\ match a with Some x => o = Signed x | None => o = Root end.
Proof. destruct o; cbn; intros H; inv_ok H; auto. Qed.
Lemma get_sov_ok a s e s' : get_sovereign_enclave a s = Ok e s' -> tx_sov (rt_tx s) !! a = Some e /\ s' = s.
Proof. unfold get_sovereign_enclave. intros H. inv_ok H. auto. Qed.
Lemma lift_res_ok {A} (r : res A) s a s' : lift_res r s = Ok a s' -> r = ROk a /\ s' = s.
Proof. destruct r; cbn; intros H; inv_ok H; auto. Qed.
Ltac inv_rt H :=
  match type of H with
  | bind _ _ _ = Ok _ _ =>
      let a := fresh "a" in let s1 := fresh "s" in let H1 := fresh "H" in
      apply bind_ok in H; destruct H as (a & s1 & H1 & H); cbn beta in H;
      inv_rt H1; inv_rt H
  | ensure_signed _ _ = Ok _ _ => apply ensure_signed_ok in H; destruct H; subst
  | ensure_root _ _ = Ok _ _ => apply ensure_root_ok in H; destruct H; subst
  | ensure_none _ _ = Ok _ _ => apply ensure_none_ok in H; destruct H; subst
  | ensure_signed_or_root _ _ = Ok _ _ => apply ensure_sor_ok in H; destruct H; subst
  | get_sovereign_enclave _ _ = Ok _ _ => apply get_sov_ok in H; destruct H as [H ?]; subst
  | lift_res _ _ = Ok _ _ => apply lift_res_ok in H; destruct H as [H ?]; subst
  | deposit_event _ _ = Ok _ _ => unfold deposit_event in H; inv_ok H
  | _ => inv_ok H
  end.
Ltac bools :=
  repeat match goal with
  | H : (_ <=? _) = true |- _ => apply N.leb_le in H
  | H : (_ <=? _) = false |- _ => apply N.leb_gt in H
  | H : (_ <? _) = true |- _ => apply N.ltb_lt in H
  | H : (_ <? _) = false |- _ => apply N.ltb_ge in H
  | H : (_ =? _) = true |- _ => apply N.eqb_eq in H
  | H : (_ =? _) = false |- _ => apply N.eqb_neq in H
  | H : beq _ _ = true |- _ => apply beq_true in H
  | H : beq _ _ = false |- _ => apply beq_false in H
  | H : negb _ = true |- _ => apply negb_true_iff in H
  | H : negb _ = false |- _ => apply negb_false_iff in H
  | H : _ && _ = true |- _ => apply andb_true_iff in H; destruct H
  | H : _ || _ = false |- _ => apply orb_false_iff in H; destruct H
  | H : bool_decide _ = true |- _ => apply bool_decide_eq_true in H
  | H : bool_decide _ = false |- _ => apply bool_decide_eq_false in H
  end.

(** ** Free balances *)
Lemma free_put_free a v s b : free (put_free a v s) b = if decide (a = b) then v else free s b.
Proof.
  unfold free, put_free. cbn. destruct (N.eqb_spec v 0).
  - destruct (decide (a = b)) as [->|Hn]; [rewrite lookup_delete|rewrite lookup_delete_ne by auto]; auto.
  - destruct (decide (a = b)) as [->|Hn]; [rewrite lookup_insert|rewrite lookup_insert_ne by auto]; auto.
Qed.
Lemma free_view s s' : v_free s' = v_free s -> forall a, free s' a = free s a.
Proof. unfold v_free, free. intros -> a. auto. Qed.
Lemma locked_view s s' : v_locks s' = v_locks s -> forall id a, locked s' id a = locked s id a.
Proof. unfold v_locks, locked, locks_of. intros -> id a. auto. Qed.

(** Balance of an account after a reduction to [v]: below the existential deposit all is gone *)
Definition after_dust (c : cfg) (v : N) : N := if v <? c_ed c then 0 else v.
Definition dust_event (c : cfg) (a : acct) (v : N) : list event :=
  if (v <? c_ed c) && negb (v =? 0) then [EvDust a v] else [].

Lemma reap_ok c a v s u s' : reap c a v s = Ok u s' ->
  (forall b, free s' b = if decide (a = b) then after_dust c v else free s b) /\
  rt_ev s' = dust_event c a v ++ rt_ev s.
Proof.
  unfold reap, after_dust, dust_event, deposit_event. intros H.
  destruct (N.ltb_spec v (c_ed c)); cbn [andb].
  - inv_ok H. destruct (N.eqb_spec v 0); inv_ok H; (split; [|reflexivity]); intros b.
    + rewrite free_put_free. reflexivity.
    + transitivity (free (put_free a 0 s) b); [reflexivity|]. rewrite free_put_free. reflexivity.
  - inv_ok H. split; [|reflexivity]. intros b. apply free_put_free.
Qed.

Lemma transfer_ok c src dst v s u s' : transfer c src dst v s = Ok u s' ->
  ((v = 0 \/ src = dst) /\ s' = s) \/
  (v <> 0 /\ src <> dst /\ v <= free s src /\ v <= spendable c s src /\
   free s dst + v <= c_bal_max c /\ c_ed c <= free s dst + v /\
   (forall b, free s' b = if decide (b = src) then after_dust c (free s src - v)
                          else if decide (b = dst) then free s dst + v else free s b) /\
   rt_ev s' = EvTransfer src dst v :: dust_event c src (free s src - v) ++ rt_ev s).
Proof.
  unfold transfer. destruct (N.eqb_spec v 0) as [->|Hv]; cbn [orb].
  { intros H. inv_ok H. auto. }
  destruct (beq src dst) eqn:Hb.
  { intros H. inv_ok H. apply beq_true in Hb. auto. }
  apply beq_false in Hb. intros H. right.
  inv_rt H. bools. rename s into s1. rename s0 into s.
  match goal with Hx : reap _ _ _ _ = Ok _ _ |- _ => apply reap_ok in Hx as [Hf He] end.
  repeat split; auto.
  - intros b. change (free (add_ev ?e ?t) b) with (free t b). rewrite free_put_free.
    destruct (decide (b = src)) as [->|]; [destruct (decide (dst = src)); [congruence|]|].
    + rewrite Hf. destruct (decide (src = src)); [reflexivity|contradiction].
    + destruct (decide (dst = b)) as [->|]; [destruct (decide (b = b)); [reflexivity|contradiction]|].
      rewrite Hf. destruct (decide (src = b)); [congruence|].
      destruct (decide (b = dst)); [congruence|reflexivity].
  - cbn. rewrite He. reflexivity.
Qed.

Lemma deposit_ok c a v s u s' : deposit_creating c a v s = Ok u s' ->
  s' = s /\ (v = 0 \/ free s a = 0 /\ v < c_ed c \/ c_bal_max c < free s a + v) \/
  (v <> 0 /\ (free s a <> 0 \/ c_ed c <= v) /\ free s a + v <= c_bal_max c /\
   (forall b, free s' b = if decide (b = a) then free s a + v else free s b) /\
   rt_ev s' = EvDeposit a v :: rt_ev s).
Proof.
  unfold deposit_creating. destruct (N.eqb_spec v 0) as [->|Hv].
  { intros H. inv_rt H. auto. }
  intros H. apply bind_ok in H as (f & s1 & H1 & H). inv_rt H1.
  destruct ((free s1 a =? 0) && (v <? c_ed c)) eqn:Hb.
  { inv_rt H. bools. tauto. }
  destruct (N.ltb_spec (c_bal_max c) (free s1 a + v)).
  { inv_rt H. tauto. }
  inv_rt H. right. repeat split; auto.
  - destruct (N.eqb_spec (free s1 a) 0); auto. cbn in Hb. bools. auto.
  - intros b. change (free (add_ev ?e ?t) b) with (free t b). rewrite free_put_free.
    destruct (decide (a = b)), (decide (b = a)); congruence.
Qed.

Lemma withdraw_ok c a v s u s' : withdraw c a v s = Ok u s' ->
  (v = 0 /\ s' = s) \/
  (v <> 0 /\ v <= spendable c s a /\
   (forall b, free s' b = if decide (b = a) then after_dust c (free s a - v) else free s b) /\
   rt_ev s' = EvWithdraw a v :: dust_event c a (free s a - v) ++ rt_ev s).
Proof.
  unfold withdraw. destruct (N.eqb_spec v 0) as [->|Hv].
  { intros H. inv_rt H. auto. }
  intros H. right. inv_rt H. bools. rename s into s1. rename s0 into s.
  match goal with Hx : reap _ _ _ _ = Ok _ _ |- _ => apply reap_ok in Hx as [Hf He] end.
  repeat split; auto.
  - intros b. change (free (add_ev ?e ?t) b) with (free t b). rewrite Hf.
    destruct (decide (a = b)), (decide (b = a)); congruence.
  - cbn. rewrite He. reflexivity.
Qed.

(** Spending leaves at least the frozen amount, and never dusts an account with a lock *)
Lemma spend_keeps_lock c s a v id : locks_wf s -> v <> 0 -> v <= spendable c s a -> locked s id a <= free s a ->
  locked s id a <= after_dust c (free s a - v).
Proof.
  intros Hw Hv0 Hv Hl. pose proof (locked_le_frozen s id a Hw) as Hf.
  unfold spendable, untouchable in Hv. unfold after_dust.
  destruct (N.eqb_spec (frozen s a) 0); [lia|].
  destruct (N.ltb_spec (free s a - v) (c_ed c)); lia.
Qed.

(** ** Clock *)
Lemma clock_step c s x : rt_now s <= rt_now (step c s x) /\ rt_blk s <= rt_blk (step c s x).
Proof.
  destruct (op_may_write x PClock) eqn:Hw.
  - destruct x as [o k| | | | | | | | | |]; try discriminate Hw; [destruct k; discriminate Hw|].
    cbn [step]. unfold next_block. destruct (_ <=? _); cbn; lia.
  - pose proof (step_same c s x PClock Hw) as H. cbn in H. unfold v_clock in H. inversion H. lia.
Qed.
Lemma clock_run c s l : rt_now s <= rt_now (run c s l) /\ rt_blk s <= rt_blk (run c s l).
Proof.
  revert s. induction l as [|x l IH]; intros s; [cbn; lia|]. rewrite run_cons.
  pose proof (clock_step c s x). specialize (IH (step c s x)). lia.
Qed.
Lemma call_clock c o k s s' : exec c o k s = Ok tt s' -> rt_now s' = rt_now s /\ rt_blk s' = rt_blk s.
Proof.
  intros H. assert (may_write k PClock = false) as Hw by (destruct k; reflexivity).
  pose proof (exec_keeps c o k PClock Hw _ _ _ H) as E. cbn in E. unfold v_clock in E. inversion E. auto.
Qed.

(** Operations other than the calls of TEERdays leave its lock alone *)
Lemma td_lock_pres_set id a v b : id <> LTeerdays -> pres (fun s => locked s LTeerdays b) (set_lock id a v).
Proof. intros Hn s u s' H. eapply locked_set_lock_other; eauto. Qed.
Lemma td_lock_pres_remove id a b : id <> LTeerdays -> pres (fun s => locked s LTeerdays b) (remove_lock id a).
Proof. intros Hn s u s' H. eapply locked_remove_lock_other; eauto. Qed.
Lemma td_lock_pres_vesting a l b : pres (fun s => locked s LTeerdays b) (write_vesting a l).
Proof.
  unfold write_vesting. repeat first [apply td_lock_pres_set; discriminate
    | apply td_lock_pres_remove; discriminate | pres_step].
Qed.
Definition is_td (x : op) : bool := match x with OCall _ (CTd _) => true | _ => false end.
Lemma td_lock_step c s x b : is_td x = false -> locked (step c s x) LTeerdays b = locked s LTeerdays b.
Proof.
  intros Ht. destruct (op_may_write x PLocks) eqn:Hw.
  2: { exact (locked_view _ _ (step_same c s x PLocks Hw) _ _). }
  assert (forall m, pres (fun s => locked s LTeerdays b) m ->
    locked (run_call m s).2 LTeerdays b = locked s LTeerdays b) as Hrun.
  { intros m Hm. destruct (run_call_cases m s) as [(s' & E & ->)|[_ ->]]; [|reflexivity]. exact (Hm _ _ _ E). }
  destruct x as [o k| | | | | | | | | |]; try discriminate Hw; cbn [step].
  - unfold dispatch. apply Hrun. destruct k as [x| | | | |x| |]; try discriminate Hw; try discriminate Ht; cbn [exec].
    destruct x; cbn [cl_exec]; unfold claim, mint_claim, claim_attest, attest, move_claim, process_claim,
        deposit_creating, add_vesting_schedule, deposit_event, ensure_signed, ensure_root, ensure_none;
      repeat first [apply td_lock_pres_vesting | pres_step].
  - apply Hrun. unfold vest. repeat first [apply td_lock_pres_vesting | pres_step].
  - apply Hrun. unfold add_vesting_schedule. repeat first [apply td_lock_pres_vesting | pres_step].
  - apply Hrun. apply td_lock_pres_set; discriminate.
  - apply Hrun. apply td_lock_pres_remove; discriminate.
Qed.

(** Spending respects the lock *)
Definition covered (L : N) (a : acct) (s : rt) : Prop := locks_wf s /\ locked s LTeerdays a = L /\ L <= free s a.
Lemma covered_bal L a s s' : rt_bal s' = rt_bal s -> covered L a s -> covered L a s'.
Proof.
  intros E (H1 & H2 & H3). unfold covered, locks_wf, locked, locks_of, free in *. rewrite E. auto.
Qed.
Lemma locks_pres_transfer c src dst v : pres v_locks (transfer c src dst v).
Proof. unfold_env. pres_tac. Qed.
Lemma locks_pres_deposit_creating c b v : pres v_locks (deposit_creating c b v).
Proof. unfold_env. pres_tac. Qed.
Lemma locks_pres_withdraw c b v : pres v_locks (withdraw c b v).
Proof. unfold_env. pres_tac. Qed.
Lemma covered_transfer L a c src dst v : keepsP (covered L a) (transfer c src dst v).
Proof.
  intros s u s' (H1 & H2 & H3) H.
  assert (v_locks s' = v_locks s) as HL.
  { exact (locks_pres_transfer c src dst v _ _ _ H). }
  split; [eapply locks_wf_view; eauto|]. rewrite (locked_view _ _ HL).
  apply transfer_ok in H as [(_ & ->)|(Hv & Hn & Hf & Hs & _ & _ & HF & _)]; [auto|].
  split; [auto|]. rewrite HF. destruct (decide (a = src)) as [->|].
  - rewrite <- H2. apply spend_keeps_lock; auto. lia.
  - destruct (decide (a = dst)) as [->|]; lia.
Qed.
Lemma covered_deposit L a c b v : keepsP (covered L a) (deposit_creating c b v).
Proof.
  intros s u s' (H1 & H2 & H3) H.
  assert (v_locks s' = v_locks s) as HL.
  { exact (locks_pres_deposit_creating c b v _ _ _ H). }
  split; [eapply locks_wf_view; eauto|]. rewrite (locked_view _ _ HL).
  apply deposit_ok in H as [(-> & _)|(Hv & _ & _ & HF & _)]; [auto|].
  split; [auto|]. rewrite HF. destruct (decide (a = b)) as [->|]; lia.
Qed.
Lemma covered_withdraw L a c b v : keepsP (covered L a) (withdraw c b v).
Proof.
  intros s u s' (H1 & H2 & H3) H.
  assert (v_locks s' = v_locks s) as HL.
  { exact (locks_pres_withdraw c b v _ _ _ H). }
  split; [eapply locks_wf_view; eauto|]. rewrite (locked_view _ _ HL).
  apply withdraw_ok in H as [(_ & ->)|(Hv & Hs & HF & _)]; [auto|].
  split; [auto|]. rewrite HF. destruct (decide (a = b)) as [->|]; [|lia].
  rewrite <- H2. apply spend_keeps_lock; auto. lia.
Qed.
Lemma free_pres_locks id a v : pres v_free (set_lock id a v).
Proof. unfold set_lock. pres_tac. Qed.
Lemma free_pres_remove id a : pres v_free (remove_lock id a).
Proof. unfold remove_lock. pres_tac. Qed.
Lemma covered_set_lock L a id b v : id <> LTeerdays -> keepsP (covered L a) (set_lock id b v).
Proof.
  intros Hid s u s' (H1 & H2 & H3) H. split; [eapply locks_wf_set_lock; eauto|].
  split; [erewrite locked_set_lock_other; eauto|].
  rewrite (free_view _ _ (free_pres_locks id b v _ _ _ H)). auto.
Qed.
Lemma covered_remove_lock L a id b : id <> LTeerdays -> keepsP (covered L a) (remove_lock id b).
Proof.
  intros Hid s u s' (H1 & H2 & H3) H. split; [eapply locks_wf_remove_lock; eauto|].
  split; [erewrite locked_remove_lock_other; eauto|].
  rewrite (free_view _ _ (free_pres_remove id b _ _ _ H)). auto.
Qed.
Ltac cov := first
  [ apply covered_transfer | apply covered_deposit | apply covered_withdraw
  | apply covered_set_lock; discriminate | apply covered_remove_lock; discriminate
  | apply (keepsP_modify (covered _ _)); intros ? Hcov; refine (covered_bal _ _ _ _ _ Hcov); reflexivity
  | keepsP_step ].
Lemma covered_vesting L a b l : keepsP (covered L a) (write_vesting b l).
Proof. unfold write_vesting. repeat cov. Qed.
Lemma covered_step c s x a : is_td x = false -> locks_wf s -> locked s LTeerdays a <= free s a ->
  locked (step c s x) LTeerdays a <= free (step c s x) a.
Proof.
  intros Ht Hw Hl. assert (covered (locked s LTeerdays a) a s) as Hc by (split; auto).
  assert (covered (locked s LTeerdays a) a (step c s x)) as (_ & H2 & H3); [|lia].
  destruct (op_may_write x PFree || op_may_write x PLocks) eqn:HW.
  2: { bools. pose proof (step_same c s x PFree) as E1. pose proof (step_same c s x PLocks) as E2.
       specialize (E1 H). specialize (E2 H0). refine (covered_bal _ _ s _ _ Hc).
       cbn in E1, E2. unfold v_free, v_locks in *. destruct (rt_bal s), (rt_bal (step c s x)); cbn in *; congruence. }
  destruct x as [o k| | | | | | | | | |]; try discriminate HW; cbn [step].
  - unfold dispatch. apply run_call_keepsP; [|exact Hc].
    destruct k as [x|x| | | |x| |]; try discriminate HW; try discriminate Ht; cbn [exec].
    + destruct x; cbn [eb_exec_call];
      unfold invoke, confirm_processed, shield_funds, unshield_funds, publish_hash, update_shard_config,
        purge, get_enclave_and_touch, get_config, touch_shard, deposit_event, ensure_signed, ensure_root,
        ensure_signed_or_root, get_sovereign_enclave; repeat cov.
    + destruct x; cbn [cl_exec]; unfold claim, mint_claim, claim_attest, attest, move_claim, process_claim,
        add_vesting_schedule, deposit_event, ensure_signed, ensure_root, ensure_none;
      repeat first [apply covered_vesting | cov].
  - apply run_call_keepsP; [|exact Hc]. cov.
  - apply run_call_keepsP; [|exact Hc]. cov.
  - apply run_call_keepsP; [|exact Hc]. cov.
  - apply run_call_keepsP; [|exact Hc]. unfold vest. repeat first [apply covered_vesting | cov].
  - apply run_call_keepsP; [|exact Hc]. unfold add_vesting_schedule. repeat first [apply covered_vesting | cov].
  - apply run_call_keepsP; [|exact Hc]. cov.
  - apply run_call_keepsP; [|exact Hc]. cov.
Qed.

(** ** Balances stay within the balance type *)
Definition free_bounded (c : cfg) (s : rt) : Prop := forall a, free s a <= c_bal_max c.
Lemma free_bounded_view c s s' : v_free s' = v_free s -> free_bounded c s -> free_bounded c s'.
Proof. intros E H a. rewrite (free_view _ _ E). auto. Qed.
Lemma after_dust_le c v : after_dust c v <= v.
Proof. unfold after_dust. destruct (v <? c_ed c); lia. Qed.
Lemma fb_transfer c src dst v : keepsP (free_bounded c) (transfer c src dst v).
Proof.
  intros s u s' Hs H a. apply transfer_ok in H as [(_ & ->)|(Hv & Hn & Hf & Hsp & Hm & _ & HF & _)]; [auto|].
  rewrite HF. pose proof (after_dust_le c (free s src - v)). pose proof (Hs src). pose proof (Hs a).
  destruct (decide (a = src)); [lia|]. destruct (decide (a = dst)); lia.
Qed.
Lemma fb_deposit c b v : keepsP (free_bounded c) (deposit_creating c b v).
Proof.
  intros s u s' Hs H a. apply deposit_ok in H as [(-> & _)|(Hv & _ & Hm & HF & _)]; [auto|].
  rewrite HF. pose proof (Hs a). destruct (decide (a = b)); lia.
Qed.
Lemma fb_withdraw c b v : keepsP (free_bounded c) (withdraw c b v).
Proof.
  intros s u s' Hs H a. apply withdraw_ok in H as [(_ & ->)|(Hv & Hsp & HF & _)]; [auto|].
  rewrite HF. pose proof (after_dust_le c (free s b - v)). pose proof (Hs b). pose proof (Hs a).
  destruct (decide (a = b)); lia.
Qed.
Ltac fb := first
  [ apply fb_transfer | apply fb_deposit | apply fb_withdraw
  | apply (keepsP_modify (free_bounded _)); intros ? Hfb; refine (free_bounded_view _ _ _ _ Hfb);
    cbn; repeat case_match; reflexivity
  | keepsP_step ].
Lemma free_bounded_step c s x : free_bounded c s -> free_bounded c (step c s x).
Proof.
  intros Hs. destruct (op_may_write x PFree) eqn:HW.
  2: { exact (free_bounded_view _ _ _ (step_same c s x PFree HW) Hs). }
  destruct x as [o k| | | | | | | | | |]; try discriminate HW; cbn [step].
  - unfold dispatch. apply run_call_keepsP; [|exact Hs].
    destruct k as [x|x| | | |x| |]; try discriminate HW; cbn [exec].
    + destruct x; cbn [eb_exec_call];
      unfold invoke, confirm_processed, shield_funds, unshield_funds, publish_hash, update_shard_config,
        purge, get_enclave_and_touch, get_config, touch_shard, deposit_event, ensure_signed, ensure_root,
        ensure_signed_or_root, get_sovereign_enclave; repeat fb.
    + destruct x; cbn [cl_exec]; unfold claim, mint_claim, claim_attest, attest, move_claim, process_claim,
        add_vesting_schedule, write_vesting, set_lock, remove_lock, deposit_event, ensure_signed,
        ensure_root, ensure_none; repeat fb.
  - apply run_call_keepsP; [|exact Hs]. fb.
  - apply run_call_keepsP; [|exact Hs]. fb.
  - apply run_call_keepsP; [|exact Hs]. fb.
Qed.

(** Forward execution *)
Lemma bind_fw {A B} (m : RM A) (k : A -> RM B) s a s' : m s = Ok a s' -> bind m k s = k a s'.
Proof. intros H. unfold bind. rewrite H. auto. Qed.
Lemma bind_err {A B} (m : RM A) (k : A -> RM B) s e s' : m s = Err e s' -> bind m k s = Err e s'.
Proof. intros H. unfold bind. rewrite H. auto. Qed.
Lemma bind_panic {A B} (m : RM A) (k : A -> RM B) s : m s = Panic -> bind m k s = Panic.
Proof. intros H. unfold bind. rewrite H. auto. Qed.
Lemma bind_err_inv {A B} (m : RM A) (k : A -> RM B) s e s' : bind m k s = Err e s' ->
  m s = Err e s' \/ exists a s1, m s = Ok a s1 /\ k a s1 = Err e s'.
Proof. unfold bind. destruct (m s); intros H; [right; eauto|left; inversion H; auto|discriminate]. Qed.
Lemma bind_panic_inv {A B} (m : RM A) (k : A -> RM B) s : bind m k s = Panic ->
  m s = Panic \/ exists a s1, m s = Ok a s1 /\ k a s1 = Panic.
Proof. unfold bind. destruct (m s); intros H; [right; eauto|discriminate|left; auto]. Qed.
Lemma ensure_err b e (s : rt) (e' : error) s' : ensure b e s = Err e' s' -> b = false /\ e' = e /\ s' = s.
Proof. unfold ensure. destruct b; intros H; inversion H; auto. Qed.
Lemma ok_or_err {A} (x : option A) e (s : rt) (e' : error) s' : ok_or x e s = Err e' s' -> x = None /\ e' = e /\ s' = s.
Proof. destruct x; intros H; inversion H; auto. Qed.
