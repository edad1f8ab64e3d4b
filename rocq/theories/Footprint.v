(** * Footprint: which entries of the state a computation depends on and which it changes. *)
From Verif Require Import Base State Env TeerdaysModel TeerexBase SgxVerifyModel TeerexModel
  EnclaveBridgeModel SidechainModel TeeracleModel ClaimsModel AssetRegistryModel XcmTransactorModel
  MigrationsModel Runtime ScaleModel StorageModel.

(** The entries of the state: the clock, the block number, what the balances, vesting and assets
    pallets hold for one account or asset, and the storage entries of the pallets of /repo *)
Inductive cell :=
| XNow | XBlk | XFree (a : acct) | XLocks (a : acct) | XVest (a : acct) | XAsset (i : N)
| XE (k : skey).
(** Two states have the same in an entry. (The entries of the old storage of teerex are not part of
    the runtime state.) *)
Definition same_at (x : cell) (s t : rt) : Prop :=
  match x with
  | XNow => rt_now s = rt_now t
  | XBlk => rt_blk s = rt_blk t
  | XFree a => b_free (rt_bal s) !! a = b_free (rt_bal t) !! a
  | XLocks a => b_locks (rt_bal s) !! a = b_locks (rt_bal t) !! a
  | XVest a => rt_vest s !! a = rt_vest t !! a
  | XAsset i => ar_assets (rt_ar s) !! i = ar_assets (rt_ar t) !! i
  | XE (KSov a) => tx_sov (rt_tx s) !! a = tx_sov (rt_tx t) !! a
  | XE (KProx a) => tx_prox (rt_tx s) !! a = tx_prox (rt_tx t) !! a
  | XE KQe => tx_qe (rt_tx s) = tx_qe (rt_tx t)
  | XE (KTcb f) => tx_tcb (rt_tx s) !! f = tx_tcb (rt_tx t) !! f
  | XE KDebug => tx_allow_debug (rt_tx s) = tx_allow_debug (rt_tx t)
  | XE KSkip => tx_allow_skip (rt_tx s) = tx_allow_skip (rt_tx t)
  | XE (KStatus h) => eb_status (rt_eb s) !! h = eb_status (rt_eb t) !! h
  | XE (KConfig h) => eb_config (rt_eb s) !! h = eb_config (rt_eb t) !! h
  | XE (KExec h) => eb_exec (rt_eb s) !! h = eb_exec (rt_eb t) !! h
  | XE (KLatest h) => rt_sc s !! h = rt_sc t !! h
  | XE (KRates p a) => to_rates (rt_to s) !! (p, a) = to_rates (rt_to t) !! (p, a)
  | XE (KData n a) => to_data (rt_to s) !! (n, a) = to_data (rt_to t) !! (n, a)
  | XE (KWhitelist a) => to_wl (rt_to s) !! a = to_wl (rt_to t) !! a
  | XE (KBonds a) => td_bonds (rt_td s) !! a = td_bonds (rt_td t) !! a
  | XE (KPending a) => td_pending (rt_td s) !! a = td_pending (rt_td t) !! a
  | XE (KClaims e) => cl_claims (rt_cl s) !! e = cl_claims (rt_cl t) !! e
  | XE KTotal => cl_total (rt_cl s) = cl_total (rt_cl t)
  | XE (KVesting e) => cl_vesting (rt_cl s) !! e = cl_vesting (rt_cl t) !! e
  | XE (KSigning e) => cl_signing (rt_cl s) !! e = cl_signing (rt_cl t) !! e
  | XE (KPreclaims a) => cl_preclaims (rt_cl s) !! a = cl_preclaims (rt_cl t) !! a
  | XE (KAssetLoc i) => ar_loc (rt_ar s) !! i = ar_loc (rt_ar t) !! i
  | XE (KAssetId l) => ar_id (rt_ar s) !! l = ar_id (rt_ar t) !! l
  | XE (KV0Registry _) | XE KV0Count | XE (KV0Index _) | XE KV0Debug | XE KVersion => True
  end.
Definition agree (R : list cell) (s t : rt) : Prop := forall x, x ∈ R -> same_at x s t.

Lemma same_at_refl x s : same_at x s s.
Proof. destruct x as [| | | | | |[]]; cbn; auto. Qed.
Lemma same_at_sym x s t : same_at x s t -> same_at x t s.
Proof. destruct x as [| | | | | |[]]; cbn; auto. Qed.
Lemma same_at_trans x s t u : same_at x s t -> same_at x t u -> same_at x s u.
Proof. destruct x as [| | | | | |[]]; cbn; congruence. Qed.
Lemma agree_cons x R s t : agree (x :: R) s t <-> same_at x s t /\ agree R s t.
Proof.
  unfold agree. split.
  - intros H. split; [apply H; left|intros y Hy; apply H; right; auto].
  - intros [H1 H2] y Hy. apply elem_of_cons in Hy as [->|Hy]; auto.
Qed.
Lemma agree_sub R Q s t : (forall x, x ∈ R -> x ∈ Q) -> agree Q s t -> agree R s t.
Proof. intros H HA x Hx. auto. Qed.
Lemma agree_refl R s : agree R s s.
Proof. intros x _. apply same_at_refl. Qed.
Lemma agree_sym R s t : agree R s t -> agree R t s.
Proof. intros H x Hx. apply same_at_sym; auto. Qed.

(** Going from [s1] to [t1] and from [s2] to [t2] does the same: each entry is either left alone on
    both sides or becomes the same, and the same events and messages are added *)
Definition alike (x : cell) (s1 t1 s2 t2 : rt) : Prop :=
  same_at x s1 t1 /\ same_at x s2 t2 \/ same_at x t1 t2.
Record does_same (s1 t1 s2 t2 : rt) : Prop := mkSame {
  ds_cells : forall x, alike x s1 t1 s2 t2;
  ds_events : exists l, rt_ev t1 = l ++ rt_ev s1 /\ rt_ev t2 = l ++ rt_ev s2;
  ds_out : exists l, rt_out t1 = l ++ rt_out s1 /\ rt_out t2 = l ++ rt_out s2 }.

Lemma alike_trans x s1 t1 u1 s2 t2 u2 : alike x s1 t1 s2 t2 -> alike x t1 u1 t2 u2 -> alike x s1 u1 s2 u2.
Proof.
  intros [[A1 A2]|A] [[B1 B2]|B]; try (right; exact B).
  - left. split; eapply same_at_trans; eauto.
  - right. eapply same_at_trans; [apply same_at_sym, B1|]. eapply same_at_trans; [exact A|exact B2].
Qed.
Lemma ds_refl s1 s2 : does_same s1 s1 s2 s2.
Proof.
  split; [intros x; left; split; apply same_at_refl|exists []; auto|exists []; auto].
Qed.
Lemma ds_trans s1 t1 u1 s2 t2 u2 : does_same s1 t1 s2 t2 -> does_same t1 u1 t2 u2 -> does_same s1 u1 s2 u2.
Proof.
  intros [A (l & L1 & L2) (m & M1 & M2)] [B (l' & L1' & L2') (m' & M1' & M2')]. split.
  - intros x. eapply alike_trans; eauto.
  - exists (l' ++ l). rewrite L1', L2', L1, L2, !(assoc_L (++)). auto.
  - exists (m' ++ m). rewrite M1', M2', M1, M2, !(assoc_L (++)). auto.
Qed.
Lemma ds_agree R s1 t1 s2 t2 : does_same s1 t1 s2 t2 -> agree R s1 s2 -> agree R t1 t2.
Proof.
  intros D H x Hx. destruct (ds_cells _ _ _ _ D x) as [[A1 A2]|A]; [|exact A].
  eapply same_at_trans; [apply same_at_sym, A1|]. eapply same_at_trans; [apply H, Hx|exact A2].
Qed.

(** [m] does the same in [s1] and [s2] *)
Definition det_at {A} (m : RM A) (s1 s2 : rt) : Prop :=
  match m s1, m s2 with
  | Ok a t1, Ok b t2 => a = b /\ does_same s1 t1 s2 t2
  | Err e _, Err e' _ => e = e'
  | Panic, Panic => True
  | _, _ => False
  end.
(** [m] depends on the entries [R] only *)
Definition det (R : list cell) {A} (m : RM A) : Prop := forall s1 s2, agree R s1 s2 -> det_at m s1 s2.

Section Det.
Context (R : list cell).
Lemma det_ret {A} (a : A) : det R (ret a).
Proof. intros s1 s2 _. cbn. split; [auto|apply ds_refl]. Qed.
Lemma det_fail {A} e : det R (fail e : RM A).
Proof. intros s1 s2 _. reflexivity. Qed.
Lemma det_panic {A} : det R (panic : RM A).
Proof. intros s1 s2 _. exact I. Qed.
Lemma det_gets {A} (f : rt -> A) : (forall s1 s2, agree R s1 s2 -> f s1 = f s2) -> det R (gets f).
Proof. intros H s1 s2 HA. cbn. split; [auto|apply ds_refl]. Qed.
Lemma det_ensure b e : det R (ensure b e).
Proof. destruct b; [apply det_ret|apply det_fail]. Qed.
Lemma det_ok_or {A} (o : option A) e : det R (ok_or o e).
Proof. destruct o; [apply det_ret|apply det_fail]. Qed.
Lemma det_plain_add ovf mx a b : det R (plain_add ovf mx a b).
Proof. unfold plain_add. destruct (_ <=? _); [apply det_ret|]. destruct ovf; [apply det_panic|apply det_ret]. Qed.
Lemma det_lift {A} (r : res A) : det R (lift_res r).
Proof. destruct r; [apply det_ret|apply det_fail|apply det_panic]. Qed.
Lemma det_bind {A B} (m : RM A) (k : A -> RM B) : det R m -> (forall a, det R (k a)) -> det R (bind m k).
Proof.
  intros Hm Hk s1 s2 HA. specialize (Hm s1 s2 HA). unfold det_at, bind in *.
  destruct (m s1) as [a t1|e t1|], (m s2) as [b t2|e' t2|]; try contradiction; auto.
  destruct Hm as [<- D]. specialize (Hk a t1 t2 (ds_agree _ _ _ _ _ D HA)). unfold det_at in Hk.
  destruct (k a t1) as [a' u1|e u1|], (k a t2) as [b' u2|e' u2|]; try contradiction; auto.
  destruct Hk as [<- D']. split; [auto|]. eapply ds_trans; eauto.
Qed.
Lemma det_modify g :
  (forall s1 s2, agree R s1 s2 -> forall x, alike x s1 (g s1) s2 (g s2)) ->
  (forall s, rt_ev (g s) = rt_ev s /\ rt_out (g s) = rt_out s) -> det R (modify g).
Proof.
  intros H HL s1 s2 HA. cbn. split; [auto|]. split; [auto| |]; exists []; cbn; split; apply HL.
Qed.
Lemma det_event e : det R (deposit_event e).
Proof.
  intros s1 s2 HA. cbn. split; [auto|]. split; [|exists [e]; auto|exists []; auto].
  intros x. left. destruct x as [| | | | | |[]]; cbn; auto.
Qed.
End Det.
Lemma det_at_gets {A B} (f : rt -> A) (k : A -> RM B) s1 s2 :
  f s1 = f s2 -> det_at (k (f s1)) s1 s2 -> det_at (bind (gets f) k) s1 s2.
Proof. intros E. unfold det_at, bind, gets. rewrite <- E. auto. Qed.

(** [m] changes the entries [W] at most, when it succeeds *)
Definition only (W : list cell) {A} (m : RM A) : Prop :=
  forall s a t, m s = Ok a t -> forall x, x ∉ W -> same_at x s t.
Section Only.
Context (W : list cell).
Lemma only_ret {A} (a : A) : only W (ret a).
Proof. intros s b t H x _. inv_ok H. apply same_at_refl. Qed.
Lemma only_fail {A} e : only W (fail e : RM A).
Proof. intros s b t H. inv_ok H. Qed.
Lemma only_panic {A} : only W (panic : RM A).
Proof. intros s b t H. inv_ok H. Qed.
Lemma only_gets {A} (f : rt -> A) : only W (gets f).
Proof. intros s b t H x _. inv_ok H. apply same_at_refl. Qed.
Lemma only_ensure b e : only W (ensure b e).
Proof. destruct b; [apply only_ret|apply only_fail]. Qed.
Lemma only_ok_or {A} (o : option A) e : only W (ok_or o e).
Proof. destruct o; [apply only_ret|apply only_fail]. Qed.
Lemma only_plain_add ovf mx a b : only W (plain_add ovf mx a b).
Proof. unfold plain_add. destruct (_ <=? _); [apply only_ret|]. destruct ovf; [apply only_panic|apply only_ret]. Qed.
Lemma only_lift {A} (r : res A) : only W (lift_res r).
Proof. destruct r; [apply only_ret|apply only_fail|apply only_panic]. Qed.
Lemma only_bind {A B} (m : RM A) (k : A -> RM B) : only W m -> (forall a, only W (k a)) -> only W (bind m k).
Proof.
  intros Hm Hk s b t H x Hx. apply bind_ok in H as (a & s1 & H1 & H2).
  eapply same_at_trans; [eapply Hm; eauto|eapply Hk; eauto].
Qed.
Lemma only_modify g : (forall s x, x ∉ W -> same_at x s (g s)) -> only W (modify g).
Proof. intros H s a t E x Hx. inv_ok E. auto. Qed.
Lemma only_event e : only W (deposit_event e).
Proof. intros s a t E x _. unfold deposit_event in E. inv_ok E. destruct x as [| | | | | |[]]; cbn; auto. Qed.
End Only.

(** ** Automation *)
Ltac cells H :=
  repeat lazymatch type of H with
  | agree (_ :: _) _ _ => apply agree_cons in H as [? H]
  end; clear H; cbn [same_at] in *.
Ltac use_cells := repeat match goal with E : _ = _ |- _ => first [rewrite !E|idtac]; clear E end.
Ltac read_tac :=
  let H := fresh in intros ? ? H; cells H; cbn beta;
  unfold free, locked, locks_of, spendable, untouchable, frozen, has_vesting, is_whitelisted, whitelist,
    locks_of; use_cells; reflexivity.
Ltac split_keys :=
  let Heq := fresh "Heq" in
  repeat match goal with
  | |- context [ <[?a := _]> _ !! ?b ] =>
      destruct (decide (a = b)) as [Heq|]; [first [subst b | injection Heq as <- <-]; rewrite !lookup_insert|rewrite !lookup_insert_ne by assumption]
  | |- context [ delete ?a _ !! ?b ] =>
      destruct (decide (a = b)) as [Heq|]; [first [subst b | injection Heq as <- <-]; rewrite !lookup_delete|rewrite !lookup_delete_ne by assumption]
  end.
Ltac alike_tac :=
  let H := fresh "HA" in let x := fresh "x" in
  intros ? ? H; cells H; intros x; unfold alike;
  unfold put_bond, del_bond, put_pending, del_pending, put_status, put_config, put_exec, put_rate, put_data,
    put_wl, put_sov, del_sov, put_prox, del_prox, put_qe, put_tcb, put_flags, upd_cl, upd_ar, put_free, put_locks,
    locks_of, set_td;
  destruct x as [| | | | | |[]]; cbn;
  try (left; split; reflexivity);
  repeat match goal with |- context [if ?b then _ else _] => destruct b eqn:? end; cbn;
  try (left; split; reflexivity);
  try (right; reflexivity);
  repeat match goal with |- context [match ?b with None => _ | Some _ => _ end] => destruct b eqn:? end; cbn;
  try (left; split; reflexivity);
  split_keys;
  try (left; split; reflexivity);
  right; use_cells; reflexivity.
(** writes of a value that does not depend on the state *)
Ltac det_put :=
  apply det_modify; [|intros ?; cbn; repeat case_match; split; reflexivity];
  let x := fresh "x" in intros ? ? _ x; unfold alike;
  destruct x as [| | | | | |[]]; cbn; try (left; split; reflexivity); repeat case_match; cbn;
  split_keys; first [left; split; reflexivity | right; reflexivity].
Ltac det_step :=
  first
  [ apply det_bind; [|intros ?]
  | apply det_ret | apply det_fail | apply det_panic | apply det_ensure | apply det_ok_or
  | apply det_plain_add | apply det_lift | apply det_event
  | apply det_gets; solve [read_tac]
  | apply det_modify; [solve [alike_tac]|intros ?; cbn; repeat case_match; split; reflexivity]
  | match goal with
    | |- det _ (match ?x with _ => _ end) => destruct x eqn:?
    | |- det _ (if ?x then _ else _) => destruct x eqn:?
    | |- det _ (let '(_, _) := ?x in _) => destruct x eqn:?
    end
  | progress (cbv beta zeta) ].
Ltac only_step :=
  first
  [ apply only_bind; [|intros ?]
  | apply only_ret | apply only_fail | apply only_panic | apply only_ensure | apply only_ok_or
  | apply only_plain_add | apply only_lift | apply only_event | apply only_gets
  | match goal with
    | |- only _ (match ?x with _ => _ end) => destruct x eqn:?
    | |- only _ (if ?x then _ else _) => destruct x eqn:?
    | |- only _ (let '(_, _) := ?x in _) => destruct x eqn:?
    end
  | progress (cbv beta zeta) ].
Ltac in_list := first [apply elem_of_list_here | apply elem_of_list_further; in_list].
Ltac not_here H := exfalso; apply H; in_list.
Ltac only_mod :=
  apply only_modify; let x := fresh "x" in let H := fresh "Hx" in intros ? x H;
  unfold put_bond, del_bond, put_pending, del_pending, put_status, put_config, put_exec, put_rate, put_data,
    put_wl, put_sov, del_sov, put_prox, del_prox, put_qe, put_tcb, put_flags, upd_cl, upd_ar, put_free, put_locks;
  destruct x as [| | | | | |[]]; cbn; try reflexivity; repeat case_match; cbn; try reflexivity;
  split_keys; try reflexivity; not_here H.

Lemma det_bind_fail R {A B} e (k : A -> RM B) : det R (bind (fail e) k).
Proof. intros s1 s2 _. reflexivity. Qed.
Lemma det_bind_ret R {A B} (a : A) (k : A -> RM B) : det R (k a) -> det R (bind (ret a) k).
Proof. intros H s1 s2 HA. exact (H s1 s2 HA). Qed.
Lemma only_bind_fail W {A B} e (k : A -> RM B) : only W (bind (fail e) k).
Proof. intros s a t H. discriminate H. Qed.
Lemma only_bind_ret W {A B} (a : A) (k : A -> RM B) : only W (k a) -> only W (bind (ret a) k).
Proof. intros H s b t E. exact (H s b t E). Qed.

Ltac only_tac := repeat first [apply only_ret | apply only_fail | apply only_bind_fail | apply only_bind_ret | only_step | solve [only_mod]].

(** ** The environment *)
Lemma det_gets_one R x {A} (f : rt -> A) :
  x ∈ R -> (forall s1 s2, same_at x s1 s2 -> f s1 = f s2) -> det R (gets f).
Proof. intros HR H. apply det_gets. intros s1 s2 HA. auto. Qed.
Lemma det_free R a : XFree a ∈ R -> det R (gets (fun s => free s a)).
Proof. intros HR. apply (det_gets_one R _ _ HR). cbn. intros s1 s2 E. unfold free. rewrite E. reflexivity. Qed.
Lemma det_spendable R c a : XFree a ∈ R -> XLocks a ∈ R -> det R (gets (fun s => spendable c s a)).
Proof.
  intros H1 H2. apply det_gets. intros s1 s2 HA. pose proof (HA _ H1) as E1. pose proof (HA _ H2) as E2. cbn in E1, E2.
  unfold spendable, untouchable, frozen, locks_of, free. rewrite E1, E2. reflexivity.
Qed.
Lemma det_put_locks R a (f : list (lock_id * N) -> list (lock_id * N)) :
  XLocks a ∈ R -> det R (modify (fun s => put_locks a (f (locks_of s a)) s)).
Proof.
  intros HR. apply det_modify; [|intros ?; split; reflexivity].
  intros s1 s2 HA x. specialize (HA _ HR). cbn in HA. unfold alike.
  destruct x as [| | | | | |[]]; cbn; try (left; split; reflexivity).
  unfold locks_of. split_keys; [right; rewrite HA; reflexivity|left; split; reflexivity].
Qed.
Lemma det_set_lock R id a v : XLocks a ∈ R -> det R (set_lock id a v).
Proof.
  intros HR. unfold set_lock. destruct (v =? 0) eqn:E.
  - apply det_modify; [|intros ?; split; reflexivity]. intros s1 s2 _ x. left. split; apply same_at_refl.
  - apply (det_put_locks R a (replace_lock id (Some v))), HR.
Qed.
Lemma det_remove_lock R id a : XLocks a ∈ R -> det R (remove_lock id a).
Proof. apply (det_put_locks R a (filter (fun x => x.1 <> id))). Qed.
Lemma det_put_free R a v : det R (modify (put_free a v)).
Proof.
  apply det_modify; [|intros ?; split; reflexivity]. intros s1 s2 _ x. unfold alike.
  destruct x as [| | | | | |[]]; cbn; try (left; split; reflexivity).
  destruct (v =? 0); split_keys; try (left; split; reflexivity); right; reflexivity.
Qed.
Lemma det_reap R c a v : det R (reap c a v).
Proof.
  unfold reap. destruct (_ <? _); [|apply det_put_free].
  apply det_bind; [apply det_put_free|intros _]. destruct (_ =? _); [apply det_ret|apply det_event].
Qed.
Lemma det_transfer R c a b v : XFree a ∈ R -> XLocks a ∈ R -> XFree b ∈ R -> det R (transfer c a b v).
Proof.
  intros H1 H2 H3. unfold transfer. destruct (_ || _); [apply det_ret|].
  apply det_bind; [apply det_free, H1|intros fs]. apply det_bind; [apply det_spendable; auto|intros sp].
  apply det_bind; [apply det_free, H3|intros fd]. repeat (apply det_bind; [apply det_ensure|intros _]).
  apply det_bind; [apply det_reap|intros _]. apply det_bind; [apply det_put_free|intros _]. apply det_event.
Qed.
Lemma det_deposit R c a v : XFree a ∈ R -> det R (deposit_creating c a v).
Proof.
  intros H. unfold deposit_creating. destruct (_ =? _); [apply det_ret|].
  apply det_bind; [apply det_free, H|intros f]. destruct (_ && _); [apply det_ret|].
  destruct (_ <? _); [apply det_ret|]. apply det_bind; [apply det_put_free|intros _]. apply det_event.
Qed.
Lemma det_withdraw R c a v : XFree a ∈ R -> XLocks a ∈ R -> det R (withdraw c a v).
Proof.
  intros H1 H2. unfold withdraw. destruct (_ =? _); [apply det_ret|].
  apply det_bind; [apply det_free, H1|intros f]. apply det_bind; [apply det_spendable; auto|intros sp].
  apply det_bind; [apply det_ensure|intros _]. apply det_bind; [apply det_reap|intros _]. apply det_event.
Qed.
Lemma det_blk R : XBlk ∈ R -> det R (gets rt_blk).
Proof. intros H. apply (det_gets_one R _ _ H). cbn. auto. Qed.
Lemma det_now R : XNow ∈ R -> det R (gets rt_now).
Proof. intros H. apply (det_gets_one R _ _ H). cbn. auto. Qed.
Lemma det_write_vesting R a l : XBlk ∈ R -> XLocks a ∈ R -> det R (write_vesting a l).
Proof.
  intros H1 H2. unfold write_vesting. apply det_bind; [apply det_blk, H1|intros blk]. cbv zeta.
  apply det_bind; [|intros _; destruct (_ =? _); [apply det_remove_lock, H2|apply det_set_lock, H2]].
  apply det_modify; [|intros ?; case_match; split; reflexivity]. intros s1 s2 _ x. unfold alike.
  destruct x as [| | | | | |[]]; cbn; try (left; split; reflexivity).
  unfold vest_store; case_match; split_keys; try (left; split; reflexivity); right; reflexivity.
Qed.
Lemma det_add_vesting R a l pb st :
  XBlk ∈ R -> XLocks a ∈ R -> XVest a ∈ R -> det R (add_vesting_schedule a l pb st).
Proof.
  intros H1 H2 H3. unfold add_vesting_schedule. destruct (_ =? _); [apply det_ret|]. destruct (_ =? _); [apply det_ret|].
  apply det_bind; [|intros old; apply det_bind; [apply det_write_vesting; auto|intros _; apply det_ret]].
  apply (det_gets_one R _ _ H3). cbn. intros s1 s2 E. rewrite E. reflexivity.
Qed.
Lemma det_vest R a : XBlk ∈ R -> XLocks a ∈ R -> XVest a ∈ R -> det R (vest a).
Proof.
  intros H1 H2 H3. unfold vest.
  apply det_bind; [|intros [l|]; [apply det_write_vesting; auto|apply det_fail]].
  apply (det_gets_one R _ _ H3). cbn. auto.
Qed.

Lemma only_put_locks W a (f : rt -> list (lock_id * N)) : XLocks a ∈ W -> only W (modify (fun s => put_locks a (f s) s)).
Proof.
  intros HW. apply only_modify. intros s x Hx. destruct x as [| | | | | |[]]; cbn; try reflexivity.
  split_keys; [contradiction|reflexivity].
Qed.
Lemma only_remove_lock W id a : XLocks a ∈ W -> only W (remove_lock id a).
Proof. apply only_put_locks. Qed.
Lemma only_set_lock W id a v : XLocks a ∈ W -> only W (set_lock id a v).
Proof.
  intros HW. unfold set_lock. destruct (v =? 0); [|apply only_put_locks, HW].
  apply only_modify. intros s x _. apply same_at_refl.
Qed.
Lemma only_put_free W a v : XFree a ∈ W -> only W (modify (put_free a v)).
Proof.
  intros HW. apply only_modify. intros s x Hx. destruct x as [| | | | | |[]]; cbn; try reflexivity.
  destruct (v =? 0); split_keys; first [contradiction|reflexivity].
Qed.
Lemma only_reap W c a v : XFree a ∈ W -> only W (reap c a v).
Proof.
  intros HW. unfold reap. destruct (_ <? _); [|apply only_put_free, HW].
  apply only_bind; [apply only_put_free, HW|intros _]. destruct (_ =? _); [apply only_ret|apply only_event].
Qed.
Lemma only_transfer W c a b v : XFree a ∈ W -> XFree b ∈ W -> only W (transfer c a b v).
Proof.
  intros H1 H2. unfold transfer. destruct (_ || _); [apply only_ret|].
  repeat (apply only_bind; [first [apply only_gets|apply only_ensure]|intros ?]).
  apply only_bind; [apply only_reap, H1|intros _]. apply only_bind; [apply only_put_free, H2|intros _]. apply only_event.
Qed.
Lemma only_deposit W c a v : XFree a ∈ W -> only W (deposit_creating c a v).
Proof.
  intros H. unfold deposit_creating. destruct (_ =? _); [apply only_ret|].
  apply only_bind; [apply only_gets|intros f]. destruct (_ && _); [apply only_ret|].
  destruct (_ <? _); [apply only_ret|]. apply only_bind; [apply only_put_free, H|intros _]. apply only_event.
Qed.
Lemma only_withdraw W c a v : XFree a ∈ W -> only W (withdraw c a v).
Proof.
  intros H. unfold withdraw. destruct (_ =? _); [apply only_ret|].
  repeat (apply only_bind; [first [apply only_gets|apply only_ensure]|intros ?]).
  apply only_bind; [apply only_reap, H|intros _]. apply only_event.
Qed.
Lemma only_write_vesting W a l : XLocks a ∈ W -> XVest a ∈ W -> only W (write_vesting a l).
Proof.
  intros H1 H2. unfold write_vesting. apply only_bind; [apply only_gets|intros blk]. cbv zeta.
  apply only_bind; [|intros _; destruct (_ =? _); [apply only_remove_lock, H1|apply only_set_lock, H1]].
  apply only_modify. intros s x Hx. destruct x as [| | | | | |[]]; cbn; try reflexivity.
  unfold vest_store; case_match; split_keys; first [contradiction|reflexivity].
Qed.
Lemma only_add_vesting W a l pb st : XLocks a ∈ W -> XVest a ∈ W -> only W (add_vesting_schedule a l pb st).
Proof.
  intros H1 H2. unfold add_vesting_schedule. destruct (_ =? _); [apply only_ret|]. destruct (_ =? _); [apply only_ret|].
  apply only_bind; [apply only_gets|intros old]. apply only_bind; [apply only_write_vesting; auto|intros _; apply only_ret].
Qed.
Lemma only_vest W a : XLocks a ∈ W -> XVest a ∈ W -> only W (vest a).
Proof.
  intros H1 H2. unfold vest. apply only_bind; [apply only_gets|intros [l|]]; [apply only_write_vesting; auto|apply only_fail].
Qed.
