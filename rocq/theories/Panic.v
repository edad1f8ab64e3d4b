(** * Reasoning about panics. *)
From Verif Require Import Base State Env TeerdaysModel TeerexBase SgxVerifyModel TeerexModel
  EnclaveBridgeModel SidechainModel TeeracleModel ClaimsModel AssetRegistryModel XcmTransactorModel
  Runtime Frame EnvFacts.

Lemma bind_panic {S E A B} (m : M S E A) (k : A -> M S E B) s :
  bind m k s = Panic -> m s = Panic \/ exists a s1, m s = Ok a s1 /\ k a s1 = Panic.
Proof. unfold bind. destruct (m s) eqn:E1; intros H; eauto; discriminate. Qed.

(** [m] never panics *)
Definition np {A} (m : RM A) : Prop := forall s, m s <> Panic.
Lemma np_ret {A} (a : A) : np (ret a). Proof. intros s; discriminate. Qed.
Lemma np_fail {A} e : np (fail e : RM A). Proof. intros s; discriminate. Qed.
Lemma np_gets {A} (g : rt -> A) : np (gets g). Proof. intros s; discriminate. Qed.
Lemma np_modify g : np (modify g). Proof. intros s; discriminate. Qed.
Lemma np_ensure b e : np (ensure b e). Proof. intros s; unfold ensure; destruct b; discriminate. Qed.
Lemma np_ok_or {A} (o : option A) e : np (ok_or o e). Proof. intros s; unfold ok_or; destruct o; discriminate. Qed.
Lemma np_bind {A D} (m : RM A) (k : A -> RM D) : np m -> (forall a, np (k a)) -> np (bind m k).
Proof. intros Hm Hk s H. apply bind_panic in H as [H|(a & s1 & _ & H)]; [exact (Hm _ H)|exact (Hk _ _ H)]. Qed.
Ltac np_step :=
  first
  [ apply np_bind; [|intros ?]
  | apply np_ret | apply np_fail | apply np_gets | apply np_ensure | apply np_ok_or | apply np_modify
  | match goal with
    | |- np (match ?x with _ => _ end) => destruct x eqn:?
    | |- np (if ?x then _ else _) => destruct x eqn:?
    | |- np (let '(_, _) := ?x in _) => destruct x eqn:?
    end
  | progress (cbv beta zeta) ].
Ltac np_tac := unfold_env; repeat np_step.

(** Walk through a panicking run to the step that panics *)
Ltac inv_panic H :=
  match type of H with
  | bind ?m _ _ = Panic =>
      let H1 := fresh "H" in
      apply bind_panic in H; destruct H as [H|(? & ? & H1 & H)]; cbn beta in H;
      [inv_panic H | inv_rt H1; inv_panic H]
  | ?m _ = Panic =>
      let F := fresh in
      try (assert (np m) as F by (solve [np_tac]); exfalso; exact (F _ H))
  | _ => idtac
  end.
