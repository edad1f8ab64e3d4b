(** * C110: the signers of a shard stand in line
    The list of signers of a shard (enclave-bridge/src/lib.rs:379-408, 456-490) decides who finalises sidechain blocks
    (sidechain/src/lib.rs:92-160): its first entry. It is a line: everybody joins at its end, nobody overtakes, and only root takes
    anybody out. *)
From Verif Require Import Base State Env TeerdaysModel TeerexBase SgxVerifyModel TeerexModel
  EnclaveBridgeModel SidechainModel TeeracleModel ClaimsModel AssetRegistryModel XcmTransactorModel
  Runtime Frame EnvFacts Panic BridgeProofs BridgeProps Events Examples SidechainProps AttestationProps AcceptProps.

(** ** What is said *)
(** [a] stands before [b] *)
Definition before (q : list acct) (a b : acct) : Prop := exists q1 q2 q3, q = q1 ++ a :: q2 ++ b :: q3.
(** [a] was not listed after [l1], is listed since the next operation and has been listed ever since *)
Definition since (c : cfg) (s : rt) (sh : bytes) (l : list op) (a : acct) (l1 : list op) : Prop :=
  exists x l2, l = l1 ++ x :: l2 /\ ~ In a (signers_of (run c s l1) sh) /\
  forall l3 l4, l2 = l3 ++ l4 -> In a (signers_of (run c s (l1 ++ x :: l3)) sh).
(** Root has taken [a] out of the line of the shard *)
Definition taken_out (c : cfg) (s : rt) (sh : bytes) (l : list op) (a : acct) : Prop :=
  exists l1 l2, l = l1 ++ OCall Root (CEb (EbPurge sh a)) :: l2 /\ (dispatch c Root (CEb (EbPurge sh a)) (run c s l1)).1 = Success.

(** ** Proofs *)
Lemma signers_step c s x sh : let q := signers_of s sh in let q' := signers_of (step c s x) sh in
  (q' = q /\ forall a, x = OCall Root (CEb (EbPurge sh a)) -> (dispatch c Root (CEb (EbPurge sh a)) s).1 <> Success) \/
  (exists a k, x = OCall (Signed a) k /\ ~ In a q /\ q' = q ++ [a]) \/
  (exists a, x = OCall Root (CEb (EbPurge sh a)) /\ (dispatch c Root (CEb (EbPurge sh a)) s).1 = Success /\ q' = filter (fun b => b <> a) q).
Proof.
  intros q q'.
  assert (forall t, eb_status (rt_eb t) !! sh = eb_status (rt_eb s) !! sh -> signers_of t sh = q) as Hsame.
  { intros t E. unfold q, signers_of, status_of. rewrite E. reflexivity. }
  destruct x as [o k| | | | | | | | | |].
  2-11: left; split; [apply Hsame; rewrite step_eb_other by congruence; auto|intros ? ?; discriminate].
  unfold q'. cbn [step]. unfold dispatch, run_call. destruct (exec c o k s) as [[] s'|e s'|] eqn:H.
  2,3: left; split; [reflexivity|intros a [= -> ->]; cbn [exec] in H |- *; rewrite H; discriminate].
  cbn [snd]. destruct (status_effect c o k s s' H) as [(b & e & sh' & -> & _ & _ & _ & E)|[(-> & sh' & b & l & -> & Hl & E)|(E & _ & Hk)]].
  - destruct (decide (sh' = sh)) as [->|Hn]; [|left; split; [apply Hsame; rewrite E, lookup_insert_ne; auto|intros ? ?; discriminate]].
    assert (signers_of s' sh = map ss_signer (touch_list (mkSstat b (fingerprint e) (rt_blk s)) (status_of s sh))) as ->.
    { unfold signers_of. unfold status_of at 1. rewrite E, lookup_insert. reflexivity. }
    rewrite touch_signers. cbn [ss_signer]. fold (signers_of s sh). fold q.
    destruct (in_dec _ b q) as [Hi|Hi]; [left; split; [apply app_nil_r|intros ? ?; discriminate]|]. right. left. exists b, k. auto.
  - destruct (decide (sh' = sh)) as [->|Hn]; [|left; split; [apply Hsame; rewrite E, lookup_insert_ne; auto|intros a [= -> ->]; contradiction]].
    right. right. exists b. split; [reflexivity|]. split; [cbn [exec] in H |- *; rewrite H; reflexivity|].
    unfold q, signers_of, status_of. rewrite E, lookup_insert, Hl. cbn [default]. unfold id. clear.
    induction l as [|y l IH]; [reflexivity|]. cbn [map]. rewrite !filter_cons. repeat case_decide; try contradiction; cbn [map]; rewrite ?IH; reflexivity.
  - left. split; [apply Hsame; rewrite E; auto|]. intros a [= -> ->]. destruct (Hk sh a). reflexivity.
Qed.
Lemma before_in q a b : before q a b -> In a q /\ In b q.
Proof. intros (q1 & q2 & q3 & ->). split; apply in_app_iff; right; [left; reflexivity|]. right. apply in_app_iff. right. left. reflexivity. Qed.
Lemma before_nil a b : ~ before [] a b.
Proof. intros (q1 & q2 & q3 & E). destruct q1; discriminate E. Qed.
Lemma before_cons x q a b : before (x :: q) a b <-> (x = a /\ In b q) \/ before q a b.
Proof.
  split.
  - intros (q1 & q2 & q3 & E). destruct q1 as [|y q1]; injection E as -> E.
    + left. split; [reflexivity|]. rewrite E. apply in_app_iff. right. left. reflexivity.
    + right. exists q1, q2, q3. exact E.
  - intros [[-> H]|(q1 & q2 & q3 & ->)].
    + apply in_split in H as (q2 & q3 & ->). exists [], q2, q3. reflexivity.
    + exists (x :: q1), q2, q3. reflexivity.
Qed.
Lemma before_snoc q d a b : before (q ++ [d]) a b <-> before q a b \/ (In a q /\ b = d).
Proof.
  induction q as [|x q IH]; cbn [app].
  - rewrite before_cons. cbn. intuition (subst; auto). all: exfalso; eapply before_nil; eauto.
  - rewrite !before_cons, IH, in_app_iff. cbn. intuition (subst; auto).
Qed.
Lemma before_filter q d a b : before (filter (fun y => y <> d) q) a b <-> before q a b /\ a <> d /\ b <> d.
Proof.
  induction q as [|x q IH].
  - split; [intros H; destruct (before_nil _ _ H)|intros [H _]; destruct (before_nil _ _ H)].
  - rewrite filter_cons, before_cons. case_decide as E.
    + rewrite before_cons, IH, <- !elem_of_list_In, elem_of_list_filter. intuition (subst; auto).
    + try apply dec_stable in E. subst x. rewrite IH. intuition (subst; auto). contradiction.
Qed.
Lemma in_filter_ne (q : list acct) (d a : acct) : In a (filter (fun y => y <> d) q) <-> In a q /\ a <> d.
Proof. rewrite <- !elem_of_list_In, elem_of_list_filter. tauto. Qed.
Lemma before_irrefl q a : NoDup q -> ~ before q a a.
Proof.
  intros N (q1 & q2 & q3 & ->). apply NoDup_app in N as (_ & _ & N). apply NoDup_cons in N as [N _]. apply N, elem_of_app. right. left.
Qed.
Lemma before_asym q a b : NoDup q -> before q a b -> ~ before q b a.
Proof.
  induction q as [|x q IH]; intros N; [intros H; destruct (before_nil _ _ H)|]. apply NoDup_cons in N as [N1 N2]. rewrite !before_cons.
  intros [[-> H]|H] [[E H']|H'].
  - subst. apply N1, elem_of_list_In, H.
  - apply N1, elem_of_list_In. apply before_in in H'. apply H'.
  - subst. apply N1, elem_of_list_In. apply before_in in H. apply H.
  - exact (IH N2 H H').
Qed.
Lemma before_total q a b : In a q -> In b q -> a <> b -> before q a b \/ before q b a.
Proof.
  induction q as [|x q IH]; [intros []|]. rewrite !before_cons. intros [->|Ha] [->|Hb] Hn; try contradiction; auto. destruct (IH Ha Hb Hn); auto.
Qed.
Lemma before_none q b : In b q -> NoDup q -> (forall a, ~ before q a b) <-> hd_error q = Some b.
Proof.
  intros Hb N. destruct q as [|x q]; [destruct Hb|]. cbn [hd_error]. split.
  - intros H. destruct Hb as [->|Hb]; [reflexivity|]. destruct (H x). apply before_cons. auto.
  - intros [= ->] a H. apply before_cons in H as [[-> H]|H]; apply NoDup_cons in N as [N _]; apply N, elem_of_list_In; [exact H|]. apply before_in in H. apply H.
Qed.
(** *** Since when *)
Lemma since_snoc c s sh l y a l1 : since c s sh (l ++ [y]) a l1 <->
  In a (signers_of (run c s (l ++ [y])) sh) /\ (since c s sh l a l1 \/ (l1 = l /\ ~ In a (signers_of (run c s l) sh))).
Proof.
  split.
  - intros (x & l2 & E & N & H). split.
    + rewrite E. apply (H l2 []). symmetry. apply app_nil_r.
    + destruct l2 as [|z l2 _] using rev_ind.
      * apply app_inj_tail in E as [-> ->]. auto.
      * rewrite app_comm_cons, app_assoc in E. apply app_inj_tail in E as [-> ->]. left. exists x, l2. split; [reflexivity|]. split; [exact N|].
        intros l3 l4 ->. apply (H l3 (l4 ++ [z])). rewrite app_assoc. reflexivity.
  - intros [Hi [(x & l2 & -> & N & H)|[-> N]]].
    + exists x, (l2 ++ [y]). split; [rewrite <- app_assoc; reflexivity|]. split; [exact N|]. intros l3 l4 E.
      destruct l4 as [|z l4 _] using rev_ind.
      * rewrite app_nil_r in E. subst l3. rewrite <- app_assoc in Hi. exact Hi.
      * rewrite app_assoc in E. apply app_inj_tail in E as [-> ->]. apply (H l3 l4). reflexivity.
    + exists y, []. split; [reflexivity|]. split; [exact N|]. intros l3 l4 E. symmetry in E. apply app_eq_nil in E as [-> ->]. exact Hi.
Qed.
Lemma since_len c s sh l a l1 : since c s sh l a l1 -> (length l1 < length l)%nat.
Proof. intros (x & l2 & -> & _). rewrite app_length. cbn. lia. Qed.
Lemma since_nil c s sh a l1 : ~ since c s sh [] a l1.
Proof. intros H. apply since_len in H. cbn in H. lia. Qed.
Lemma since_listed c s sh l a : signers_of s sh = [] -> In a (signers_of (run c s l) sh) <-> exists l1, since c s sh l a l1.
Proof.
  intros E0. induction l as [|y l IH] using rev_ind.
  - cbn [run fold_left]. rewrite E0. split; [intros []|]. intros [l1 H]. destruct (since_nil _ _ _ _ _ H).
  - split.
    + intros H. destruct (in_dec (fun p q : acct => decide (p = q)) a (signers_of (run c s l) sh)) as [Hi|Hi].
      * apply IH in Hi as [l1 Hi]. exists l1. apply since_snoc. auto.
      * exists l. apply since_snoc. auto.
    + intros [l1 H]. apply since_snoc in H. apply H.
Qed.
Lemma since_fun c s sh l a l1 l2 : since c s sh l a l1 -> since c s sh l a l2 -> l1 = l2.
Proof.
  revert l1 l2. induction l as [|y l IH] using rev_ind; intros l1 l2 H1 H2; [destruct (since_nil _ _ _ _ _ H1)|].
  apply since_snoc in H1 as [_ [H1|[-> N1]]], H2 as [_ [H2|[-> N2]]]; [eauto| | |reflexivity].
  - destruct H1 as (x & l3 & -> & _ & H). destruct N2. apply (H l3 []). symmetry. apply app_nil_r.
  - destruct H2 as (x & l3 & -> & _ & H). destruct N1. apply (H l3 []). symmetry. apply app_nil_r.
Qed.

(** ** C110 *)
(** Whoever stands before another has been listed for longer *)
Theorem C110_the_line_is_in_order_of_joining : forall c g l sh a b, let s := genesis_state g in
  before (signers_of (run c s l) sh) a b <->
  exists la lb, since c s sh l a la /\ since c s sh l b lb /\ (length la < length lb)%nat.
Proof.
  intros c g l sh a b s. assert (signers_of s sh = []) as E0 by (unfold signers_of, status_of; cbn; rewrite lookup_empty; reflexivity).
  assert (forall l1 z, (exists lz, since c s sh l1 z lz) <-> In z (signers_of (run c s l1) sh)) as L by (intros; symmetry; apply since_listed, E0).
  induction l as [|y l IH] using rev_ind.
  - cbn [run fold_left]. rewrite E0. split; [intros H; destruct (before_nil _ _ H)|]. intros (la & lb & H & _). destruct (since_nil _ _ _ _ _ H).
  - assert ((exists la lb, since c s sh (l ++ [y]) a la /\ since c s sh (l ++ [y]) b lb /\ (length la < length lb)%nat) <->
      In a (signers_of (run c s (l ++ [y])) sh) /\ In b (signers_of (run c s (l ++ [y])) sh) /\
      (before (signers_of (run c s l) sh) a b \/ (In a (signers_of (run c s l) sh) /\ ~ In b (signers_of (run c s l) sh)))) as ->.
    { rewrite IH. split.
      - intros (la & lb & Ha & Hb & Hlt). pose proof (since_len _ _ _ _ _ _ Hb) as Lb. rewrite app_length in Lb. cbn in Lb.
        apply since_snoc in Ha as [Ia Ha], Hb as [Ib Hb]. split; [exact Ia|]. split; [exact Ib|].
        destruct Ha as [Ha|[-> Na]], Hb as [Hb|[-> Nb]]; try lia; [left; eauto 6|right; split; [apply L; eauto|exact Nb]].
      - intros (Ia & Ib & [(la & lb & Ha & Hb & Hlt)|[Ha Nb]]).
        + exists la, lb. rewrite !since_snoc. auto.
        + apply L in Ha as [la Ha]. exists la, l. rewrite !since_snoc. split; [auto|]. split; [auto|]. apply since_len in Ha. exact Ha. }
    rewrite run_snoc. destruct (signers_step c (run c s l) y sh) as [[-> _]|[(d & k & _ & Nd & ->)|(d & _ & _ & ->)]].
    + split; [intros H; pose proof (before_in _ _ _ H); tauto|]. intros (Ia & Ib & [H|[_ N]]); [exact H|contradiction].
    + rewrite before_snoc, !in_app_iff. cbn [In]. split.
      * intros [H|[H ->]]; [pose proof (before_in _ _ _ H); tauto|]. auto 7.
      * intros (Ia & Ib & [H|[H N]]); [auto|]. right. split; [exact H|]. destruct Ib as [Ib|[Ib|[]]]; [contradiction|auto].
    + rewrite before_filter, !in_filter_ne. split.
      * intros (H & ? & ?). pose proof (before_in _ _ _ H). tauto.
      * intros ([Ia Na] & [Ib Nb] & [H|[_ N]]); [auto|contradiction].
Qed.
Print Assumptions C110_the_line_is_in_order_of_joining.

Lemma nodup_run c g l sh : NoDup (signers_of (run c (genesis_state g) l) sh).
Proof. apply (C15_status_bounded_and_unique c g l sh). Qed.
Lemma taken_snoc c s sh l y a : taken_out c s sh (l ++ [y]) a <->
  taken_out c s sh l a \/ (y = OCall Root (CEb (EbPurge sh a)) /\ (dispatch c Root (CEb (EbPurge sh a)) (run c s l)).1 = Success).
Proof.
  split.
  - intros (l1 & l2 & E & H). destruct l2 as [|z l2 _] using rev_ind.
    + apply app_inj_tail in E as [-> ->]. auto.
    + rewrite app_comm_cons, app_assoc in E. apply app_inj_tail in E as [-> ->]. left. exists l1, l2. auto.
  - intros [(l1 & l2 & -> & H)|[-> H]].
    + exists l1, (l2 ++ [y]). split; [rewrite <- app_assoc; reflexivity|exact H].
    + exists l, []. auto.
Qed.
Lemma line_run c s l sh b : In b (signers_of s sh) -> ~ taken_out c s sh l b ->
  In b (signers_of (run c s l) sh) /\ forall a, before (signers_of (run c s l) sh) a b <-> before (signers_of s sh) a b /\ ~ taken_out c s sh l a.
Proof.
  intros Hb. induction l as [|y l IH] using rev_ind; intros N.
  - split; [exact Hb|]. intros a. cbn [run fold_left]. split; [|intros [H _]; exact H]. intros H. split; [exact H|]. intros (l1 & l2 & E & _). destruct l1; discriminate E.
  - destruct IH as [Hi IH]; [intros H; apply N, taken_snoc; auto|]. rewrite run_snoc.
    destruct (signers_step c (run c s l) y sh) as [[-> Hy]|[(d & k & -> & Nd & ->)|(d & -> & Hd & ->)]].
    + split; [exact Hi|]. intros a. rewrite IH, taken_snoc. split; [|tauto]. intros [H1 H2]. split; [exact H1|]. intros [H|[E H]]; [contradiction|]. exact (Hy _ E H).
    + split; [apply in_app_iff; auto|]. intros a. rewrite before_snoc, IH, taken_snoc. split.
      * intros [[H1 H2]|[_ ->]]; [|contradiction]. split; [exact H1|]. intros [H|[E _]]; [contradiction|discriminate E].
      * tauto.
    + assert (b <> d) as Hn. { intros ->. apply N, taken_snoc. auto. }
      split; [apply in_filter_ne; auto|]. intros a. rewrite before_filter, IH, taken_snoc. split.
      * intros ([H1 H2] & Ha & _). split; [exact H1|]. intros [H|[[= E] _]]; [contradiction|congruence].
      * intros [H1 H2]. split; [split; [exact H1|tauto]|]. split; [|exact Hn]. intros ->. apply H2. auto.
Qed.
Lemma taken_dec c s sh l a : taken_out c s sh l a \/ ~ taken_out c s sh l a.
Proof.
  induction l as [|y l IH] using rev_ind; [right; intros (l1 & l2 & E & _); destruct l1; discriminate E|]. rewrite taken_snoc. destruct IH as [IH|IH]; [auto|].
  assert (y = OCall Root (CEb (EbPurge sh a)) \/ y <> OCall Root (CEb (EbPurge sh a))) as [->|Hn].
  { destruct y as [[] k| | | | | | | | | |]; try (right; discriminate). destruct k as [|k| | | | | |]; try (right; discriminate). destruct k; try (right; discriminate).
    destruct (decide (shard = sh /\ subject = a)) as [[-> ->]|Hn]; [auto|]. right. intros [= -> ->]. tauto. }
  - destruct (dispatch c Root (CEb (EbPurge sh a)) (run c s l)).1; [auto|..]; right; intros [?|[_ ?]]; try contradiction; discriminate.
  - right. intros [?|[? _]]; contradiction.
Qed.
(** Nobody overtakes: those before a listed signer are those that were before them and whom root has not taken out *)
Theorem C110_nobody_overtakes : forall c g l1 l2 sh b, let s := run c (genesis_state g) l1 in
  In b (signers_of s sh) -> ~ taken_out c s sh l2 b ->
  In b (signers_of (run c s l2) sh) /\
  (forall a, before (signers_of (run c s l2) sh) a b <-> before (signers_of s sh) a b /\ ~ taken_out c s sh l2 a) /\
  (hd_error (signers_of (run c s l2) sh) = Some b <-> forall a, before (signers_of s sh) a b -> taken_out c s sh l2 a).
Proof.
  intros c g l1 l2 sh b s Hb N. destruct (line_run c s l2 sh b Hb N) as [Hi H]. split; [exact Hi|]. split; [exact H|].
  rewrite <- before_none; [|exact Hi|unfold s; rewrite <- run_app; apply nodup_run]. split.
  - intros H' a Ha. destruct (taken_dec c s sh l2 a) as [Ht|Ht]; [exact Ht|]. destruct (H' a). apply H. auto.
  - intros H' a Ha. apply H in Ha as [Ha Ht]. apply Ht, H', Ha.
Qed.
Print Assumptions C110_nobody_overtakes.
(** Whoever is taken out starts again at the end *)
Theorem C110_those_taken_out_start_again : forall c g l1 l2 sh a b, let s := run c (genesis_state g) l1 in
  In b (signers_of s sh) -> ~ taken_out c s sh l2 b -> taken_out c s sh l2 a -> In a (signers_of (run c s l2) sh) ->
  before (signers_of (run c s l2) sh) b a.
Proof.
  intros c g l1 l2 sh a b s Hb N Ht Ha. destruct (C110_nobody_overtakes c g l1 l2 sh b Hb N) as (Hi & H & _).
  destruct (before_total _ a b Ha Hi) as [H'|H']; [congruence| |exact H']. apply H in H' as [_ H']. contradiction.
Qed.
Print Assumptions C110_those_taken_out_start_again.
(** Newcomers join at the end, and nothing but an accepted call of their own lets them join *)
Theorem C110_newcomers_join_at_the_end : forall c g l x sh a, let s := run c (genesis_state g) l in
  ~ In a (signers_of s sh) -> In a (signers_of (step c s x) sh) ->
  (exists k, x = OCall (Signed a) k /\ (dispatch c (Signed a) k s).1 = Success) /\ signers_of (step c s x) sh = signers_of s sh ++ [a].
Proof.
  intros c g l x sh a s N Hi. assert (step c s x <> s) as Hc by (intros E; rewrite E in Hi; contradiction).
  destruct (signers_step c s x sh) as [[E _]|[(d & k & -> & Nd & E)|(d & _ & _ & E)]].
  - rewrite E in Hi. contradiction.
  - rewrite E, in_app_iff in Hi. destruct Hi as [Hi|[->|[]]]; [contradiction|]. split; [|exact E]. exists k. split; [reflexivity|].
    cbn [step] in Hc. unfold dispatch, run_call in *. destruct (exec c (Signed a) k s); [reflexivity|destruct Hc; reflexivity|destruct Hc; reflexivity].
  - rewrite E in Hi. apply in_filter_ne in Hi as [Hi _]. contradiction.
Qed.
Print Assumptions C110_newcomers_join_at_the_end.
(** The turn to finalise blocks: a signer who finalises has outlasted everybody before them *)
Theorem C110_who_finalises_has_outlasted_the_others : forall c g l1 l2 sh b anc cand, let s := run c (genesis_state g) l1 in let t := run c s l2 in
  In b (signers_of s sh) -> ~ taken_out c s sh l2 b ->
  finals sh (rt_ev (step c t (OCall (Signed b) (CSc (ScConfirm sh anc cand))))) <> finals sh (rt_ev t) ->
  forall a, before (signers_of s sh) a b -> taken_out c s sh l2 a.
Proof.
  intros c g l1 l2 sh b anc cand s t Hb N Hf. set (x := OCall (Signed b) (CSc (ScConfirm sh anc cand))) in *.
  assert (forall a, taken_out c s sh (l2 ++ [x]) a <-> taken_out c s sh l2 a) as T.
  { intros a. rewrite taken_snoc. split; [|auto]. intros [H|[E _]]; [exact H|discriminate E]. }
  destruct (final_step c t x sh) as [[E _]|(b' & e & anc' & cand' & [= <- <- <-] & _ & Hh & _)]; [contradiction|].
  assert (~ taken_out c s sh (l2 ++ [x]) b) as N' by (rewrite T; exact N).
  destruct (C110_nobody_overtakes c g l1 (l2 ++ [x]) sh b Hb N') as (_ & _ & [H _]).
  intros a Ha. apply T, H; [|exact Ha]. fold s. rewrite run_snoc. fold t. exact Hh.
Qed.
Print Assumptions C110_who_finalises_has_outlasted_the_others.
(** Neither losing the registration nor idleness costs a place: while root takes nobody out, the line only grows *)
Theorem C110_without_root_the_line_only_grows : forall c g l1 l2 sh, let s := run c (genesis_state g) l1 in
  (forall a, ~ taken_out c s sh l2 a) -> exists q, signers_of (run c s l2) sh = signers_of s sh ++ q.
Proof.
  intros c g l1 l2 sh s. induction l2 as [|y l IH] using rev_ind; intros N; [exists []; symmetry; apply app_nil_r|].
  destruct IH as [q Hq]; [intros a H; apply (N a), taken_snoc; auto|]. rewrite run_snoc.
  destruct (signers_step c (run c s l) y sh) as [[-> _]|[(d & k & _ & _ & ->)|(d & -> & Hd & _)]].
  - eauto.
  - exists (q ++ [d]). rewrite Hq, app_assoc. reflexivity.
  - destruct (N d). apply taken_snoc. auto.
Qed.
Print Assumptions C110_without_root_the_line_only_grows.

(** Being taken out costs the place, but no rights: whatever call of enclave-bridge was accepted before is accepted afterwards *)
Theorem C110_being_taken_out_revokes_nothing : forall c g l sh a o k, let s := run c (genesis_state g) l in
  let s' := step c s (OCall Root (CEb (EbPurge sh a))) in
  (dispatch c o (CEb k) s).1 = Success -> (dispatch c o (CEb k) s').1 = Success.
Proof.
  intros c g l sh a o k s s' H. unfold s' in *. clear s'.
  assert (step c s (OCall Root (CEb (EbPurge sh a))) = run c (genesis_state g) (l ++ [OCall Root (CEb (EbPurge sh a))])) as E by (rewrite run_snoc; reflexivity).
  rewrite E. apply C68_bridge_calls_accepted_exactly. rewrite <- E. apply C68_bridge_calls_accepted_exactly in H. fold s in H. clear E.
  pose proof (proj1 (C15_status_bounded_and_unique c g l sh)) as Hlen. fold s in Hlen.
  cbn [step]. unfold dispatch, run_call. cbn [exec eb_exec_call]. unfold purge, bind at 1. cbn [ensure_root]. unfold ret at 1. unfold bind at 1, gets at 1.
  destruct (eb_status (rt_eb s) !! sh) as [q|] eqn:Eq; [|exact H]. unfold bind at 1, ok_or, ret at 1.
  assert (status_of s sh = q) as Es by (unfold status_of; rewrite Eq; reflexivity). rewrite Es in Hlen.
  assert (lenN (filter (fun x => ss_signer x <> a) q) <= lenN q) as Hf.
  { unfold lenN. pose proof (filter_length (fun x => ss_signer x <> a) q). lia. }
  destruct (lenN (filter (fun x => ss_signer x <> a) q) <=? max_signers) eqn:El; [|apply N.leb_gt in El; unfold max_signers in El; lia].
  unfold bind, ret, deposit_event. unfold modify. cbn [snd]. set (t := add_ev (EvPurgedEnclave sh a) (put_status sh (filter (fun x => ss_signer x <> a) q) s)).
  assert (forall sh', status_of t sh' = if decide (sh' = sh) then filter (fun x => ss_signer x <> a) q else status_of s sh') as St.
  { intros sh'. unfold status_of, t, put_status. cbn. case_decide as E; [subst; rewrite lookup_insert; reflexivity|]. rewrite lookup_insert_ne by congruence. reflexivity. }
  assert (forall sh' b, listable s sh' b -> listable t sh' b) as L.
  { intros sh' b. unfold listable, signers_of. rewrite St. case_decide as E; [subst sh'|tauto]. rewrite Es. intros [Hb|Hb]; [|right; lia].
    destruct (decide (b = a)) as [->|Hn].
    - right. apply in_map_iff in Hb as (x & Hx & Hi). apply in_split in Hi as (q1 & q2 & ->). unfold lenN in *. rewrite filter_app, filter_cons, decide_False by tauto. rewrite !app_length in *. cbn [length] in Hlen.
      pose proof (filter_length (fun x => ss_signer x <> a) q1). pose proof (filter_length (fun x => ss_signer x <> a) q2). lia.
    - left. apply in_map_iff in Hb as (x & Hx & Hi). apply in_map_iff. exists x. split; [exact Hx|]. apply elem_of_list_In, elem_of_list_filter. rewrite Hx. split; [exact Hn|apply elem_of_list_In, Hi]. }
  assert (forall sh' b, operates s sh' b -> operates t sh' b) as O by (intros sh' b (e & H1 & H2 & H3); exists e; auto).
  destruct k; cbn [eb_accepts] in *.
  - exact H.
  - destruct H as (b & -> & H). exists b. auto.
  - exact H.
  - destruct H as (b & -> & H1 & H2 & H3). exists b. split; [reflexivity|]. split; [auto|]. split; [exact H2|exact H3].
  - destruct H as (b & e & -> & H1 & H2 & H3). exists b, e. split; [reflexivity|]. split; [exact H1|]. split; [apply L, H2|exact H3].
  - destruct H as [H|(b & e & -> & H1 & H2 & H3)]; [auto|]. right. exists b, e. split; [reflexivity|]. split; [exact H1|]. split; [apply L, H2|exact H3].
  - destruct H as [H1 H2]. split; [exact H1|]. unfold t, put_status. cbn. destruct (decide (shard = sh)) as [->|Hn]; [rewrite lookup_insert; eauto|]. rewrite lookup_insert_ne by congruence. exact H2.
Qed.
Print Assumptions C110_being_taken_out_revokes_nothing.

(** ** A concrete case *)
Definition join110 (a : acct) : list op := [register a shard9; call_eb a (EbConfirm shard9 [] 1 [])].
Definition line110 : list op := join110 alice ++ join110 bob ++ join110 carol.
Definition purge110 (a : acct) : op := OCall Root (CEb (EbPurge shard9 a)).
Definition at110 (l : list op) : list acct := signers_of (run cfg0 (genesis_state (gen0 [alice; bob; carol])) l) shard9.
(** Bob waits for their turn, Alice starts again *)
Example C110_example : at110 line110 = [alice; bob; carol] /\
  at110 (line110 ++ [purge110 alice]) = [bob; carol] /\
  at110 (line110 ++ [purge110 alice; call_eb alice (EbConfirm shard9 [] 2 [])]) = [bob; carol; alice] /\
  (let t := run cfg0 (genesis_state (gen0 [alice; bob; carol])) line110 in
   finals shard9 (rt_ev (run cfg0 t [call_sc bob (ScConfirm shard9 None (blk 1 [3]))])) = [] /\
   finals shard9 (rt_ev (run cfg0 t [purge110 alice; call_sc bob (ScConfirm shard9 None (blk 1 [3]))])) = [(1, [3])]).
Proof. vm_compute. repeat split; reflexivity. Qed.
(** An enclave that is no longer registered keeps its place *)
Definition gone110 : list op := line110 ++ [ONextBlock 1000000000000; OCall (Signed bob) (CTx (TxUnregisterSovereign alice))].
Example C110_example_gone : let t := run cfg0 (genesis_state (gen0 [alice; bob; carol])) gone110 in
  tx_sov (rt_tx t) !! alice = None /\ at110 gone110 = [alice; bob; carol] /\
  (dispatch cfg0 (Signed alice) (CSc (ScConfirm shard9 None (blk 1 [3]))) t).1 = Failed EnclaveIsNotRegistered.
Proof. vm_compute. repeat split; reflexivity. Qed.
(** Taken out of the line, Alice may still do what they could before *)
Example C110_example_rights : let t := run cfg0 (genesis_state (gen0 [alice; bob; carol])) line110 in
  let k := CEb (EbUpdateConfig shard9 (mkScfg [1] (Some 6) None false) 5) in
  (dispatch cfg0 (Signed alice) k t).1 = Success /\ (dispatch cfg0 (Signed alice) k (run cfg0 t [purge110 alice])).1 = Success.
Proof. vm_compute. repeat split; reflexivity. Qed.
