(** * Properties of the storage migrations of pallet teerex: C42. *)
From Verif Require Import Base State MigrationsModel.

(** The runtime upgrade of this release runs both migrations in order *)
Definition upgrade (m : mig) : mig := migrate_v1_v2 (migrate_v0_v1 m).
(** No v0 data is left *)
Definition no_v0_data (m : mig) : Prop :=
  mg_v0_registry m = ∅ /\ mg_v0_count m = 0 /\ mg_v0_index m = ∅ /\ mg_v0_debug m = false.

Theorem C42_upgrade_from_v0 : forall m, mg_version m = 0 ->
  mg_version (upgrade m) = 2 /\ no_v0_data (upgrade m) /\
  tx_tcb (mg_tx (upgrade m)) = ∅ /\ tx_allow_debug (mg_tx (upgrade m)) = mg_v0_debug m /\
  tx_sov (mg_tx (upgrade m)) = tx_sov (mg_tx m) /\ tx_prox (mg_tx (upgrade m)) = tx_prox (mg_tx m) /\
  tx_qe (mg_tx (upgrade m)) = tx_qe (mg_tx m) /\ tx_allow_skip (mg_tx (upgrade m)) = tx_allow_skip (mg_tx m).
Proof. intros [v r n i d t] E. cbn in E. subst v. unfold upgrade, migrate_v0_v1, migrate_v1_v2, no_v0_data. cbn. repeat split. Qed.
Print Assumptions C42_upgrade_from_v0.
Theorem C42_upgrade_from_v1_clears_only_tcb_info : forall m, mg_version m = 1 ->
  upgrade m = mkMig 2 (mg_v0_registry m) (mg_v0_count m) (mg_v0_index m) (mg_v0_debug m)
    (mkTx (tx_sov (mg_tx m)) (tx_prox (mg_tx m)) (tx_qe (mg_tx m)) ∅ (tx_allow_debug (mg_tx m)) (tx_allow_skip (mg_tx m))).
Proof. intros [v r n i d t] E. cbn in E. subst v. reflexivity. Qed.
Print Assumptions C42_upgrade_from_v1_clears_only_tcb_info.
Theorem C42_upgrade_from_v2_on_changes_nothing : forall m, 2 <= mg_version m -> upgrade m = m.
Proof.
  intros m H. unfold upgrade, migrate_v0_v1, migrate_v1_v2, in_code_version.
  destruct (N.leb_spec 1 (mg_version m)); [|lia]. destruct (N.leb_spec 2 (mg_version m)); [auto|lia].
Qed.
Print Assumptions C42_upgrade_from_v2_on_changes_nothing.
Theorem C42_upgrade_again_changes_nothing : forall m, upgrade (upgrade m) = upgrade m /\ 2 <= mg_version (upgrade m).
Proof.
  intros m. assert (2 <= mg_version (upgrade m)) as H.
  { unfold upgrade, migrate_v1_v2 at 1, in_code_version. destruct (N.leb_spec 2 (mg_version (migrate_v0_v1 m))); [auto|]. cbn. lia. }
  split; [|auto]. apply C42_upgrade_from_v2_on_changes_nothing. auto.
Qed.
Print Assumptions C42_upgrade_again_changes_nothing.
(** Running the second migration alone on version 0: whatever migrations run later, in whatever
    order, the v0 data stays and the debug setting of version 0 is not taken over. *)
Inductive migration := V0toV1 | V1toV2.
Definition migrate (x : migration) : mig -> mig := match x with V0toV1 => migrate_v0_v1 | V1toV2 => migrate_v1_v2 end.
Theorem C42_second_alone_strands_v0_data : forall m l, mg_version m = 0 ->
  let m' := fold_left (fun a x => migrate x a) l (migrate_v1_v2 m) in
  mg_version m' = 2 /\ mg_v0_registry m' = mg_v0_registry m /\ mg_v0_count m' = mg_v0_count m /\
  mg_v0_index m' = mg_v0_index m /\ mg_v0_debug m' = mg_v0_debug m /\
  tx_allow_debug (mg_tx m') = tx_allow_debug (mg_tx m).
Proof.
  intros m l E. cbn zeta.
  assert (fold_left (fun a x => migrate x a) l (migrate_v1_v2 m) = migrate_v1_v2 m) as ->.
  { assert (mg_version (migrate_v1_v2 m) = 2) as Hv by (unfold migrate_v1_v2; rewrite E; reflexivity).
    generalize (migrate_v1_v2 m) Hv. clear. intros m Hv. induction l as [|x l IH]; cbn [fold_left]; [auto|].
    assert (migrate x m = m) as ->; [|exact IH].
    destruct x; cbn [migrate]; unfold migrate_v0_v1, migrate_v1_v2; rewrite Hv; reflexivity. }
  unfold migrate_v1_v2. rewrite E. cbn. repeat split.
Qed.
Print Assumptions C42_second_alone_strands_v0_data.
(** "The second migration can run alone" is false: a chain of version 0 that allowed debug enclaves
    ends at version 2 with debug enclaves forbidden and a v0 enclave left behind. *)
Theorem C42_second_alone_refuted : exists m, mg_version m = 0 /\
  let m' := upgrade (migrate_v1_v2 m) in
  mg_version m' = 2 /\ mg_v0_registry m' <> ∅ /\ tx_allow_debug (mg_tx m') <> mg_v0_debug m.
Proof.
  exists (mkMig 0 {[1 := [7]]} 1 {[ [1] := 1 ]} true
    (mkTx ∅ ∅ (mkQe 0 0 [] [] [] [] [] 0 []) ∅ false false)).
  vm_compute. repeat split; discriminate.
Qed.
Print Assumptions C42_second_alone_refuted.
Example C42_example : let m := mkMig 0 {[1 := [7]]} 1 {[ [1] := 1 ]} true
    (mkTx ∅ ∅ (mkQe 0 0 [] [] [] [] [] 0 []) {[ [1] := mkTcbInfo 0 0 [] ]} false false) in
  mg_version (upgrade m) = 2 /\ mg_v0_registry (upgrade m) = ∅ /\ tx_tcb (mg_tx (upgrade m)) = ∅ /\ tx_allow_debug (mg_tx (upgrade m)) = true.
Proof. vm_compute. repeat split; reflexivity. Qed.

(** ** C71: the migrations' own checks *)
Lemma le_round k n : n < 256 ^ N.of_nat k -> le_val (le_bytes k n) = n.
Proof.
  revert n. induction k as [|k IH]; intros n Hn.
  - change (256 ^ N.of_nat 0) with 1 in Hn. cbn [le_bytes le_val]. lia.
  - cbn [le_bytes le_val]. rewrite IH; [pose proof (N.div_mod n 256); lia|].
    apply N.div_lt_upper_bound; [lia|]. rewrite Nat2N.inj_succ, N.pow_succ_r' in Hn. lia.
Qed.
Lemma le_bytes_lenN k n : lenN (le_bytes k n) = N.of_nat k.
Proof. unfold lenN. f_equal. revert n. induction k as [|k IH]; intros n; cbn [le_bytes length]; auto. Qed.
Lemma dec_pre m : mg_version m < 2 ^ 16 -> mg_v0_count m < 2 ^ 64 ->
  dec_state (pre_upgrade_v1 m) = Some (mg_version m, mg_v0_count m, mg_v0_debug m).
Proof.
  intros Hv Hn. unfold dec_state, pre_upgrade_v1.
  assert (forall (a b : bytes) n, lenN a = n -> takeN n (a ++ b) = a /\ dropN n (a ++ b) = b) as Ht.
  { intros a b n <-. unfold takeN, dropN, lenN. rewrite Nat2N.id. split; [apply take_app|apply drop_app]. }
  pose proof (le_bytes_lenN 2 (mg_version m)) as L2. pose proof (le_bytes_lenN 8 (mg_v0_count m)) as L8.
  destruct (Ht (le_bytes 2 (mg_version m)) (le_bytes 8 (mg_v0_count m) ++ [if mg_v0_debug m then 1 else 0]) 2 L2) as [-> ->].
  destruct (Ht (le_bytes 8 (mg_v0_count m)) [if mg_v0_debug m then 1 else 0] 8 L8) as [-> _].
  rewrite app_assoc.
  destruct (Ht (le_bytes 2 (mg_version m) ++ le_bytes 8 (mg_v0_count m)) [if mg_v0_debug m then 1 else 0] 10) as [_ ->].
  { rewrite lenN_app, L2, L8. reflexivity. }
  rewrite !le_round by assumption. destruct (mg_v0_debug m); reflexivity.
Qed.
(** What the check after the first migration looks at, exactly *)
Theorem C71_first_check_accepts_iff : forall m m', mg_version m < 2 ^ 16 -> mg_v0_count m < 2 ^ 64 ->
  (post_upgrade_v1 (pre_upgrade_v1 m) m' = Passed <->
   mg_version m' <= mg_version m \/
   (mg_version m' = 1 /\ mg_v0_count m' = 0 /\ tx_allow_debug (mg_tx m') = mg_v0_debug m)) /\
  post_upgrade_v1 (pre_upgrade_v1 m) m' <> Refused.
Proof.
  intros m m' Hv Hn. unfold post_upgrade_v1. rewrite dec_pre by assumption.
  destruct (N.leb_spec (mg_version m') (mg_version m)); [split; [tauto|discriminate]|].
  destruct (N.eqb_spec (mg_version m') 1); cbn [negb]; [|split; [split; [discriminate|lia]|discriminate]].
  destruct (N.eqb_spec (mg_v0_count m') 0); cbn [negb]; [|split; [split; [discriminate|lia]|discriminate]].
  destruct (eqb (tx_allow_debug (mg_tx m')) (mg_v0_debug m)) eqn:E; cbn [negb].
  - apply eqb_prop in E. split; [tauto|discriminate].
  - apply eqb_false_iff in E. split; [split; [discriminate|intros [?|(_ & _ & ?)]; [lia|contradiction]]|discriminate].
Qed.
Print Assumptions C71_first_check_accepts_iff.
Theorem C71_first_migration_passes_its_checks : forall m, mg_version m < 2 ^ 16 -> mg_v0_count m < 2 ^ 64 ->
  (try_v1 m).1 = Passed.
Proof.
  intros m Hv Hn. unfold try_v1. cbn [fst]. apply C71_first_check_accepts_iff; [auto|auto|].
  unfold migrate_v0_v1. destruct (N.leb_spec 1 (mg_version m)); [left; lia|]. right. cbn. auto.
Qed.
Print Assumptions C71_first_migration_passes_its_checks.
(** The second migration's checks pass from version 1 only; from any other version they refuse and
    the migration is not run. They never fail an assertion. *)
Theorem C71_second_migration_checks : forall m,
  (mg_version m = 1 -> try_v2 m = (Passed, migrate_v1_v2 m)) /\
  (mg_version m <> 1 -> try_v2 m = (Refused, m)).
Proof.
  intros m. unfold try_v2, pre_upgrade_v2. split; intros H.
  - rewrite H. change ((1 =? 1) && (in_code_version =? 2)) with true. cbv beta iota zeta. f_equal.
    assert (mg_version (migrate_v1_v2 m) = 2 /\ tx_tcb (mg_tx (migrate_v1_v2 m)) = ∅) as [E1 E2].
    { unfold migrate_v1_v2. rewrite H. cbn. auto. }
    unfold post_upgrade_v2. rewrite E1, E2, le_bytes_lenN, map_size_empty. reflexivity.
  - destruct (N.eqb_spec (mg_version m) 1); [contradiction|]. reflexivity.
Qed.
Print Assumptions C71_second_migration_checks.
(** What it hands to the check afterwards is the number of TCB information entries as a u64, of which the
    check only looks at the length; that the entries are removed is checked, how many there were is not. *)
Theorem C71_second_check_is_handed_the_count : forall m st, pre_upgrade_v2 m = Some st ->
  mg_version m = 1 /\ lenN st = 8 /\ (N.of_nat (size (tx_tcb (mg_tx m))) < 2 ^ 64 -> le_val st = N.of_nat (size (tx_tcb (mg_tx m)))) /\
  forall st' m', lenN st' = 8 -> post_upgrade_v2 st' m' = post_upgrade_v2 st m'.
Proof.
  intros m st H. unfold pre_upgrade_v2 in H. destruct (N.eqb_spec (mg_version m) 1) as [E|E]; [|discriminate].
  change ((true && (in_code_version =? 2))) with true in H. cbv iota in H.
  assert (st = le_bytes 8 (N.of_nat (size (tx_tcb (mg_tx m))))) as -> by congruence. clear H.
  split; [auto|]. split; [apply le_bytes_lenN|]. split.
  - intros Hn. apply le_round. exact Hn.
  - intros st' m' H'. unfold post_upgrade_v2. rewrite H', le_bytes_lenN. reflexivity.
Qed.
Print Assumptions C71_second_check_is_handed_the_count.
Theorem C71_both_checks_pass_iff_below_version_2 : forall m, mg_version m < 2 ^ 16 -> mg_v0_count m < 2 ^ 64 ->
  ((try_v1 m).1 = Passed /\ (try_v2 (try_v1 m).2).1 = Passed <-> mg_version m < 2).
Proof.
  intros m Hv Hn. pose proof (C71_first_migration_passes_its_checks m Hv Hn) as H1.
  assert (mg_version (try_v1 m).2 = N.max 1 (mg_version m)) as E.
  { unfold try_v1. cbn [snd]. unfold migrate_v0_v1. destruct (N.leb_spec 1 (mg_version m)); cbn [mg_version]; lia. }
  destruct (C71_second_migration_checks (try_v1 m).2) as [Ha Hb]. split.
  - intros [_ H]. destruct (decide (mg_version (try_v1 m).2 = 1)) as [?|Hne]; [lia|]. rewrite (Hb Hne) in H. discriminate.
  - intros H. split; [auto|]. rewrite Ha by lia. reflexivity.
Qed.
Print Assumptions C71_both_checks_pass_iff_below_version_2.
(** "The checks can be run against every chain the migrations can be run on" is false: on a chain that
    is already at version 2 the migrations do nothing, but the checks refuse. *)
Theorem C71_checks_pass_wherever_upgrade_is_noop_refuted : exists m, upgrade m = m /\ (try_v2 (try_v1 m).2).1 = Refused.
Proof. exists (mkMig 2 ∅ 0 ∅ false (mkTx ∅ ∅ (mkQe 0 0 [] [] [] [] [] 0 []) ∅ false false)). vm_compute. auto. Qed.
Print Assumptions C71_checks_pass_wherever_upgrade_is_noop_refuted.
(** "The check notices enclaves left in the old registry" is false: it only looks at the counter. *)
Theorem C71_check_notices_left_enclaves_refuted : exists m m', mg_version m = 0 /\ mg_v0_registry m <> ∅ /\
  mg_v0_registry m' = mg_v0_registry m /\ mg_v0_index m' = mg_v0_index m /\ post_upgrade_v1 (pre_upgrade_v1 m) m' = Passed.
Proof.
  exists (mkMig 0 {[1 := [7]]} 1 {[ [1] := 1 ]} true (mkTx ∅ ∅ (mkQe 0 0 [] [] [] [] [] 0 []) ∅ false false)).
  exists (mkMig 1 {[1 := [7]]} 0 {[ [1] := 1 ]} true (mkTx ∅ ∅ (mkQe 0 0 [] [] [] [] [] 0 []) ∅ true false)).
  vm_compute. repeat split; discriminate.
Qed.
Print Assumptions C71_check_notices_left_enclaves_refuted.
Example C71_example : let m := mkMig 0 {[1 := [7]]} 1 {[ [1] := 1 ]} true
    (mkTx ∅ ∅ (mkQe 0 0 [] [] [] [] [] 0 []) {[ [1] := mkTcbInfo 0 0 [] ]} false false) in
  (try_v1 m).1 = Passed /\ (try_v2 (try_v1 m).2).1 = Passed /\ (try_v2 m).1 = Refused /\
  post_upgrade_v1 (pre_upgrade_v1 m) m = Passed /\
  post_upgrade_v1 (pre_upgrade_v1 m) (mkMig 1 ∅ 0 ∅ false (mg_tx m)) = Asserted.
Proof. vm_compute. repeat split; reflexivity. Qed.
