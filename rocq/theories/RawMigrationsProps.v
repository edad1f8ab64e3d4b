(** * C83: the migrations on the raw store *)
From Coq Require Import String.
From Verif Require Import Base State TeerdaysModel TeerexBase SgxVerifyModel TeerexModel MigrationsModel Runtime
  ScaleModel ScaleProofs StorageModel StorageProps MigrationsProps RawMigrationsModel Examples.

(** ** What one step does to a raw key *)
Lemma raw_under y k : starts_with (item_prefix y (key_item k)) (raw_key y k).
Proof. apply starts_prefix. eexists. reflexivity. Qed.
Lemma raw_not_under y k i : sane y -> key_item k <> i -> ~ starts_with (item_prefix y i) (raw_key y k).
Proof.
  intros S N H. apply starts_prefix in H as [r E]. unfold raw_key in E.
  apply prefix_inj in E as [? _]; auto.
Qed.
Lemma under_disjoint y i j b : sane y -> i <> j -> starts_with (item_prefix y i) b -> ~ starts_with (item_prefix y j) b.
Proof.
  intros S N H H'. apply starts_prefix in H as [r ->]. apply starts_prefix in H' as [r' E].
  apply prefix_inj in E as [? _]; auto.
Qed.
Lemma raw_other y k k' : sane y -> key_item k <> key_item k' -> raw_key y k <> raw_key y k'.
Proof. intros S N E. apply (raw_not_under y k (key_item k') S N). rewrite E. apply raw_under. Qed.
Lemma look_clear y i d b :
  clear y i d !! b = if decide (starts_with (item_prefix y i) b) then None else d !! b.
Proof.
  unfold clear. destruct (decide _) as [H|H].
  - apply map_filter_lookup_None. right. intros v _ H'. now apply H'.
  - destruct (d !! b) as [v|] eqn:E.
    + apply map_filter_lookup_Some. auto.
    + apply map_filter_lookup_None. auto.
Qed.
Lemma look_write y k v d b :
  write y k v d !! b = if decide (b = raw_key y k) then enc (val_codec y k) <$> v else d !! b.
Proof.
  unfold write. destruct (decide (b = raw_key y k)) as [->|N].
  - destruct v; cbn; [apply lookup_insert|apply lookup_delete].
  - destruct v; [apply lookup_insert_ne|apply lookup_delete_ne]; congruence.
Qed.
Lemma under_write y i k v d : sane y -> key_item k <> i -> under y i (write y k v d) = under y i d.
Proof.
  intros S N. apply map_eq. intros b. apply option_eq. intros w. unfold under.
  rewrite !map_filter_lookup_Some, look_write. split; intros [E H]; split; auto.
  - destruct (decide (b = raw_key y k)) as [->|]; auto. exfalso. eapply raw_not_under; eauto.
  - destruct (decide (b = raw_key y k)) as [->|]; auto. exfalso. eapply raw_not_under; eauto.
Qed.
Lemma under_clear y i j d : sane y -> i <> j -> under y i (clear y j d) = under y i d.
Proof.
  intros S N. apply map_eq. intros b. apply option_eq. intros w. unfold under.
  rewrite !map_filter_lookup_Some, look_clear. split; intros [E H]; split; auto.
  - destruct (decide _); [discriminate|auto].
  - destruct (decide _) as [H'|]; auto. exfalso. eapply under_disjoint; [eauto|apply N|eauto|eauto].
Qed.

(** ** The stores that result, byte by byte, whatever was stored before *)
(** the first migration, from version 0 *)
Theorem C83_first_migration_exactly y d b : sane y -> getv y KVersion 0 d = 0 ->
  (raw_v0_v1 y d).1 !! b =
    if decide (starts_with (item_prefix y IV0Registry) b \/ starts_with (item_prefix y IV0Index) b \/
               b = raw_key y KV0Count \/ b = raw_key y KV0Debug) then None
    else if decide (b = raw_key y KDebug) then Some [if getv y KV0Debug false d then 1 else 0]
    else if decide (b = raw_key y KVersion) then Some [1; 0]
    else d !! b.
Proof.
  intros S V. unfold raw_v0_v1. rewrite V. change (1 <=? 0) with false. cbn [fst].
  rewrite look_write, look_clear, look_clear, !look_write.
  assert (D : forall k k', key_item k <> key_item k' -> raw_key y k <> raw_key y k') by (intros; now apply raw_other).
  assert (U : forall k i, key_item k <> i -> ~ starts_with (item_prefix y i) (raw_key y k)) by (intros; now apply raw_not_under).
  destruct (decide (b = raw_key y KVersion)) as [->|N1].
  { destruct (decide _) as [[H|[H|[H|H]]]|_].
    - exfalso. revert H. apply U. discriminate.
    - exfalso. revert H. apply U. discriminate.
    - exfalso. revert H. apply D. discriminate.
    - exfalso. revert H. apply D. discriminate.
    - destruct (decide _) as [H|_]; [exfalso; revert H; apply D; discriminate|]. reflexivity. }
  destruct (decide (starts_with (item_prefix y IV0Index) b)) as [H1|H1].
  { destruct (decide _) as [_|H]; [auto|]. exfalso. apply H. auto. }
  destruct (decide (starts_with (item_prefix y IV0Registry) b)) as [H2|H2].
  { destruct (decide _) as [_|H]; [auto|]. exfalso. apply H. auto. }
  destruct (decide (b = raw_key y KV0Count)) as [H3|H3].
  { destruct (decide _) as [_|H]; [auto|]. exfalso. apply H. auto. }
  destruct (decide (b = raw_key y KDebug)) as [->|H4].
  { destruct (decide _) as [[H|[H|[H|H]]]|_]; try contradiction; [exfalso; revert H; apply D; discriminate|]. reflexivity. }
  destruct (decide (b = raw_key y KV0Debug)) as [H5|H5].
  { destruct (decide _) as [_|H]; [auto|]. exfalso. apply H. auto. }
  destruct (decide _) as [[H|[H|[H|H]]]|_]; try contradiction. reflexivity.
Qed.
Print Assumptions C83_first_migration_exactly.
(** the second, from below version 2 *)
Theorem C83_second_migration_exactly y d b : sane y -> getv y KVersion 0 d < 2 ->
  (raw_v1_v2 y d).1 !! b =
    if decide (starts_with (item_prefix y ITcb) b) then None
    else if decide (b = raw_key y KVersion) then Some [2; 0]
    else d !! b.
Proof.
  intros S V. unfold raw_v1_v2, in_code_version.
  destruct (N.leb_spec 2 (getv y KVersion 0 d)); [lia|]. cbn [fst].
  rewrite look_write, look_clear. destruct (decide (b = raw_key y KVersion)) as [->|N1]; auto.
  destruct (decide _) as [H'|_]; [|reflexivity]. exfalso. revert H'. apply raw_not_under; [auto|discriminate].
Qed.
Print Assumptions C83_second_migration_exactly.
(** and nothing at all happens above *)
Theorem C83_newer_stores_are_left_alone y d :
  (1 <= getv y KVersion 0 d -> (raw_v0_v1 y d).1 = d) /\ (2 <= getv y KVersion 0 d -> (raw_v1_v2 y d).1 = d /\ raw_upgrade y d = d).
Proof.
  assert (A : 1 <= getv y KVersion 0 d -> (raw_v0_v1 y d).1 = d).
  { intros H. unfold raw_v0_v1. now rewrite (proj2 (N.leb_le _ _) H). }
  assert (B : 2 <= getv y KVersion 0 d -> (raw_v1_v2 y d).1 = d).
  { intros H. unfold raw_v1_v2, in_code_version. now rewrite (proj2 (N.leb_le _ _) H). }
  split; auto. intros H. split; auto. unfold raw_upgrade. rewrite A by lia. auto.
Qed.
Print Assumptions C83_newer_stores_are_left_alone.

Lemma version_written y n d : sane y -> n < 65536 -> getv y KVersion 0 (write y KVersion (Some n) d) = n.
Proof. intros S H. unfold getv. rewrite C80_written_is_read; auto. Qed.
Lemma version_after_first y d : sane y -> getv y KVersion 0 d = 0 -> getv y KVersion 0 (raw_v0_v1 y d).1 = 1.
Proof. intros S V. unfold raw_v0_v1. rewrite V. change (1 <=? 0) with false. cbn [fst]. apply version_written; auto. lia. Qed.
Lemma version_after_second y d : sane y -> getv y KVersion 0 d < 2 -> getv y KVersion 0 (raw_v1_v2 y d).1 = 2.
Proof.
  intros S V. unfold raw_v1_v2, in_code_version. destruct (N.leb_spec 2 (getv y KVersion 0 d)); [lia|].
  apply version_written; auto. lia.
Qed.

(** Whatever the version and the bytes: the upgrade writes only below the prefix of pallet teerex, so
    everything of other pallets, of this repository or not, stays as it is; and within pallet teerex the
    registered enclaves, the quoting enclave and the flag for skipping attestations do. *)
Theorem C83_upgrade_touches_teerex_only y d b : sane y ->
  ~ starts_with (twox128 (ly_name y PalTeerex)) b -> raw_upgrade y d !! b = d !! b.
Proof.
  intros S N.
  assert (U : forall i, item_pallet i = PalTeerex -> ~ starts_with (item_prefix y i) b).
  { intros i Hi H. apply N. apply starts_prefix in H as [r ->]. unfold item_prefix, starts_with. rewrite Hi, <- app_assoc. apply take_app. }
  assert (K : forall k, item_pallet (key_item k) = PalTeerex -> b <> raw_key y k).
  { intros k Hk ->. eapply U; [exact Hk|apply raw_under]. }
  assert (A : (raw_v0_v1 y d).1 !! b = d !! b).
  { destruct (N.eq_dec (getv y KVersion 0 d) 0) as [V|V].
    - rewrite C83_first_migration_exactly by auto.
      destruct (decide _) as [[H|[H|[H|H]]]|_].
      + exfalso. revert H. now apply U. + exfalso. revert H. now apply U.
      + exfalso. revert H. now apply K. + exfalso. revert H. now apply K.
      + destruct (decide _) as [H|_]; [exfalso; revert H; now apply K|].
        destruct (decide _) as [H|_]; [exfalso; revert H; now apply K|]. reflexivity.
    - rewrite (proj1 (C83_newer_stores_are_left_alone y d)); auto. lia. }
  unfold raw_upgrade. rewrite <- A. set (d1 := (raw_v0_v1 y d).1).
  destruct (N.lt_ge_cases (getv y KVersion 0 d1) 2) as [V|V].
  - rewrite C83_second_migration_exactly by auto.
    destruct (decide _) as [H|_]; [exfalso; revert H; now apply U|].
    destruct (decide _) as [H|_]; [exfalso; revert H; now apply K|]. reflexivity.
  - now rewrite (proj1 (proj2 (C83_newer_stores_are_left_alone y d1) V)).
Qed.
Print Assumptions C83_upgrade_touches_teerex_only.
Theorem C83_upgrade_keeps_enclaves y d b i : sane y -> i = ISov \/ i = IProx \/ i = IQe \/ i = ISkip ->
  starts_with (item_prefix y i) b -> raw_upgrade y d !! b = d !! b.
Proof.
  intros S I P.
  assert (U : forall j, i <> j -> ~ starts_with (item_prefix y j) b).
  { intros j Hj. eapply under_disjoint; eauto. }
  assert (K : forall k, i <> key_item k -> b <> raw_key y k).
  { intros k Hk ->. eapply U; [exact Hk|apply raw_under]. }
  assert (J : i <> IV0Registry /\ i <> IV0Index /\ i <> IV0Count /\ i <> IV0Debug /\ i <> IDebug /\ i <> IVersion /\ i <> ITcb)
    by (destruct I as [->|[->|[->| ->]]]; repeat split; discriminate).
  destruct J as (J1 & J2 & J3 & J4 & J5 & J6 & J7).
  assert (A : (raw_v0_v1 y d).1 !! b = d !! b).
  { destruct (N.eq_dec (getv y KVersion 0 d) 0) as [V|V].
    - rewrite C83_first_migration_exactly by auto.
      destruct (decide _) as [[H|[H|[H|H]]]|_].
      + exfalso. revert H. now apply U. + exfalso. revert H. now apply U.
      + exfalso. revert H. now apply K. + exfalso. revert H. now apply K.
      + destruct (decide _) as [H|_]; [exfalso; revert H; now apply K|].
        destruct (decide _) as [H|_]; [exfalso; revert H; now apply K|]. reflexivity.
    - rewrite (proj1 (C83_newer_stores_are_left_alone y d)); auto. lia. }
  unfold raw_upgrade. rewrite <- A. set (d1 := (raw_v0_v1 y d).1).
  destruct (N.lt_ge_cases (getv y KVersion 0 d1) 2) as [V|V].
  - rewrite C83_second_migration_exactly by auto.
    destruct (decide _) as [H|_]; [exfalso; revert H; now apply U|].
    destruct (decide _) as [H|_]; [exfalso; revert H; now apply K|]. reflexivity.
  - now rewrite (proj1 (proj2 (C83_newer_stores_are_left_alone y d1) V)).
Qed.
Print Assumptions C83_upgrade_keeps_enclaves.

(** ** The migrations of [MigrationsModel] are those of the raw store *)
Definition mig_of (x : disk) : mig :=
  mkMig (dk_version x) (enc c_enclave_v0 <$> dk_v0_registry x) (dk_v0_count x) (dk_v0_index x) (dk_v0_debug x)
    (rt_tx (dk_rt x)).
(** the rest of the runtime state is untouched *)
Definition rest (x : disk) : rt := set_tx (mkTx ∅ ∅ qe_default ∅ false false) (dk_rt x).

Lemma holds_version y d x : holds y d x -> getv y KVersion 0 d = dk_version x.
Proof. intros H. unfold getv. rewrite (H KVersion I). reflexivity. Qed.
Lemma holds_debug y d x : holds y d x -> getv y KV0Debug false d = dk_v0_debug x.
Proof. intros H. unfold getv. rewrite (H KV0Debug I). reflexivity. Qed.
Lemma holds_count y d x : holds y d x -> getv y KV0Count 0 d = dk_v0_count x.
Proof. intros H. unfold getv. rewrite (H KV0Count I). reflexivity. Qed.

Theorem C83_first_migration_is_the_model y d x : sane y -> holds y d x -> exists x',
  holds y (raw_v0_v1 y d).1 x' /\ mig_of x' = migrate_v0_v1 (mig_of x) /\ rest x' = rest x.
Proof.
  intros S H. pose proof (holds_version y d x H) as V. pose proof (holds_debug y d x H) as G.
  unfold raw_v0_v1, migrate_v0_v1. rewrite V, G. cbn [mg_version mig_of].
  destruct (N.leb_spec 1 (dk_version x)) as [L|L]; [exists x; auto|].
  set (t := rt_tx (dk_rt x)).
  exists (mkDisk (set_tx (mkTx (tx_sov t) (tx_prox t) (tx_qe t) (tx_tcb t) (dk_v0_debug x) (tx_allow_skip t)) (dk_rt x)) 1 ∅ 0 ∅ false).
  split; [|split].
  - intros k W. cbn [fst].
    destruct (decide (k = KVersion)) as [->|N1]; [apply (C80_written_is_read y KVersion); [assumption|cbn; lia]|].
    rewrite C80_others_untouched by (first [assumption | exact I | congruence]).
    rewrite C80_clear_is_exact by auto. destruct (decide (key_item k = IV0Index)) as [E|E]; [destruct k; try discriminate E; reflexivity|].
    rewrite C80_clear_is_exact by auto. destruct (decide (key_item k = IV0Registry)) as [E1|E1]; [destruct k; try discriminate E1; reflexivity|].
    destruct (decide (k = KV0Count)) as [->|N2]; [apply C80_removed_is_gone|].
    rewrite C80_others_untouched by (first [assumption | exact I | congruence]).
    destruct (decide (k = KDebug)) as [->|N3]; [apply (C80_written_is_read y KDebug); [assumption|exact I]|].
    rewrite C80_others_untouched by (first [assumption | exact I | congruence]).
    destruct (decide (k = KV0Debug)) as [->|N4]; [apply C80_removed_is_gone|].
    rewrite C80_others_untouched by (first [assumption | exact I | congruence]).
    rewrite (H k W). destruct k; try reflexivity; first [now exfalso; apply N1 | now exfalso; apply N2 | now exfalso; apply N3 | now exfalso; apply N4 | now exfalso; apply E | now exfalso; apply E1].
  - unfold mig_of. cbn. now rewrite fmap_empty.
  - unfold rest. cbn. destruct (dk_rt x). reflexivity.
Qed.
Print Assumptions C83_first_migration_is_the_model.
Theorem C83_second_migration_is_the_model y d x : sane y -> holds y d x -> exists x',
  holds y (raw_v1_v2 y d).1 x' /\ mig_of x' = migrate_v1_v2 (mig_of x) /\ rest x' = rest x.
Proof.
  intros S H. pose proof (holds_version y d x H) as V.
  unfold raw_v1_v2, migrate_v1_v2. rewrite V. cbn [mg_version mig_of].
  destruct (N.leb_spec in_code_version (dk_version x)) as [L|L]; [exists x; auto|].
  set (t := rt_tx (dk_rt x)).
  exists (mkDisk (set_tx (mkTx (tx_sov t) (tx_prox t) (tx_qe t) ∅ (tx_allow_debug t) (tx_allow_skip t)) (dk_rt x)) 2
    (dk_v0_registry x) (dk_v0_count x) (dk_v0_index x) (dk_v0_debug x)).
  split; [|split].
  - intros k W. cbn [fst].
    destruct (decide (k = KVersion)) as [->|N1]; [apply (C80_written_is_read y KVersion); [assumption|cbn; lia]|].
    rewrite C80_others_untouched by (first [assumption | exact I | congruence]).
    rewrite C80_clear_is_exact by auto. destruct (decide (key_item k = ITcb)) as [E|E]; [destruct k; try discriminate E; reflexivity|].
    rewrite (H k W). destruct k; try reflexivity; first [now exfalso; apply N1 | now exfalso; apply E].
  - reflexivity.
  - unfold rest. cbn. destruct (dk_rt x). reflexivity.
Qed.
Print Assumptions C83_second_migration_is_the_model.
Theorem C83_upgrade_is_the_model y d x : sane y -> holds y d x -> exists x',
  holds y (raw_upgrade y d) x' /\ mig_of x' = upgrade (mig_of x) /\ rest x' = rest x.
Proof.
  intros S H. destruct (C83_first_migration_is_the_model y d x S H) as (x1 & H1 & M1 & R1).
  destruct (C83_second_migration_is_the_model y _ x1 S H1) as (x2 & H2 & M2 & R2).
  exists x2. split; [exact H2|]. split; [|congruence]. unfold upgrade. now rewrite M2, M1.
Qed.
Print Assumptions C83_upgrade_is_the_model.

(** ** Old TCB info is never taken for new *)
Theorem C83_old_tcb_info_is_not_misread y d f v : wt c_tcb_info_v1 v ->
  d !! raw_key y (KTcb f) = Some (enc c_tcb_info_v1 v) ->
  read_v1_tcb y f d = Some v /\ read y (KTcb f) d = None.
Proof.
  intros W E. unfold read_v1_tcb, read. rewrite E. cbn [val_codec val_default].
  assert (L : lawful c_tcb_info_v1) by (unfold c_tcb_info_v1; law).
  pose proof (law_rt _ L v [] W) as R. rewrite app_nil_r in R. rewrite R. split; auto.
Qed.
Print Assumptions C83_old_tcb_info_is_not_misread.
(** And after the upgrade none is left in either reading: TCB info has to be registered again. *)
Theorem C83_no_tcb_info_survives y d f : sane y -> getv y KVersion 0 d < 2 ->
  read_v1_tcb y f (raw_upgrade y d) = None /\ read y (KTcb f) (raw_upgrade y d) = None /\
  under y ITcb (raw_upgrade y d) = ∅.
Proof.
  intros S V.
  assert (V1 : getv y KVersion 0 (raw_v0_v1 y d).1 < 2).
  { destruct (N.eq_dec (getv y KVersion 0 d) 0) as [E|E].
    - rewrite version_after_first; auto. lia.
    - rewrite (proj1 (C83_newer_stores_are_left_alone y d)); auto. lia. }
  assert (L : forall b, starts_with (item_prefix y ITcb) b -> raw_upgrade y d !! b = None).
  { intros b H. unfold raw_upgrade. rewrite C83_second_migration_exactly by auto. now destruct (decide _). }
  unfold read_v1_tcb, read. rewrite (L (raw_key y (KTcb f)) (raw_under y (KTcb f))). split; [|split]; auto.
  apply map_eq. intros b. rewrite lookup_empty. unfold under. apply map_filter_lookup_None.
  destruct (decide (starts_with (item_prefix y ITcb) b)) as [H|H]; [left; now apply L|right; intros v _ H'; now apply H].
Qed.
Print Assumptions C83_no_tcb_info_survives.
(** Nor is anything of version 0: every key of its four items is gone. *)
Theorem C83_no_v0_data_survives y d i : sane y -> getv y KVersion 0 d = 0 -> i = IV0Registry \/ i = IV0Index ->
  under y i (raw_upgrade y d) = ∅ /\
  raw_upgrade y d !! raw_key y KV0Count = None /\ raw_upgrade y d !! raw_key y KV0Debug = None /\
  getv y KDebug false (raw_upgrade y d) = getv y KV0Debug false d /\ getv y KVersion 0 (raw_upgrade y d) = 2.
Proof.
  intros S V I.
  assert (V1 : getv y KVersion 0 (raw_v0_v1 y d).1 < 2) by (rewrite version_after_first; auto; lia).
  assert (L : forall b, ~ starts_with (item_prefix y ITcb) b -> b <> raw_key y KVersion ->
            raw_upgrade y d !! b = (raw_v0_v1 y d).1 !! b).
  { intros b H N. unfold raw_upgrade. rewrite C83_second_migration_exactly by auto.
    destruct (decide _); [contradiction|]. destruct (decide _); [contradiction|]. reflexivity. }
  split; [|split; [|split; [|split]]].
  - apply map_eq. intros b. rewrite lookup_empty. unfold under. apply map_filter_lookup_None.
    destruct (decide (starts_with (item_prefix y i) b)) as [H|H]; [left|right; intros v _ H'; now apply H].
    rewrite L.
    + rewrite C83_first_migration_exactly by auto. destruct (decide _) as [|F]; auto. exfalso. apply F.
      destruct I as [-> | ->]; auto.
    + eapply under_disjoint; [auto| |exact H]. destruct I as [-> | ->]; discriminate.
    + intros ->. revert H. apply raw_not_under; auto. destruct I as [-> | ->]; discriminate.
  - rewrite L.
    + rewrite C83_first_migration_exactly by auto. destruct (decide _) as [|F]; auto. exfalso. apply F. auto.
    + apply raw_not_under; [auto|discriminate].
    + apply raw_other; [auto|discriminate].
  - rewrite L.
    + rewrite C83_first_migration_exactly by auto. destruct (decide _) as [|F]; auto. exfalso. apply F. auto.
    + apply raw_not_under; [auto|discriminate].
    + apply raw_other; [auto|discriminate].
  - unfold getv at 1, read at 1. rewrite L.
    + rewrite C83_first_migration_exactly by auto.
      destruct (decide _) as [[H|[H|[H|H]]]|_].
      * exfalso. revert H. apply raw_not_under; [auto|discriminate].
      * exfalso. revert H. apply raw_not_under; [auto|discriminate].
      * exfalso. revert H. apply raw_other; [auto|discriminate].
      * exfalso. revert H. apply raw_other; [auto|discriminate].
      * destruct (decide _) as [_|F]; [|now exfalso; apply F]. cbn [val_codec].
        now destruct (getv y KV0Debug false d).
    + apply raw_not_under; [auto|discriminate].
    + apply raw_other; [auto|discriminate].
  - unfold raw_upgrade. now apply version_after_second.
Qed.
Print Assumptions C83_no_v0_data_survives.

(** ** The checks of try-runtime, on whatever is stored *)
(** the values of the store are bytes *)
Definition kv_wf (d : kv) : Prop := forall k b, d !! k = Some b -> wf_bytes b.
Lemma read_typed y k d v : sane y -> kv_wf d -> (forall z, val_default k = Some z -> wt (val_codec y k) z) ->
  read y k d = Some v -> wt (val_codec y k) v.
Proof.
  intros S F Z R. unfold read in R. destruct (d !! raw_key y k) as [b|] eqn:E; [|now apply Z].
  destruct (dec (val_codec y k) b) as [[v' r]|] eqn:D; [|now apply Z]. inversion R; subst v'.
  apply (law_canon _ (lawful_val y k S) b v r) in D as (D & _); auto. eapply F; eauto.
Qed.
Lemma version_bound y d : sane y -> kv_wf d -> getv y KVersion 0 d < 65536.
Proof.
  intros S F. unfold getv. destruct (read y KVersion d) as [v|] eqn:R; cbn [default]; [|lia].
  eapply (read_typed y KVersion) in R; eauto. intros z Z. injection Z as <-. cbn. lia.
Qed.
Lemma count_bound y d : sane y -> kv_wf d -> getv y KV0Count 0 d < 18446744073709551616.
Proof.
  intros S F. unfold getv. destruct (read y KV0Count d) as [v|] eqn:R; cbn [default]; [|lia].
  eapply (read_typed y KV0Count) in R; eauto. intros z Z. injection Z as <-. cbn. lia.
Qed.
Theorem C83_first_checks_pass y d : sane y -> kv_wf d -> raw_try_v1 y d = (Passed, (raw_v0_v1 y d).1).
Proof.
  intros S F. unfold raw_try_v1. f_equal. unfold raw_post_v1, raw_pre_v1.
  assert (L : lawful (c_pair (c_le 2) (c_pair (c_le 8) c_bool))) by law.
  match goal with |- match dec ?c (enc ?c ?v) with _ => _ end = _ =>
    pose proof (law_rt c L v []) as R; rewrite app_nil_r in R; rewrite R end.
  2:{ split; [exact (version_bound y d S F)|]. split; [exact (count_bound y d S F)|exact I]. }
  destruct (N.eq_dec (getv y KVersion 0 d) 0) as [V|V].
  - rewrite version_after_first, V by auto. cbn [N.leb N.compare].
    assert (C : getv y KV0Count 0 (raw_v0_v1 y d).1 = 0).
    { unfold getv, read. rewrite C83_first_migration_exactly by auto. destruct (decide _) as [|X]; auto. exfalso. apply X. auto. }
    assert (G : getv y KDebug false (raw_v0_v1 y d).1 = getv y KV0Debug false d).
    { unfold getv at 1, read at 1. rewrite C83_first_migration_exactly by auto.
      destruct (decide _) as [[H|[H|[H|H]]]|_].
      * exfalso. revert H. apply raw_not_under; [auto|discriminate].
      * exfalso. revert H. apply raw_not_under; [auto|discriminate].
      * exfalso. revert H. apply raw_other; [auto|discriminate].
      * exfalso. revert H. apply raw_other; [auto|discriminate].
      * destruct (decide _) as [_|X]; [|now exfalso; apply X]. cbn [val_codec].
        now destruct (getv y KV0Debug false d). }
    rewrite C, G. change (1 <=? 0) with false. change (1 =? 1) with true. change (0 =? 0) with true. cbn [negb]. now rewrite eqb_reflx.
  - rewrite (proj1 (C83_newer_stores_are_left_alone y d)) by lia. now rewrite N.leb_refl.
Qed.
Print Assumptions C83_first_checks_pass.
Theorem C83_second_checks y d : sane y -> kv_wf d ->
  raw_try_v2 y d = if getv y KVersion 0 d =? 1 then (Passed, (raw_v1_v2 y d).1) else (Refused, d).
Proof.
  intros S F. unfold raw_try_v2, raw_pre_v2. rewrite N.eqb_refl, andb_true_r.
  destruct (N.eqb_spec (getv y KVersion 0 d) 1) as [V|V]; auto. f_equal.
  unfold raw_post_v2. rewrite version_after_second by (auto; lia). rewrite N.eqb_refl. cbn [negb].
  assert (D : forall n, exists r, dec (c_le 8) (enc (c_le 8) n) = Some r).
  { intros n. cbn. unfold lenN. rewrite !app_length || idtac. cbn. eauto. }
  destruct (D (tcb_keys y d)) as [r ->].
  assert (Z : tcb_keys y (raw_v1_v2 y d).1 = 0).
  { unfold tcb_keys. replace (under y ITcb (raw_v1_v2 y d).1) with (∅ : kv); [reflexivity|].
    symmetry. apply map_eq. intros b. rewrite lookup_empty. unfold under. apply map_filter_lookup_None.
    destruct (decide (starts_with (item_prefix y ITcb) b)) as [H|H]; [left|right; intros v _ H'; now apply H].
    rewrite C83_second_migration_exactly by (auto; lia). now destruct (decide _). }
  rewrite Z. reflexivity.
Qed.
Print Assumptions C83_second_checks.

(** ** The weights *)
(** the keys at which two stores differ *)
Definition changed (d d' : kv) : gset bytes := filter (fun b => d !! b <> d' !! b) (dom d ∪ dom d').
Lemma elem_changed d d' b : b ∈ changed d d' <-> d !! b <> d' !! b.
Proof.
  unfold changed. rewrite elem_of_filter, elem_of_union, !elem_of_dom. split; [tauto|]. intros H. split; auto.
  destruct (d !! b); [left; eauto|]. destruct (d' !! b); [right; eauto|]. now contradict H.
Qed.
Lemma size_dom (d : kv) : size (dom d : gset bytes) = size d.
Proof. apply size_dom. Qed.
Lemma elem_under y i d b : b ∈ (dom (under y i d) : gset bytes) <-> starts_with (item_prefix y i) b /\ is_Some (d !! b).
Proof.
  unfold under. rewrite elem_of_dom. unfold is_Some. split.
  - intros [v H]. apply map_filter_lookup_Some in H as [H1 H2]. split; eauto.
  - intros [H [v E]]. exists v. apply map_filter_lookup_Some. auto.
Qed.
(** The second migration pays for every key it changes; the first may change one more than it pays for:
    besides the purged keys it kills two items and writes two, and charges for three. *)
Theorem C83_second_weight_covers_changes y d : sane y ->
  N.of_nat (size (changed d (raw_v1_v2 y d).1)) <= (raw_v1_v2 y d).2.2.
Proof.
  intros S. destruct (N.lt_ge_cases (getv y KVersion 0 d) 2) as [V|V].
  2:{ rewrite (proj1 (proj2 (C83_newer_stores_are_left_alone y d) V)).
      replace (changed d d) with (∅ : gset bytes); [rewrite size_empty; lia|].
      apply set_eq. intros b. rewrite elem_changed. set_solver. }
  assert (W : (raw_v1_v2 y d).2.2 = purged y ITcb d + 3).
  { unfold raw_v1_v2, in_code_version. destruct (N.leb_spec 2 (getv y KVersion 0 d)); [lia|reflexivity]. }
  rewrite W. clear W. unfold purged.
  assert (Hs : changed d (raw_v1_v2 y d).1 ⊆ {[raw_key y KVersion]} ∪ dom (under y ITcb d)).
  { intros b. rewrite elem_changed, C83_second_migration_exactly by auto. intros H.
    rewrite elem_of_union, elem_of_singleton, elem_under.
    destruct (decide (starts_with (item_prefix y ITcb) b)) as [H1|H1].
    - right. split; auto. destruct (d !! b); eauto. now contradict H.
    - destruct (decide (b = raw_key y KVersion)); auto. now contradict H. }
  apply subseteq_size in Hs.
  pose proof (size_union_alt ({[raw_key y KVersion]} : gset bytes) (dom (under y ITcb d))) as U.
  pose proof (subseteq_size (dom (under y ITcb d) ∖ {[raw_key y KVersion]}) (dom (under y ITcb d) : gset bytes)) as U'.
  rewrite size_singleton in U. rewrite size_dom in U'. specialize (U' ltac:(set_solver)). lia.
Qed.
Print Assumptions C83_second_weight_covers_changes.
Theorem C83_first_weight_is_short_by_at_most_one y d : sane y ->
  N.of_nat (size (changed d (raw_v0_v1 y d).1)) <= (raw_v0_v1 y d).2.2 + 1.
Proof.
  intros S. destruct (N.eq_dec (getv y KVersion 0 d) 0) as [V|V].
  2:{ rewrite (proj1 (C83_newer_stores_are_left_alone y d)) by lia.
      replace (changed d d) with (∅ : gset bytes); [rewrite size_empty; lia|].
      apply set_eq. intros b. rewrite elem_changed. set_solver. }
  assert (W : (raw_v0_v1 y d).2.2 = purged y IV0Registry d + purged y IV0Index d + 3).
  { unfold raw_v0_v1, purged. rewrite V. change (1 <=? 0) with false. cbn [fst snd].
    rewrite under_clear by (auto; discriminate). rewrite !under_write by (auto; discriminate). reflexivity. }
  rewrite W. clear W. unfold purged.
  assert (Hs : changed d (raw_v0_v1 y d).1 ⊆
    ({[raw_key y KV0Count; raw_key y KV0Debug; raw_key y KDebug; raw_key y KVersion]} ∪ dom (under y IV0Registry d)) ∪ dom (under y IV0Index d)).
  { intros b. rewrite elem_changed, C83_first_migration_exactly by auto. intros H.
    rewrite !elem_of_union, !elem_of_singleton, !elem_under.
    destruct (decide _) as [[H1|[H1|[H1|H1]]]|H1].
    - left; right. split; auto. destruct (d !! b); eauto. now contradict H.
    - right. split; auto. destruct (d !! b); eauto. now contradict H.
    - tauto.
    - tauto.
    - destruct (decide (b = raw_key y KDebug)); [tauto|]. destruct (decide (b = raw_key y KVersion)); [tauto|]. now contradict H. }
  apply subseteq_size in Hs.
  assert (U : forall a b : gset bytes, (size (a ∪ b) <= size a + size b)%nat).
  { intros a b. rewrite size_union_alt. pose proof (subseteq_size (b ∖ a) b ltac:(set_solver)). lia. }
  pose proof (U ({[raw_key y KV0Count; raw_key y KV0Debug; raw_key y KDebug; raw_key y KVersion]} ∪ dom (under y IV0Registry d)) (dom (under y IV0Index d))) as U1.
  pose proof (U {[raw_key y KV0Count; raw_key y KV0Debug; raw_key y KDebug; raw_key y KVersion]} (dom (under y IV0Registry d))) as U2.
  pose proof (U ({[raw_key y KV0Count]} ∪ {[raw_key y KV0Debug]} ∪ {[raw_key y KDebug]}) {[raw_key y KVersion]}) as U3.
  pose proof (U ({[raw_key y KV0Count]} ∪ {[raw_key y KV0Debug]}) {[raw_key y KDebug]}) as U4.
  pose proof (U {[raw_key y KV0Count]} {[raw_key y KV0Debug]}) as U5.
  rewrite !size_singleton in *. rewrite !size_dom in *. lia.
Qed.
Print Assumptions C83_first_weight_is_short_by_at_most_one.

(** ** A store of version 0, as in the test of the repository (migrations.rs:205-245): one enclave,
    debug mode allowed, old TCB info, and beside it entries of other pallets *)
Definition store_v0 : kv :=
  write layout0 (KV0Registry 0) (Some (replicate 32 1, (zeros 32, (0, ([], MDebug)))))
   (write layout0 (KV0Index (replicate 32 1)) (Some 1)
   (write layout0 KV0Count (Some 1)
   (write layout0 KV0Debug (Some true)
   (write layout0 KTotal (Some 77)
   (write layout0 (KBonds (replicate 32 7)) (Some (mkBond 1000 5 9))
   (write layout0 KVersion (Some 0)
   (<[raw_key layout0 (KTcb (zeros 6)) := enc c_tcb_info_v1 (5, 6)]> ∅))))))).
Example C83_example :
  getv layout0 KVersion 0 store_v0 = 0 /\ getv layout0 KV0Debug false store_v0 = true /\
  read_v1_tcb layout0 (zeros 6) store_v0 = Some (5, 6) /\ read layout0 (KTcb (zeros 6)) store_v0 = None /\
  tcb_keys layout0 store_v0 = 1 /\
  (raw_try_v1 layout0 store_v0).1 = Passed /\ (raw_try_v2 layout0 store_v0).1 = Refused /\
  (raw_v0_v1 layout0 store_v0).2 = (3, 5) /\ (raw_v1_v2 layout0 (raw_v0_v1 layout0 store_v0).1).2 = (2, 4) /\
  (raw_try_v2 layout0 (raw_v0_v1 layout0 store_v0).1).1 = Passed /\
  size (raw_upgrade layout0 store_v0) = 4%nat /\
  getv layout0 KVersion 0 (raw_upgrade layout0 store_v0) = 2 /\
  getv layout0 KDebug false (raw_upgrade layout0 store_v0) = true /\
  read layout0 (KBonds (replicate 32 7)) (raw_upgrade layout0 store_v0) = Some (mkBond 1000 5 9) /\
  read layout0 KTotal (raw_upgrade layout0 store_v0) = Some 77.
Proof. vm_compute. repeat split; reflexivity. Qed.
(** "The weight returned by the first migration covers the keys it changes" is false. *)
Theorem C83_first_weight_refuted : exists d, getv layout0 KVersion 0 d = 0 /\
  (raw_v0_v1 layout0 d).2.2 < N.of_nat (size (changed d (raw_v0_v1 layout0 d).1)).
Proof. exists store_v0. vm_compute. split; reflexivity. Qed.
Print Assumptions C83_first_weight_refuted.
