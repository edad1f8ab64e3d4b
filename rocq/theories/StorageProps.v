(** * C80: what is written to the chain's store is read back, entries do not overlap *)
From Coq Require Import String.
From Verif Require Import Base State TeerdaysModel TeerexBase SgxVerifyModel TeerexModel
  EnclaveBridgeModel SidechainModel TeeracleModel ClaimsModel AssetRegistryModel XcmTransactorModel
  MigrationsModel Runtime ScaleModel ScaleProofs StorageModel Examples.

(** A layout as a runtime provides it: lawful XCM codecs, pallets with different name hashes, 16-byte
    Blake2_128 *)
Record sane (y : layout) : Prop := mkSane {
  sane_xcm : lawful_xcm (ly_xcm y);
  sane_names : forall p q, twox128 (ly_name y p) = twox128 (ly_name y q) -> p = q;
  sane_blake : forall b, length (ly_blake y b) = 16%nat;
  sane_blake_wf : forall b, wf_bytes (ly_blake y b) }.

Global Instance skey_eqdec : EqDecision skey.
Proof. solve_decision. Defined.

Lemma twox128_length l : length (twox128 l) = 16%nat.
Proof. unfold twox128. rewrite app_length, !le_bytes_length. reflexivity. Qed.
Lemma prefix_length y i : length (item_prefix y i) = 32%nat.
Proof. unfold item_prefix. rewrite app_length, !twox128_length. reflexivity. Qed.

(** all items, and that their hashed names differ *)
Definition all_items : list item :=
  [ISov; IProx; IQe; ITcb; IDebug; ISkip; IV0Registry; IV0Count; IV0Index; IV0Debug; IVersion; IStatus; IConfig;
   IExec; ILatest; IRates; IData; IWhitelist; IBonds; IPending; IClaims; ITotal; IVesting; ISigning; IPreclaims;
   IAssetLoc; IAssetId].
Lemma all_items_all i : i ∈ all_items.
Proof. unfold all_items. destruct i; repeat (apply elem_of_list_here || apply elem_of_list_further). Qed.
Lemma names_distinct i j : twox128 (item_name i) = twox128 (item_name j) -> i = j.
Proof.
  assert (H : forallb (fun i => forallb (fun j => bool_decide (i = j) || negb (beq (twox128 (item_name i)) (twox128 (item_name j))))
                         all_items) all_items = true) by (vm_compute; reflexivity).
  rewrite forallb_forall in H. intros E.
  specialize (H i (proj1 (elem_of_list_In _ _) (all_items_all i))). cbn beta in H. rewrite forallb_forall in H.
  specialize (H j (proj1 (elem_of_list_In _ _) (all_items_all j))). cbn beta in H.
  unfold beq in H. rewrite (bool_decide_eq_true_2 _ E) in H. cbn in H. rewrite orb_false_r in H.
  now apply bool_decide_eq_true_1 in H.
Qed.
Lemma prefix_inj y i j r r' : sane y -> item_prefix y i ++ r = item_prefix y j ++ r' -> i = j /\ r = r'.
Proof.
  intros S E. apply app_inj_1 in E as [E ->]; [|now rewrite !prefix_length]. split; auto.
  unfold item_prefix in E. apply app_inj_1 in E as [_ E]; [|now rewrite !twox128_length].
  now apply names_distinct.
Qed.

Lemma blake_inj {A} y (c : codec A) a b r r' : sane y -> lawful c -> wt c a -> wt c b ->
  blake_concat y (enc c a) ++ r = blake_concat y (enc c b) ++ r' -> a = b /\ r = r'.
Proof.
  intros S L A1 B1 E. unfold blake_concat in E. rewrite <- !app_assoc in E.
  apply app_inj_1 in E as [_ E]; [|now rewrite !(sane_blake _ S)].
  eapply lawful_inj; eauto.
Qed.

Lemma tail_inj y k k' r r' : sane y -> key_wt y k -> key_wt y k' -> key_item k = key_item k' ->
  key_tail y k ++ r = key_tail y k' ++ r' -> k = k' /\ r = r'.
Proof.
  intros S W W' I E. pose proof (sane_xcm _ S) as X.
  pose proof (lawful_location _ X) as LL.
  pose proof (lawful_le (w_aid (ly_w y))). pose proof (lawful_arr 6). pose proof (lawful_arr 20). pose proof (lawful_le 8).
  destruct k; destruct k'; try discriminate I; clear I; cbn [key_wt key_tail] in *;
    first
      [ split; [reflexivity|exact E]
      | destruct W, W'; rewrite <- !app_assoc in E;
        apply (blake_inj y c_bytes) in E as [-> E]; auto with scale;
        apply (blake_inj y c_bytes) in E as [-> E]; auto with scale
      | eapply blake_inj in E as [-> ->]; eauto with scale
      | eapply lawful_inj in E as [-> ->]; eauto with scale ].
Qed.

(** No key is another key, or the beginning of another key. *)
Theorem C80_keys_never_overlap y k k' r :
  sane y -> key_wt y k -> key_wt y k' -> raw_key y k ++ r = raw_key y k' -> k = k' /\ r = [].
Proof.
  intros S W W' E. unfold raw_key in E. rewrite <- app_assoc in E.
  apply prefix_inj in E as [I E]; auto. rewrite <- (app_nil_r (key_tail y k')) in E.
  eapply tail_inj; eauto.
Qed.
Print Assumptions C80_keys_never_overlap.

Lemma raw_key_inj y k k' : sane y -> key_wt y k -> key_wt y k' -> raw_key y k = raw_key y k' -> k = k'.
Proof. intros S W W' E. apply (C80_keys_never_overlap y k k' []); auto. now rewrite app_nil_r. Qed.

Lemma lawful_val y k : sane y -> lawful (val_codec y k).
Proof.
  intros S. pose proof (lawful_location _ (sane_xcm _ S)).
  destruct k; cbn [val_codec]; auto with scale; try law; unfold c_enclave_v0; law.
Qed.

(** What was written is read; what was removed reads as the default; other entries are untouched. *)
Theorem C80_written_is_read y k d v :
  sane y -> wt (val_codec y k) v -> read y k (write y k (Some v) d) = Some v.
Proof.
  intros S W. unfold read, write. rewrite lookup_insert.
  pose proof (law_rt _ (lawful_val y k S) v [] W) as R. rewrite app_nil_r in R. rewrite R. reflexivity.
Qed.
Theorem C80_removed_is_gone y k d : read y k (write y k None d) = val_default k.
Proof. unfold read, write. now rewrite lookup_delete. Qed.
Theorem C80_others_untouched y k k' d v :
  sane y -> key_wt y k -> key_wt y k' -> k <> k' -> read y k' (write y k v d) = read y k' d.
Proof.
  intros S W W' N. unfold read, write.
  assert (raw_key y k <> raw_key y k') by (intros E; apply N; eapply raw_key_inj; eauto).
  destruct v; [rewrite lookup_insert_ne|rewrite lookup_delete_ne]; auto.
Qed.
Print Assumptions C80_written_is_read.
Print Assumptions C80_removed_is_gone.
Print Assumptions C80_others_untouched.

(** So a store that holds a state still does after both were updated at one entry. *)
Theorem C80_stores_follow_the_model y d x x' k v :
  sane y -> holds y d x -> key_wt y k -> (forall a, v = Some a -> wt (val_codec y k) a) ->
  entry k x' = (match v with Some a => Some a | None => val_default k end) ->
  (forall k', k' <> k -> entry k' x' = entry k' x) ->
  holds y (write y k v d) x'.
Proof.
  intros S H W V E F k' W'. destruct (decide (k = k')) as [<-|N].
  - rewrite E. destruct v as [a|]; [apply C80_written_is_read; auto|apply C80_removed_is_gone].
  - rewrite C80_others_untouched by auto. rewrite F by auto. apply H; auto.
Qed.
Print Assumptions C80_stores_follow_the_model.

(** Clearing an item removes its entries and no others. *)
Lemma starts_prefix y i b : starts_with (item_prefix y i) b <-> exists r, b = item_prefix y i ++ r.
Proof.
  unfold starts_with. split.
  - intros E. exists (drop (length (item_prefix y i)) b). rewrite <- E at 1. symmetry. apply take_drop.
  - intros [r ->]. apply take_app.
Qed.
Theorem C80_clear_is_exact y i k d : sane y -> key_wt y k ->
  read y k (clear y i d) = if decide (key_item k = i) then val_default k else read y k d.
Proof.
  intros S W. unfold read, clear. destruct (decide (key_item k = i)) as [<-|N].
  - replace (filter (fun '(k0, _) => ~ starts_with (item_prefix y (key_item k)) k0) d !! raw_key y k) with (@None bytes); auto.
    symmetry. apply map_filter_lookup_None. right. intros b _ H. apply H. apply starts_prefix. eexists. reflexivity.
  - destruct (d !! raw_key y k) as [b|] eqn:E.
    + replace (filter (fun '(k0, _) => ~ starts_with (item_prefix y i) k0) d !! raw_key y k) with (Some b); auto.
      symmetry. apply map_filter_lookup_Some. split; auto. intros H. apply N.
      apply starts_prefix in H as [r E']. unfold raw_key in E'. apply prefix_inj in E' as [? _]; auto.
    + replace (filter (fun '(k0, _) => ~ starts_with (item_prefix y i) k0) d !! raw_key y k) with (@None bytes); auto.
      symmetry. apply map_filter_lookup_None. auto.
Qed.
Print Assumptions C80_clear_is_exact.

(** ** Every well-typed state has a store that holds it *)
Definition disk_wt (y : layout) (x : disk) : Prop :=
  forall k, (entry k x <> val_default k -> key_wt y k) /\
            (key_wt y k -> forall v, entry k x = Some v -> wt (val_codec y k) v).

(** the entries that differ from what an absent one reads as, at most *)
Definition dom_keys {K V} `{Countable K} (f : K -> skey) (m : gmap K V) : list skey := map (fun p => f p.1) (map_to_list m).
Definition keys_of (x : disk) : list skey :=
  let s := dk_rt x in
  [KQe; KDebug; KSkip; KV0Count; KV0Debug; KVersion; KTotal] ++
  dom_keys KSov (tx_sov (rt_tx s)) ++ dom_keys KProx (tx_prox (rt_tx s)) ++ dom_keys KTcb (tx_tcb (rt_tx s)) ++
  dom_keys KV0Registry (dk_v0_registry x) ++ dom_keys KV0Index (filter (fun p => p.2 <> 0) (dk_v0_index x)) ++
  dom_keys KStatus (eb_status (rt_eb s)) ++ dom_keys KConfig (eb_config (rt_eb s)) ++
  dom_keys KExec (filter (fun p => p.2 <> 0) (eb_exec (rt_eb s))) ++ dom_keys KLatest (rt_sc s) ++
  dom_keys (fun p => KRates p.1 p.2) (filter (fun p => p.2 <> 0) (to_rates (rt_to s))) ++
  dom_keys (fun p => KData p.1 p.2) (filter (fun p => p.2 <> []) (to_data (rt_to s))) ++
  dom_keys KWhitelist (filter (fun p => p.2 <> []) (to_wl (rt_to s))) ++
  dom_keys KBonds (td_bonds (rt_td s)) ++ dom_keys KPending (td_pending (rt_td s)) ++
  dom_keys KClaims (cl_claims (rt_cl s)) ++ dom_keys KVesting (cl_vesting (rt_cl s)) ++
  dom_keys KSigning (cl_signing (rt_cl s)) ++ dom_keys KPreclaims (cl_preclaims (rt_cl s)) ++
  dom_keys KAssetLoc (ar_loc (rt_ar s)) ++ dom_keys KAssetId (ar_id (rt_ar s)).
(** write them all *)
Definition image (y : layout) (x : disk) : kv :=
  foldr (fun k d => write y k (entry k x) d) ∅ (keys_of x).

Lemma elem_dom_keys {K V} `{Countable K} (f : K -> skey) (m : gmap K V) k :
  k ∈ dom_keys f m <-> exists a v, m !! a = Some v /\ k = f a.
Proof.
  unfold dom_keys. rewrite elem_of_list_fmap. split.
  - intros ([a v] & -> & E). apply elem_of_map_to_list in E. cbn. eauto.
  - intros (a & v & E & ->). exists (a, v). split; auto. now apply elem_of_map_to_list.
Qed.
Lemma entry_none k x : entry k x = None -> val_default k = None.
Proof. destruct k; cbn; auto; discriminate. Qed.
Lemma keys_of_wt y x k : disk_wt y x -> k ∈ keys_of x -> key_wt y k.
Proof.
  intros D E.
  assert (HH : key_wt y k \/ entry k x <> val_default k).
  { unfold keys_of in E. cbv zeta in E. rewrite elem_of_app in E. destruct E as [E|E].
    { left. repeat (apply elem_of_cons in E as [->|E]; [exact I|]). now apply elem_of_nil in E. }
    right. rewrite !elem_of_app, !elem_dom_keys in E.
    repeat (destruct E as [E|E]);
      destruct E as (a & v & E & ->); cbn [entry val_default val_of];
      try (apply map_filter_lookup_Some in E as [E NE]; cbn in NE); first [rewrite E | destruct a; cbn [fst snd]; first [rewrite E | unfold bytes in *; rewrite E]]; cbn;
      first [congruence | intros C; inversion C; subst; now apply NE]. }
  destruct HH as [|HH]; auto. now apply (proj1 (D k)).
Qed.
Lemma keys_of_all x k : k ∉ keys_of x -> entry k x = val_default k.
Proof.
  intros NE.
  assert (D : forall (V : Type) (d : V) (E0 : EqDecision V) (o : option V), (forall v, o = Some v -> v <> d -> False) -> default d o = d).
  { intros V d E0 o F. destruct o as [v|]; cbn; auto. destruct (decide (v = d)); auto. exfalso; eauto. }
  unfold keys_of in NE. cbv zeta in NE. rewrite !elem_of_app, !elem_dom_keys in NE.
  destruct k; cbn [entry val_default val_of];
    try (exfalso; apply NE; left; repeat (apply elem_of_list_here || apply elem_of_list_further); fail).
  all: try (match goal with |- ?m !! ?a = None => destruct (m !! a) eqn:E; [exfalso; apply NE|reflexivity] end).
  all: try (f_equal; apply D; [apply _|]; intros v Ev Nv; apply NE).
  all: do 30 (first [ left; eexists; eexists; split; [eassumption|reflexivity]
                    | left; eexists; eexists; split; [apply map_filter_lookup_Some; split; eassumption|reflexivity]
                    | left; exists (pair, src); eexists; split; [apply map_filter_lookup_Some; split; eassumption|reflexivity]
                    | left; exists (name, src); eexists; split; [apply map_filter_lookup_Some; split; eassumption|reflexivity]
                    | eexists; eexists; split; [eassumption|reflexivity]
                    | right ]).
Qed.
Theorem C80_every_state_is_stored y x : sane y -> disk_wt y x -> holds y (image y x) x.
Proof.
  intros S D. unfold image.
  assert (H : forall ks, (forall k, k ∈ ks -> key_wt y k) ->
    forall k, key_wt y k -> read y k (foldr (fun k d => write y k (entry k x) d) ∅ ks) =
      if decide (k ∈ ks) then entry k x else val_default k).
  { induction ks as [|k0 ks IH]; intros KW k W.
    - cbn. unfold read. rewrite lookup_empty. destruct (decide (k ∈ [])) as [E|]; auto. now apply elem_of_nil in E.
    - cbn [foldr]. assert (W0 : key_wt y k0) by (apply KW; left).
      destruct (decide (k0 = k)) as [->|N].
      + destruct (decide (k ∈ k :: ks)) as [_|F]; [|exfalso; apply F; left].
        destruct (entry k x) as [v|] eqn:E.
        * apply C80_written_is_read; auto. now apply (proj2 (D k)).
        * rewrite C80_removed_is_gone. now apply (entry_none k x).
      + rewrite C80_others_untouched by auto. rewrite IH; auto.
        * destruct (decide (k ∈ ks)) as [I1|I1]; destruct (decide (k ∈ k0 :: ks)) as [I2|I2]; auto.
          -- exfalso; apply I2; now right.
          -- exfalso. apply elem_of_cons in I2 as [->|I2]; auto.
        * intros k' I'. apply KW. now right. }
  intros k W. rewrite H; auto; [|intros; eapply keys_of_wt; eauto].
  destruct (decide (k ∈ keys_of x)); auto. symmetry. now apply keys_of_all.
Qed.
Print Assumptions C80_every_state_is_stored.

(** A store determines the state it holds. *)
Theorem C80_store_determines_the_state y d x x' k :
  holds y d x -> holds y d x' -> key_wt y k -> entry k x = entry k x'.
Proof. intros H H' W. rewrite <- (H k W). apply H', W. Qed.
Print Assumptions C80_store_determines_the_state.

(** An empty database is the storage of a chain where nothing has happened: every map is empty, every amount zero, both
    flags off, no version. *)
Theorem C80_empty_store_is_an_empty_chain : forall y now blk bal vest assets out ev,
  holds y ∅ (mkDisk (mkRt now blk bal vest (mkTd ∅ ∅) (mkEb ∅ ∅ ∅) ∅ (mkTo ∅ ∅ ∅) (mkTx ∅ ∅ qe_default ∅ false false)
    (mkCl ∅ 0 ∅ ∅ ∅) (mkAr ∅ ∅ assets) out ev) 0 ∅ 0 ∅ false).
Proof. intros y now blk bal vest assets out ev k W. unfold read. rewrite lookup_empty. destruct k; reflexivity. Qed.
Print Assumptions C80_empty_store_is_an_empty_chain.
(** Bytes that are no value of the type count as no entry; bytes after the value are ignored. *)
Theorem C80_broken_entries_count_as_absent : forall y k d b,
  (dec (val_codec y k) b = None -> read y k (<[raw_key y k := b]> d) = read y k (delete (raw_key y k) d)) /\
  (forall v r, sane y -> wt (val_codec y k) v -> read y k (<[raw_key y k := enc (val_codec y k) v ++ r]> d) = Some v).
Proof.
  intros y k d b. unfold read. split.
  - intros H. rewrite lookup_insert, H, lookup_delete. reflexivity.
  - intros v r S W. rewrite lookup_insert, (law_rt _ (lawful_val y k S) v r W). reflexivity.
Qed.
Print Assumptions C80_broken_entries_count_as_absent.

(** A concrete layout: the pallet names of the mock runtimes, and a hash function that always collides *)
Definition layout0 : layout :=
  mkLayout widths0 (mkXcmCodecs (c_le 1) (c_le 1) (c_le 1))
    (fun p => bytes_of_string
       match p with
       | PalTeerex => "Teerex" | PalBridge => "EnclaveBridge" | PalSidechain => "Sidechain" | PalTeeracle => "Teeracle"
       | PalTeerdays => "TeerDays" | PalClaims => "Claims" | PalAssets => "AssetRegistry" end%string)
    (fun _ => zeros 16) 4096.
Lemma layout0_sane : sane layout0.
Proof.
  split.
  - split; [|split]; apply lawful_le.
  - intros p q E. destruct p; destruct q; first [reflexivity | exfalso; vm_compute in E; discriminate E].
  - intros b. reflexivity.
  - intros b. cbn. unfold wf_bytes. apply Forall_replicate. lia.
Qed.
(** Known hashes of Substrate chains: twox128("System") and twox128("Account") *)
Example C80_example_twox :
  twox128 (bytes_of_string "System"%string) =
    [0x26; 0xaa; 0x39; 0x4e; 0xea; 0x56; 0x30; 0xe0; 0x7c; 0x48; 0xae; 0x0c; 0x95; 0x58; 0xce; 0xf7] /\
  twox128 (bytes_of_string "Account"%string) =
    [0xb9; 0x9d; 0x88; 0x0e; 0xc6; 0x81; 0x79; 0x9c; 0x0c; 0xf3; 0x0e; 0x88; 0x86; 0x37; 0x1d; 0xa9].
Proof. vm_compute. auto. Qed.
(** Write a bond and a pending unlock of the same account, read them, and an absent one. *)
Definition store_demo : kv :=
  write layout0 (KBonds (replicate 32 7)) (Some (mkBond 1000 5 9))
    (write layout0 (KPending (replicate 32 7)) (Some (77, 12)) ∅).
Example C80_example :
  read layout0 (KBonds (replicate 32 7)) store_demo = Some (mkBond 1000 5 9) /\
  read layout0 (KPending (replicate 32 7)) store_demo = Some (77, 12) /\
  read layout0 (KPending (replicate 32 8)) store_demo = None /\
  read layout0 (KExec (replicate 32 7)) store_demo = Some 0 /\
  length (raw_key layout0 (KBonds (replicate 32 7))) = 80%nat /\
  read layout0 (KBonds (replicate 32 7)) (clear layout0 IPending store_demo) = Some (mkBond 1000 5 9) /\
  read layout0 (KPending (replicate 32 7)) (clear layout0 IPending store_demo) = None.
Proof. vm_compute. repeat split; reflexivity. Qed.
