(** * C101: what stands in storage is what the last accepted call put there
    C76 traces registered enclaves and collateral back to the calls that filed them. Here the same is
    done for the rest of the storage, in both directions: an entry is in storage exactly if the last
    accepted call of the history that concerns it put it there, and that call was made by whom it
    must be made by. Unshielding counters count accepted calls, claims are granted by genesis or root. *)
From Coq Require Import String.
From Verif Require Import Base State Env TeerdaysModel TeerexBase SgxVerifyModel TeerexModel
  EnclaveBridgeModel SidechainModel TeeracleModel ClaimsModel AssetRegistryModel XcmTransactorModel
  Runtime Frame EnvFacts TeerdaysProofs BridgeProofs Examples BridgeProps ClaimsProps AttestationProps AcceptProps EffectProps ProvenanceProps OutsiderProps.

(** [k] is the last accepted call of [l] that satisfies [P] in the state in which it was made *)
Definition final (c : cfg) (g : genesis) (l : list op) (P : rt -> origin -> call -> Prop) (l1 : list op) (o : origin) (k : call) : Prop :=
  accepted_at c g l l1 o k /\ P (after c g l1) o k /\
  forall l1' o' k', accepted_at c g l l1' o' k' -> P (after c g l1') o' k' -> (length l1' <= length l1)%nat.

Lemma accepted_same c g l l1 l1' o k o' k' : accepted_at c g l l1 o k -> accepted_at c g l l1' o' k' -> length l1 = length l1' ->
  l1 = l1' /\ o = o' /\ k = k'.
Proof.
  intros [(l2 & ->) _] [(l2' & E) _] Hlen. apply app_inj_1 in E as [-> E]; [|exact Hlen]. injection E as -> -> _. auto.
Qed.
Lemma final_unique c g l P l1 l1' o k o' k' : final c g l P l1 o k -> final c g l P l1' o' k' -> l1 = l1' /\ o = o' /\ k = k'.
Proof.
  intros (H1 & H2 & H3) (H1' & H2' & H3'). apply (accepted_same c g l); [auto|auto|].
  pose proof (H3 _ _ _ H1' H2'). pose proof (H3' _ _ _ H1 H2). lia.
Qed.
(** The entry [f] is written by the accepted calls satisfying [P], with [val], and by nothing else *)
Definition written_by {A} (c : cfg) (g : genesis) (f : rt -> A) (P : rt -> origin -> call -> Prop) (val : rt -> origin -> call -> A) : Prop :=
  forall l x, let s := after c g l in
  (exists o k, x = OCall o k /\ (dispatch c o k s).1 = Success /\ P s o k /\ f (step c s x) = val s o k) \/
  (f (step c s x) = f s /\ forall o k, x = OCall o k -> (dispatch c o k s).1 = Success -> ~ P s o k).
Lemma last_writer {A} c g (f : rt -> A) P val : written_by c g f P val -> forall l,
  (exists l1 o k, final c g l P l1 o k /\ f (after c g l) = val (after c g l1) o k) \/
  (f (after c g l) = f (genesis_state g) /\ forall l1 o k, accepted_at c g l l1 o k -> ~ P (after c g l1) o k).
Proof.
  intros H l. induction l as [|x l IH] using rev_ind.
  { right. split; [reflexivity|]. intros l1 o k Ha. destruct (accepted_nil _ _ _ _ _ Ha). }
  rewrite run_snoc. destruct (H l x) as [(o & k & -> & Hs & HP & E)|[E Hn]].
  - left. exists l, o, k. split; [|exact E]. split; [apply accepted_snoc; auto|]. split; [auto|].
    intros l1' o' k' Ha _. apply accepted_snoc in Ha as [Ha|(-> & _ & _)]; [apply accepted_length in Ha; lia|lia].
  - destruct IH as [(l1 & o & k & (H1 & H2 & H3) & E')|[E' Hno]].
    + left. exists l1, o, k. split; [|congruence]. split; [apply accepted_snoc; auto|]. split; [auto|].
      intros l1' o' k' Ha HP. apply accepted_snoc in Ha as [Ha|(-> & -> & Hs)]; [eauto|]. destruct (Hn _ _ eq_refl Hs HP).
    + right. split; [congruence|]. intros l1 o k Ha HP. apply accepted_snoc in Ha as [Ha|(-> & -> & Hs)]; [eapply Hno; eauto|].
      destruct (Hn _ _ eq_refl Hs HP).
Qed.
(** In particular the entry is [v] exactly if ... *)
Lemma last_writer_iff {A} c g (f : rt -> option A) P val l v : written_by c g f P val -> f (genesis_state g) = None ->
  f (after c g l) = Some v <-> exists l1 o k, final c g l P l1 o k /\ val (after c g l1) o k = Some v.
Proof.
  intros H H0. split.
  - intros E. destruct (last_writer c g f P val H l) as [(l1 & o & k & H1 & E')|[E' _]]; [|congruence]. exists l1, o, k. split; [auto|congruence].
  - intros (l1 & o & k & H1 & Ev). destruct (last_writer c g f P val H l) as [(l1' & o' & k' & H1' & E')|[_ Hn]].
    + destruct (final_unique _ _ _ _ _ _ _ _ _ _ H1 H1') as (-> & -> & ->). congruence.
    + destruct H1 as (Ha & HP & _). destruct (Hn _ _ _ Ha HP).
Qed.
(** A step is an accepted call or leaves the part alone *)
Lemma accepted_or_same c s x p : (match x with OCall _ _ => True | _ => op_may_write x p = false end) ->
  (exists o k, x = OCall o k /\ (dispatch c o k s).1 = Success /\ dispatch c o k s = (Success, step c s x) /\ may_write k p = true) \/
  (same p s (step c s x) /\ forall o k, x = OCall o k -> (dispatch c o k s).1 = Success -> may_write k p = false).
Proof.
  intros Hp. destruct x as [o k| | | | | | | | | |]; [|right; split; [apply step_same, Hp|discriminate]..].
  destruct (may_write k p) eqn:Hk.
  2: { right. split; [apply step_same, Hk|]. intros ? ? [= -> ->] _. exact Hk. }
  destruct (dispatch c o k s).1 eqn:E.
  - left. exists o, k. split; [auto|]. split; [auto|]. split; [apply dispatch_step, E|auto].
  - right. cbn [step]. destruct (run_call_cases (exec c o k) s) as [(s' & _ & E')|[_ E']].
    + unfold dispatch in E. rewrite E' in E. discriminate.
    + unfold dispatch. rewrite E'. split; [apply same_refl|]. intros ? ? [= -> ->]. unfold dispatch in E. congruence.
  - right. cbn [step]. destruct (run_call_cases (exec c o k) s) as [(s' & _ & E')|[_ E']].
    + unfold dispatch in E. rewrite E' in E. discriminate.
    + unfold dispatch. rewrite E'. split; [apply same_refl|]. intros ? ? [= -> ->]. unfold dispatch in E. congruence.
Qed.

(** ** Oracle *)
Definition rate_call (pr src : bytes) (_ : rt) (_ : origin) (k : call) : Prop := exists v, k = CTo (ToUpdateRate src pr v).
Definition blob_call (name src : bytes) (_ : rt) (_ : origin) (k : call) : Prop := exists b, k = CTo (ToUpdateOracle name src b).
Definition list_call (src fp : bytes) (_ : rt) (_ : origin) (k : call) : Prop := k = CTo (ToAdd src fp) \/ k = CTo (ToRemove src fp).
(** The account is a registered enclave on the whitelist of the source *)
Definition may_feed (s : rt) (a : acct) (src : bytes) : Prop :=
  exists e, tx_sov (rt_tx s) !! a = Some e /\ In (en_mr_enclave e) (default [] (to_wl (rt_to s) !! src)).

Definition rate_val (k : call) : option N := match k with CTo (ToUpdateRate _ _ (Some (N.pos r))) => Some (N.pos r) | _ => None end.
Lemma rates_written c g pr src : written_by c g (fun s => to_rates (rt_to s) !! (pr, src)) (rate_call pr src) (fun _ _ k => rate_val k).
Proof.
  intros l x s. destruct (accepted_or_same c s x PTo) as [(o & k & -> & Hs & Hd & Hw)|[Hsame Hn]].
  { destruct x; exact I || reflexivity. }
  - destruct k; try discriminate Hw. apply C69_oracle_calls_do_exactly_this in Hd as [Hd _]. set (s' := step _ _ _) in *.
    destruct x as [sr fp|sr fp|nm sr b|sr tp v]; cbn [to_does] in Hd.
    1-3: right; destruct Hd as (_ & H1 & H2 & _); first [rewrite H1|rewrite H1]; (split; [reflexivity|]); intros ? ? [= <- <-] _ (v & E); discriminate.
    destruct (decide ((tp, sr) = (pr, src))) as [[= -> ->]|Hne].
    + left. exists o, (CTo (ToUpdateRate src pr v)). split; [auto|]. split; [auto|]. split; [exists v; reflexivity|].
      destruct Hd as (_ & _ & Hd). destruct v as [[|r]|]; destruct Hd as [[E _]%entry_split _]; rewrite E; reflexivity.
    + right. split; [|intros ? ? [= <- <-] _ (v' & [= -> -> _]); contradiction].
      destruct Hd as (_ & _ & Hd). destruct v as [[|r]|]; destruct Hd as [[_ E]%entry_split _]; apply E; congruence.
  - right. cbn [same] in Hsame. rewrite Hsame. split; [reflexivity|]. intros o k Ex Hs (v & ->). specialize (Hn _ _ Ex Hs). discriminate.
Qed.
Theorem C101_rates_are_the_last_fed : forall c g l pr src r,
  to_rates (rt_to (after c g l)) !! (pr, src) = Some r <->
  exists l1 a, final c g l (rate_call pr src) l1 (Signed a) (CTo (ToUpdateRate src pr (Some r))) /\ r <> 0 /\ may_feed (after c g l1) a src.
Proof.
  intros c g l pr src r.
  rewrite (last_writer_iff c g _ _ _ l r (rates_written c g pr src)) by (cbn; apply lookup_empty). split.
  - intros (l1 & o & k & Hf & Hv). pose proof Hf as (Ha & (v & ->) & _). cbn [rate_val] in Hv. destruct v as [[|p]|]; try discriminate. injection Hv as <-.
    pose proof (proj2 Ha) as Hs. apply C68_teeracle_calls_accepted_exactly in Hs as (a & e & -> & He & Hl & _).
    exists l1, a. split; [auto|]. split; [discriminate|]. exists e. auto.
  - intros (l1 & a & Hf & Hr & _). exists l1, (Signed a), (CTo (ToUpdateRate src pr (Some r))). split; [auto|]. destruct r; [contradiction|reflexivity].
Qed.
Print Assumptions C101_rates_are_the_last_fed.

Definition blob_val (k : call) : option bytes := match k with CTo (ToUpdateOracle _ _ b) => Some b | _ => None end.
Lemma blobs_written c g name src : written_by c g (fun s => to_data (rt_to s) !! (name, src)) (blob_call name src) (fun _ _ k => blob_val k).
Proof.
  intros l x s. destruct (accepted_or_same c s x PTo) as [(o & k & -> & Hs & Hd & Hw)|[Hsame Hn]].
  { destruct x; exact I || reflexivity. }
  - destruct k; try discriminate Hw. apply C69_oracle_calls_do_exactly_this in Hd as [Hd _]. set (s' := step _ _ _) in *.
    destruct x as [sr fp|sr fp|nm sr b|sr tp v]; cbn [to_does] in Hd.
    + right. destruct Hd as (_ & _ & H2 & _). rewrite H2. split; [reflexivity|]. intros ? ? [= <- <-] _ (b & E); discriminate.
    + right. destruct Hd as (_ & _ & H2 & _). rewrite H2. split; [reflexivity|]. intros ? ? [= <- <-] _ (b & E); discriminate.
    + destruct Hd as ([E1 E2]%entry_split & _). destruct (decide ((nm, sr) = (name, src))) as [[= -> ->]|Hne].
      * left. exists o, (CTo (ToUpdateOracle name src b)). split; [auto|]. split; [auto|]. split; [exists b; reflexivity|]. exact E1.
      * right. split; [apply E2; congruence|]. intros ? ? [= <- <-] _ (b' & [= -> -> _]). contradiction.
    + right. destruct Hd as (H2 & _). rewrite H2. split; [reflexivity|]. intros ? ? [= <- <-] _ (b & E); discriminate.
  - right. cbn [same] in Hsame. rewrite Hsame. split; [reflexivity|]. intros o k Ex Hs (v & ->). specialize (Hn _ _ Ex Hs). discriminate.
Qed.
Theorem C101_oracle_data_is_the_last_fed : forall c g l name src b,
  to_data (rt_to (after c g l)) !! (name, src) = Some b <->
  exists l1 a, final c g l (blob_call name src) l1 (Signed a) (CTo (ToUpdateOracle name src b)) /\ may_feed (after c g l1) a src.
Proof.
  intros c g l name src b.
  rewrite (last_writer_iff c g _ _ _ l b (blobs_written c g name src)) by (cbn; apply lookup_empty). split.
  - intros (l1 & o & k & Hf & Hv). pose proof Hf as (Ha & (v & ->) & _). injection Hv as <-.
    pose proof (proj2 Ha) as Hs. apply C68_teeracle_calls_accepted_exactly in Hs as (a & e & -> & He & Hl & _).
    exists l1, a. split; [auto|]. exists e. auto.
  - intros (l1 & a & Hf & _). eauto 6.
Qed.
Print Assumptions C101_oracle_data_is_the_last_fed.

Definition on_list (src fp : bytes) (s : rt) : option unit :=
  if in_dec (decide_rel (=)) fp (default [] (to_wl (rt_to s) !! src)) then Some tt else None.
Lemma on_list_iff src fp s : on_list src fp s = Some tt <-> In fp (default [] (to_wl (rt_to s) !! src)).
Proof. unfold on_list. destruct (in_dec _ _ _); split; intros; auto; try discriminate; contradiction. Qed.
Lemma on_list_congr src fp s s' : (In fp (default [] (to_wl (rt_to s') !! src)) <-> In fp (default [] (to_wl (rt_to s) !! src))) ->
  on_list src fp s' = on_list src fp s.
Proof. intros H. unfold on_list. destruct (in_dec _ _ _), (in_dec _ _ _); tauto. Qed.
Lemma lists_written c g src fp : written_by c g (on_list src fp) (list_call src fp)
  (fun _ _ k => match k with CTo (ToAdd _ _) => Some tt | _ => None end).
Proof.
  intros l x s. destruct (accepted_or_same c s x PTo) as [(o & k & -> & Hs & Hd & Hw)|[Hsame Hn]].
  { destruct x; exact I || reflexivity. }
  - destruct k; try discriminate Hw. apply C69_oracle_calls_do_exactly_this in Hd as [Hd _]. set (s' := step _ _ _) in *.
    destruct x as [sr f|sr f|nm sr b|sr tp v]; cbn [to_does] in Hd.
    + destruct Hd as ([E1 E2]%entry_split & _). destruct (decide (sr = src)) as [->|Hne].
      2: { right. split; [apply on_list_congr; rewrite E2 by auto; reflexivity|]. intros ? ? [= <- <-] _ [[= -> _]|?]; [contradiction|discriminate]. }
      destruct (decide (f = fp)) as [->|Hnf].
      * left. exists o, (CTo (ToAdd src fp)). split; [auto|]. split; [auto|]. split; [left; reflexivity|].
        apply on_list_iff. rewrite E1. apply in_or_app. right. left. reflexivity.
      * right. split; [|intros ? ? [= <- <-] _ [[= ->]|?]; [contradiction|discriminate]].
        apply on_list_congr. rewrite E1. cbn [from_option id]. rewrite in_app_iff. cbn [In]. split; [intros [H|[H|[]]]; [auto|contradiction]|auto].
    + destruct Hd as ([E1 E2]%entry_split & _). destruct (decide (sr = src)) as [->|Hne].
      2: { right. split; [apply on_list_congr; rewrite E2 by auto; reflexivity|]. intros ? ? [= <- <-] _ [?|[= -> _]]; [discriminate|contradiction]. }
      destruct (decide (f = fp)) as [->|Hnf].
      * left. exists o, (CTo (ToRemove src fp)). split; [auto|]. split; [auto|]. split; [right; reflexivity|].
        unfold on_list. destruct (in_dec _ _ _) as [H|H]; [|reflexivity]. rewrite E1 in H. cbn [from_option id] in H.
        apply filter_In in H as [_ H]. rewrite bool_decide_eq_true_2 in H by reflexivity. discriminate.
      * right. split; [|intros ? ? [= <- <-] _ [?|[= ->]]; [discriminate|contradiction]].
        apply on_list_congr. rewrite E1. cbn [from_option id]. rewrite filter_In. rewrite bool_decide_eq_false_2 by congruence. tauto.
    + right. destruct Hd as (_ & _ & H2 & _). split; [apply on_list_congr; rewrite H2; reflexivity|]. intros ? ? [= <- <-] _ [?|?]; discriminate.
    + right. destruct Hd as (_ & H2 & _). split; [apply on_list_congr; rewrite H2; reflexivity|]. intros ? ? [= <- <-] _ [?|?]; discriminate.
  - right. cbn [same] in Hsame. split; [unfold on_list; rewrite Hsame; reflexivity|]. intros o k Ex Hs HP. specialize (Hn _ _ Ex Hs).
    destruct HP as [-> | ->]; discriminate.
Qed.
Theorem C101_whitelists_are_what_root_said_last : forall c g l src fp,
  In fp (default [] (to_wl (rt_to (after c g l)) !! src)) <->
  exists l1, final c g l (list_call src fp) l1 Root (CTo (ToAdd src fp)).
Proof.
  intros c g l src fp. rewrite <- on_list_iff.
  rewrite (last_writer_iff c g _ _ _ l tt (lists_written c g src fp)) by (unfold on_list; cbn; rewrite lookup_empty; reflexivity). split.
  - intros (l1 & o & k & Hf & Hv). pose proof Hf as (Ha & HP & _). destruct HP as [-> | ->]; [|discriminate].
    pose proof (proj2 Ha) as Hs. apply C68_teeracle_calls_accepted_exactly in Hs as (-> & _). eauto.
  - intros (l1 & Hf). eauto 6.
Qed.
Print Assumptions C101_whitelists_are_what_root_said_last.

(** ** Assets *)
Definition asset_call (i : N) (_ : rt) (_ : origin) (k : call) : Prop := (exists loc, k = CAr (ArRegister i loc)) \/ k = CAr (ArUnregister i).
Definition asset_val (k : call) : option location := match k with CAr (ArRegister _ loc) => Some loc | _ => None end.
Lemma assets_written c g i : written_by c g (fun s => ar_loc (rt_ar s) !! i) (asset_call i) (fun _ _ k => asset_val k).
Proof.
  intros l x s. destruct (accepted_or_same c s x PReg) as [(o & k & -> & Hs & Hd & Hw)|[Hsame Hn]].
  { destruct x; exact I || reflexivity. }
  - destruct k as [| | | | | |k|]; try discriminate Hw. destruct k as [j loc|j].
    + apply (proj1 (C69_asset_registry_calls_do_exactly_this c o s _)) in Hd as ([E1 E2]%entry_split & _).
      destruct (decide (j = i)) as [->|Hne].
      * left. exists o, (CAr (ArRegister i loc)). split; [auto|]. split; [auto|]. split; [left; eauto|exact E1].
      * right. split; [apply E2; auto|]. intros ? ? [= <- <-] _ [(? & [= -> _])|?]; [contradiction|discriminate].
    + apply (proj1 (proj2 (C69_asset_registry_calls_do_exactly_this c o s _))) in Hd as (loc & _ & [E1 E2]%entry_split & _).
      destruct (decide (j = i)) as [->|Hne].
      * left. exists o, (CAr (ArUnregister i)). split; [auto|]. split; [auto|]. split; [right; reflexivity|exact E1].
      * right. split; [apply E2; auto|]. intros ? ? [= <- <-] _ [(? & ?)|[= ->]]; [discriminate|contradiction].
  - right. cbn [same] in Hsame. unfold v_reg in Hsame. injection Hsame as E _. rewrite E. split; [reflexivity|]. intros o k Ex Hs HP. specialize (Hn _ _ Ex Hs).
    destruct HP as [(? & ->)| ->]; discriminate.
Qed.
Theorem C101_assets_are_as_registered_last : forall c g l i loc,
  ar_loc (rt_ar (after c g l)) !! i = Some loc <->
  exists l1 o, final c g l (asset_call i) l1 o (CAr (ArRegister i loc)) /\ c_asset_origin c o = true.
Proof.
  intros c g l i loc.
  rewrite (last_writer_iff c g _ _ _ l loc (assets_written c g i)) by (cbn; apply lookup_empty). split.
  - intros (l1 & o & k & Hf & Hv). pose proof Hf as (Ha & HP & _). destruct HP as [(loc' & ->)| ->]; [|discriminate]. injection Hv as ->.
    exists l1, o. split; [auto|]. pose proof (proj2 Ha) as Hs. apply success_exec in Hs. cbn [exec ar_exec] in Hs.
    apply XcmProps.register_ok in Hs. tauto.
  - intros (l1 & o & Hf & _). eauto 6.
Qed.
Print Assumptions C101_assets_are_as_registered_last.

(** ** Sidechain blocks *)
Definition lead_call (sh : bytes) (s : rt) (o : origin) (k : call) : Prop :=
  exists a anc b, o = Signed a /\ k = CSc (ScConfirm sh anc b) /\ leads s sh a.
Definition block_val (k : call) : option sconf := match k with CSc (ScConfirm _ _ b) => Some b | _ => None end.
Lemma leads_dec s sh a : leads s sh a \/ ~ leads s sh a.
Proof. unfold leads. destruct (default [] _) as [|x r]; [left; exact I|]. destruct (decide (ss_signer x = a)); auto. Qed.
Lemma blocks_written c g sh : written_by c g (fun s => rt_sc s !! sh) (lead_call sh) (fun _ _ k => block_val k).
Proof.
  intros l x s. destruct (accepted_or_same c s x PSc) as [(o & k & -> & Hs & Hd & Hw)|[Hsame Hn]].
  { destruct x; exact I || reflexivity. }
  - destruct k as [| |k| | | | |]; try discriminate Hw. destruct k as [sh' anc b].
    pose proof (C69_sidechain_confirmation_does_exactly_this _ _ _ _ _ _ _ Hd) as (a & e & -> & _ & _ & _ & _ & H1 & H2 & _).
    destruct (leads_dec s sh' a) as [Hl|Hl].
    + destruct (H1 Hl) as [[E1 E2]%entry_split _]. destruct (decide (sh' = sh)) as [->|Hne].
      * left. exists (Signed a), (CSc (ScConfirm sh anc b)). split; [auto|]. split; [auto|]. split; [exists a, anc, b; auto|exact E1].
      * right. split; [apply E2; auto|]. intros ? ? [= <- <-] _ (a' & anc' & b' & _ & [= -> _ _] & _). contradiction.
    + destruct (H2 Hl) as [E _]. right. rewrite E. split; [reflexivity|].
      intros ? ? [= <- <-] _ (a' & anc' & b' & [= <-] & [= -> _ _] & Hl'). contradiction.
  - right. cbn [same] in Hsame. rewrite Hsame. split; [reflexivity|]. intros o k Ex Hs (a & anc & b & _ & -> & _). specialize (Hn _ _ Ex Hs). discriminate.
Qed.
Theorem C101_sidechain_head_is_the_last_the_leader_confirmed : forall c g l sh b,
  rt_sc (after c g l) !! sh = Some b <->
  exists l1 a anc, final c g l (lead_call sh) l1 (Signed a) (CSc (ScConfirm sh anc b)).
Proof.
  intros c g l sh b. rewrite (last_writer_iff c g _ _ _ l b (blocks_written c g sh)) by (cbn; apply lookup_empty). split.
  - intros (l1 & o & k & Hf & Hv). pose proof Hf as (_ & (a & anc & b' & -> & -> & _) & _). injection Hv as ->. eauto.
  - intros (l1 & a & anc & Hf). eauto 6.
Qed.
Print Assumptions C101_sidechain_head_is_the_last_the_leader_confirmed.

(** ** Who is listed as operating a shard *)
(** The call shows [a] at work on the shard *)
Definition works_on (sh : bytes) (a : acct) (s : rt) (o : origin) (k : call) : Prop :=
  o = Signed a /\
  match k with
  | CEb (EbConfirm sh' _ _ _) | CEb (EbUnshield sh' _ _ _) | CEb (EbUpdateConfig sh' _ _) | CSc (ScConfirm sh' _ _) => sh' = sh
  | CEb (EbPublish _ _ _) => en_mr_enclave <$> tx_sov (rt_tx s) !! a = Some sh
  | _ => False
  end.
Definition listing_call (sh : bytes) (a : acct) (s : rt) (o : origin) (k : call) : Prop :=
  works_on sh a s o k \/ k = CEb (EbPurge sh a).
Definition listing_val (a : acct) (s : rt) (k : call) : option sstat :=
  match k with
  | CEb (EbPurge _ _) => None
  | _ => (fun e => mkSstat a (en_mr_enclave e) (rt_blk s)) <$> tx_sov (rt_tx s) !! a
  end.
Definition listing (l : list sstat) (a : acct) : option sstat := List.find (fun x => bool_decide (ss_signer x = a)) l.
Lemma listing_app l1 l2 a : listing (l1 ++ l2) a = match listing l1 a with Some x => Some x | None => listing l2 a end.
Proof. unfold listing. induction l1 as [|y l1 IH]; cbn; [reflexivity|]. destruct (bool_decide _); auto. Qed.
Lemma listing_none l a : ~ In a (map ss_signer l) -> listing l a = None.
Proof.
  unfold listing. induction l as [|y l IH]; cbn; [reflexivity|]. intros H. rewrite bool_decide_eq_false_2 by tauto. apply IH. tauto.
Qed.
Lemma listing_cons x l a : listing (x :: l) a = if decide (ss_signer x = a) then Some x else listing l a.
Proof. unfold listing. cbn. case_decide; [rewrite bool_decide_eq_true_2 by auto|rewrite bool_decide_eq_false_2 by auto]; reflexivity. Qed.
Lemma listing_refreshed x l l' a : refreshed x l l' -> listing l' a = if decide (ss_signer x = a) then Some x else listing l a.
Proof.
  intros [(l1 & y & l2 & -> & Ey & Hn & ->)|[Hn ->]].
  - rewrite !listing_app, !listing_cons, Ey. case_decide as E; [|reflexivity]. rewrite listing_none by (rewrite <- E; exact Hn). reflexivity.
  - rewrite listing_app, listing_cons. case_decide as E; [rewrite listing_none by (rewrite <- E; exact Hn); reflexivity|].
    destruct (listing l a); reflexivity.
Qed.
Lemma listing_filter l a b : listing (List.filter (fun x => negb (bool_decide (ss_signer x = b))) l) a = if decide (b = a) then None else listing l a.
Proof.
  induction l as [|y l IH]; cbn [List.filter]; [unfold listing; cbn; case_decide; reflexivity|].
  destruct (decide (ss_signer y = b)) as [E|E].
  - rewrite bool_decide_eq_true_2 by exact E. cbn [negb]. rewrite IH, listing_cons. case_decide; [reflexivity|]. rewrite decide_False by congruence. reflexivity.
  - rewrite bool_decide_eq_false_2 by exact E. cbn [negb]. rewrite !listing_cons, IH.
    repeat case_decide; reflexivity || congruence.
Qed.
Lemma listing_in l a x : NoDup (map ss_signer l) -> listing l a = Some x <-> In x l /\ ss_signer x = a.
Proof.
  unfold listing. intros Hd. split.
  - intros H. apply find_some in H as [H1 H2]. apply bool_decide_eq_true in H2. auto.
  - induction l as [|y l IH]; [intros [[] _]|]. cbn [map] in Hd. apply NoDup_cons in Hd as [Hd1 Hd2]. intros [[->|Hi] <-]; cbn [List.find].
    + rewrite bool_decide_eq_true_2 by reflexivity. reflexivity.
    + rewrite bool_decide_eq_false_2; [apply IH; auto|]. intros E. apply Hd1, elem_of_list_In. rewrite E. apply in_map, Hi.
Qed.
Lemma seen_listing s s' sh a e sh' a' : operator_seen s s' sh a e ->
  listing (status_of s' sh') a' = if decide (sh = sh' /\ a = a') then Some (mkSstat a (en_mr_enclave e) (rt_blk s)) else listing (status_of s sh') a'.
Proof.
  intros (l' & Hr & [E1 E2]%entry_split). unfold status_of. destruct (decide (sh = sh')) as [->|Hn].
  - rewrite E1. cbn [from_option id]. rewrite (listing_refreshed _ _ _ _ Hr). cbn [ss_signer]. repeat case_decide; tauto.
  - rewrite E2 by auto. rewrite decide_False by tauto. reflexivity.
Qed.
Lemma listings_written c g sh a : written_by c g (fun s => listing (status_of s sh) a) (listing_call sh a) (fun s _ k => listing_val a s k).
Proof.
  intros l x s. destruct (accepted_or_same c s x PEb) as [(o & k & -> & Hs & Hd & Hw)|[Hsame Hn]].
  { destruct x; exact I || reflexivity. }
  - set (s' := step _ _ _) in *.
    assert (forall sh0 a0 e, tx_sov (rt_tx s) !! a0 = Some e -> o = Signed a0 -> operator_seen s s' sh0 a0 e ->
      (forall a1, works_on sh a1 s (Signed a0) k <-> sh0 = sh /\ a0 = a1) -> k <> CEb (EbPurge sh a) ->
      (match k with CEb (EbPurge _ _) => False | _ => True end) ->
      (exists o0 k0, OCall o k = OCall o0 k0 /\ (dispatch c o0 k0 s).1 = Success /\ listing_call sh a s o0 k0 /\
         listing (status_of s' sh) a = listing_val a s k0) \/
      (listing (status_of s' sh) a = listing (status_of s sh) a /\
       forall o0 k0, OCall o k = OCall o0 k0 -> (dispatch c o0 k0 s).1 = Success -> ~ listing_call sh a s o0 k0)) as Hseen.
    { intros sh0 a0 e He -> Hop Hw' Hnp Hnp'. pose proof (seen_listing _ _ _ _ _ sh a Hop) as E. destruct (decide (sh0 = sh /\ a0 = a)) as [[-> ->]|Hne].
      - left. exists (Signed a), k. split; [auto|]. split; [auto|]. split; [left; apply Hw'; auto|].
        rewrite E. unfold listing_val. rewrite He. destruct k as [|k| | | | | |]; try reflexivity. destruct k; try reflexivity. contradiction.
      - right. split; [exact E|]. intros ? ? [= <- <-] _ [H|H]; [|contradiction]. apply Hw' in H. contradiction. }
    destruct k as [|k|k| | | | |]; try discriminate Hw.
    + pose proof (C69_bridge_calls_do_exactly_this _ _ _ _ _ Hd) as [Hdo _]. destruct k as [shx cy|shx h n r|shx bn v|shx bn v h|h tp dt|shx new dl|sh1 a0]; cbn [eb_does] in Hdo.
      * right. destruct Hdo as (E & _). unfold status_of. rewrite E. split; [reflexivity|].
        intros ? ? [= <- <-] _ [[_ []]|H]; discriminate.
      * destruct Hdo as (a0 & e & -> & He & Hop & _). eapply Hseen; [exact He|reflexivity|exact Hop| |discriminate|exact I]. intros a1. unfold works_on. split; [intros [[= ->] ->]; auto|intros [-> ->]; auto].
      * right. destruct Hdo as (a0 & evs & _ & E & _). unfold status_of. rewrite E. split; [reflexivity|].
        intros ? ? [= <- <-] _ [[_ []]|H]; discriminate.
      * destruct Hdo as (a0 & e & -> & He & Hop & _). eapply Hseen; [exact He|reflexivity|exact Hop| |discriminate|exact I]. intros a1. unfold works_on. split; [intros [[= ->] ->]; auto|intros [-> ->]; auto].
      * destruct Hdo as (a0 & e & -> & He & Hop & _). eapply Hseen; [exact He|reflexivity|exact Hop| |discriminate|exact I].
        intros a1. unfold works_on. split.
        -- intros [[= ->] E]. rewrite He in E. injection E as ->. auto.
        -- intros [<- ->]. rewrite He. auto.
      * destruct Hdo as [Ho _]. destruct o as [|a0|].
        -- right. unfold status_of. rewrite Ho. split; [reflexivity|]. intros ? ? [= <- <-] _ [[? _]|H]; discriminate.
        -- destruct Ho as (e & He & Hop). eapply Hseen; [exact He|reflexivity|exact Hop| |discriminate|exact I]. intros a1. unfold works_on. split; [intros [[= ->] ->]; auto|intros [-> ->]; auto].
        -- right. unfold status_of. rewrite Ho. split; [reflexivity|]. intros ? ? [= <- <-] _ [[? _]|H]; discriminate.
      * destruct Hdo as (lst & El & [E1 E2]%entry_split & _).
        destruct (decide (sh1 = sh)) as [->|Hne].
        -- assert (listing (status_of s' sh) a = if decide (a0 = a) then None else listing (status_of s sh) a) as E.
           { unfold status_of. rewrite E1, El. cbn [from_option id]. apply listing_filter. }
           destruct (decide (a0 = a)) as [->|Hna].
           ++ left. exists o, (CEb (EbPurge sh a)). split; [auto|]. split; [auto|]. split; [right; reflexivity|]. rewrite E. reflexivity.
           ++ right. split; [exact E|]. intros ? ? [= <- <-] _ [[_ []]|[= ->]]. contradiction.
        -- right. split; [unfold status_of; rewrite E2 by auto; reflexivity|]. intros ? ? [= <- <-] _ [[_ []]|[= -> _]]. contradiction.
    + destruct k as [sh' anc b]. pose proof (C69_sidechain_confirmation_does_exactly_this _ _ _ _ _ _ _ Hd) as (a0 & e & -> & He & Hop & _).
      eapply Hseen; [exact He|reflexivity|exact Hop| |discriminate|exact I]. intros a1. unfold works_on. split; [intros [[= ->] ->]; auto|intros [-> ->]; auto].
  - right. cbn [same] in Hsame. unfold status_of. rewrite Hsame. split; [reflexivity|]. intros o k Ex Hs HP. specialize (Hn _ _ Ex Hs).
    destruct HP as [[_ HP]| ->]; [|discriminate]. destruct k; try discriminate; contradiction.
Qed.
Theorem C101_listed_operators_are_who_worked_last : forall c g l sh x,
  In x (status_of (after c g l) sh) <->
  exists l1 k e, let a := ss_signer x in
  final c g l (listing_call sh a) l1 (Signed a) k /\ works_on sh a (after c g l1) (Signed a) k /\
  tx_sov (rt_tx (after c g l1)) !! a = Some e /\ x = mkSstat a (en_mr_enclave e) (rt_blk (after c g l1)).
Proof.
  intros c g l sh x. cbn zeta. set (a := ss_signer x).
  assert (In x (status_of (after c g l) sh) <-> listing (status_of (after c g l) sh) a = Some x) as ->.
  { rewrite listing_in by apply (C15_status_bounded_and_unique c g l sh). tauto. }
  rewrite (last_writer_iff c g (fun s => listing (status_of s sh) a) _ _ l x (listings_written c g sh a)).
  2: { unfold status_of. cbn. rewrite lookup_empty. reflexivity. }
  split.
  - intros (l1 & o & k & Hf & Hv). pose proof Hf as (Ha & HP & _). destruct HP as [HP| ->]; [|discriminate Hv].
    pose proof HP as [-> HP']. exists l1, k.
    assert (listing_val a (after c g l1) k = (fun e => mkSstat a (en_mr_enclave e) (rt_blk (after c g l1))) <$> tx_sov (rt_tx (after c g l1)) !! a) as E.
    { unfold listing_val. destruct k as [|k| | | | | |]; try reflexivity. destruct k; try reflexivity. contradiction. }
    rewrite E in Hv. destruct (tx_sov (rt_tx (after c g l1)) !! a) as [e|]; [|discriminate]. exists e.
    split; [auto|]. split; [auto|]. split; [auto|]. cbn in Hv. congruence.
  - intros (l1 & k & e & Hf & HP & He & Ex). exists l1, (Signed a), k. split; [auto|]. rewrite Ex. unfold listing_val. rewrite He.
    destruct HP as [_ HP]. destruct k as [|k| | | | | |]; try reflexivity. destruct k; try reflexivity. contradiction.
Qed.
Print Assumptions C101_listed_operators_are_who_worked_last.

(** ** Which configuration a shard is under *)
Definition config_call (sh : bytes) (_ : rt) (_ : origin) (k : call) : Prop := exists x d, k = CEb (EbUpdateConfig sh x d).
(** The block at which the update sent after [l1] with the delay [d] comes into force *)
Definition due_at (c : cfg) (g : genesis) (l1 : list op) (d : N) : N := N.min (rt_blk (after c g l1) + d) (c_blk_max c).
(** The update sent after [l1] has come into force by block [b]: it was the shard's first, or its time
    came before the next update was sent *)
Definition came_into_force (c : cfg) (g : genesis) (l : list op) (sh : bytes) (b : N) (l1 : list op) (x : scfg) : Prop :=
  exists o d, accepted_at c g l l1 o (CEb (EbUpdateConfig sh x d)) /\
  ((forall l0 o' x' d', accepted_at c g l l0 o' (CEb (EbUpdateConfig sh x' d')) -> (length l1 <= length l0)%nat) \/
   (due_at c g l1 d <= b /\
    forall l2 o' x' d', accepted_at c g l l2 o' (CEb (EbUpdateConfig sh x' d')) -> (length l1 < length l2)%nat ->
      due_at c g l1 d <= rt_blk (after c g l2))).

Lemma no_update_step c s x sh b : (forall o y d, x = OCall o (CEb (EbUpdateConfig sh y d)) -> (dispatch c o (CEb (EbUpdateConfig sh y d)) s).1 <> Success) ->
  rt_blk s <= b -> in_force (step c s x) sh b = in_force s sh b.
Proof.
  intros Hn Hb.
  assert ((exists o y d, x = OCall o (CEb (EbUpdateConfig sh y d))) \/ ~ updates sh x) as [(o & y & d & ->)|Hu].
  { unfold updates. destruct x as [o k| | | | | | | | | |]; [|right; intros (? & ? & ? & [=])..].
    destruct k as [|k| | | | | |]; try (right; intros (? & ? & ? & [=]); fail).
    destruct k as [| | | | |sh' y d|]; try (right; intros (? & ? & ? & [=]); fail).
    destruct (decide (sh' = sh)) as [->|Hne]; [left; eauto|right; intros (? & ? & ? & [= _ -> _ _]); contradiction]. }
  - cbn [step]. specialize (Hn _ _ _ eq_refl). destruct (run_call_cases (exec c o (CEb (EbUpdateConfig sh y d))) s) as [(s' & _ & E')|[_ E']].
    + unfold dispatch in Hn. rewrite E' in Hn. destruct (Hn eq_refl).
    + unfold dispatch. rewrite E'. reflexivity.
  - apply in_force_step; auto.
Qed.
Lemma update_dec c s x sh :
  (exists o y d, x = OCall o (CEb (EbUpdateConfig sh y d)) /\ (dispatch c o (CEb (EbUpdateConfig sh y d)) s).1 = Success) \/
  (forall o y d, x = OCall o (CEb (EbUpdateConfig sh y d)) -> (dispatch c o (CEb (EbUpdateConfig sh y d)) s).1 <> Success).
Proof.
  destruct (accepted_dec (fun k => match k with CEb (EbUpdateConfig sh' _ _) => bool_decide (sh' = sh) | _ => false end) c s x) as [(o & k & -> & Hk & Hs)|Hn].
  - left. destruct k as [|k| | | | | |]; try discriminate Hk. destruct k; try discriminate Hk. apply bool_decide_eq_true in Hk as ->. eauto 6.
  - right. intros o y d ->. apply (Hn _ _ eq_refl). cbn. apply bool_decide_eq_true_2. reflexivity.
Qed.
Lemma configs_exist c g l sh : is_Some (eb_config (rt_eb (after c g l)) !! sh) <-> exists l1 o x d, accepted_at c g l l1 o (CEb (EbUpdateConfig sh x d)).
Proof.
  assert (forall s b, is_Some (eb_config (rt_eb s) !! sh) <-> is_Some (in_force s sh b)) as Hi.
  { intros s b. unfold in_force. destruct (eb_config (rt_eb s) !! sh) as [u|]; cbn; [split; intros _; eauto|split; intros [? [=]]]. }
  induction l as [|x l IH] using rev_ind.
  { split; [cbn; rewrite lookup_empty; intros [? [=]]|]. intros (l1 & o & x & d & Ha). destruct (accepted_nil _ _ _ _ _ Ha). }
  rewrite run_snoc. destruct (update_dec c (after c g l) x sh) as [(o & y & d & -> & Hs)|Hn].
  - split; [intros _; exists l, o, y, d; apply accepted_snoc; auto|]. intros _.
    pose proof (C69_bridge_calls_do_exactly_this _ _ _ _ _ (dispatch_step _ _ _ _ Hs)) as [(_ & [E _]%entry_split & _) _]. rewrite E. eauto.
  - rewrite (Hi _ (rt_blk (after c g l))), no_update_step, <- Hi, IH by (auto; lia). split.
    + intros (l1 & o & y & d & Ha). exists l1, o, y, d. apply accepted_snoc. auto.
    + intros (l1 & o & y & d & Ha). apply accepted_snoc in Ha as [Ha|(-> & Ex & Hs)]; [eauto|]. destruct (Hn _ _ _ Ex Hs).
Qed.
Lemma force_history c g sh l : forall b x, rt_blk (after c g l) <= b ->
  in_force (after c g l) sh b = Some x <->
  exists l1, came_into_force c g l sh b l1 x /\ forall l1' x', came_into_force c g l sh b l1' x' -> (length l1' <= length l1)%nat.
Proof.
  induction l as [|x l IH] using rev_ind; intros b v Hb.
  { split; [unfold in_force; cbn; rewrite lookup_empty; discriminate|]. intros (l1 & (o & d & Ha & _) & _). destruct (accepted_nil _ _ _ _ _ Ha). }
  rewrite run_snoc in *. pose proof (proj2 (clock_step c (after c g l) x)) as Hclk.
  destruct (update_dec c (after c g l) x sh) as [(o & y & d & -> & Hs)|Hn].
  - pose proof (C69_bridge_calls_do_exactly_this _ _ _ _ _ (dispatch_step _ _ _ _ Hs)) as [(_ & [E _]%entry_split & _) _].
    set (s := after c g l) in *. set (s' := step c s (OCall o (CEb (EbUpdateConfig sh y d)))) in *.
    assert (accepted_at c g (l ++ [OCall o (CEb (EbUpdateConfig sh y d))]) l o (CEb (EbUpdateConfig sh y d))) as Hacc by (apply accepted_snoc; auto).
    set (l' := l ++ [OCall o (CEb (EbUpdateConfig sh y d))]) in *.
    assert (forall l1 x', came_into_force c g l' sh b l1 x' -> (length l1 <= length l)%nat) as Hle.
    { intros l1 x' (o1 & d1 & Ha & _). apply accepted_length in Ha. unfold l' in Ha. rewrite app_length in Ha. cbn in Ha. lia. }
    assert (forall x', came_into_force c g l' sh b l x' -> x' = y) as Hy.
    { intros x' (o1 & d1 & Ha & _). destruct (accepted_same _ _ _ _ _ _ _ _ _ Ha Hacc eq_refl) as (_ & _ & [= -> _]). reflexivity. }
    destruct (eb_config (rt_eb s) !! sh) as [u|] eqn:Eu.
    + assert (exists l0 o0 x0 d0, accepted_at c g l l0 o0 (CEb (EbUpdateConfig sh x0 d0))) as (l0 & o0 & x0 & d0 & Hprev).
      { apply configs_exist. fold s. rewrite Eu. eauto. }
      assert (in_force s' sh b = Some (if due_at c g l d <=? b then y else uc_active (upgraded u (rt_blk s)))) as Ef.
      { unfold in_force. rewrite E. cbn. unfold in_force_of. cbn [uc_pending uc_at uc_active]. fold s. unfold due_at. fold s.
        destruct (_ <=? b); reflexivity. }
      assert (came_into_force c g l' sh b l y <-> due_at c g l d <= b) as Hnew.
      { split.
        - intros (o1 & d1 & Ha & Hc). destruct (accepted_same _ _ _ _ _ _ _ _ _ Ha Hacc eq_refl) as (_ & -> & [= ->]).
          destruct Hc as [Hc|[Hc _]]; [|exact Hc]. apply (accepted_app _ _ _ [OCall o (CEb (EbUpdateConfig sh y d))]) in Hprev as Hp'.
          specialize (Hc _ _ _ _ Hp'). apply accepted_length in Hprev. lia.
        - intros Hd. exists o, d. split; [exact Hacc|]. right. split; [exact Hd|]. intros l2 o' x' d' Ha Hlt. apply accepted_length in Ha.
          unfold l' in Ha. rewrite app_length in Ha. cbn in Ha. lia. }
      assert (forall l1 x1, (length l1 < length l)%nat -> came_into_force c g l' sh b l1 x1 <-> came_into_force c g l sh (rt_blk s) l1 x1) as Hold.
      { intros l1 x1 Hlt. split.
        - intros (o1 & d1 & Ha & Hc). exists o1, d1. split.
          { apply accepted_snoc in Ha as [Ha|(-> & _)]; [auto|lia]. }
          destruct Hc as [Hc|[Hc1 Hc2]].
          + left. intros l3 o' x' d' H3. eapply Hc. apply accepted_app, H3.
          + right. split; [eapply (Hc2 l); [exact Hacc|exact Hlt]|]. intros l2 o' x' d' H2. apply (Hc2 l2 o' x' d'). apply accepted_app, H2.
        - intros (o1 & d1 & Ha & Hc). exists o1, d1. split; [apply accepted_app, Ha|].
          destruct Hc as [Hc|[Hc1 Hc2]].
          + left. intros l3 o' x' d' H3. apply accepted_snoc in H3 as [H3|(-> & _)]; [eauto|lia].
          + right. split; [fold s in Hc1; unfold s' in *; lia|]. intros l2 o' x' d' H2 Hlt2. apply accepted_snoc in H2 as [H2|(-> & _)]; [eauto|exact Hc1]. }
      rewrite Ef. destruct (N.leb_spec (due_at c g l d) b) as [Hd|Hd].
      * split.
        -- intros [= <-]. exists l. split; [apply Hnew, Hd|]. exact Hle.
        -- intros (l1 & Hc & Hmax). apply Hnew in Hd. specialize (Hmax _ _ Hd). pose proof (Hle _ _ Hc).
           assert (l1 = l) as ->. { destruct Hc as (o1 & d1 & Ha & _). apply (accepted_same _ _ _ _ _ _ _ _ _ Ha Hacc). lia. }
           rewrite (Hy _ Hc). reflexivity.
      * assert (forall l1 x1, came_into_force c g l' sh b l1 x1 -> (length l1 < length l)%nat) as Hlt.
        { intros l1 x1 Hc. pose proof (Hle _ _ Hc). destruct (decide (length l1 = length l)) as [El|]; [|lia].
          assert (l1 = l) as ->. { destruct Hc as (o1 & d1 & Ha & _). apply (accepted_same _ _ _ _ _ _ _ _ _ Ha Hacc El). }
          rewrite (Hy _ Hc) in Hc. apply Hnew in Hc. lia. }
        assert (Some (uc_active (upgraded u (rt_blk s))) = in_force s sh (rt_blk s)) as ->.
        { rewrite EffectProps.in_force_upgraded, Eu. reflexivity. }
        rewrite (IH (rt_blk s) v) by (fold s; lia). split.
        -- intros (l1 & Hc & Hmax). assert (length l1 < length l)%nat as Hl1 by (destruct Hc as (? & ? & Ha & _); apply accepted_length in Ha; exact Ha).
           exists l1. split; [apply Hold; auto|]. intros l1' x' Hc'. eapply Hmax. apply Hold; eauto.
        -- intros (l1 & Hc & Hmax). exists l1. split; [apply Hold; eauto|]. intros l1' x' Hc'.
           assert (length l1' < length l)%nat as Hl1 by (destruct Hc' as (? & ? & Ha & _); apply accepted_length in Ha; exact Ha).
           eapply Hmax. apply Hold; eauto.
    + assert (forall l0 o0 x0 d0, ~ accepted_at c g l l0 o0 (CEb (EbUpdateConfig sh x0 d0))) as Hnone.
      { intros l0 o0 x0 d0 Ha. assert (is_Some (eb_config (rt_eb s) !! sh)) as [z Hz] by (apply configs_exist; eauto). congruence. }
      assert (in_force s' sh b = Some y) as -> by (unfold in_force; rewrite E; reflexivity).
      assert (came_into_force c g l' sh b l y) as Hnew.
      { exists o, d. split; [exact Hacc|]. left. intros l0 o' x' d' Ha. apply accepted_snoc in Ha as [Ha|(-> & _)]; [destruct (Hnone _ _ _ _ Ha)|lia]. }
      split.
      * intros [= <-]. exists l. split; [exact Hnew|exact Hle].
      * intros (l1 & Hc & Hmax). specialize (Hmax _ _ Hnew). pose proof (Hle _ _ Hc).
        assert (l1 = l) as ->. { destruct Hc as (o1 & d1 & Ha & _). apply (accepted_same _ _ _ _ _ _ _ _ _ Ha Hacc). lia. }
        rewrite (Hy _ Hc). reflexivity.
  - rewrite no_update_step by (auto; lia). rewrite IH by lia.
    assert (forall l1 o1 x1 d1, accepted_at c g (l ++ [x]) l1 o1 (CEb (EbUpdateConfig sh x1 d1)) <-> accepted_at c g l l1 o1 (CEb (EbUpdateConfig sh x1 d1))) as Ha.
    { intros l1 o1 x1 d1. rewrite accepted_snoc. split; [|auto]. intros [H|(-> & Ex & Hs)]; [auto|]. destruct (Hn _ _ _ Ex Hs). }
    assert (forall l1 x1, came_into_force c g (l ++ [x]) sh b l1 x1 <-> came_into_force c g l sh b l1 x1) as Hc.
    { intros l1 x1. unfold came_into_force. f_equiv; intros o1. f_equiv; intros d1. rewrite Ha. f_equiv. f_equiv.
      - split; intros H l0 o' x' d' H0; eapply H, Ha, H0.
      - f_equiv. split; intros H l2 o' x' d' H0; eapply H, Ha, H0. }
    split; intros (l1 & H1 & H2); exists l1; (split; [apply Hc, H1|]); intros l1' x' H3; eapply H2, Hc, H3.
Qed.
Theorem C101_shard_is_under_the_last_update_that_came_into_force : forall c g l sh x,
  in_force (after c g l) sh (rt_blk (after c g l)) = Some x <->
  exists l1, came_into_force c g l sh (rt_blk (after c g l)) l1 x /\
  forall l1' x', came_into_force c g l sh (rt_blk (after c g l)) l1' x' -> (length l1' <= length l1)%nat.
Proof. intros c g l sh x. apply force_history. lia. Qed.
Print Assumptions C101_shard_is_under_the_last_update_that_came_into_force.

(** ** Claims *)
(** Whose claim an accepted claim call pays out *)
Definition pays_claim_of (c : cfg) (w : bytes) (s : rt) (o : origin) (k : call) : Prop :=
  match k with
  | CCl (ClClaim dest sig) => eth_recover c sig (to_ascii_hex dest) [] = Some w
  | CCl (ClClaimAttest dest sig text) => eth_recover c sig (to_ascii_hex dest) text = Some w
  | CCl (ClAttest _) => exists a, o = Signed a /\ cl_preclaims (rt_cl s) !! a = Some w
  | _ => False
  end.
Definition claim_call (c : cfg) (w : bytes) (s : rt) (o : origin) (k : call) : Prop :=
  pays_claim_of c w s o k \/ (exists v vs st, k = CCl (ClMint w v vs st)) \/
  (exists old new pre, k = CCl (ClMove old new pre) /\ is_Some (cl_claims (rt_cl s) !! old) /\ (old = w \/ new = w)).
Definition claim_val (w : bytes) (s : rt) (k : call) : option N :=
  match k with
  | CCl (ClMint _ v _ _) => Some v
  | CCl (ClMove old new _) => if decide (new = w) then cl_claims (rt_cl s) !! old else None
  | _ => None
  end.
Lemma claims_written c g w : written_by c g (fun s => cl_claims (rt_cl s) !! w) (claim_call c w) (fun s _ k => claim_val w s k).
Proof.
  intros l x s. destruct (accepted_or_same c s x PCl) as [(o & k & -> & Hs & Hd & Hw)|[Hsame Hn]].
  { destruct x; exact I || reflexivity. }
  - destruct k as [| | | | |k| |]; try discriminate Hw. pose proof (C69_claims_calls_do_exactly_this _ _ _ _ _ Hd) as [Hdo _]. set (s' := step _ _ _) in *.
    assert (forall signer dest, paid_out c s s' signer dest -> (forall w', pays_claim_of c w' s o (CCl k) <-> w' = signer) ->
      (match k with ClMint _ _ _ _ | ClMove _ _ _ => False | _ => True end) ->
      (exists o0 k0, OCall o (CCl k) = OCall o0 k0 /\ (dispatch c o0 k0 s).1 = Success /\ claim_call c w s o0 k0 /\
         cl_claims (rt_cl s') !! w = claim_val w s k0) \/
      (cl_claims (rt_cl s') !! w = cl_claims (rt_cl s) !! w /\
       forall o0 k0, OCall o (CCl k) = OCall o0 k0 -> (dispatch c o0 k0 s).1 = Success -> ~ claim_call c w s o0 k0)) as Hpay.
    { intros signer dest (due & _ & _ & [E1 E2]%entry_split & _) Hp Hk. destruct (decide (signer = w)) as [->|Hne].
      - left. exists o, (CCl k). split; [auto|]. split; [auto|]. split; [left; apply Hp; reflexivity|].
        rewrite E1. destruct k; try contradiction; reflexivity.
      - right. split; [apply E2; auto|]. intros ? ? [= <- <-] _ [H|[(v & vs & st & [= ->])|(old & new & pre & [= ->] & _)]]; [|contradiction..].
        apply Hp in H. congruence. }
    destruct k as [dest sig|who v vs st|dest sig text|text|old new pre]; cbn [cl_does] in Hdo.
    + destruct Hdo as (signer & Hr & Hp & _). apply (Hpay _ _ Hp); [|exact I]. intros w'. cbn. rewrite Hr. split; [intros [= ->]; auto|intros ->; auto].
    + destruct Hdo as ([E1 E2]%entry_split & _). destruct (decide (who = w)) as [->|Hne].
      * left. exists o, (CCl (ClMint w v vs st)). split; [auto|]. split; [auto|]. split; [right; left; eauto|]. exact E1.
      * right. split; [apply E2; auto|]. intros ? ? [= <- <-] _ [[]|[(? & ? & ? & [= ->])|(? & ? & ? & [=] & _)]]. contradiction.
    + destruct Hdo as (signer & Hr & Hp & _). apply (Hpay _ _ Hp); [|exact I]. intros w'. cbn. rewrite Hr. split; [intros [= ->]; auto|intros ->; auto].
    + destruct Hdo as (a & signer & -> & Hr & Hp & _). apply (Hpay _ _ Hp); [|exact I]. intros w'. cbn. split.
      * intros (a' & [= <-] & H). congruence.
      * intros ->. eauto.
    + destruct Hdo as (Hm & _). unfold entry_moved in Hm. destruct (cl_claims (rt_cl s) !! old) as [v|] eqn:Eo.
      * destruct Hm as (Hm1 & Hm2 & Hm3). destruct (decide (new = w)) as [->|Hnn]; [|destruct (decide (old = w)) as [->|Hno]].
        -- left. exists o, (CCl (ClMove old w pre)). split; [auto|]. split; [auto|]. split; [right; right; exists old, w, pre; rewrite Eo; eauto|].
           cbn [claim_val]. rewrite decide_True by auto. congruence.
        -- left. exists o, (CCl (ClMove w new pre)). split; [auto|]. split; [auto|]. split; [right; right; exists w, new, pre; rewrite Eo; eauto|].
           cbn [claim_val]. rewrite decide_False by auto. apply Hm2. auto.
        -- right. split; [apply Hm3; auto|]. intros ? ? [= <- <-] _ [[]|[(? & ? & ? & [=])|(? & ? & ? & [= <- <- <-] & _ & [H|H])]]; contradiction.
      * right. rewrite Hm. split; [reflexivity|]. intros ? ? [= <- <-] _ [[]|[(? & ? & ? & [=])|(? & ? & ? & [= <- <- <-] & [z Hz] & _)]]. congruence.
  - right. cbn [same] in Hsame. rewrite Hsame. split; [reflexivity|]. intros o k Ex Hs HP. specialize (Hn _ _ Ex Hs).
    destruct k; try discriminate; destruct HP as [[]|[(? & ? & ? & [=])|(? & ? & ? & [=] & _)]].
Qed.
Theorem C101_claims_are_as_granted_or_moved_last : forall c g l w v,
  cl_claims (rt_cl (after c g l)) !! w = Some v <->
  (cl_claims (rt_cl (genesis_state g)) !! w = Some v /\ forall l1 o k, accepted_at c g l l1 o k -> ~ claim_call c w (after c g l1) o k) \/
  (exists l1 vs st, final c g l (claim_call c w) l1 Root (CCl (ClMint w v vs st))) \/
  (exists l1 o old pre, final c g l (claim_call c w) l1 o (CCl (ClMove old w pre)) /\
     (o = Root \/ c_move_origin c o = true) /\ cl_claims (rt_cl (after c g l1)) !! old = Some v).
Proof.
  intros c g l w v. pose proof (last_writer c g _ _ _ (claims_written c g w) l) as HW. cbv beta in HW. split.
  - intros E. destruct HW as [(l1 & o & k & Hf & Ev)|[Ev Hn]]; [|left; split; [congruence|exact Hn]]. right.
    rewrite E in Ev. pose proof Hf as ((_ & Hs) & _ & _). destruct k as [| | | | |k| |]; try discriminate Ev.
    destruct k as [dest sig|who u vs st|dest sig text|text|old new pre]; try discriminate Ev; cbn [claim_val] in Ev.
    + left. injection Ev as ->. assert (who = w) as ->.
      { destruct Hf as (_ & [[]|[(? & ? & ? & [= ->])|(? & ? & ? & [=] & _)]] & _). reflexivity. }
      apply C68_claims_calls_accepted_exactly in Hs as [-> _]. eauto.
    + right. case_decide as En; [subst new|discriminate]. apply C68_claims_calls_accepted_exactly in Hs. exists l1, o, old, pre. auto.
  - intros H. destruct HW as [(l1 & o & k & Hf & ->)|[-> Hn]].
    + destruct H as [[_ Hn]|[(l1' & vs & st & Hf')|(l1' & o' & old & pre & Hf' & _ & E)]].
      * destruct Hf as (Ha & HP & _). destruct (Hn _ _ _ Ha HP).
      * destruct (final_unique _ _ _ _ _ _ _ _ _ _ Hf Hf') as (-> & -> & ->). reflexivity.
      * destruct (final_unique _ _ _ _ _ _ _ _ _ _ Hf Hf') as (-> & -> & ->). cbn [claim_val]. rewrite decide_True by auto. exact E.
    + destruct H as [[E _]|[(l1' & vs & st & (Ha & HP & _))|(l1' & o' & old & pre & (Ha & HP & _) & _)]]; [exact E|destruct (Hn _ _ _ Ha HP)..].
Qed.
Print Assumptions C101_claims_are_as_granted_or_moved_last.

(** ** A history with an entry of every kind *)
Example C101_example :
  let sh := acc 9 in
  let conf m := mkScfg m None None false in
  let up m d := OCall Root (CEb (EbUpdateConfig sh (conf m) d)) in
  let l :=
    [register bob (acc 9); OCall Root (CTo (ToAdd [1] (acc 9))); OCall (Signed bob) (CTo (ToUpdateRate [1] [2] (Some 77)));
     OCall (Signed bob) (CTo (ToUpdateRate [1] [2] (Some 78))); OCall (Signed carol) (CTo (ToUpdateRate [1] [2] (Some 79)));
     OCall (Signed bob) (CTo (ToUpdateOracle [3] [1] [4; 5])); OCall Root (CTo (ToRemove [1] (acc 9)));
     OCall (Signed bob) (CTo (ToUpdateRate [1] [2] (Some 80)));
     call_sc bob (ScConfirm sh None (mkSconf 4 [5])); ONextBlock 1; call_eb bob (EbConfirm sh [] 0 []);
     up (acc 9) 7; up (acc 8) 5; ONextBlock 1; up (acc 7) 1; ONextBlock 1; up (acc 6) 1] in
  let s := after cfg0 (gen0 [bob]) l in
  rt_blk s = 3 /\
  to_rates (rt_to s) !! ([2], [1]) = Some 78 /\ to_data (rt_to s) !! ([3], [1]) = Some [4; 5] /\
  default [] (to_wl (rt_to s) !! [1]) = [] /\ rt_sc s !! sh = Some (mkSconf 4 [5]) /\ status_of s sh = [mkSstat bob (acc 9) 1] /\
  (** the first applies at once, the second (due at 6) is overtaken, the third came due at 3, the fourth waits *)
  in_force s sh 3 = Some (conf (acc 7)) /\ in_force s sh 4 = Some (conf (acc 6)) /\
  came_into_force cfg0 (gen0 [bob]) l sh 3 (firstn 14 l) (conf (acc 7)) /\
  ~ came_into_force cfg0 (gen0 [bob]) l sh 3 (firstn 12 l) (conf (acc 8)) /\
  final cfg0 (gen0 [bob]) l (rate_call [2] [1]) (firstn 3 l) (Signed bob) (CTo (ToUpdateRate [1] [2] (Some 78))).
Proof.
  cbn zeta. set (sh := acc 9). set (l := @cons op _ _).
  assert (forall l1 o k, accepted_at cfg0 (gen0 [bob]) l l1 o k -> exists n, (n < length l)%nat /\ l1 = firstn n l /\ nth_error l n = Some (OCall o k) /\
     (dispatch cfg0 o k (after cfg0 (gen0 [bob]) (firstn n l))).1 = Success) as Hpos.
  { intros l1 o k [(l2 & E) Hs]. exists (length l1). rewrite E, app_length. cbn [length]. split; [lia|].
    rewrite firstn_app, Nat.sub_diag, firstn_all2, firstn_O, app_nil_r by lia. split; [reflexivity|]. split; [|exact Hs].
    rewrite nth_error_app2, Nat.sub_diag by lia. reflexivity. }
  split; [vm_compute; reflexivity|]. split; [vm_compute; reflexivity|]. split; [vm_compute; reflexivity|]. split; [vm_compute; reflexivity|].
  split; [vm_compute; reflexivity|]. split; [vm_compute; reflexivity|]. split; [vm_compute; reflexivity|]. split; [vm_compute; reflexivity|].
  split; [|split].
  - exists Root, 1. split; [split; [eexists; reflexivity|vm_compute; reflexivity]|]. right. split; [vm_compute; discriminate|].
    intros l2 o' x' d' Ha Hlt. apply Hpos in Ha as (n & Hn & -> & Ho & _).
    do 17 (destruct n as [|n]; [first [discriminate Ho|cbn in Hlt; lia|vm_compute; discriminate]|]). cbn in Hn. lia.
  - intros (o & d & Ha & H). apply Hpos in Ha as (n & Hn & E & Ho & _).
    assert (n = 12)%nat as ->. { apply (f_equal length) in E. rewrite !firstn_length in E. cbn in E, Hn. lia. }
    injection Ho as <- <-. destruct H as [H|[H _]].
    + specialize (H (firstn 11 l) Root (mkScfg (acc 9) None None false) 7). assert (12 <= 11)%nat; [|lia]. apply H.
      split; [eexists; reflexivity|vm_compute; reflexivity].
    + vm_compute in H. apply H. reflexivity.
  - split; [split; [eexists; reflexivity|vm_compute; reflexivity]|]. split; [exists (Some 78); reflexivity|].
    intros l1' o' k' Ha (v & ->). apply Hpos in Ha as (n & Hn & -> & Ho & Hs).
    do 17 (destruct n as [|n]; [first [discriminate Ho|cbn; lia|injection Ho as <- <-; vm_compute in Hs; discriminate Hs]|]). cbn in Hn. lia.
Qed.
Example C101_example_claims :
  let g := gen_cl [(eth 3, 30, None, None)] [] in let c := cfg_cl true 5 in
  let l := [do_mint 1 100; OCall Root (CCl (ClMove (eth 1) (eth 2) None)); do_mint 4 50; do_claim true 5 4 alice] in
  let s := after c g l in
  cl_claims (rt_cl s) !! eth 1 = None /\ cl_claims (rt_cl s) !! eth 2 = Some 100 /\ cl_claims (rt_cl s) !! eth 3 = Some 30 /\
  cl_claims (rt_cl s) !! eth 4 = None.
Proof. vm_compute. repeat split; reflexivity. Qed.
Example C101_example_assets :
  let loc := mkLoc 1 [JParachain 7] in
  let s := run cfg0 (genesis_state (gen0 [])) [OCreateAsset 5 1; OCall Root (CAr (ArRegister 5 loc))] in
  ar_loc (rt_ar s) !! 5 = Some loc /\ ar_loc (rt_ar (step cfg0 s (OCall Root (CAr (ArUnregister 5))))) !! 5 = None.
Proof. vm_compute. split; reflexivity. Qed.
