(** * C104: how storage grows, and what can never be removed
    Which entries of the storage maps an accepted call makes appear and which it removes; how many
    entries there can be after a history; the kinds of entries that no operation removes; who can
    make entries appear, and that one registered enclave can do so without limit and without deposit. *)
From Coq Require Import String.
From Verif Require Import Base State Env TeerdaysModel TeerexBase SgxVerifyModel TeerexModel
  EnclaveBridgeModel SidechainModel TeeracleModel ClaimsModel AssetRegistryModel XcmTransactorModel
  MigrationsModel Runtime ScaleModel StorageModel Frame EnvFacts TeerdaysProofs BridgeProofs TeerexProofs TeeracleProps ClaimsProofs Examples BridgeProps
  SidechainProps ClaimsProps RuntimeProps AttestationProps Footprint TeerexProps AcceptProps EffectProps ErrorProps SgxErrorProps ProvenanceProps FootprintProps
  HistoryProps AccessProps.

(** There is an entry under the key [y] of a storage map. (Single values and the old storage of teerex
    are not counted.) *)
Definition held (y : skey) (s : rt) : Prop :=
  match y with
  | KSov a => is_Some (tx_sov (rt_tx s) !! a)
  | KProx a => is_Some (tx_prox (rt_tx s) !! a)
  | KTcb f => is_Some (tx_tcb (rt_tx s) !! f)
  | KStatus h => is_Some (eb_status (rt_eb s) !! h)
  | KConfig h => is_Some (eb_config (rt_eb s) !! h)
  | KExec h => is_Some (eb_exec (rt_eb s) !! h)
  | KLatest h => is_Some (rt_sc s !! h)
  | KRates p a => is_Some (to_rates (rt_to s) !! (p, a))
  | KData n a => is_Some (to_data (rt_to s) !! (n, a))
  | KWhitelist a => is_Some (to_wl (rt_to s) !! a)
  | KBonds a => is_Some (td_bonds (rt_td s) !! a)
  | KPending a => is_Some (td_pending (rt_td s) !! a)
  | KClaims e => is_Some (cl_claims (rt_cl s) !! e)
  | KVesting e => is_Some (cl_vesting (rt_cl s) !! e)
  | KSigning e => is_Some (cl_signing (rt_cl s) !! e)
  | KPreclaims a => is_Some (cl_preclaims (rt_cl s) !! a)
  | KAssetLoc i => is_Some (ar_loc (rt_ar s) !! i)
  | KAssetId l => is_Some (ar_id (rt_ar s) !! l)
  | KQe | KDebug | KSkip | KV0Registry _ | KV0Count | KV0Index _ | KV0Debug | KVersion | KTotal => False
  end.
(** Afterwards there is what is in [A], and what was there before and is not in [D] *)
Definition turns (A D : list skey) (s s' : rt) : Prop := forall y, held y s' <-> In y A \/ held y s /\ ~ In y D.

(** An entry moved from [old] to [new], if there is one *)
Definition moved {V} (f : bytes -> skey) (m : gmap bytes V) (old new : bytes) : list skey * list skey :=
  match m !! old with Some _ => ([f new], [f old]) | None => ([], []) end.

(** What the accepted call [k] of [o] puts into storage ([A]) and takes from it ([D]) *)
Definition turnover (c : cfg) (s : rt) (o : origin) (k : call) (A D : list skey) : Prop :=
  let both a d := A = a /\ D = d in
  let by_account (f : acct -> Prop) := exists a, o = Signed a /\ f a in
  match k with
  | CTd (TdBond _) => by_account (fun a => both [KBonds a] [])
  | CTd (TdUnbond v) => by_account (fun a => exists b, td_bonds (rt_td s) !! a = Some b /\
      both [KPending a] (if bd_value b - v <? c_ed c then [KBonds a] else []))
  | CTd TdWithdrawUnbonded => by_account (fun a => both [] [KPending a])
  | CTd (TdBondExtra _) | CTd (TdUpdateOther _) => both [] []
  | CEb (EbConfirm sh _ _ _) => both [KStatus sh] []
  | CEb (EbUnshield sh _ _ h) => both [KStatus sh; KExec h] []
  | CEb (EbPublish _ _ _) => by_account (fun a => exists e, tx_sov (rt_tx s) !! a = Some e /\ both [KStatus (en_mr_enclave e)] [])
  | CEb (EbUpdateConfig sh _ _) => both (KConfig sh :: match o with Signed _ => [KStatus sh] | _ => [] end) []
  | CEb (EbInvoke _ _) | CEb (EbShield _ _ _) | CEb (EbPurge _ _) => both [] []
  | CSc (ScConfirm sh _ _) => by_account (fun a =>
      (leads s sh a /\ both [KStatus sh; KLatest sh] []) \/ (~ leads s sh a /\ both [KStatus sh] []))
  | CTo (ToAdd src _) => both [KWhitelist src] []
  | CTo (ToRemove _ _) => both [] []
  | CTo (ToUpdateOracle n src _) => both [KData n src] []
  | CTo (ToUpdateRate src p v) => match v with Some (N.pos _) => both [KRates p src] [] | _ => both [] [KRates p src] end
  | CTx (TxRegister pf _ m) => by_account (fun a =>
      match m with
      | MDcap true | MSkip true => exists e, attested c s a pf m e /\ both [KProx (en_mr_enclave e, a, inl (en_report_data e ++ zeros 2))] []
      | _ => both [KSov a] []
      end)
  | CTx (TxUnregisterSovereign w) => both [] [KSov w]
  | CTx (TxUnregisterProxied w) => both [] [KProx w]
  | CTx (TxRegisterTcb info sig chain) => exists d, authentic_tcb c (rt_now s) info sig chain d /\ both [KTcb (tj_fmspc d)] []
  | CTx (TxRegisterQe _ _ _) | CTx (TxSetFlags _ _) => both [] []
  | CCl (ClClaim dest sig) => exists w, eth_recover c sig (to_ascii_hex dest) [] = Some w /\ both [] [KClaims w; KVesting w; KSigning w]
  | CCl (ClClaimAttest dest sig text) => exists w, eth_recover c sig (to_ascii_hex dest) text = Some w /\
      both [] [KClaims w; KVesting w; KSigning w]
  | CCl (ClAttest _) => by_account (fun a => exists w, cl_preclaims (rt_cl s) !! a = Some w /\
      both [] [KClaims w; KVesting w; KSigning w; KPreclaims a])
  | CCl (ClMint w _ vs st) =>
      both (KClaims w :: (match vs with Some _ => [KVesting w] | None => [] end) ++ (match st with Some _ => [KSigning w] | None => [] end)) []
  | CCl (ClMove old new _) =>
      let m1 := moved KClaims (cl_claims (rt_cl s)) old new in
      let m2 := moved KVesting (cl_vesting (rt_cl s)) old new in
      let m3 := moved KSigning (cl_signing (rt_cl s)) old new in
      both (m1.1 ++ m2.1 ++ m3.1) (m1.2 ++ m2.2 ++ m3.2)
  | CAr (ArRegister i l) => both [KAssetLoc i; KAssetId l] []
  | CAr (ArUnregister i) => exists l, ar_loc (rt_ar s) !! i = Some l /\ both [] [KAssetLoc i; KAssetId l]
  | CXt _ => both [] []
  end.

Lemma set_held {K V} `{Countable K} (m m' : gmap K V) k v : entry_set m m' k v ->
  forall x, is_Some (m' !! x) <-> (x = k /\ is_Some v) \/ (x <> k /\ is_Some (m !! x)).
Proof. intros E x. rewrite (E x). destruct (decide (x = k)); tauto. Qed.
Lemma moved_held {V} (m m' : gmap bytes V) old new : entry_moved m m' old new ->
  forall x, is_Some (m' !! x) <-> (is_Some (m !! old) /\ x = new) \/ (is_Some (m !! x) /\ ~ (is_Some (m !! old) /\ x = old)).
Proof.
  unfold entry_moved. intros E x. destruct (m !! old) as [v|] eqn:Eo.
  - destruct E as (E1 & E2 & E3). destruct (decide (x = new)) as [->|Hn].
    + rewrite E1. split; [intros _; left; eauto|eauto].
    + destruct (decide (x = old)) as [->|Ho].
      * rewrite E2 by auto. split; [intros [? ?]; discriminate|]. intros [[_ ?]|[_ Hx]]; [congruence|]. destruct Hx. eauto.
      * rewrite E3 by auto. tauto.
  - rewrite E. split; [|intros [[[? Hx] _]|[Hx _]]; [discriminate|auto]]. intros Hx. right. split; [auto|]. intros [[? ?] _]. discriminate.
Qed.
Lemma some_held {A} (v : A) : is_Some (Some v). Proof. eauto. Qed.
Lemma none_held {A} : ~ is_Some (@None A). Proof. intros [? ?]. discriminate. Qed.

(** Close [held y s' <-> In y A \/ held y s /\ ~ In y D] once the maps of [s'] are rewritten *)
Ltac inj_keys := repeat match goal with
  | H : ?f _ = ?f _ |- _ => injection H; clear H; intros; subst
  | H : ?f _ _ = ?f _ _ |- _ => injection H; clear H; intros; subst
  end.
Ltac fin :=
  split; intros;
  repeat match goal with
  | H : _ \/ _ |- _ => destruct H
  | H : _ /\ _ |- _ => destruct H
  | H : False |- _ => destruct H
  | H : is_Some None |- _ => destruct (none_held H)
  end; try discriminate; subst; inj_keys;
  try (exfalso; match goal with H : ~ _ |- _ => apply H; cbn [In]; auto 8; fail end);
  try congruence;
  first [solve [auto 10 using some_held]
        |solve [right; split; [auto using some_held|intuition congruence]]
        |solve [right; split; [auto using some_held|intuition (inj_keys; congruence)]]|idtac].
(** An entry that no list names and that is the same *)
Ltac other := solve [split; [intros; right; split; [assumption|intuition discriminate]|intuition discriminate]].
Ltac sets := repeat match goal with
  | H : entry_set _ ?m' _ _ |- context [is_Some (?m' !! _)] => rewrite (set_held _ _ _ _ H)
  end.
Lemma alike s s' : rt_td s' = rt_td s -> rt_eb s' = rt_eb s -> rt_sc s' = rt_sc s -> rt_to s' = rt_to s -> rt_tx s' = rt_tx s ->
  rt_cl s' = rt_cl s -> v_reg s' = v_reg s -> turns [] [] s s'.
Proof.
  intros H1 H2 H3 H4 H5 H6 H7 y. injection H7 as H7 H8. cbn [In].
  destruct y; cbn [held]; rewrite ?H1, ?H2, ?H3, ?H4, ?H5, ?H6, ?H7, ?H8; tauto.
Qed.
Lemma td_turns c o k s s' : dispatch c o (CTd k) s = (Success, s') -> exists A D, turnover c s o (CTd k) A D /\ turns A D s s'.
Proof.
  intros H. apply C69_teerdays_calls_do_exactly_this in H as (a & -> & H & HU).
  pose proof (HU PEb eq_refl) as E1. pose proof (HU PSc eq_refl) as E2. pose proof (HU PTo eq_refl) as E3. pose proof (HU PTx eq_refl) as E4.
  pose proof (HU PCl eq_refl) as E5. pose proof (HU PReg eq_refl) as E6. cbn [same] in *. injection E6 as E6 E7.
  destruct k; cbn [td_does] in H; cbv zeta in H; cbn [turnover].
  - destruct H as (H1 & H2 & _). exists [KBonds a], []. split; [exists a; auto|].
    intros y; destruct y; cbn [held In]; rewrite ?E1, ?E2, ?E3, ?E4, ?E5, ?E6, ?E7, ?H2; sets; try other.
    rename a0 into x. destruct (decide (x = a)); fin.
  - destruct H as (b & Hb & H1 & H2 & _). exists [], []. split; [auto|].
    intros y; destruct y; cbn [held In]; rewrite ?E1, ?E2, ?E3, ?E4, ?E5, ?E6, ?E7, ?H2; sets; try other.
    rename a0 into x. destruct (decide (x = a)) as [->|]; [rewrite Hb|]; fin.
  - destruct H as (b & due & Hb & _ & H1 & H2 & _). eexists _, _. split; [exists a; split; [auto|]; exists b; split; [auto|]; split; reflexivity|].
    intros y; destruct y; cbn [held In]; rewrite ?E1, ?E2, ?E3, ?E4, ?E5, ?E6, ?E7.
    all: try (destruct (_ <? _); cbn [In]; other).
    + sets. rename a0 into x. destruct (decide (x = a)) as [->|Hn]; destruct (_ <? _); cbn [In]; rewrite ?Hb; fin.
    + sets. rename a0 into x. destruct (decide (x = a)) as [->|Hn]; destruct (_ <? _); cbn [In]; fin.
  - destruct H as (b & Hb & H1 & H2 & _). exists [], []. split; [auto|].
    intros y; destruct y; cbn [held In]; rewrite ?E1, ?E2, ?E3, ?E4, ?E5, ?E6, ?E7, ?H2; sets; try other.
    rename a0 into x. destruct (decide (x = who)) as [->|]; [rewrite Hb|]; fin.
  - destruct H as (due & amt & Hp & H1 & H2 & _). exists [], [KPending a]. split; [exists a; auto|].
    intros y; destruct y; cbn [held In]; rewrite ?E1, ?E2, ?E3, ?E4, ?E5, ?E6, ?E7, ?H1; sets; try other.
    rename a0 into x. destruct (decide (x = a)) as [->|]; fin.
Qed.
Lemma seen_set s s' sh a e : operator_seen s s' sh a e -> exists l, entry_set (eb_status (rt_eb s)) (eb_status (rt_eb s')) sh (Some l).
Proof. intros (l & _ & H). eauto. Qed.
Lemma enacted_held s s' sh : upgrade_enacted s s' sh -> forall x, is_Some (eb_config (rt_eb s') !! x) <-> is_Some (eb_config (rt_eb s) !! x).
Proof.
  intros H x. rewrite (H x). destruct (decide (x = sh)) as [->|]; [|tauto]. apply fmap_is_Some.
Qed.
Lemma eb_turns c o k s s' : dispatch c o (CEb k) s = (Success, s') -> exists A D, turnover c s o (CEb k) A D /\ turns A D s s'.
Proof.
  intros H. apply C69_bridge_calls_do_exactly_this in H as (H & HU).
  pose proof (HU PTd eq_refl) as E1. pose proof (HU PSc eq_refl) as E2. pose proof (HU PTo eq_refl) as E3. pose proof (HU PTx eq_refl) as E4.
  pose proof (HU PCl eq_refl) as E5. pose proof (HU PReg eq_refl) as E6. cbn [same] in *. injection E6 as E6 E7.
  destruct k; cbn [eb_does] in H; cbv zeta in H; cbn [turnover].
  - destruct H as (H1 & _). exists [], []. split; [auto|]. apply alike; auto. unfold v_reg. congruence.
  - destruct H as (a & e & -> & _ & H1 & H2 & H3 & _). apply seen_set in H1 as (l & H1). pose proof (enacted_held _ _ _ H2) as Hc.
    exists [KStatus shard], []. split; [auto|].
    intros y; destruct y; cbn [held In]; rewrite ?E1, ?E2, ?E3, ?E4, ?E5, ?E6, ?E7, ?H3, ?Hc; sets; try other.
    destruct (decide (sh = shard)); fin.
  - destruct H as (a & evs & -> & H1 & _). exists [], []. split; [auto|]. apply alike; auto. unfold v_reg. congruence.
  - destruct H as (a & e & -> & _ & H1 & H2 & H3). apply seen_set in H1 as (l & H1). pose proof (enacted_held _ _ _ H2) as Hc.
    assert (exists n, entry_set (eb_exec (rt_eb s)) (eb_exec (rt_eb s')) call_hash (Some n)) as (n & Hx).
    { destruct (eb_exec (rt_eb s) !! call_hash) as [n|]; [destruct H3 as (n' & _ & H3 & _)|destruct H3 as (H3 & _)]; eauto. }
    clear H3. exists [KStatus shard; KExec call_hash], []. split; [auto|].
    intros y; destruct y; cbn [held In]; rewrite ?E1, ?E2, ?E3, ?E4, ?E5, ?E6, ?E7, ?Hc; sets; try other.
    + destruct (decide (sh = shard)); fin.
    + destruct (decide (h = call_hash)); fin.
  - destruct H as (a & e & -> & He & H1 & H2 & H3 & _). apply seen_set in H1 as (l & H1).
    exists [KStatus (en_mr_enclave e)], []. split; [exists a; split; [auto|]; exists e; auto|].
    intros y; destruct y; cbn [held In]; rewrite ?E1, ?E2, ?E3, ?E4, ?E5, ?E6, ?E7, ?H2, ?H3; sets; try other.
    destruct (decide (sh = en_mr_enclave e)); fin.
  - destruct H as (H1 & H2 & H3 & _). eexists _, _. split; [split; reflexivity|].
    destruct o as [|a|].
    1,3: intros y; destruct y; cbn [held In]; rewrite ?E1, ?E2, ?E3, ?E4, ?E5, ?E6, ?E7, ?H1, ?H3; sets; try other;
      destruct (decide (sh = shard)); fin.
    destruct H1 as (e & _ & H1). apply seen_set in H1 as (l & H1).
    intros y; destruct y; cbn [held In]; rewrite ?E1, ?E2, ?E3, ?E4, ?E5, ?E6, ?E7, ?H3; sets; try other;
      destruct (decide (sh = shard)); fin.
  - destruct H as (l & Hl & H1 & H2 & H3 & _). exists [], []. split; [auto|].
    intros y; destruct y; cbn [held In]; rewrite ?E1, ?E2, ?E3, ?E4, ?E5, ?E6, ?E7, ?H2, ?H3; sets; try other.
    destruct (decide (sh = shard)) as [->|]; [rewrite Hl|]; fin.
Qed.
Lemma sc_turns c o k s s' : dispatch c o (CSc k) s = (Success, s') -> exists A D, turnover c s o (CSc k) A D /\ turns A D s s'.
Proof.
  destruct k as [sh anc cand]. intros H.
  apply C69_sidechain_confirmation_does_exactly_this in H as (a & e & -> & _ & H1 & H2 & H3 & H4 & H5 & HU).
  pose proof (HU PTd eq_refl) as E1. pose proof (HU PTo eq_refl) as E3. pose proof (HU PTx eq_refl) as E4.
  pose proof (HU PCl eq_refl) as E5. pose proof (HU PReg eq_refl) as E6. cbn [same] in *. injection E6 as E6 E7.
  apply seen_set in H1 as (l & H1). pose proof (enacted_held _ _ _ H2) as Hc. cbn [turnover].
  assert (leads s sh a \/ ~ leads s sh a) as [Hl|Hl].
  { unfold leads. destruct (default [] _) as [|z ?]; [auto|]. destruct (decide (ss_signer z = a)); auto. }
  - destruct (H4 Hl) as [Hs _]. exists [KStatus sh; KLatest sh], []. split; [exists a; auto|].
    intros y; destruct y as [| | | | | | | | | | | | | |sh0| | | | | | | | | | | |]; cbn [held In]; rewrite ?E1, ?E3, ?E4, ?E5, ?E6, ?E7, ?H3, ?Hc; sets; try other;
      destruct (decide (sh0 = sh)); fin.
  - destruct (H5 Hl) as [Hs _]. exists [KStatus sh], []. split; [exists a; auto|].
    intros y; destruct y; cbn [held In]; rewrite ?E1, ?E3, ?E4, ?E5, ?E6, ?E7, ?H3, ?Hc, ?Hs; sets; try other;
      destruct (decide (sh0 = sh)); fin.
Qed.
Lemma to_turns c o k s s' : dispatch c o (CTo k) s = (Success, s') -> exists A D, turnover c s o (CTo k) A D /\ turns A D s s'.
Proof.
  intros H. pose proof (f_equal fst H) as Hok. cbn [fst] in Hok. apply C68_teeracle_calls_accepted_exactly in Hok.
  apply C69_oracle_calls_do_exactly_this in H as (H & HU).
  pose proof (HU PTd eq_refl) as E1. pose proof (HU PSc eq_refl) as E2. pose proof (HU PEb eq_refl) as E3. pose proof (HU PTx eq_refl) as E4.
  pose proof (HU PCl eq_refl) as E5. pose proof (HU PReg eq_refl) as E6. cbn [same] in *. injection E6 as E6 E7.
  destruct k; cbn [to_does] in H; cbv zeta in H; cbn [turnover].
  - destruct H as (H1 & H2 & H3 & _). exists [KWhitelist src], []. split; [auto|].
    intros y; destruct y; cbn [held In]; rewrite ?E1, ?E2, ?E3, ?E4, ?E5, ?E6, ?E7, ?H2, ?H3; sets; try other.
    rename src0 into x. destruct (decide (x = src)); fin.
  - destruct H as (H1 & H2 & H3 & _). exists [], []. split; [auto|]. cbn [to_accepts] in Hok. destruct Hok as [_ Hin].
    assert (is_Some (to_wl (rt_to s) !! src)) as Hw by (destruct (to_wl (rt_to s) !! src); [eauto|destruct Hin]).
    intros y; destruct y; cbn [held In]; rewrite ?E1, ?E2, ?E3, ?E4, ?E5, ?E6, ?E7, ?H2, ?H3; sets; try other.
    rename src0 into x. destruct (decide (x = src)); fin.
  - destruct H as (H1 & H2 & H3 & _). exists [KData name src], []. split; [auto|].
    intros y; destruct y; cbn [held In]; rewrite ?E1, ?E2, ?E3, ?E4, ?E5, ?E6, ?E7, ?H2, ?H3; sets; try other.
    rename name0 into x, src0 into z. destruct (decide ((x, z) = (name, src))); fin.
  - destruct H as (H2 & H3 & H). destruct v as [[|r]|].
    1,3: destruct H as [H1 _]; exists [], [KRates pair src]; split; [auto|].
    3: destruct H as [H1 _]; exists [KRates pair src], []; split; [auto|].
    all: intros y; destruct y; cbn [held In]; rewrite ?E1, ?E2, ?E3, ?E4, ?E5, ?E6, ?E7, ?H2, ?H3; sets; try other.
    all: rename pair0 into x, src0 into z; destruct (decide ((x, z) = (pair, src))); fin.
Qed.
Lemma tx_turns c o k s s' : dispatch c o (CTx k) s = (Success, s') -> exists A D, turnover c s o (CTx k) A D /\ turns A D s s'.
Proof.
  intros H. pose proof (proj2 (proj2 (proj2 (C69_registry_upkeep_does_exactly_this c o s s'))) k H) as HU.
  pose proof (HU PTd eq_refl) as E1. pose proof (HU PSc eq_refl) as E2. pose proof (HU PEb eq_refl) as E3. pose proof (HU PTo eq_refl) as E4.
  pose proof (HU PCl eq_refl) as E5. pose proof (HU PReg eq_refl) as E6. cbn [same] in *. injection E6 as E6 E7.
  assert (forall A D, (forall a, is_Some (tx_sov (rt_tx s') !! a) <-> In (KSov a) A \/ is_Some (tx_sov (rt_tx s) !! a) /\ ~ In (KSov a) D) ->
    (forall a, is_Some (tx_prox (rt_tx s') !! a) <-> In (KProx a) A \/ is_Some (tx_prox (rt_tx s) !! a) /\ ~ In (KProx a) D) ->
    (forall a, is_Some (tx_tcb (rt_tx s') !! a) <-> In (KTcb a) A \/ is_Some (tx_tcb (rt_tx s) !! a) /\ ~ In (KTcb a) D) ->
    (forall y, In y (A ++ D) -> key_item y = ISov \/ key_item y = IProx \/ key_item y = ITcb) -> turns A D s s') as HT.
  { intros A D H1 H2 H3 H4 y. setoid_rewrite in_app_iff in H4.
    destruct y; cbn [held]; try apply H1; try apply H2; try apply H3; rewrite ?E1, ?E2, ?E3, ?E4, ?E5, ?E6, ?E7;
      (split; [intros Hy; right; split; [exact Hy|]; intros Hi; destruct (H4 _ (or_intror Hi)) as [?|[?|?]]; discriminate|]);
      (intros [Hi|[Hy _]]; [destruct (H4 _ (or_introl Hi)) as [?|[?|?]]; discriminate|exact Hy]). }
  destruct k; cbn [turnover].
  - apply register_iff in H as (a & e & -> & Ha & _ & _ & _ & ->).
    pose proof (attested_method _ _ _ _ _ _ Ha) as Em.
    assert (is_proxied e = match m with MDcap true | MSkip true => true | _ => false end) as Ep
      by (unfold is_proxied; rewrite Em; destruct m as [[]| |[]]; reflexivity).
    clear HU E1 E2 E3 E4 E5 E6 E7. unfold store_enclave in HT |- *. rewrite is_proxied_url, Ep, mre_url, report_url in HT |- *.
    destruct (match m with MDcap true | MSkip true => true | _ => false end) eqn:Eq.
    + exists [KProx (en_mr_enclave e, a, inl (en_report_data e ++ zeros 2))], []. split.
      { exists a. split; [auto|]. destruct m as [[]| |[]]; try discriminate Eq; eauto. }
      apply HT; cbn [rt_tx add_ev put_prox set_tx tx_sov tx_prox tx_tcb In app]; intros x.
      * intuition discriminate.
      * rewrite (set_held _ _ _ _ (entry_insert (tx_prox (rt_tx s)) _ _)).
        destruct (decide (x = (en_mr_enclave e, a, inl (en_report_data e ++ zeros 2)))); fin.
      * intuition discriminate.
      * intros [<-|[]]. auto.
    + exists [KSov a], []. split.
      { exists a. split; [auto|]. destruct m as [[]| |[]]; try discriminate Eq; auto. }
      apply HT; cbn [rt_tx add_ev put_sov set_tx tx_sov tx_prox tx_tcb In app]; intros x.
      * rewrite (set_held _ _ _ _ (entry_insert (tx_sov (rt_tx s)) _ _)). destruct (decide (x = a)); fin.
      * intuition discriminate.
      * intuition discriminate.
      * intros [<-|[]]. auto.
  - destruct (proj1 (C69_registry_upkeep_does_exactly_this c o s s') _ H) as (H1 & H2 & _).
    exists [], [KSov who]. split; [auto|]. apply HT; cbn [In app]; intros x.
    + rewrite (set_held _ _ _ _ H1). destruct (decide (x = who)); fin.
    + rewrite H2. cbn [tx_prox]. other.
    + rewrite H2. cbn [tx_tcb]. other.
    + intros [<-|[]]. auto.
  - destruct (proj1 (proj2 (C69_registry_upkeep_does_exactly_this c o s s')) _ H) as (H1 & H2 & _).
    exists [], [KProx a]. split; [auto|]. apply HT; cbn [In app]; intros x.
    + rewrite H2. cbn [tx_sov]. other.
    + rewrite (set_held _ _ _ _ H1). destruct (decide (x = a)); fin.
    + rewrite H2. cbn [tx_tcb]. other.
    + intros [<-|[]]. auto.
  - apply dispatch_iff in H. cbn [exec tx_exec] in H. apply reg_qe_ok in H as (a & d & -> & _ & _ & _ & _ & _ & ->).
    exists [], []. split; [auto|]. apply HT; cbn [rt_tx add_ev put_qe set_tx tx_sov tx_prox tx_tcb In app]; intros x; [tauto..|intros []].
  - apply dispatch_iff in H. cbn [exec tx_exec] in H. apply reg_tcb_ok in H as (a & d & -> & Ha & _ & _ & _ & _ & ->).
    exists [KTcb (tj_fmspc d)], []. split; [exists d; auto|].
    apply HT; cbn [rt_tx add_ev put_tcb set_tx tx_sov tx_prox tx_tcb In app]; intros x.
    + intuition discriminate.
    + intuition discriminate.
    + rewrite (set_held _ _ _ _ (entry_insert (tx_tcb (rt_tx s)) _ _)). destruct (decide (x = tj_fmspc d)); fin.
    + intros [<-|[]]. auto.
  - destruct (proj1 (proj2 (proj2 (C69_registry_upkeep_does_exactly_this c o s s'))) _ _ H) as (H1 & _).
    exists [], []. split; [auto|]. apply HT; rewrite ?H1; cbn [tx_sov tx_prox tx_tcb In app]; intros x; [tauto..|intros []].
Qed.
Lemma cl_turns c o k s s' : dispatch c o (CCl k) s = (Success, s') -> exists A D, turnover c s o (CCl k) A D /\ turns A D s s'.
Proof.
  intros H. apply C69_claims_calls_do_exactly_this in H as (H & HU).
  pose proof (HU PTd eq_refl) as E1. pose proof (HU PSc eq_refl) as E2. pose proof (HU PEb eq_refl) as E3. pose proof (HU PTx eq_refl) as E4.
  pose proof (HU PTo eq_refl) as E5. pose proof (HU PReg eq_refl) as E6. cbn [same] in *. injection E6 as E6 E7.
  destruct k as [dest sig|who v vs st|dest sig text|text|old new pre]; cbn [cl_does] in H; cbv zeta in H; cbn [turnover]; cbv zeta.
  - destruct H as (w & Hw & (due & Hd & _ & H1 & _ & H2 & H3 & _) & H4).
    exists [], [KClaims w; KVesting w; KSigning w]. split; [exists w; auto|].
    intros y; destruct y as [| | | | | | | | | | | | | | | | | | | |x| |x|x| | |]; cbn [held In]; rewrite ?E1, ?E2, ?E3, ?E4, ?E5, ?E6, ?E7, ?H4; sets; try other; destruct (decide (x = w)); fin.
  - destruct H as (H1 & _ & H2 & H3 & H4 & _). eexists _, _. split; [split; reflexivity|].
    destruct vs as [vs|], st as [st|]; cbn [app].
    all: intros y; destruct y as [| | | | | | | | | | | | | | | | | | | |x| |x|x| | |]; cbn [held In];
      rewrite ?E1, ?E2, ?E3, ?E4, ?E5, ?E6, ?E7, ?H4; sets; try rewrite H2; try rewrite H3; try other; destruct (decide (x = who)); fin.
  - destruct H as (w & Hw & (due & Hd & _ & H1 & _ & H2 & H3 & _) & H4).
    exists [], [KClaims w; KVesting w; KSigning w]. split; [exists w; auto|].
    intros y; destruct y as [| | | | | | | | | | | | | | | | | | | |x| |x|x| | |]; cbn [held In]; rewrite ?E1, ?E2, ?E3, ?E4, ?E5, ?E6, ?E7, ?H4; sets; try other; destruct (decide (x = w)); fin.
  - destruct H as (a & w & -> & Hw & (due & Hd & _ & H1 & _ & H2 & H3 & _) & H4).
    exists [], [KClaims w; KVesting w; KSigning w; KPreclaims a]. split; [exists a; split; [auto|]; exists w; auto|].
    intros y; destruct y as [| | | | | | | | | | | | | | | | | | | |x| |x|x|x| |]; cbn [held In]; rewrite ?E1, ?E2, ?E3, ?E4, ?E5, ?E6, ?E7; sets; try other;
      first [destruct (decide (x = w)); fin; fail|destruct (decide (x = a)); fin].
  - destruct H as (H1 & H2 & H3 & _ & H4 & _). eexists _, _. split; [split; reflexivity|].
    pose proof (moved_held _ _ _ _ H1) as M1. pose proof (moved_held _ _ _ _ H2) as M2. pose proof (moved_held _ _ _ _ H3) as M3.
    assert (forall V f (m : gmap bytes V) y, In y (moved f m old new).1 <-> is_Some (m !! old) /\ y = f new) as G1.
    { intros V f m y. unfold moved. destruct (m !! old); cbn [fst In].
      - split; [intros [<-|[]]; eauto|intros [_ ->]; auto].
      - split; [intros []|intros [Hx _]; destruct (none_held Hx)]. }
    assert (forall V f (m : gmap bytes V) y, In y (moved f m old new).2 <-> is_Some (m !! old) /\ y = f old) as G2.
    { intros V f m y. unfold moved. destruct (m !! old); cbn [snd In].
      - split; [intros [<-|[]]; eauto|intros [_ ->]; auto].
      - split; [intros []|intros [Hx _]; destruct (none_held Hx)]. }
    assert (forall y, In y ((moved KClaims (cl_claims (rt_cl s)) old new).1 ++ (moved KVesting (cl_vesting (rt_cl s)) old new).1 ++
       (moved KSigning (cl_signing (rt_cl s)) old new).1) <->
       (is_Some (cl_claims (rt_cl s) !! old) /\ y = KClaims new) \/ (is_Some (cl_vesting (rt_cl s) !! old) /\ y = KVesting new) \/
       (is_Some (cl_signing (rt_cl s) !! old) /\ y = KSigning new)) as F1 by (intros y; rewrite !in_app_iff, !G1; tauto).
    assert (forall y, In y ((moved KClaims (cl_claims (rt_cl s)) old new).2 ++ (moved KVesting (cl_vesting (rt_cl s)) old new).2 ++
       (moved KSigning (cl_signing (rt_cl s)) old new).2) <->
       (is_Some (cl_claims (rt_cl s) !! old) /\ y = KClaims old) \/ (is_Some (cl_vesting (rt_cl s) !! old) /\ y = KVesting old) \/
       (is_Some (cl_signing (rt_cl s) !! old) /\ y = KSigning old)) as F2 by (intros y; rewrite !in_app_iff, !G2; tauto).
    clear G1 G2. intros y. rewrite F1, F2.
    assert (forall x, is_Some (cl_preclaims (rt_cl s') !! x) <-> is_Some (cl_preclaims (rt_cl s) !! x)) as M4.
    { intros x. rewrite H4. destruct (bool_decide (pre = Some x)); cbn [andb]; [|tauto]. destruct (bool_decide (cl_preclaims (rt_cl s) !! x = Some old)) eqn:Eb; [|tauto].
      apply bool_decide_eq_true in Eb. rewrite Eb. split; eauto. }
    assert (forall x z, KClaims x = KClaims z <-> x = z) as K1 by (intros; split; congruence).
    assert (forall x z, KVesting x = KVesting z <-> x = z) as K2 by (intros; split; congruence).
    assert (forall x z, KSigning x = KSigning z <-> x = z) as K3 by (intros; split; congruence).
    destruct y; cbn [held]; rewrite ?E1, ?E2, ?E3, ?E4, ?E5, ?E6, ?E7, ?M1, ?M2, ?M3, ?M4, ?K1, ?K2, ?K3; try other; intuition congruence.
Qed.
Lemma ar_turns c o k s s' : dispatch c o (CAr k) s = (Success, s') -> exists A D, turnover c s o (CAr k) A D /\ turns A D s s'.
Proof.
  intros H. destruct (C69_asset_registry_calls_do_exactly_this c o s s') as (H1 & H2 & HU). specialize (HU _ H).
  pose proof (HU PTd eq_refl) as E1. pose proof (HU PSc eq_refl) as E2. pose proof (HU PEb eq_refl) as E3. pose proof (HU PTx eq_refl) as E4.
  pose proof (HU PTo eq_refl) as E5. pose proof (HU PCl eq_refl) as E6. cbn [same] in *.
  destruct k as [i l|i]; cbn [turnover].
  - destruct (H1 _ _ H) as (G1 & G2 & _). exists [KAssetLoc i; KAssetId l], []. split; [auto|].
    intros y; destruct y as [| | | | | | | | | | | | | | | | | | | | | | | | |x|x]; cbn [held In]; rewrite ?E1, ?E2, ?E3, ?E4, ?E5, ?E6; sets; try other.
    + destruct (decide (x = i)); fin.
    + destruct (decide (x = l)); fin.
  - destruct (H2 _ H) as (l & Hl & G1 & G2 & _). exists [], [KAssetLoc i; KAssetId l]. split; [exists l; auto|].
    intros y; destruct y as [| | | | | | | | | | | | | | | | | | | | | | | | |x|x]; cbn [held In]; rewrite ?E1, ?E2, ?E3, ?E4, ?E5, ?E6; sets; try other.
    + destruct (decide (x = i)); fin.
    + destruct (decide (x = l)); fin.
Qed.

(** Exactly the entries of the table appear and disappear with an accepted call; a refused call and
    everything that is not a call of these pallets leaves the set of entries alone. *)
Theorem C104_what_appears_and_disappears : forall c s,
  (forall o k, (dispatch c o k s).1 = Success -> exists A D, turnover c s o k A D /\ turns A D s (dispatch c o k s).2) /\
  (forall x, (forall o k, x = OCall o k -> (dispatch c o k s).1 <> Success) -> forall y, held y (step c s x) <-> held y s).
Proof.
  intros c s. split.
  - intros o k H. destruct (dispatch c o k s) as [st s'] eqn:E. cbn [fst snd] in *. subst st. destruct k as [k|k|k|k|k|k|k|k].
    + eapply td_turns; eauto.
    + eapply eb_turns; eauto.
    + eapply sc_turns; eauto.
    + eapply to_turns; eauto.
    + eapply tx_turns; eauto.
    + eapply cl_turns; eauto.
    + eapply ar_turns; eauto.
    + exists [], []. split; [cbn; auto|]. destruct k. apply C69_swap_does_exactly_this in E as (h & E). cbv zeta in E.
      destruct E as (_ & _ & _ & HU).
      apply alike; [exact (HU PTd eq_refl)|exact (HU PEb eq_refl)|exact (HU PSc eq_refl)|exact (HU PTo eq_refl)|exact (HU PTx eq_refl)|exact (HU PCl eq_refl)|exact (HU PReg eq_refl)].
  - intros x Hx y.
    assert (turns [] [] s (step c s x)) as HT.
    { destruct x as [o k| | | | | | | | | |].
      { specialize (Hx _ _ eq_refl). cbn [step]. unfold dispatch in *. destruct (run_call_cases (exec c o k) s) as [(s' & _ & E)|[_ ->]].
        - rewrite E in Hx. destruct (Hx eq_refl).
        - apply alike; reflexivity. }
      all: match goal with |- turns _ _ _ (step _ _ ?x) =>
        apply alike; [exact (step_same c s x PTd eq_refl)|exact (step_same c s x PEb eq_refl)|exact (step_same c s x PSc eq_refl)|
          exact (step_same c s x PTo eq_refl)|exact (step_same c s x PTx eq_refl)|exact (step_same c s x PCl eq_refl)|exact (step_same c s x PReg eq_refl)] end. }
    rewrite (HT y). cbn [In]. tauto.
Qed.
Print Assumptions C104_what_appears_and_disappears.

(** ** Counting *)
(** The keys of the maps of one item *)
Definition keys {K V} `{Countable K} (f : K -> skey) (m : gmap K V) : list skey := map f (map fst (map_to_list m)).
Definition under_item (s : rt) (i : item) : list skey :=
  match i with
  | ISov => keys KSov (tx_sov (rt_tx s)) | IProx => keys KProx (tx_prox (rt_tx s)) | ITcb => keys KTcb (tx_tcb (rt_tx s))
  | IStatus => keys KStatus (eb_status (rt_eb s)) | IConfig => keys KConfig (eb_config (rt_eb s)) | IExec => keys KExec (eb_exec (rt_eb s))
  | ILatest => keys KLatest (rt_sc s)
  | IRates => keys (fun x => KRates x.1 x.2) (to_rates (rt_to s)) | IData => keys (fun x => KData x.1 x.2) (to_data (rt_to s))
  | IWhitelist => keys KWhitelist (to_wl (rt_to s))
  | IBonds => keys KBonds (td_bonds (rt_td s)) | IPending => keys KPending (td_pending (rt_td s))
  | IClaims => keys KClaims (cl_claims (rt_cl s)) | IVesting => keys KVesting (cl_vesting (rt_cl s))
  | ISigning => keys KSigning (cl_signing (rt_cl s)) | IPreclaims => keys KPreclaims (cl_preclaims (rt_cl s))
  | IAssetLoc => keys KAssetLoc (ar_loc (rt_ar s)) | IAssetId => keys KAssetId (ar_id (rt_ar s))
  | _ => []
  end.
Definition map_items : list item :=
  [ISov; IProx; ITcb; IStatus; IConfig; IExec; ILatest; IRates; IData; IWhitelist; IBonds; IPending; IClaims; IVesting; ISigning;
   IPreclaims; IAssetLoc; IAssetId].
(** All entries, and how many there are *)
Definition entries (s : rt) : list skey := flat_map (under_item s) map_items.
Definition count (s : rt) : nat := length (entries s).

Lemma keys_in {K V} `{Countable K} (f : K -> skey) (m : gmap K V) y : In y (keys f m) <-> exists k, y = f k /\ is_Some (m !! k).
Proof.
  unfold keys. rewrite in_map_iff. setoid_rewrite in_map_iff. split.
  - intros (k & <- & (p & <- & Hp)). destruct p as [k v]. apply elem_of_list_In, elem_of_map_to_list in Hp. exists k. split; [auto|]. exists v. exact Hp.
  - intros (k & -> & (v & Hv)). exists k. split; [auto|]. exists (k, v). split; [auto|]. apply elem_of_list_In, elem_of_map_to_list, Hv.
Qed.
Lemma keys_nodup {K V} `{Countable K} (f : K -> skey) (m : gmap K V) : (forall x z, f x = f z -> x = z) -> List.NoDup (keys f m).
Proof.
  intros Hf. unfold keys. apply FinFun.Injective_map_NoDup; [intros x z; apply Hf|]. apply NoDup_ListNoDup. exact (NoDup_fst_map_to_list m).
Qed.
Lemma under_item_in s i y : In y (under_item s i) <-> key_item y = i /\ held y s.
Proof.
  destruct i; cbn [under_item]; try rewrite keys_in; try solve [split; [intros []|intros [E Hy]; destruct y; try discriminate E; destruct Hy]].
  all: split; [intros (k & -> & Hk); split; [reflexivity|cbn [held]]|intros [E Hy]; destruct y; try discriminate E; cbn [held] in Hy; eauto].
  all: try exact Hk. all: try (destruct k; exact Hk).
  all: eexists (_, _); split; [reflexivity|exact Hy].
Qed.
Lemma under_item_nodup s i : List.NoDup (under_item s i).
Proof.
  destruct i; cbn [under_item]; try apply List.NoDup_nil; apply keys_nodup; try (intros x z E; injection E; auto; fail).
  all: intros [x1 x2] [z1 z2] E; cbn in E; congruence.
Qed.
Lemma entries_in s y : In y (entries s) <-> held y s.
Proof.
  unfold entries. rewrite in_flat_map. setoid_rewrite under_item_in. split; [intros (i & _ & _ & Hy); exact Hy|].
  intros Hy. exists (key_item y). split; [|auto]. destruct y; try destruct Hy; cbn; tauto.
Qed.
Lemma entries_nodup s : List.NoDup (entries s).
Proof.
  unfold entries. assert (List.NoDup map_items) as Hm.
  { unfold map_items. repeat (apply List.NoDup_cons; [cbn; intuition discriminate|]). apply List.NoDup_nil. }
  revert Hm. generalize map_items. intros l. induction l as [|i l IH]; intros Hm; cbn [flat_map]; [apply List.NoDup_nil|].
  inversion Hm as [|? ? Hi Hl]; subst. rewrite <- NoDup_ListNoDup. apply NoDup_app. split; [apply NoDup_ListNoDup, under_item_nodup|].
  split; [|apply NoDup_ListNoDup, IH, Hl].
  intros y Hy Hy'. apply elem_of_list_In, under_item_in in Hy as [<- _]. apply elem_of_list_In, in_flat_map in Hy' as (j & Hj & Hy').
  apply under_item_in in Hy' as [<- _]. tauto.
Qed.

(** How many entries an accepted call can add *)
Definition adds (o : origin) (k : call) : nat :=
  match k with
  | CTd (TdBond _) | CTd (TdUnbond _) => 1
  | CEb (EbConfirm _ _ _ _) | CEb (EbPublish _ _ _) => 1
  | CEb (EbUnshield _ _ _ _) => 2
  | CEb (EbUpdateConfig _ _ _) => match o with Signed _ => 2 | _ => 1 end
  | CSc (ScConfirm _ _ _) => 2
  | CTo (ToAdd _ _) | CTo (ToUpdateOracle _ _ _) => 1
  | CTo (ToUpdateRate _ _ (Some (N.pos _))) => 1
  | CTx (TxRegister _ _ _) | CTx (TxRegisterTcb _ _ _) => 1
  | CCl (ClMint _ _ vs st) => 1 + (if vs then 1 else 0) + (if st then 1 else 0)
  | CAr (ArRegister _ _) => 2
  | _ => 0
  end.
Lemma turns_count A D D' s s' : turns A D s s' -> List.NoDup D' -> (forall y, In y D' -> In y D /\ held y s) ->
  (count s' + length D' <= count s + length A)%nat.
Proof.
  intros HT Hn HD. unfold count.
  set (R := List.filter (fun y => negb (bool_decide (y ∈ D'))) (entries s)).
  assert (forall y, In y R <-> In y (entries s) /\ ~ In y D') as HR.
  { intros y. unfold R. rewrite filter_In, negb_true_iff, bool_decide_eq_false. rewrite (elem_of_list_In D' y). tauto. }
  assert (length D' + length R <= length (entries s))%nat as H1.
  { rewrite <- app_length. apply NoDup_incl_length.
    - apply NoDup_ListNoDup, NoDup_app. split; [apply NoDup_ListNoDup, Hn|]. split.
      + intros y Hy Hy'. apply elem_of_list_In in Hy, Hy'. apply HR in Hy'. tauto.
      + apply NoDup_ListNoDup, List.NoDup_filter, entries_nodup.
    - intros y Hy. apply in_app_or in Hy as [Hy|Hy]; [apply entries_in, HD, Hy|apply HR, Hy]. }
  assert (length (entries s') <= length A + length R)%nat as H2; [|lia].
  rewrite <- app_length. apply NoDup_incl_length; [apply entries_nodup|]. intros y Hy. apply entries_in, HT in Hy as [Hy|[Hy Hn']].
  - apply in_or_app. auto.
  - apply in_or_app. right. apply HR. split; [apply entries_in, Hy|]. intros Hy'. apply Hn', HD, Hy'.
Qed.
Lemma adds_bound c s o k : (dispatch c o k s).1 = Success -> (count (dispatch c o k s).2 <= count s + adds o k)%nat.
Proof.
  intros H. destruct (proj1 (C104_what_appears_and_disappears c s) o k H) as (A & D & HA & HT).
  set (s' := (dispatch c o k s).2) in *. clearbody s'. clear H.
  assert (forall n, (length A <= n)%nat -> (count s' <= count s + n)%nat) as HB.
  { intros n Hn. pose proof (turns_count A D [] s s' HT (List.NoDup_nil _)) as Hc. cbn [length In] in Hc. specialize (Hc ltac:(tauto)). lia. }
  destruct k as [[| | | |]|[| | | | | |]|[]|[| | |? ? [[]|]]|[? ? [[]| |[]]| | | | |]|[? ?|w ? [] []|? ? ?|?|old new pre]|[]|[]]; cbn [turnover adds] in *; cbv zeta in HA.
  all: try (repeat match goal with
    | H : exists _, _ |- _ => destruct H | H : _ /\ _ |- _ => destruct H | H : _ \/ _ |- _ => destruct H end; subst;
    apply HB; try (destruct o); cbn [length app]; lia).
  destruct HA as [-> ->]. rewrite Nat.add_0_r.
  match type of HT with turns ?A ?D _ _ => assert (length A = length D) as HL; [|pose proof (turns_count A D D s s' HT) as HC] end.
  { unfold moved. rewrite !app_length. destruct (cl_claims _ !! _), (cl_vesting _ !! _), (cl_signing _ !! _); reflexivity. }
  assert (forall V f (m : gmap bytes V) y, In y (moved f m old new).2 -> y = f old /\ is_Some (m !! old)) as G.
  { intros V f m y. unfold moved. destruct (m !! old); cbn [snd In]; [intros [<-|[]]; eauto|intros []]. }
  lapply HC; [clear HC; intros HC; lapply HC; [lia|]|].
  - intros y Hy. split; [exact Hy|]. rewrite !in_app_iff in Hy.
    destruct Hy as [Hy|[Hy|Hy]]; apply G in Hy as [-> Hy]; exact Hy.
  - unfold moved. destruct (cl_claims _ !! _), (cl_vesting _ !! _), (cl_signing _ !! _); cbn [snd app];
      repeat (apply List.NoDup_cons; [cbn; intuition discriminate|]); apply List.NoDup_nil.
Qed.

(** What the accepted calls of a history can add together *)
Fixpoint added (c : cfg) (s : rt) (l : list op) : nat :=
  match l with
  | [] => 0
  | x :: l => (match x with OCall o k => match (dispatch c o k s).1 with Success => adds o k | _ => 0 end | _ => 0 end) + added c (step c s x) l
  end.
Fixpoint accepted_calls (c : cfg) (s : rt) (l : list op) : nat :=
  match l with
  | [] => 0
  | x :: l => (match x with OCall o k => match (dispatch c o k s).1 with Success => 1 | _ => 0 end | _ => 0 end) + accepted_calls c (step c s x) l
  end.
Lemma same_count s s' : (forall y, held y s' <-> held y s) -> count s' = count s.
Proof.
  intros H. unfold count. apply Permutation_length, NoDup_Permutation; try apply NoDup_ListNoDup, entries_nodup.
  intros y. rewrite !elem_of_list_In, !entries_in. apply H.
Qed.
(** However a history goes, storage has at most as many entries more than at its beginning as its
    accepted calls add by the table, so at most three for each accepted call. *)
Theorem C104_growth_is_bounded_by_the_accepted_calls : forall c l s,
  (count (run c s l) <= count s + added c s l)%nat /\ (added c s l <= 3 * accepted_calls c s l)%nat.
Proof.
  intros c l. induction l as [|x l IH]; intros s; cbn [run fold_left added accepted_calls]; [split; [cbn; lia|lia]|].
  destruct (IH (step c s x)) as [H1 H2]. clear IH. unfold run in H1.
  assert (forall o k, (adds o k <= 3)%nat) as H3.
  { intros o k. destruct k as [[| | | |]|[| | | | | |]|[]|[| | |? ? [[]|]]|[? ? [[]| |[]]| | | | |]|[? ?|w ? [] []|? ? ?|?|old new pre]|[]|[]]; cbn [adds]; try (destruct o); lia. }
  assert (count (step c s x) <= count s + match x with OCall o k => match (dispatch c o k s).1 with Success => adds o k | _ => 0 end | _ => 0 end)%nat as H4.
  { destruct x as [o k| | | | | | | | | |].
    2-11: rewrite (same_count s); [lia|]; apply (proj2 (C104_what_appears_and_disappears c s)); discriminate.
    destruct (dispatch c o k s).1 eqn:E; [|rewrite (same_count s); [lia|]; apply (proj2 (C104_what_appears_and_disappears c s)); intros ? ? [= <- <-]; congruence..].
    cbn [step]. apply adds_bound, E. }
  split.
  - lia.
  - destruct x as [o k| | | | | | | | | |]; try lia. destruct (dispatch c o k s).1; [|lia..]. specialize (H3 o k). lia.
Qed.
Print Assumptions C104_growth_is_bounded_by_the_accepted_calls.
(** The table is attained by every kind of call that adds *)
Definition attained (c : cfg) (g : genesis) (l : list op) (o : origin) (k : call) : Prop :=
  (dispatch c o k (after c g l)).1 = Success /\ count (dispatch c o k (after c g l)).2 = (count (after c g l) + adds o k)%nat /\ (0 < adds o k)%nat.
Ltac attain := split; [vm_compute; reflexivity|split; [vm_compute; reflexivity|cbn; lia]].
Example C104_table_is_attained_by_stakers :
  attained cfg0 (gen0 [alice]) [] (Signed alice) (CTd (TdBond 100)) /\
  attained cfg0 (gen0 [alice]) [OCall (Signed alice) (CTd (TdBond 100))] (Signed alice) (CTd (TdUnbond 50)).
Proof. split; attain. Qed.
Example C104_table_is_attained_by_enclaves :
  let g := gen0 [alice; acc 9] in let up := [register alice (acc 9)] in let listed := [register alice (acc 9); OCall Root (CTo (ToAdd [1] (acc 9)))] in
  attained cfg0 g [] (Signed alice) (CTx (TxRegister (acc 9) None (MSkip false))) /\
  attained cfg0 g [] (Signed alice) (CTx (TxRegister (acc 9) None (MSkip true))) /\
  attained cfg0 g up (Signed alice) (CEb (EbConfirm (acc 9) [] 0 [])) /\
  attained cfg0 g up (Signed alice) (CEb (EbUnshield (acc 9) alice 100 [7])) /\
  attained cfg0 g up (Signed alice) (CEb (EbPublish [] [] [])) /\
  attained cfg0 g up (Signed alice) (CEb (EbUpdateConfig (acc 3) (mkScfg (acc 9) None None false) 0)) /\
  attained cfg0 g up (Signed alice) (CSc (ScConfirm (acc 9) None (mkSconf 4 [5]))) /\
  attained cfg0 g listed (Signed alice) (CTo (ToUpdateOracle [3] [1] [4])) /\
  attained cfg0 g listed (Signed alice) (CTo (ToUpdateRate [1] [2] (Some 77))).
Proof. cbv zeta. repeat (split; [attain|]). attain. Qed.
Example C104_table_is_attained_by_root :
  attained cfg0 (gen0 []) [] Root (CEb (EbUpdateConfig (acc 3) (mkScfg (acc 9) None None false) 0)) /\
  attained cfg0 (gen0 []) [] Root (CTo (ToAdd [1] (acc 9))) /\
  attained cfg0 (gen0 []) [] Root (CCl (ClMint (zeros 20) 500 (Some (400, 3, 0)) (Some StSaft))) /\
  attained cfg0 (gen0 []) [] Root (CCl (ClMint (zeros 20) 500 None None)) /\
  attained cfg0 (gen0 []) [OCreateAsset 5 1] Root (CAr (ArRegister 5 (mkLoc 1 [JParachain 7]))).
Proof. repeat (split; [attain|]). attain. Qed.

(** ** What lasts *)
(** TCB information, the status and the configuration of a shard, the count of confirmations of a
    call, the last sidechain block, oracle data and whitelists *)
Definition lasting (i : item) : bool :=
  match i with ITcb | IStatus | IConfig | IExec | ILatest | IData | IWhitelist => true | _ => false end.
Lemma never_taken c s o k A D y : turnover c s o k A D -> In y D -> lasting (key_item y) = false.
Proof.
  intros HA HD. destruct (lasting (key_item y)) eqn:E; [exfalso|reflexivity].
  destruct k as [[| | | |]|[| | | | | |]|[]|[| | |? ? [[]|]]|[? ? [[]| |[]]| | | | |]|[? ?|w ? [] []|? ? ?|?|old new pre]|[]|[]]; cbn [turnover] in HA; cbv zeta in HA.
  all: repeat match goal with
    | H : exists _, _ |- _ => destruct H | H : _ /\ _ |- _ => destruct H | H : _ \/ _ |- _ => destruct H end; subst.
  all: try match goal with H : In _ (if ?b then _ else _) |- _ => destruct b end.
  all: unfold moved in *; rewrite ?in_app_iff in *.
  all: repeat match goal with
    | H : context [match ?m !! ?x with _ => _ end] |- _ => destruct (m !! x) end; cbn [fst snd In] in *.
  all: repeat match goal with
    | H : _ \/ _ |- _ => destruct H | H : False |- _ => destruct H end; subst; discriminate E.
Qed.
(** Once there, an entry of these seven kinds stays for good: there is no operation that removes it.
    Entries of every other kind can be removed. *)
Theorem C104_kinds_that_are_never_removed : forall c l s y, lasting (key_item y) = true -> held y s -> held y (run c s l).
Proof.
  intros c l. induction l as [|x l IH]; intros s y Hy Hs; [exact Hs|]. apply (IH (step c s x) y Hy). clear IH.
  destruct (C104_what_appears_and_disappears c s) as [H1 H2].
  assert ((exists o k, x = OCall o k /\ (dispatch c o k s).1 = Success) \/ (forall o k, x = OCall o k -> (dispatch c o k s).1 <> Success)) as [(o & k & -> & E)|Hx].
  { destruct x as [o k| | | | | | | | | |]; [|right; discriminate..].
    destruct (dispatch c o k s).1 eqn:E; [left; eauto|right..]; intros ? ? [= <- <-]; congruence. }
  - destruct (H1 o k E) as (A & D & HA & HT). apply HT. right. split; [exact Hs|]. intros HD.
    pose proof (never_taken _ _ _ _ _ _ _ HA HD). congruence.
  - apply (H2 x Hx), Hs.
Qed.
Print Assumptions C104_kinds_that_are_never_removed.
Definition removable (i : item) : Prop :=
  exists c g l x y, key_item y = i /\ held y (after c g l) /\ ~ held y (step c (after c g l) x).
Ltac taken c g l x y :=
  exists c, g, l, x, y; split; [reflexivity|]; split; [vm_compute; eexists; reflexivity|vm_compute; intros [? Ht]; discriminate Ht].
Theorem C104_every_other_kind_can_be_removed : forall i, In i map_items -> lasting i = false -> removable i.
Proof.
  intros i Hi Hl. cbn in Hi.
  repeat (destruct Hi as [<-|Hi]; [try discriminate Hl|]); [..|destruct Hi].
  - taken cfg0 (gen0 [alice; bob]) ([register bob (acc 9); ONextBlock 200000000] : list op) (OCall (Signed alice) (CTx (TxUnregisterSovereign bob))) (KSov bob).
  - taken cfg0 (gen0 [alice; bob]) ([OCall (Signed bob) (CTx (TxRegister (acc 9) None (MSkip true))); ONextBlock 200000000] : list op)
      (OCall (Signed alice) (CTx (TxUnregisterProxied (acc 9, bob, inl (bob ++ zeros 34))))) (KProx (acc 9, bob, inl (bob ++ zeros 34))).
  - taken cfg0 (gen0 [bob]) ([register bob (acc 9); OCall Root (CTo (ToAdd [1] (acc 9))); OCall (Signed bob) (CTo (ToUpdateRate [1] [2] (Some 77)))] : list op)
      (OCall (Signed bob) (CTo (ToUpdateRate [1] [2] None))) (KRates [2] [1]).
  - taken cfg0 (gen0 [alice]) ([OCall (Signed alice) (CTd (TdBond 100))] : list op) (OCall (Signed alice) (CTd (TdUnbond 100))) (KBonds alice).
  - taken cfg0 (gen0 [alice]) ([OCall (Signed alice) (CTd (TdBond 100)); OCall (Signed alice) (CTd (TdUnbond 50)); ONextBlock 1000] : list op)
      (OCall (Signed alice) (CTd TdWithdrawUnbonded)) (KPending alice).
  - taken cfg0 (gen0 []) ([OCall Root (CCl (ClMint (zeros 20) 500 (Some (400, 3, 0)) None))] : list op) (OCall NoneO (CCl (ClClaim alice (zeros 65)))) (KClaims (zeros 20)).
  - taken cfg0 (gen0 []) ([OCall Root (CCl (ClMint (zeros 20) 500 (Some (400, 3, 0)) None))] : list op) (OCall NoneO (CCl (ClClaim alice (zeros 65)))) (KVesting (zeros 20)).
  - taken cfg0 (gen0 []) ([OCall Root (CCl (ClMint (zeros 20) 500 None (Some StSaft)))] : list op) (OCall Root (CCl (ClMove (zeros 20) (replicate 20 1) None))) (KSigning (zeros 20)).
  - taken cfg0 (gen_cl [(zeros 20, 500, Some alice, Some StSaft)] [(zeros 20, (400, 3, 0))]) ([] : list op) (OCall (Signed alice) (CCl (ClAttest (to_text StSaft)))) (KPreclaims alice).
  - taken cfg0 (gen0 []) ([OCreateAsset 5 1; OCall Root (CAr (ArRegister 5 (mkLoc 1 [JParachain 7])))] : list op) (OCall Root (CAr (ArUnregister 5))) (KAssetLoc 5).
  - taken cfg0 (gen0 []) ([OCreateAsset 5 1; OCall Root (CAr (ArRegister 5 (mkLoc 1 [JParachain 7])))] : list op) (OCall Root (CAr (ArUnregister 5))) (KAssetId (mkLoc 1 [JParachain 7])).
Qed.
Print Assumptions C104_every_other_kind_can_be_removed.

(** ** Who adds *)
(** An account without a registered enclave that is neither the origin for assets nor for moving
    claims makes appear at most its own bond, its own pending withdrawal, its own enclave entries and
    the TCB information of an authentic document. *)
Theorem C104_what_outsiders_can_add : forall c s a k y,
  tx_sov (rt_tx s) !! a = None -> c_asset_origin c (Signed a) = false -> c_move_origin c (Signed a) = false ->
  ~ held y s -> held y (dispatch c (Signed a) k s).2 ->
  y = KBonds a \/ y = KPending a \/ y = KSov a \/ (exists f r, y = KProx (f, a, r)) \/
  exists info sig chain d, k = CTx (TxRegisterTcb info sig chain) /\ authentic_tcb c (rt_now s) info sig chain d /\ y = KTcb (tj_fmspc d).
Proof.
  intros c s a k y Ha Has Hmv Hn Hy.
  destruct (C104_what_appears_and_disappears c s) as [H1 H2].
  destruct (dispatch c (Signed a) k s).1 eqn:E; [|destruct Hn; apply (H2 (OCall (Signed a) k)) in Hy; [exact Hy|intros ? ? [= <- <-]; congruence]..].
  destruct (H1 _ _ E) as (A & D & HA & HT). apply HT in Hy as [Hy|[Hy _]]; [|tauto]. clear H1 H2 HT Hn.
  destruct (dispatch c (Signed a) k s) as [st s'] eqn:Es. cbn [fst] in E. subst st.
  destruct k as [k|k|k|k|k|k|k|k].
  - destruct k; cbn [turnover] in HA; cbv zeta in HA; [destruct HA as (b & [= <-] & -> & _)|destruct HA as [-> _]|destruct HA as (b & [= <-] & u & _ & -> & _)|destruct HA as [-> _]|destruct HA as (b & [= <-] & -> & _)];
    cbn [In] in Hy; intuition auto.
  - exfalso. pose proof (proj1 (C69_bridge_calls_do_exactly_this _ _ _ _ _ Es)) as Hd.
    destruct k; cbn [eb_does turnover] in *; cbv zeta in *.
    + destruct HA as [-> _]. destruct Hy.
    + destruct Hd as (b & e & [= <-] & He & _). congruence.
    + destruct HA as [-> _]. destruct Hy.
    + destruct Hd as (b & e & [= <-] & He & _). congruence.
    + destruct Hd as (b & e & [= <-] & He & _). congruence.
    + destruct Hd as ((e & He & _) & _). congruence.
    + destruct HA as [-> _]. destruct Hy.
  - exfalso. destruct k. apply C69_sidechain_confirmation_does_exactly_this in Es as (b & e & [= <-] & He & _). congruence.
  - exfalso. pose proof (f_equal fst Es) as Hd. cbn [fst] in Hd. apply C68_teeracle_calls_accepted_exactly in Hd.
    destruct k; cbn [to_accepts] in Hd; cbv zeta in Hd; [destruct Hd as [? _]; discriminate..| |].
    + destruct Hd as (b & e & [= <-] & He & _). congruence.
    + destruct Hd as (b & e & [= <-] & He & _). congruence.
  - destruct k; cbn [turnover] in HA; cbv zeta in HA; try (destruct HA as [-> _]; destruct Hy; fail).
    + destruct HA as (b & [= <-] & HA).
      destruct m as [[]| |[]]; [destruct HA as (e & _ & -> & _)|destruct HA as [-> _]|destruct HA as [-> _]|destruct HA as (e & _ & -> & _)|destruct HA as [-> _]];
        destruct Hy as [<-|[]]; eauto 8.
    + destruct HA as (d & Hd & -> & _). destruct Hy as [<-|[]]. do 4 right. exists info, sig, chain, d. auto.
  - exfalso. pose proof (f_equal fst Es) as Hd. cbn [fst] in Hd. apply C68_claims_calls_accepted_exactly in Hd.
    destruct k; cbn [cl_accepts] in Hd; cbn [turnover] in HA; cbv zeta in HA.
    + destruct Hd as (? & ? & _). discriminate.
    + destruct Hd as [? _]. discriminate.
    + destruct Hd as (? & ? & _). discriminate.
    + destruct HA as (b & [= <-] & w & _ & -> & _). destruct Hy.
    + destruct Hd as [?|?]; congruence.
  - exfalso. destruct k; cbn [turnover] in HA; cbv zeta in HA.
    + apply dispatch_iff in Es. cbn [exec ar_exec] in Es. apply XcmProps.register_ok in Es as (Ho & _). congruence.
    + destruct HA as (l & _ & -> & _). destruct Hy.
  - exfalso. cbn [turnover] in HA. destruct HA as [-> _]. destruct Hy.
Qed.
Print Assumptions C104_what_outsiders_can_add.
Example C104_outsiders_do_add :
  tx_sov (rt_tx (after cfg0 (gen0 [alice]) [])) !! alice = None /\
  ~ held (KBonds alice) (after cfg0 (gen0 [alice]) []) /\
  held (KBonds alice) (dispatch cfg0 (Signed alice) (CTd (TdBond 100)) (after cfg0 (gen0 [alice]) [])).2.
Proof. split; [reflexivity|]. split; [vm_compute; intros [? Ht]; discriminate Ht|vm_compute; eexists; reflexivity]. Qed.

(** ** A single enclave can fill storage *)
(** Whatever the shards of [L] that have neither configuration nor status: a registered enclave can
    configure them all; every one of these calls is accepted, no balance changes, and there are two
    entries more for each of them, which (by the above) stay for good. *)
Definition fill (a : acct) (f : bytes -> scfg) (L : list bytes) : list op :=
  map (fun sh => OCall (Signed a) (CEb (EbUpdateConfig sh (f sh) 0))) L.
Theorem C104_one_enclave_can_fill_storage : forall c g l a f L, let s := after c g l in
  is_Some (tx_sov (rt_tx s) !! a) -> List.NoDup L -> (forall sh, In sh L -> eb_config (rt_eb s) !! sh = None /\ eb_status (rt_eb s) !! sh = None) ->
  let t := run c s (fill a f L) in
  (forall L1 sh L2, L = L1 ++ sh :: L2 -> (dispatch c (Signed a) (CEb (EbUpdateConfig sh (f sh) 0)) (run c s (fill a f L1))).1 = Success) /\
  rt_bal t = rt_bal s /\ count t = (count s + 2 * length L)%nat /\
  forall l' sh, In sh L -> is_Some (eb_config (rt_eb (run c t l')) !! sh) /\ is_Some (eb_status (rt_eb (run c t l')) !! sh).
Proof.
  intros c g l a f L s [e He].
  assert (forall L, List.NoDup L -> (forall sh, In sh L -> eb_config (rt_eb s) !! sh = None /\ eb_status (rt_eb s) !! sh = None) ->
    (forall L1 sh L2, L = L1 ++ sh :: L2 -> (dispatch c (Signed a) (CEb (EbUpdateConfig sh (f sh) 0)) (run c s (fill a f L1))).1 = Success) /\
    rt_tx (run c s (fill a f L)) = rt_tx s /\ rt_bal (run c s (fill a f L)) = rt_bal s /\
    forall y, held y (run c s (fill a f L)) <-> In y (map KConfig L ++ map KStatus L) \/ held y s) as HM.
  { clear L. intros L. induction L as [|sh L IH] using rev_ind; intros HN HF.
    - cbn [fill map run fold_left app In]. split; [|split; [reflexivity|split; [reflexivity|tauto]]]. intros [|] ? ?; discriminate.
    - assert (List.NoDup L /\ ~ In sh L) as [HN1 HN2].
      { apply NoDup_ListNoDup, NoDup_app in HN as (HN & Hd & _). split; [apply NoDup_ListNoDup, HN|].
        intros Hi. apply (Hd sh); [apply elem_of_list_In, Hi|left]. }
      destruct (IH HN1) as (I1 & I2 & I3 & I4). { intros x Hx. apply HF, in_or_app. auto. }
      clear IH. set (u := run c s (fill a f L)) in *.
      assert (u = after c g (l ++ fill a f L)) as Eu by (unfold u, s; rewrite run_app; reflexivity).
      destruct (HF sh) as [HF1 HF2]; [apply in_or_app; cbn; auto|].
      assert (forall K : bytes -> skey, K = KConfig \/ K = KStatus -> ~ held (K sh) s -> ~ held (K sh) u) as Hf.
      { intros K HK Hs Hu. apply I4 in Hu as [Hu|Hu]; [|tauto]. rewrite in_app_iff, !in_map_iff in Hu.
        destruct HK as [-> | ->]; destruct Hu as [(z & Ez & Hz)|(z & Ez & Hz)]; try discriminate Ez; injection Ez as ->; tauto. }
      assert (eb_config (rt_eb u) !! sh = None) as U1.
      { pose proof (Hf KConfig (or_introl eq_refl)) as Hx. cbn [held] in Hx. rewrite HF1 in Hx. specialize (Hx none_held).
        destruct (eb_config (rt_eb u) !! sh); [destruct Hx; eauto|auto]. }
      assert (eb_status (rt_eb u) !! sh = None) as U2.
      { pose proof (Hf KStatus (or_intror eq_refl)) as Hx. cbn [held] in Hx. rewrite HF2 in Hx. specialize (Hx none_held).
        destruct (eb_status (rt_eb u) !! sh); [destruct Hx; eauto|auto]. }
      assert ((dispatch c (Signed a) (CEb (EbUpdateConfig sh (f sh) 0)) u).1 = Success) as Hok.
      { rewrite Eu in *. apply (C68_bridge_calls_accepted_exactly c g (l ++ fill a f L)). cbn [eb_accepts]. right.
        exists a, e. split; [auto|]. split; [rewrite I2; exact He|]. split; [right; unfold status_of; rewrite U2; vm_compute; reflexivity|].
        intros x. unfold in_force. rewrite U1. discriminate. }
      assert (run c s (fill a f (L ++ [sh])) = (dispatch c (Signed a) (CEb (EbUpdateConfig sh (f sh) 0)) u).2) as Er.
      { unfold fill. rewrite map_app, run_app. reflexivity. }
      rewrite Er. destruct (proj1 (C104_what_appears_and_disappears c u) _ _ Hok) as (A & D & [-> ->] & HT).
      destruct (dispatch c (Signed a) (CEb (EbUpdateConfig sh (f sh) 0)) u) as [st u'] eqn:Ed. cbn [fst snd] in *. subst st.
      pose proof (C69_bridge_calls_do_exactly_this _ _ _ _ _ Ed) as [Hd HU].
      split; [|split; [|split]].
      + intros L1 x L2 EL. destruct L2 as [|z L2 _] using rev_ind.
        * apply app_inj_tail in EL as [<- <-]. fold u. rewrite Ed. reflexivity.
        * rewrite app_comm_cons, app_assoc in EL. apply app_inj_tail in EL as [EL _]. apply (I1 _ _ _ EL).
      + rewrite <- I2. exact (HU PTx eq_refl).
      + rewrite <- I3. apply dispatch_iff in Ed. cbn [exec eb_exec_call] in Ed. apply update_config_ok in Ed as [(Ex & _)|(b & e' & _ & _ & _ & _ & ->)]; [discriminate Ex|reflexivity].
      + intros y. rewrite (HT y), I4. cbn [In]. rewrite !map_app, !in_app_iff. cbn [map In]. intuition. }
  intros HN HF t. destruct (HM L HN HF) as (H1 & _ & H3 & H4). fold t in H3, H4. split; [exact H1|]. split; [exact H3|]. split.
  - transitivity (length ((map KConfig L ++ map KStatus L) ++ entries s)).
    + unfold count. apply Permutation_length, NoDup_Permutation.
      * apply NoDup_ListNoDup, entries_nodup.
      * apply NoDup_app. split; [|split; [|apply NoDup_ListNoDup, entries_nodup]].
        -- apply NoDup_app. split; [|split].
           ++ apply NoDup_ListNoDup, FinFun.Injective_map_NoDup; [intros x z [= ->]; reflexivity|exact HN].
           ++ intros y Hy Hy'. apply elem_of_list_In, in_map_iff in Hy as (x & <- & _). apply elem_of_list_In, in_map_iff in Hy' as (z & Ez & _). discriminate Ez.
           ++ apply NoDup_ListNoDup, FinFun.Injective_map_NoDup; [intros x z [= ->]; reflexivity|exact HN].
        -- intros y Hy Hy'. apply elem_of_list_In in Hy, Hy'. apply entries_in in Hy'. rewrite in_app_iff, !in_map_iff in Hy.
           destruct Hy as [(x & <- & Hx)|(x & <- & Hx)]; destruct (HF x Hx) as [F1 F2]; cbn [held] in Hy'; [rewrite F1 in Hy'|rewrite F2 in Hy']; exact (none_held Hy').
      * intros y. rewrite !elem_of_list_In, entries_in, in_app_iff, entries_in. apply H4.
    + rewrite !app_length, !map_length. unfold count. lia.
  - intros l' sh Hsh. split.
    + apply (C104_kinds_that_are_never_removed c l' t (KConfig sh)); [reflexivity|]. apply H4. left. apply in_or_app. left. apply in_map, Hsh.
    + apply (C104_kinds_that_are_never_removed c l' t (KStatus sh)); [reflexivity|]. apply H4. left. apply in_or_app. right. apply in_map, Hsh.
Qed.
Print Assumptions C104_one_enclave_can_fill_storage.
Example C104_filling_three :
  let s := after cfg0 (gen0 [alice]) [register alice (acc 9)] in let L := [acc 3; acc 4; acc 5] in
  is_Some (tx_sov (rt_tx s) !! alice) /\ forallb (fun sh => match eb_config (rt_eb s) !! sh, eb_status (rt_eb s) !! sh with None, None => true | _, _ => false end) L = true /\
  count s = 1%nat /\ count (run cfg0 s (fill alice (fun sh => mkScfg sh None None false) L)) = 7%nat.
Proof. cbv zeta. split; [vm_compute; eexists; reflexivity|]. vm_compute. auto. Qed.
