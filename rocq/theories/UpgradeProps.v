(** * C109: chains that are upgraded on the way
    The theorems on histories start from a genesis state. A chain may also carry storage of an older release and run the
    migrations of teerex/src/migrations.rs at some point. It then reaches nothing new: its state is that of a history without
    migrations, up to missing TCB information. *)
From Coq Require Import String.
From Verif Require Import Base State Env TeerdaysModel TeerexBase SgxVerifyModel TeerexModel
  EnclaveBridgeModel SidechainModel TeeracleModel ClaimsModel AssetRegistryModel XcmTransactorModel
  MigrationsModel Runtime ScaleModel StorageModel Frame EnvFacts Footprint TeerdaysProofs TeerdaysProps BridgeProofs BridgeProps SgxProofs SgxProps TeerexProofs HelperProps TeerexProps
  Ledger ErrorProps ErrorWitnessProps MigrationsProps Examples FootprintProps.

(** ** The chain *)
(** The state of the runtime and what only the migrations know: the version and the items of version 0 *)
Record chain := mkChain { ch_rt : rt; ch_version : N; ch_registry : gmap N bytes; ch_count : N; ch_index : gmap acct N; ch_debug : bool }.
(** A migration works on teerex' storage *)
Definition migrated (f : mig -> mig) (h : chain) : chain :=
  let m := f (mkMig (ch_version h) (ch_registry h) (ch_count h) (ch_index h) (ch_debug h) (rt_tx (ch_rt h))) in
  mkChain (set_tx (mg_tx m) (ch_rt h)) (mg_version m) (mg_v0_registry m) (mg_v0_count m) (mg_v0_index m) (mg_v0_debug m).
(** A history in which the migrations run at any time, in any order, any number of times *)
Inductive hop := HOp (x : op) | HV1 | HV2.
Definition hstep (c : cfg) (h : chain) (x : hop) : chain :=
  match x with
  | HOp x => mkChain (step c (ch_rt h) x) (ch_version h) (ch_registry h) (ch_count h) (ch_index h) (ch_debug h)
  | HV1 => migrated migrate_v0_v1 h
  | HV2 => migrated migrate_v1_v2 h
  end.
Definition hrun (c : cfg) (h : chain) (l : list hop) : chain := fold_left (hstep c) l h.
(** Registrations with a quote *)
Definition quote_call (x : op) : bool :=
  match x with OCall (Signed _) (CTx (TxRegister _ _ (MDcap _))) => true | _ => false end.
(** The history without migrations: some registrations with a quote are left out, and where the flag of version 0 is taken
    over Root sets the flags *)
Inductive plain : list hop -> list op -> Prop :=
| plain_nil : plain [] []
| plain_keep x l l' : plain l l' -> plain (HOp x :: l) (x :: l')
| plain_out x l l' : quote_call x = true -> plain l l' -> plain (HOp x :: l) l'
| plain_v2 l l' : plain l l' -> plain (HV2 :: l) l'
| plain_v1 l l' : plain l l' -> plain (HV1 :: l) l'
| plain_flag sk d l l' : plain l l' -> plain (HV1 :: l) (OCall Root (CTx (TxSetFlags sk d)) :: l').
Definition about_tcb (x : cell) : Prop := exists f, x = XE (KTcb f).
Definition flag_event (e : event) : bool := match e with EvUpdatedSecurityFlags _ _ => true | _ => false end.
(** The same, up to TCB information [s] lacks and to the events of the flags *)
Definition but_tcb (s t : rt) : Prop :=
  (forall x, ~ about_tcb x -> same_at x s t) /\ (forall f i, tx_tcb (rt_tx s) !! f = Some i -> tx_tcb (rt_tx t) !! f = Some i) /\
  rt_out s = rt_out t /\ List.filter (fun e => negb (flag_event e)) (rt_ev s) = List.filter (fun e => negb (flag_event e)) (rt_ev t).

(** ** Proofs *)
Lemma but_refl s : but_tcb s s.
Proof. repeat split; auto. intros. apply same_at_refl. Qed.
Lemma but_step c x s t : but_tcb s t -> agree (op_reads c x s) s t -> but_tcb (step c s x) (step c t x) /\ ends c s x = ends c t x.
Proof.
  intros (B1 & B2 & B3 & B4) A. destruct (C86_operations_depend_only_on_their_reads c x s t A) as [E [D (l & L1 & L2) (m & M1 & M2)]].
  split; [|exact E]. split; [|split; [|split]].
  - intros y Hy. destruct (D y) as [[A1 A2]|A']; [|exact A']. eapply same_at_trans; [apply same_at_sym, A1|]. eapply same_at_trans; [apply B1, Hy|exact A2].
  - intros f i Hf. destruct (D (XE (KTcb f))) as [[A1 A2]|A']; cbn in *; [|congruence]. rewrite <- A2. apply B2. congruence.
  - congruence.
  - rewrite L1, L2, !List.filter_app. congruence.
Qed.
Ltac none H := repeat match type of H with
  | _ ∈ _ :: _ => apply elem_of_cons in H; destruct H as [H|H]; [discriminate H|]
  | _ ∈ [] => apply elem_of_nil in H; destruct H
  | _ ∈ _ ++ _ => apply elem_of_app in H; destruct H as [H|H]
  | _ ∈ opt ?o _ => destruct o; cbn [opt] in H
  | _ ∈ claim_reads _ _ => unfold claim_reads in H
  | _ ∈ shard_reads _ _ => unfold shard_reads in H
  end.
Lemma reads_tcb c x s f : XE (KTcb f) ∈ op_reads c x s -> exists a p u b tl, x = OCall (Signed a) (CTx (TxRegister p u (MDcap b))) /\
  extract_tcb_info_from_raw (c_sgx c) p = ROk (f, tl).
Proof.
  destruct x as [o k| | | | | | | | | |]; cbn [op_reads]; try (intros H; none H; fail).
  unfold reads. rewrite elem_of_app. intros [H|H].
  - destruct o as [|a|].
    + destruct k as [k|k|k|k|k|k|k|k]; destruct k; cbn in H; none H.
    + destruct k as [k|k|k|k|k|k|k|k]; destruct k; cbn [reads_signed] in H; try (none H; fail).
      destruct m; cbn [reads_signed] in H; try (none H; fail).
      destruct (extract_tcb_info_from_raw (c_sgx c) proof) as [[f' tl]| |] eqn:E; [|none H|none H].
      apply elem_of_app in H as [H|H]; [none H|]. apply elem_of_list_singleton in H. injection H as ->. exists a, proof, url, proxied, tl. auto.
    + destruct k as [k|k|k|k|k|k|k|k]; destruct k; cbn [reads_none] in H; none H.
  - destruct k as [k|k|k|k|k|k|k|k]; destruct k; cbn [reads_other] in H; none H.
Qed.

Lemma quote_needs_tcb c s a p u b f tl : extract_tcb_info_from_raw (c_sgx c) p = ROk (f, tl) -> tx_tcb (rt_tx s) !! f = None ->
  ends c s (OCall (Signed a) (CTx (TxRegister p u (MDcap b)))) <> Success.
Proof.
  intros E H. unfold ends, run_call. cbn [op_act exec tx_exec].
  assert (forall e s', register_sgx_enclave c (Signed a) p u (MDcap b) s <> Ok e s') as N.
  { intros e s' Hr. unfold register_sgx_enclave in Hr. cbn [ensure_signed] in Hr.
    apply bind_ok in Hr as (? & ? & [= <- <-] & Hr). apply bind_ok in Hr as (? & ? & Hp & Hr). apply ensure_ok in Hp as [_ ->].
    apply bind_ok in Hr as (? & s1 & Hu & Hr). assert (s1 = s) as ->. { destruct u as [v|]; [apply ensure_ok in Hu; apply Hu|inversion Hu; reflexivity]. }
    apply bind_ok in Hr as (en & s2 & Hd & _). unfold reg_dcap in Hd.
    apply bind_ok in Hd as (now & ? & Hn & Hd). apply gets_ok in Hn as [-> ->]. apply bind_ok in Hd as (qe & ? & Hn & Hd). apply gets_ok in Hn as [-> ->].
    apply bind_ok in Hd as ([[f' tl'] r] & s3 & V & Hd). destruct (verify_dcap_quote (c_sgx c) p (rt_now s) (tx_qe (rt_tx s))) as [[[f1 tl1] r1]| |] eqn:V'; try discriminate V.
    cbn in V. injection V as -> -> -> <-. pose proof (C74_raw_helper_agrees_with_verification _ _ _ _ _ _ _ V') as E'. rewrite E in E'. injection E' as <- <-.
    apply bind_ok in Hd as (? & s4 & Hs & Hd). assert (s4 = s) as ->. { destruct (negb b); [apply ensure_ok in Hs; apply Hs|inversion Hs; reflexivity]. }
    apply bind_ok in Hd as (rf & ? & Hn & Hd). apply gets_ok in Hn as [-> ->]. rewrite H in Hd. discriminate Hd. }
  destruct (register_sgx_enclave c (Signed a) p u (MDcap b) s) as [e s'|e s'|] eqn:R; [destruct (N e s' eq_refl)|discriminate|discriminate].
Qed.
(** One operation on both sides; or it is a registration with a quote that fails on the left *)
Lemma but_op c x s t : but_tcb s t -> (but_tcb (step c s x) (step c t x) /\ ends c s x = ends c t x) \/ (quote_call x = true /\ step c s x = s /\ ends c s x <> Success).
Proof.
  intros B. pose proof B as (B1 & B2 & _ & _).
  destruct (quote_call x) eqn:Q.
  - destruct x as [[|a|] k| | | | | | | | | |]; try discriminate Q. destruct k as [| | | |k| | |]; try discriminate Q. destruct k as [p u m| | | | |]; try discriminate Q.
    destruct m as [| |b]; try discriminate Q.
    destruct (extract_tcb_info_from_raw (c_sgx c) p) as [[f tl]| |] eqn:E.
    + destruct (tx_tcb (rt_tx s) !! f) as [i|] eqn:F.
      * left. apply but_step; [exact B|]. intros y Hy. destruct y as [| | | | | |k]; try (apply B1; intros [? ?]; discriminate).
        destruct k; try (apply B1; intros [? ?]; discriminate). destruct (reads_tcb _ _ _ _ Hy) as (? & ? & ? & ? & ? & [= <- <- <- <-] & E'). rewrite E in E'. injection E' as -> ->.
        cbn. rewrite F. symmetry. apply B2, F.
      * right. split; [reflexivity|]. assert (ends c s (OCall (Signed a) (CTx (TxRegister p u (MDcap b)))) <> Success) as N by (eapply quote_needs_tcb; eauto).
        split; [|exact N]. apply C86_operations_change_only_their_writes, N.
    + left. apply but_step; [exact B|]. intros y Hy. destruct y as [| | | | | |k]; try (apply B1; intros [? ?]; discriminate).
      destruct k; try (apply B1; intros [? ?]; discriminate). destruct (reads_tcb _ _ _ _ Hy) as (? & ? & ? & ? & ? & [= <- <- <- <-] & E'). congruence.
    + left. apply but_step; [exact B|]. intros y Hy. destruct y as [| | | | | |k]; try (apply B1; intros [? ?]; discriminate).
      destruct k; try (apply B1; intros [? ?]; discriminate). destruct (reads_tcb _ _ _ _ Hy) as (? & ? & ? & ? & ? & [= <- <- <- <-] & E'). congruence.
  - left. apply but_step; [exact B|]. intros y Hy. destruct y as [| | | | | |k]; try (apply B1; intros [? ?]; discriminate).
    destruct k; try (apply B1; intros [? ?]; discriminate). destruct (reads_tcb _ _ _ _ Hy) as (? & ? & ? & ? & ? & -> & _). discriminate Q.
Qed.

(** ** C109 *)
(** Whatever an upgraded chain reaches, a chain without migrations reaches too, up to missing TCB information *)
Theorem C109_upgrades_add_nothing : forall c l h t, but_tcb (ch_rt h) t ->
  exists l', plain l l' /\ but_tcb (ch_rt (hrun c h l)) (run c t l').
Proof.
  intros c. induction l as [|x l IH]; intros h t B.
  - exists []. split; [constructor|exact B].
  - cbn [hrun fold_left]. fold (hrun c (hstep c h x) l). destruct x as [x| |].
    + destruct (but_op c x _ _ B) as [[B' _]|(Q & E & _)].
      * destruct (IH (hstep c h (HOp x)) (step c t x) B') as (l' & P & H). exists (x :: l'). split; [constructor; exact P|exact H].
      * destruct (IH (hstep c h (HOp x)) t) as (l' & P & H); [cbn [hstep ch_rt]; rewrite E; exact B|]. exists l'. split; [apply plain_out; assumption|exact H].
    + destruct B as (B1 & B2 & B3 & B4). cbn [hstep]. destruct (1 <=? ch_version h) eqn:V.
      * destruct (IH (migrated migrate_v0_v1 h) t) as (l' & P & H); [|exists l'; split; [apply plain_v1, P|exact H]].
        unfold migrated, migrate_v0_v1. cbn [mg_version]. rewrite V. cbn. destruct (ch_rt h). repeat split; auto.
      * set (t' := step c t (OCall Root (CTx (TxSetFlags (tx_allow_skip (rt_tx (ch_rt h))) (ch_debug h))))).
        destruct (IH (migrated migrate_v0_v1 h) t') as (l' & P & H).
        2:{ exists (OCall Root (CTx (TxSetFlags (tx_allow_skip (rt_tx (ch_rt h))) (ch_debug h))) :: l'). split; [apply plain_flag, P|exact H]. }
        unfold migrated, migrate_v0_v1. cbn [mg_version]. rewrite V. cbn [mg_tx ch_rt mg_v0_debug].
        assert (t' = add_ev (EvUpdatedSecurityFlags (tx_allow_skip (rt_tx (ch_rt h))) (ch_debug h)) (put_flags (ch_debug h) (tx_allow_skip (rt_tx (ch_rt h))) t)) as -> by reflexivity.
        destruct (ch_rt h) as [n b bl v td eb sc to [xs xp xq xt xd xk] cl ar out ev] eqn:Eh. destruct t as [n' b' bl' v' td' eb' sc' to' [xs' xp' xq' xt' xd' xk'] cl' ar' out' ev'].
        cbn in *. split; [|split; [|split]]; cbn; auto.
        intros y Hy. specialize (B1 y Hy). destruct y as [| | | | | |[]]; cbn in *; auto.
    + destruct B as (B1 & B2 & B3 & B4). destruct (IH (migrated migrate_v1_v2 h) t) as (l' & P & H); [|exists l'; split; [apply plain_v2, P|exact H]].
      unfold migrated, migrate_v1_v2. cbn [mg_version]. destruct (in_code_version <=? ch_version h).
      * cbn. destruct (ch_rt h). repeat split; auto.
      * cbn [mg_tx ch_rt]. destruct (ch_rt h) as [n b bl v td eb sc to [xs xp xq xt xd xk] cl ar out ev] eqn:Eh.
        cbn in *. split; [|split; [|split]]; cbn; auto.
        -- intros y Hy. specialize (B1 y Hy). destruct y as [| | | | | |[]]; cbn in *; auto. destruct Hy. eexists. reflexivity.
        -- intros f i. rewrite lookup_empty. discriminate.
Qed.
Print Assumptions C109_upgrades_add_nothing.
(** In particular for chains that start with storage of any older version *)
Theorem C109_upgraded_chains_are_reachable : forall c g l v r n i d, let h := mkChain (genesis_state g) v r n i d in
  exists l', plain l l' /\ but_tcb (ch_rt (hrun c h l)) (run c (genesis_state g) l').
Proof. intros c g l v r n i d h. apply C109_upgrades_add_nothing, but_refl. Qed.
Print Assumptions C109_upgraded_chains_are_reachable.

(** What is proved of histories without migrations carries over *)
Lemma plain_forall (P : op -> Prop) l l' : plain l l' -> (forall sk d, P (OCall Root (CTx (TxSetFlags sk d)))) ->
  Forall (fun x => match x with HOp x => P x | _ => True end) l -> Forall P l'.
Proof. intros H HP. induction H; intros F; try inversion F; subst; auto. Qed.
Lemma total_filter f ev : (forall e, flag_event e = true -> f e = 0) -> total f ev = total f (List.filter (fun e => negb (flag_event e)) ev).
Proof.
  intros Hf. induction ev as [|e ev IH]; [reflexivity|]. cbn [List.filter]. rewrite total_cons, IH. destruct (flag_event e) eqn:E; cbn [negb]; [rewrite (Hf e E); reflexivity|reflexivity].
Qed.
(** Any statement about a state that holds after all histories of operations satisfying [Q], and does not speak about TCB information or the
    events of the flags *)
Theorem C109_invariants_survive_upgrades : forall c s0 (P : rt -> Prop) (Q : op -> Prop),
  (forall s t, but_tcb s t -> P t -> P s) -> (forall sk d, Q (OCall Root (CTx (TxSetFlags sk d)))) -> (forall l, Forall Q l -> P (run c s0 l)) ->
  forall h l, ch_rt h = s0 -> Forall (fun x => match x with HOp x => Q x | _ => True end) l -> P (ch_rt (hrun c h l)).
Proof.
  intros c s0 P Q HP HQ H h l E F. destruct (C109_upgrades_add_nothing c l h s0) as (l' & Pl & B); [rewrite E; apply but_refl|].
  apply (HP _ _ B), H. eapply plain_forall; eauto.
Qed.
Print Assumptions C109_invariants_survive_upgrades.
(** For example the ledger of a vault (C12) *)
Theorem C109_vaults_are_solvent_through_upgrades : forall c g sh l v r n i d,
  Forall (fun x => match x with HOp x => vault_signs sh x = false | _ => True end) l ->
  let s := ch_rt (hrun c (mkChain (genesis_state g) v r n i d) l) in
  free s (vault sh) + total (unshielded_ev sh) (rt_ev s) + total (dust_ev (vault sh)) (rt_ev s)
  = default 0 (g_bal g !! vault sh) + total (in_ev (vault sh)) (rt_ev s).
Proof.
  intros c g sh l v r n i d F. refine (C109_invariants_survive_upgrades c (genesis_state g) (fun s => free s (vault sh) + total (unshielded_ev sh) (rt_ev s) + total (dust_ev (vault sh)) (rt_ev s)
    = default 0 (g_bal g !! vault sh) + total (in_ev (vault sh)) (rt_ev s)) (fun x => vault_signs sh x = false) _ _ _ _ l _ F); [|reflexivity| |reflexivity].
  - intros s t (B1 & _ & _ & B4) H. assert (free s (vault sh) = free t (vault sh)) as ->.
    { unfold free. rewrite (B1 (XFree (vault sh))); [reflexivity|intros [? ?]; discriminate]. }
    rewrite !(total_filter _ (rt_ev s)), B4, <- !total_filter; [exact H|..]; intros []; try discriminate; reflexivity.
  - intros l'. apply (C12_vault_ledger c g l' sh).
Qed.
Print Assumptions C109_vaults_are_solvent_through_upgrades.

(** ** What the upgrade costs *)
Lemma v1_v2_rt h : ch_version h = 1 -> let s := ch_rt h in let t := rt_tx s in
  migrated migrate_v1_v2 (migrated migrate_v0_v1 h) =
  mkChain (set_tx (mkTx (tx_sov t) (tx_prox t) (tx_qe t) ∅ (tx_allow_debug t) (tx_allow_skip t)) s) 2 (ch_registry h) (ch_count h) (ch_index h) (ch_debug h).
Proof. intros V. destruct h as [[] v r n i d]. cbn in V. subst v. reflexivity. Qed.
Lemma agree_but c x s s' : quote_call x = false -> (forall y, ~ about_tcb y -> same_at y s' s) -> agree (op_reads c x s') s' s.
Proof.
  intros Q B y Hy. destruct y as [| | | | | |k]; try (apply B; intros [? ?]; discriminate).
  destruct k; try (apply B; intros [? ?]; discriminate). destruct (reads_tcb _ _ _ _ Hy) as (? & ? & ? & ? & ? & -> & _). discriminate Q.
Qed.
Lemma quote_refused c s a p u b : let t := rt_tx s in
  let s' := set_tx (mkTx (tx_sov t) (tx_prox t) (tx_qe t) ∅ (tx_allow_debug t) (tx_allow_skip t)) s in let x := OCall (Signed a) (CTx (TxRegister p u (MDcap b))) in
  ends c s' x <> Success /\ (ends c s x = Success -> ends c s' x = Failed MissingTcbInfoForFmspc).
Proof.
  intros t s' x. unfold ends, run_call, x. cbn [op_act exec tx_exec]. unfold register_sgx_enclave, reg_dcap. cbn [ensure_signed].
  unfold bind, ensure, gets, lift_res, ok_or. cbn [ret fail]. unfold ret, fail.
  destruct (lenN p <=? max_proof_len); [|split; [discriminate|intros H; discriminate H]].
  assert (rt_now s' = rt_now s) as En by (unfold s'; destruct s; reflexivity). assert (tx_qe (rt_tx s') = tx_qe (rt_tx s)) as Eq by (unfold s'; destruct s; reflexivity).
  assert (tx_tcb (rt_tx s') = ∅) as Et by (unfold s'; destruct s; reflexivity). clearbody s'.
  destruct u as [v|]; [destruct (lenN v <=? max_url_len); [|split; [discriminate|intros H; discriminate H]]|];
  rewrite En, Eq;
  (destruct (verify_dcap_quote (c_sgx c) p (rt_now s) (tx_qe (rt_tx s))) as [[[f tl] r]|e|]; [|split; [discriminate|intros H; discriminate H]|split; [discriminate|intros H; discriminate H]]);
  (destruct b; cbn [negb]; [|destruct (beq a (takeN 32 (vr_report_data r))); [|split; [discriminate|intros H; discriminate H]]]);
  rewrite Et, lookup_empty; (split; [discriminate|reflexivity]).
Qed.
(** From version 1 on only TCB information is lost: every operation other than a registration with a quote ends and acts as without the upgrade;
    registrations with a quote are refused *)
Theorem C109_what_the_upgrade_costs : forall c h x, let h' := migrated migrate_v1_v2 (migrated migrate_v0_v1 h) in let s := ch_rt h in let s' := ch_rt h' in ch_version h = 1 ->
  (forall y, ~ about_tcb y -> same_at y s' s) /\ (forall f, tx_tcb (rt_tx s') !! f = None) /\ rt_ev s' = rt_ev s /\ rt_out s' = rt_out s /\
  (quote_call x = false -> ends c s' x = ends c s x /\ does_same s' (step c s' x) s (step c s x)) /\
  (quote_call x = true -> ends c s' x <> Success /\ (ends c s x = Success -> ends c s' x = Failed MissingTcbInfoForFmspc)).
Proof.
  intros c h x h' s s' V. unfold s', h'. rewrite (v1_v2_rt h V). cbn [ch_rt]. fold s. clear s' h'.
  set (s' := set_tx _ s). assert (forall y, ~ about_tcb y -> same_at y s' s) as B.
  { intros y Hy. unfold s'. destruct s, y as [| | | | | |[]]; try reflexivity. destruct Hy. eexists. reflexivity. }
  split; [exact B|]. split; [intros f; unfold s'; destruct s; apply lookup_empty|]. split; [unfold s'; destruct s; reflexivity|]. split; [unfold s'; destruct s; reflexivity|]. split.
  - intros Q. apply C86_operations_depend_only_on_their_reads, agree_but; assumption.
  - intros Q. destruct x as [[|a|] k| | | | | | | | | |]; try discriminate Q. destruct k as [| | | |k| | |]; try discriminate Q. destruct k as [p u m| | | | |]; try discriminate Q.
    destruct m as [| |b]; try discriminate Q. apply quote_refused.
Qed.
Print Assumptions C109_what_the_upgrade_costs.

(** ** How it is made good *)
Lemma runs_same c l s s' : Forall (fun x => quote_call x = false) l -> (forall y, ~ about_tcb y -> same_at y s' s) -> does_same s' (run c s' l) s (run c s l).
Proof.
  revert s s'. induction l as [|x l IH]; intros s s' F B; [apply ds_refl|]. inversion F as [|? ? Q F']; subst.
  destruct (C86_operations_depend_only_on_their_reads c x s' s) as [_ D]; [apply agree_but; assumption|]. cbn [run fold_left]. fold (run c (step c s' x) l) (run c (step c s x) l).
  eapply ds_trans; [exact D|]. apply IH; [exact F'|]. intros y Hy. destruct (ds_cells _ _ _ _ D y) as [[A1 A2]|A]; [|exact A].
  eapply same_at_trans; [apply same_at_sym, A1|]. eapply same_at_trans; [apply B, Hy|exact A2].
Qed.
(** Once TCB information has been registered again for all processors that had some, the chain is where it would be without the upgrade *)
Theorem C109_registering_again_makes_it_good : forall c h l, let h' := migrated migrate_v1_v2 (migrated migrate_v0_v1 h) in ch_version h = 1 ->
  Forall (fun x => quote_call x = false) l -> let s := run c (ch_rt h) l in let s' := run c (ch_rt h') l in
  (forall f, tx_tcb (rt_tx (ch_rt h)) !! f <> None -> tx_tcb (rt_tx s') !! f <> None) ->
  (forall y, same_at y s' s) /\ rt_ev s' = rt_ev s /\ rt_out s' = rt_out s /\ (forall x, ends c s' x = ends c s x).
Proof.
  intros c h l h' V F s s' H. destruct (C109_what_the_upgrade_costs c h (ONextBlock 0) V) as (B & N & Ev & Out & _). fold h' in B, N, Ev, Out.
  pose proof (runs_same c l _ _ F B) as [D (le & L1 & L2) (lo & M1 & M2)]. fold s in D, L2, M2. fold s' in D, L1, M1.
  assert (forall y, same_at y s' s) as A.
  { intros y. destruct (D y) as [[A1 A2]|A]; [|exact A]. destruct y as [| | | | | |k]; try (eapply same_at_trans; [apply same_at_sym, A1|]; eapply same_at_trans; [apply B; intros [? ?]; discriminate|exact A2]).
    destruct k; try (eapply same_at_trans; [apply same_at_sym, A1|]; eapply same_at_trans; [apply B; intros [? ?]; discriminate|exact A2]).
    cbn in A1, A2 |- *. match type of A1 with _ !! ?k = _ => rename k into f0 end. rewrite N in A1. destruct (tx_tcb (rt_tx (ch_rt h)) !! f0) eqn:E; [|congruence]. destruct (H f0); [rewrite E; discriminate|congruence]. }
  split; [exact A|]. split; [congruence|]. split; [congruence|]. intros x. apply C86_operations_depend_only_on_their_reads. intros y _. apply A.
Qed.
Print Assumptions C109_registering_again_makes_it_good.

(** ** A concrete case *)
Definition start109 : chain := mkChain (genesis_state g0) 0 (<[1 := [7]]> ∅) 1 (<[alice := 1]> ∅) true.
Definition quote109 : op := OCall (Signed bob) (CTx (TxRegister (quote_leaf 65) None (MDcap true))).
Definition hist109 : list hop := HV1 :: map HOp (qe_known ++ [tcb_known 11]).
Example C109_example : let h := hrun c0 start109 hist109 in let h' := hrun c0 h [HV2] in
  ch_version h = 1 /\ ch_version h' = 2 /\ ch_count h' = 0 /\ tx_allow_debug (rt_tx (ch_rt h')) = true /\
  ends c0 (ch_rt h) quote109 = Success /\ ends c0 (ch_rt h') quote109 = Failed MissingTcbInfoForFmspc /\
  ends c0 (step c0 (ch_rt h') (tcb_known 11)) quote109 = Success.
Proof. vm_compute. repeat split; reflexivity. Qed.
(** The hypothesis of the last theorem *)
Example C109_example_again : let h := hrun c0 start109 hist109 in ch_version h = 1 /\ quote_call (tcb_known 11) = false /\
  map fst (map_to_list (tx_tcb (rt_tx (ch_rt h)))) = map fst (map_to_list (tx_tcb (rt_tx (step c0 (ch_rt (hrun c0 h [HV2])) (tcb_known 11))))) /\
  tx_tcb (rt_tx (ch_rt h)) <> ∅.
Proof. split; [vm_compute; reflexivity|]. split; [reflexivity|]. split; [vm_compute; reflexivity|]. intros H. apply (f_equal (fun m => size m)) in H. vm_compute in H. discriminate H. Qed.
(** Upgrades do cost something: not every upgraded chain answers calls as one without migrations does *)
Theorem C109_upgrades_are_free_refuted : ~ (forall c h x, ends c (ch_rt (hstep c h HV2)) x = ends c (ch_rt h) x).
Proof. intros H. specialize (H c0 (hrun c0 start109 hist109) quote109). vm_compute in H. discriminate H. Qed.
Print Assumptions C109_upgrades_are_free_refuted.
