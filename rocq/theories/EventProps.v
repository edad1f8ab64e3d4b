(** * C95: events on the wire *)
From Coq Require Import String.
From Verif Require Import Base State Env TeerdaysModel TeerexBase SgxVerifyModel TeerexModel
  EnclaveBridgeModel SidechainModel TeeracleModel ClaimsModel AssetRegistryModel XcmTransactorModel
  MigrationsModel Runtime ErrorProps EnvFacts Frame Events AttestationProps ScaleModel ScaleProofs StorageModel
  StorageProps EncodingProps LayoutProps TypingProps EffectProps RuntimeProps TeerexProofs BridgeProofs ObserverProps EventModel Examples.

(** ** The bytes, spelled out *)
Section Spec.
Context (y : layout) (ix : N -> N).
Notation bal := (num (w_bal (ly_w y))).
Notation blk := (num (w_blk (ly_w y))).
Notation aid := (num (w_aid (ly_w y))).
(** pallet index, index of the event, fields; none for the events of other pallets *)
Definition event_bytes (e : event) : option bytes :=
  match e with
  | EvBonded a v => Some ([ix 0; 0] ++ a ++ bal v)                                (* teerdays/src/lib.rs:128 *)
  | EvUnbonded a v t => Some ([ix 0; 1] ++ a ++ bal v ++ bal t)                   (* 130 *)
  | EvTokenTimeUpdated a b => Some ([ix 0; 2] ++ a ++ b_bond y b)                 (* 132 *)
  | EvWithdrawn a v => Some ([ix 0; 3] ++ a ++ bal v)                             (* 134 *)
  | EvIndirectInvocationRegistered sh => Some ([ix 1; 0] ++ sh)                   (* enclave-bridge/src/lib.rs:79 *)
  | EvShieldFunds sh b v => Some ([ix 1; 1] ++ sh ++ blob b ++ bal v)             (* 81-85 *)
  | EvUnshieldedFunds sh b v => Some ([ix 1; 2] ++ sh ++ b ++ bal v)              (* 87-91 *)
  | EvProcessedParentchainBlock sh h r n => Some ([ix 1; 3] ++ sh ++ h ++ r ++ blk n)  (* 93-98 *)
  | EvPublishedHash _ f h d => Some ([ix 1; 4] ++ f ++ h ++ blob d)               (* 100-104 *)
  | EvShardConfigUpdated sh => Some ([ix 1; 5] ++ sh)                             (* 105 *)
  | EvPurgedEnclave sh a => Some ([ix 1; 6] ++ sh ++ a)                           (* 107-110 *)
  | EvFinalizedSidechainBlock sh n h a => Some ([ix 2; 0] ++ sh ++ num 8 n ++ h ++ a)  (* sidechain/src/lib.rs:61-66 *)
  | EvExchangeRateUpdated s p r => Some ([ix 3; 0] ++ blob s ++ blob p ++ num 8 r)     (* teeracle/src/lib.rs:110-114 *)
  | EvExchangeRateDeleted s p => Some ([ix 3; 1] ++ blob s ++ blob p)             (* 116 *)
  | EvOracleUpdated n s => Some ([ix 3; 2] ++ blob n ++ blob s)                   (* 118 *)
  | EvAddedToWhitelist s f => Some ([ix 3; 3] ++ blob s ++ f)                     (* 120 *)
  | EvRemovedFromWhitelist s f => Some ([ix 3; 4] ++ blob s ++ f)                 (* 122 *)
  | EvAddedSgxEnclave a u st m => Some ([ix 4; 0] ++ a ++ optb blob u ++ [1] ++ b_status st ++ b_method m)  (* teerex/src/lib.rs:81-86 *)
  | EvRemovedSovereignEnclave a => Some ([ix 4; 1] ++ a)                          (* 88 *)
  | EvRemovedProxiedEnclave a => Some ([ix 4; 2] ++ b_eaddr a)                    (* 90 *)
  | EvSgxTcbInfoRegistered f i => Some ([ix 4; 3] ++ f ++ b_tcb_info i)           (* 92 *)
  | EvSgxQuotingEnclaveRegistered q => Some ([ix 4; 4] ++ b_qe q)                 (* 94 *)
  | EvUpdatedSecurityFlags s d => Some ([ix 4; 5] ++ flag s ++ flag d)            (* 96 *)
  | EvClaimed a e v => Some ([ix 5; 0] ++ a ++ e ++ bal v)                        (* claims/src/lib.rs:97 *)
  | EvReserveAssetRegistered i l => Some ([ix 6; 0] ++ aid i ++ b_location y l)   (* asset-registry/src/lib.rs:78 *)
  | EvReserveAssetUnregistered i l => Some ([ix 6; 1] ++ aid i ++ b_location y l) (* 79 *)
  | EvSentXcm h => Some ([ix 7; 0] ++ h)                                          (* xcm-transactor/src/lib.rs:67 *)
  | EvSwapTransactSent a b => Some ([ix 7; 1] ++ num 4 a ++ num 4 b)              (* 68 *)
  | EvTransfer _ _ _ | EvDust _ _ | EvDeposit _ _ | EvWithdraw _ _ => None
  end.
(** of the record: phase, event, topics *)
Definition phase_bytes (p : phase) : bytes :=
  match p with PhApply i => [0] ++ num 4 i | PhFinalization => [1] | PhInitialization => [2] end.
Definition record_bytes (p : phase) (e : event) : option bytes :=
  (fun b => phase_bytes p ++ b ++ match e with EvPublishedHash t _ _ _ => seqb (fun h => h) t | _ => [0] end) <$> event_bytes e.

(** ** Typed events *)
Definition ev_typed (e : event) : Prop :=
  forall w, wire e = Some w -> wt (c_wire y ix) w /\ wt (c_vec c_hash) (event_topics e).
End Spec.

Lemma lawful_td_event w : lawful (c_td_event w). Proof. unfold c_td_event. law. Qed.
Lemma lawful_eb_event w : lawful (c_eb_event w). Proof. unfold c_eb_event. law. Qed.
Lemma lawful_sc_event : lawful c_sc_event. Proof. unfold c_sc_event. law. Qed.
Lemma lawful_to_event : lawful c_to_event. Proof. unfold c_to_event. law. Qed.
Lemma lawful_tx_event : lawful c_tx_event. Proof. unfold c_tx_event. law. Qed.
Lemma lawful_cl_event w : lawful (c_cl_event w). Proof. unfold c_cl_event. law. Qed.
Lemma lawful_ar_event w x : lawful_xcm x -> lawful (c_ar_event w x). Proof. intros X. unfold c_ar_event. law. Qed.
Lemma lawful_xt_event : lawful c_xt_event. Proof. unfold c_xt_event. law. Qed.
Lemma lawful_phase : lawful c_phase. Proof. unfold c_phase. law. Qed.
Lemma lawful_wire y ix : sane y -> sane_index ix -> lawful (c_wire y ix).
Proof.
  intros S I. pose proof (sane_xcm _ S) as X.
  pose proof (lawful_td_event (ly_w y)). pose proof (lawful_eb_event (ly_w y)). pose proof lawful_sc_event.
  pose proof lawful_to_event. pose proof lawful_tx_event. pose proof (lawful_cl_event (ly_w y)).
  pose proof (lawful_ar_event (ly_w y) _ X). pose proof lawful_xt_event.
  assert (NE : forall i j, i < 8 -> j < 8 -> i <> j -> ix i <> ix j).
  { intros i j Hi Hj N E. apply N. now apply (I i j Hi Hj). }
  assert (LT : forall i, i < 8 -> ix i < 256) by (intros i Hi; now apply (I i i Hi Hi)).
  unfold c_wire.
  repeat (apply lawful_case;
    [ assumption | | apply LT; lia | reflexivity
    | intros x z E; destruct x; inversion E; subst; reflexivity
    | intros x HW; destruct x; cbn in HW |- *; try contradiction;
      (split; [reflexivity|eexists; eexists; split; [reflexivity|apply NE; lia]]) ]).
  apply lawful_void.
Qed.
Lemma lawful_record y ix : sane y -> sane_index ix -> lawful (c_record y ix).
Proof.
  intros S I. apply lawful_pair; [apply lawful_phase|]. apply lawful_pair; [now apply lawful_wire|]. law.
Qed.
(** An event, its record, and the events of a block (a vector of records) *)
Theorem C95_events_unambiguous : forall y ix, sane y -> sane_index ix ->
  unambiguous (c_wire y ix) /\ unambiguous (c_record y ix) /\ unambiguous (c_vec (c_record y ix)).
Proof.
  intros y ix S I. split; [|split]; apply lawful_unambiguous; [now apply lawful_wire|now apply lawful_record|].
  apply lawful_vec; [now apply lawful_record|]. intros [ph z] _. unfold c_record. rewrite pair_spec. destruct ph; discriminate.
Qed.
Print Assumptions C95_events_unambiguous.

(** What the codec writes is what is spelled out above. *)
Lemma wire_bytes y ix e w : wire e = Some w -> wt (c_wire y ix) w -> event_bytes y ix e = Some (enc (c_wire y ix) w).
Proof.
  intros E W. destruct e; try discriminate E; injection E as <-; unfold event_bytes; apply f_equal; symmetry; unfold c_wire in *; variant; cbn [app]; apply f_equal;
    cbn [wt c_wire c_case] in W.
  1-4: unfold c_td_event in *; cbn [wt c_case c_pair fst snd] in W; variant; cbn [app]; rewrite ?pair_spec, ?le_spec, ?bond_spec; reflexivity.
  1-7: unfold c_eb_event in *; cbn [wt c_case c_pair fst snd] in W; variant; cbn [app]; rewrite ?pair_spec, ?le_spec, ?blob_spec by apply W; reflexivity.
  1: unfold c_sc_event in *; variant; cbn [app]; rewrite ?pair_spec, ?le_spec; reflexivity.
  1-5: unfold c_to_event in *; cbn [wt c_case c_pair fst snd] in W; variant; cbn [app]; rewrite ?pair_spec, ?le_spec, ?blob_spec by apply W; reflexivity.
  1-6: unfold c_tx_event in *; cbn [wt c_case c_pair fst snd] in W; variant; cbn [app]; rewrite ?pair_spec.
  - rewrite method_spec, (opt_spec _ blob); [|intros u' E; apply blob_spec; destruct W as (_ & W & _); exact (wt_opt _ _ _ W E)].
    rewrite (opt_spec _ b_status) by (intros; apply status_spec). reflexivity.
  - reflexivity.
  - now rewrite eaddr_spec by apply W.
  - now rewrite tcb_info_spec by apply W.
  - now rewrite qe_spec by apply W.
  - now rewrite !bool_spec.
  - unfold c_cl_event in *; variant; cbn [app]; rewrite ?pair_spec, ?le_spec; reflexivity.
  - unfold c_ar_event in *; cbn [wt c_case] in W; variant; cbn [app]; rewrite pair_spec, le_spec, (location_spec y ix) by exact (proj2 W); reflexivity.
  - unfold c_ar_event in *; cbn [wt c_case] in W; variant; cbn [app]; rewrite pair_spec, le_spec, (location_spec y ix) by exact (proj2 W); reflexivity.
  - unfold c_xt_event in *; variant; reflexivity.
  - unfold c_xt_event in *; variant; cbn [app]; rewrite ?pair_spec, ?le_spec; reflexivity.
Qed.
Theorem C95_events_are_these_bytes : forall y ix ph e, wt c_phase ph -> ev_typed y ix e ->
  (enc (c_wire y ix) <$> wire e) = event_bytes y ix e /\
  (enc (c_record y ix) <$> record_of ph e) = record_bytes y ix ph e.
Proof.
  intros y ix ph e P T. unfold record_of, record_bytes. destruct (wire e) as [w|] eqn:E.
  - destruct (T w E) as [W1 W2]. rewrite (wire_bytes y ix e w E W1). split; [reflexivity|]. cbn [fmap option_fmap option_map]. f_equal.
    unfold c_record. rewrite !pair_spec. f_equal; [destruct ph; [cbn [phase_bytes app]; unfold c_phase; variant; now rewrite le_spec|reflexivity|reflexivity]|].
    f_equal. destruct e; cbn [event_topics] in *; try reflexivity. apply vec_spec; [apply W2|apply arr_all].
  - destruct e; try discriminate E; split; reflexivity.
Qed.
Print Assumptions C95_events_are_these_bytes.

(** ** Deposited events have values of their types *)
(** what is assumed beyond C82: the sender of relay-chain messages returns a 32-byte hash *)
Definition router_typed (c : cfg) : Prop := forall m h, c_router c m = inr h -> wt (c_arr 32) h.
Lemma step_events y ix c s x evs : cfg_typed y c -> router_typed c -> op_typed y x -> typed y s ->
  rt_ev (step c s x) = evs ++ rt_ev s -> Forall (ev_typed y ix) evs.
Proof.
  intros C R X T H.
  assert (NOTOP : wt (c_vec c_hash) []) by (split; [constructor|vm_compute; discriminate]).
  destruct (step_emits c s x) as (evs' & E & F). rewrite H in E. apply app_inv_tail in E as ->.
  pose proof (step_typed y c s x C X T) as T'.
  destruct x as [o k| | | | | | | | | |]; try (eapply Forall_impl; [exact F|]; intros e Q w W; destruct e; try contradiction Q; discriminate W).
  destruct X as [K O]. cbn [step] in H, T'.
  destruct (run_call_cases (exec c o k) s) as [(s' & E & D)|[_ D]].
  2:{ unfold dispatch in H. rewrite D in H. change (rt_ev s) with ([] ++ rt_ev s) in H at 1. apply app_inv_tail in H as <-. constructor. }
  fold (dispatch c o k s) in D. rewrite D in H, T'. cbn [snd] in H, T'. clear E.
  pose proof (ct_bal _ _ C) as CB. destruct T as [[NW BW] [TB TP] T3 T4 T5 T6 T7 T8].
  assert (ONE : forall l, emits s s' l -> Forall (ev_typed y ix) l -> Forall (ev_typed y ix) evs').
  { intros l Q G. unfold emits in Q. rewrite H in Q. apply app_inv_tail in Q as ->. exact G. }
  destruct k as [k|k|k|k|k|k|k|k]; cbn [wt c_call c_case] in K.
  - destruct (C69_teerdays_calls_do_exactly_this _ _ _ _ _ D) as (a & -> & Q & _). specialize (O a eq_refl).
    assert (BT : forall u b, td_bonds (rt_td s) !! u = Some b -> wt c_acct u /\ bd_value b < 256 ^ N.of_nat (w_bal (ly_w y))).
    { intros u b Hb. destruct (TB _ _ Hb) as [A B]. split; [exact A|apply B]. }
    assert (TU : forall u v z, wt c_acct u -> v < 256 ^ N.of_nat (w_bal (ly_w y)) -> z < 256 ^ N.of_nat (w_bal (ly_w y)) ->
      ev_typed y ix (EvTokenTimeUpdated u (mkBond v (rt_now s) z))).
    { intros u v z A B G w [= <-]. split; [|exact NOTOP]. split; [exact A|]. split; [exact B|]. split; [apply le8, NW|exact G]. }
    assert (TT : forall b t, token_time (c_bal_max c) b t < 256 ^ N.of_nat (w_bal (ly_w y))) by (intros; unfold token_time; lia).
    destruct k; cbn [td_does] in Q; cbn [wt c_td_call c_case c_compact] in K.
    + destruct Q as (_ & _ & _ & Q). apply (ONE _ Q). constructor; [|constructor]. intros w [= <-]. split; [|exact NOTOP].
      split; [exact O|]. cbn [fst snd wt c_le]. lia.
    + destruct Q as (b & Hb & _ & _ & _ & Q). destruct (BT _ _ Hb) as [_ BV]. apply (ONE _ Q). constructor; [|constructor; [|constructor]].
      * intros w [= <-]. split; [|exact NOTOP]. split; [exact O|]. cbn [fst snd wt c_le]. lia.
      * apply TU; auto.
    + destruct Q as (b & due & Hb & _ & _ & _ & _ & Q). destruct (BT _ _ Hb) as [_ BV]. apply (ONE _ Q). constructor; [|constructor; [|constructor]].
      * intros w [= <-]. split; [|exact NOTOP]. split; [exact O|]. split; cbn [fst snd wt c_le]; [lia|].
        eapply N.le_lt_trans; [apply N.le_sub_l|apply TT].
      * apply TU; auto.
    + destruct Q as (b & Hb & _ & _ & _ & Q). destruct (BT _ _ Hb) as [WA BV]. apply (ONE _ Q). constructor; [|constructor]. apply TU; auto.
    + destruct Q as (due & amt & Hp & _ & _ & _ & Q). destruct (TP _ _ Hp) as [_ [_ WV]]. cbn [fst snd wt c_le] in WV.
      apply (ONE _ Q). constructor; [|constructor]. intros w [= <-]. split; [|exact NOTOP]. split; [exact O|]. cbn [fst snd wt c_le]. lia.
  - assert ((exists h t d, k = EbPublish h t d) \/ ~ (exists h t d, k = EbPublish h t d)) as [(h & t & d & ->)|NP] by (destruct k; first [left; eauto; fail|right; intros (? & ? & ? & [=])]).
    + apply dispatch_iff in D. cbn [exec eb_exec_call] in D. apply publish_ok in D as (a & e & -> & He & L1 & _ & _ & ->).
      apply (ONE [_] eq_refl). constructor; [|constructor].
      destruct T6 as (TX & _). destruct (TX _ _ He) as [_ WE]. assert (wt c_hash (fingerprint e)) as WF by apply WE.
      destruct K as (WH & [WT _] & WD). intros w [= <-]. split; [split; [exact WF|split; [exact WH|exact WD]]|].
      split; [apply Forall_app; split; [exact WT|constructor; [exact WF|constructor]]|].
      cbn [event_topics]. unfold lenN in *. rewrite app_length. cbn [length]. unfold topics_limit in L1. unfold u32_max. lia.
    + eapply Forall_impl; [exact F|]. intros e Q w W. destruct e; try contradiction Q; try discriminate W; destruct k; try contradiction Q;
        try (exfalso; apply NP; eauto; fail); injection W as <-; (split; [|exact NOTOP]); cbn [emitted_by attributable] in Q;
        cbn [wt c_eb_call c_case c_pair fst snd] in K; decompose [and] Q; subst; cbn in K |- *; tauto.
  - eapply Forall_impl; [exact F|]. intros e Q w W. destruct e; try contradiction Q; try discriminate W; destruct k; try contradiction Q.
    injection W as <-. split; [|exact NOTOP]. cbn [emitted_by attributable] in Q. destruct Q as (-> & -> & -> & ->).
    destruct K as (K1 & _ & K2 & K3). specialize (O _ eq_refl). cbn. auto.
  - eapply Forall_impl; [exact F|]. intros e Q w W. destruct e; try contradiction Q; try discriminate W; destruct k; try contradiction Q;
      injection W as <-; (split; [|exact NOTOP]); cbn [emitted_by attributable] in Q;
      cbn [wt c_to_call c_case c_pair fst snd] in K; decompose [and] Q; subst; cbn in K |- *; tauto.
  - assert ((exists i sg ch, k = TxRegisterQe i sg ch) \/ ~ (exists i sg ch, k = TxRegisterQe i sg ch)) as [(i & sg & ch & ->)|N1] by (destruct k; first [left; eauto; fail|right; intros (? & ? & ? & [=])]).
    { apply C38_quoting_enclave_is_stored_as_documented in D as (a & d & q & D). assert (s' = after_qe q s) as -> by apply D.
      apply (ONE [_] eq_refl). constructor; [|constructor]. intros w [= <-]. split; [|exact NOTOP].
      destruct T' as [_ _ _ _ _ (_ & _ & W & _) _ _]. exact W. }
    assert ((exists i sg ch, k = TxRegisterTcb i sg ch) \/ ~ (exists i sg ch, k = TxRegisterTcb i sg ch)) as [(i & sg & ch & ->)|N2] by (destruct k; first [left; eauto; fail|right; intros (? & ? & ? & [=])]).
    { apply C38_tcb_info_is_stored_as_documented in D as (a & d & i' & D). assert (s' = after_tcb (tj_fmspc d) i' s) as -> by apply D.
      apply (ONE [_] eq_refl). constructor; [|constructor]. intros w [= <-]. split; [|exact NOTOP].
      destruct T' as [_ _ _ _ _ (_ & _ & _ & W) _ _]. apply W. apply lookup_insert. }
    eapply Forall_impl; [exact F|]. intros e Q w W. destruct e; try contradiction Q; try discriminate W; destruct k; try contradiction Q;
      try (exfalso; first [apply N1; eauto; fail|apply N2; eauto; fail]);
      injection W as <-; (split; [|exact NOTOP]); cbn [emitted_by attributable] in Q;
      cbn [wt c_tx_call c_case c_pair fst snd] in K; decompose [and] Q; subst.
    + split; [apply O; reflexivity|]. split; [apply K|]. split; [destruct st; exact I|destruct m; exact I].
    + exact K.
    + exact K.
    + split; exact I.
  - assert (PAY : forall sg a, wt c_acct a -> paid_out c s s' sg a -> Forall (ev_typed y ix) evs').
    { intros sg a WA (due & Hc & _ & _ & _ & _ & _ & _ & Q & _). apply (ONE _ Q). destruct T7 as (TC & _). destruct (TC _ _ Hc) as [W1 W2].
      constructor; [|destruct (_ || _); [constructor|constructor; [intros w [=]|constructor]]].
      intros w [= <-]. split; [|exact NOTOP]. split; [exact WA|]. split; [exact W1|exact W2]. }
    destruct (C69_claims_calls_do_exactly_this _ _ _ _ _ D) as [Q _]. destruct k; cbn [cl_does] in Q; cbn [wt c_cl_call c_case c_pair fst snd] in K.
    + destruct Q as (sg & _ & Q & _). apply (PAY sg dest); [apply K|exact Q].
    + apply (ONE []); [apply Q|constructor].
    + destruct Q as (sg & _ & Q & _). apply (PAY sg dest); [apply K|exact Q].
    + destruct Q as (a & sg & -> & _ & Q & _). apply (PAY sg a); [apply O; reflexivity|exact Q].
    + apply (ONE []); [apply Q|constructor].
  - destruct (C69_asset_registry_calls_do_exactly_this c o s s') as (Q1 & Q2 & _). destruct k as [i l|i].
    + destruct (Q1 _ _ D) as (_ & _ & Q). apply (ONE _ Q). constructor; [|constructor]. intros w [= <-]. split; [|exact NOTOP]. exact K.
    + destruct (Q2 _ D) as (l & Hl & _ & _ & Q). apply (ONE _ Q). constructor; [|constructor]. intros w [= <-]. split; [|exact NOTOP].
      destruct T8 as [T8 _]. destruct (T8 _ _ Hl). split; auto.
  - destruct k. apply C69_swap_does_exactly_this in D as (h & Hr & _ & Q & _). apply (ONE _ Q).
    constructor; [|constructor; [|constructor]]; intros w' [= <-]; (split; [|exact NOTOP]).
    + destruct K as (K1 & K2 & _). split; [exact K1|exact K2].
    + apply (R _ _ Hr).
Qed.

Theorem C95_deposited_events_have_their_types : forall y ix c g l, cfg_typed y c -> router_typed c -> genesis_typed y g ->
  Forall (op_typed y) l -> Forall (ev_typed y ix) (rt_ev (run c (genesis_state g) l)).
Proof.
  intros y ix c g l C R G L.
  assert (typed y (run c (genesis_state g) l) /\ Forall (ev_typed y ix) (rt_ev (run c (genesis_state g) l))) as [_ H]; [|exact H].
  apply (run_inv c (fun s => typed y s /\ Forall (ev_typed y ix) (rt_ev s)) (op_typed y)); [| |exact L].
  - intros s x [T F] X. split; [now apply step_typed|]. destruct (step_emits c s x) as (evs & E & _).
    rewrite E. apply Forall_app. split; [|exact F]. eapply step_events; eauto.
  - split; [now apply genesis_is_typed|constructor].
Qed.
Print Assumptions C95_deposited_events_have_their_types.

(** Whoever reads the bytes of a record knows the event, with its topics: records are read back, and no two
    deposited events share their bytes. *)
Lemma wire_inj e e' : wire e <> None -> wire e = wire e' -> event_topics e = event_topics e' -> e = e'.
Proof. intros N E T. destruct e; try (now contradiction N); destruct e'; try discriminate E; injection E; intros; cbn in T; subst; reflexivity. Qed.
Lemma some_eq {A} (a b : A) : Some a = Some b -> a = b.
Proof. congruence. Qed.
Theorem C95_records_are_read_back : forall y ix c g l, sane y -> sane_index ix ->
  cfg_typed y c -> router_typed c -> genesis_typed y g -> Forall (op_typed y) l ->
  forall e ph b, In e (rt_ev (run c (genesis_state g) l)) -> wt c_phase ph -> record_bytes y ix ph e = Some b ->
  exists r, record_of ph e = Some r /\ forall more, dec (c_record y ix) (b ++ more) = Some (r, more).
Proof.
  intros y ix c g l S I C R G L e ph b He P Hb.
  pose proof (C95_deposited_events_have_their_types y ix c g l C R G L) as F. rewrite List.Forall_forall in F. specialize (F e He).
  destruct (C95_events_are_these_bytes y ix ph e P F) as [_ Q]. rewrite Hb in Q. unfold record_of in *.
  destruct (wire e) as [w|] eqn:E; [|discriminate Q]. cbn [fmap option_fmap option_map] in *. apply some_eq in Q. subst b. eexists. split; [reflexivity|].
  intros more. destruct (F w E) as [W1 W2]. apply (law_rt _ (lawful_record y ix S I)). split; [exact P|]. split; [exact W1|exact W2].
Qed.
Print Assumptions C95_records_are_read_back.
Lemma record_inj y ix : sane y -> sane_index ix -> forall e e' ph ph' b b' r r', ev_typed y ix e -> ev_typed y ix e' ->
  wt c_phase ph -> wt c_phase ph' -> record_bytes y ix ph e = Some b -> record_bytes y ix ph' e' = Some b' ->
  b ++ r = b' ++ r' -> ph = ph' /\ e = e' /\ r = r'.
Proof.
  intros S I e e' ph ph' b b' r r' T T' P P' Hb Hb' E.
  pose proof (proj2 (C95_events_are_these_bytes y ix ph e P T)) as Q. pose proof (proj2 (C95_events_are_these_bytes y ix ph' e' P' T')) as Q'.
  rewrite Hb in Q. rewrite Hb' in Q'. unfold record_of in *.
  destruct (wire e) as [w|] eqn:We; [|discriminate Q]. destruct (wire e') as [w'|] eqn:We'; [|discriminate Q'].
  cbn [fmap option_fmap option_map] in *. apply some_eq in Q, Q'. subst b b'.
  destruct (T w We) as [W1 W2]. destruct (T' w' We') as [W1' W2'].
  eapply (lawful_inj _ _ _ _ _ (lawful_record y ix S I)) in E as [E ->].
  - injection E as -> -> E. split; [reflexivity|]. split; [|reflexivity]. apply wire_inj; [congruence|congruence|exact E].
  - split; [exact P|]. split; [exact W1|exact W2].
  - split; [exact P'|]. split; [exact W1'|exact W2'].
Qed.
Theorem C95_records_differ : forall y ix c g l c' g' l', sane y -> sane_index ix ->
  cfg_typed y c -> router_typed c -> genesis_typed y g -> Forall (op_typed y) l ->
  cfg_typed y c' -> router_typed c' -> genesis_typed y g' -> Forall (op_typed y) l' ->
  forall e e' ph ph' b b' r r', In e (rt_ev (run c (genesis_state g) l)) -> In e' (rt_ev (run c' (genesis_state g') l')) ->
  wt c_phase ph -> wt c_phase ph' -> record_bytes y ix ph e = Some b -> record_bytes y ix ph' e' = Some b' ->
  b ++ r = b' ++ r' -> ph = ph' /\ e = e' /\ r = r'.
Proof.
  intros y ix c g l c' g' l' S I C R G L C' R' G' L' e e' ph ph' b b' r r' He He'.
  pose proof (C95_deposited_events_have_their_types y ix c g l C R G L) as F. rewrite List.Forall_forall in F.
  pose proof (C95_deposited_events_have_their_types y ix c' g' l' C' R' G' L') as F'. rewrite List.Forall_forall in F'.
  apply record_inj; auto.
Qed.
Print Assumptions C95_records_differ.

(** ** A client that only has the bytes *)
(** [bs] are the records of the events [w], each with the time of its block; events of other pallets are left out *)
Inductive written (y : layout) (ix : N -> N) : list (N * event) -> list (N * bytes) -> Prop :=
| written_nil : written y ix [] []
| written_other t e w bs : event_bytes y ix e = None -> written y ix w bs -> written y ix ((t, e) :: w) bs
| written_own t e ph b w bs : wt c_phase ph -> record_bytes y ix ph e = Some b -> written y ix w bs ->
    written y ix ((t, e) :: w) ((t, b) :: bs).
Definition own (x : N * event) : bool := match wire x.2 with Some _ => true | None => false end.
Lemma own_bytes y ix t e : own (t, e) = match event_bytes y ix e with Some _ => true | None => false end.
Proof. destruct e; reflexivity. Qed.
Lemma written_own_only y ix w bs : written y ix w bs -> written y ix (List.filter own w) bs.
Proof.
  induction 1 as [|t e w bs E _ IH|t e ph b w bs P E _ IH]; cbn [List.filter]; [constructor|..].
  - rewrite (own_bytes y ix), E. exact IH.
  - rewrite (own_bytes y ix). unfold record_bytes in E. destruct (event_bytes y ix e) eqn:E'; [|discriminate E].
    apply (written_own y ix t e ph); auto. unfold record_bytes. rewrite E'. exact E.
Qed.
Lemma written_det y ix : sane y -> sane_index ix -> forall w w' bs, Forall (fun x => ev_typed y ix x.2) w -> Forall (fun x => ev_typed y ix x.2) w' ->
  Forall (fun x => own x = true) w -> Forall (fun x => own x = true) w' -> written y ix w bs -> written y ix w' bs -> w = w'.
Proof.
  intros S I w w' bs T T' O O' H. revert w' T' O'. induction H as [|t e w bs E H IH|t e ph b w bs P E H IH]; intros w' T' O' H'.
  - inversion H' as [|t' e' w2 bs2 E' H2|]; subst; auto. inversion O' as [|? ? Q]; subst. rewrite (own_bytes y ix), E' in Q. discriminate Q.
  - inversion O as [|? ? Q]; subst. rewrite (own_bytes y ix), E in Q. discriminate Q.
  - inversion T as [|? ? Te Tw]; subst. inversion O as [|? ? Oe Ow]; subst.
    inversion H' as [|t' e' w2 bs2 E' H2|t' e' ph' b' w2 bs2 P' E' H2]; subst; inversion O' as [|? ? Oe' Ow']; subst; inversion T' as [|? ? Te' Tw']; subst.
    + rewrite (own_bytes y ix), E' in Oe'. discriminate Oe'.
    + destruct (record_inj y ix S I e e' ph ph' b b [] [] Te Te' P P' E E' eq_refl) as (_ & -> & _). f_equal. now apply IH.
Qed.
Lemma watch_typed y ix c l : cfg_typed y c -> router_typed c -> Forall (op_typed y) l ->
  forall s, typed y s -> Forall (fun x => ev_typed y ix x.2) (watch c s l).
Proof.
  intros C R L. induction L as [|x l X L IH]; intros s T; [constructor|]. cbn [watch]. apply Forall_app. split; [|apply IH; now apply step_typed].
  destruct (step_emits c s x) as (evs & E & _). rewrite E, app_length, Nat.add_sub, firstn_app, Nat.sub_diag, firstn_all. cbn [firstn].
  rewrite app_nil_r. apply Forall_map. apply Forall_rev. cbn [snd]. eapply step_events; eauto.
Qed.
Lemma follow_own {A} (f : N -> A -> event -> A) w : (forall n t e, wire e = None -> f n t e = t) ->
  forall t, follow f w t = follow f (List.filter own w) t.
Proof.
  intros H. unfold follow. induction w as [|[n e] w IH]; intros t; [reflexivity|]. cbn [fold_left List.filter]. unfold own at 1. cbn [snd fst].
  destruct (wire e) eqn:E; cbn [fold_left]; [apply IH|]. cbn [fst snd]. rewrite H by exact E. apply IH.
Qed.
Theorem C95_the_bytes_of_the_log_suffice : forall y ix c g l l' bs, sane y -> sane_index ix ->
  cfg_typed y c -> router_typed c -> genesis_typed y g -> Forall (op_typed y) l -> Forall (op_typed y) l' ->
  written y ix (watch c (genesis_state g) l) bs -> written y ix (watch c (genesis_state g) l') bs ->
  let s := run c (genesis_state g) l in let s' := run c (genesis_state g) l' in
  rt_td s = rt_td s' /\ rt_sc s = rt_sc s' /\ to_rates (rt_to s) = to_rates (rt_to s') /\ to_wl (rt_to s) = to_wl (rt_to s') /\
  seen_enclave <$> tx_sov (rt_tx s) = seen_enclave <$> tx_sov (rt_tx s') /\
  tx_qe (rt_tx s) = tx_qe (rt_tx s') /\ tx_tcb (rt_tx s) = tx_tcb (rt_tx s') /\
  tx_allow_skip (rt_tx s) = tx_allow_skip (rt_tx s') /\ tx_allow_debug (rt_tx s) = tx_allow_debug (rt_tx s') /\
  ar_loc (rt_ar s) = ar_loc (rt_ar s') /\ ar_id (rt_ar s) = ar_id (rt_ar s').
Proof.
  intros y ix c g l l' bs S I C R G L L' W W'.
  pose proof (watch_typed y ix c l C R L _ (genesis_is_typed y g G)) as T.
  pose proof (watch_typed y ix c l' C R L' _ (genesis_is_typed y g G)) as T'.
  apply written_own_only in W. apply written_own_only in W'.
  assert (List.filter own (watch c (genesis_state g) l) = List.filter own (watch c (genesis_state g) l')) as E.
  { assert (forall w P, Forall P w -> Forall P (List.filter own w)) as FF.
    { intros w P F. rewrite List.Forall_forall in F |- *. intros x Hx. apply filter_In in Hx as [Hx _]. now apply F. }
    assert (forall w, Forall (fun x => own x = true) (List.filter own w)) as FO.
    { intros w. rewrite List.Forall_forall. intros x Hx. apply filter_In in Hx. apply Hx. }
    apply (written_det y ix S I _ _ bs); auto. }
  assert (SAME : forall A (f : N -> A -> event -> A) t, (forall n t e, wire e = None -> f n t e = t) ->
    follow f (watch c (genesis_state g) l) t = follow f (watch c (genesis_state g) l') t).
  { intros A f t Hf. rewrite (follow_own f (watch c (genesis_state g) l) Hf), (follow_own f (watch c (genesis_state g) l') Hf), E. reflexivity. }
  destruct (C91_rates_and_whitelists_can_be_followed c g l) as [R1 R2]. destruct (C91_rates_and_whitelists_can_be_followed c g l') as [R1' R2'].
  pose proof (C91_registry_can_be_followed c g l) as Q. pose proof (C91_registry_can_be_followed c g l') as Q'. cbn zeta in Q, Q'.
  destruct Q as (Q1 & Q2 & Q3). destruct Q' as (Q1' & Q2' & Q3').
  pose proof (C91_asset_registry_can_be_followed c g l) as A. pose proof (C91_asset_registry_can_be_followed c g l') as A'. cbn zeta in A, A'.
  rewrite (SAME _ see_collateral) in Q2 by (intros n t e He; destruct e; try discriminate He; reflexivity). rewrite <- Q2' in Q2.
  rewrite (SAME _ see_flags) in Q3 by (intros n t e He; destruct e; try discriminate He; reflexivity). rewrite <- Q3' in Q3.
  rewrite (SAME _ see_assets) in A by (intros n t e He; destruct e; try discriminate He; reflexivity). rewrite <- A' in A.
  injection Q2 as Q2 Q4. injection Q3 as Q3 Q5. injection A as A1 A2.
  split; [rewrite !C91_bonds_can_be_followed; apply SAME; intros n t e He; destruct e; try discriminate He; reflexivity|].
  split; [rewrite !C91_finality_can_be_followed; apply SAME; intros n t e He; destruct e; try discriminate He; reflexivity|].
  split; [rewrite R1, R1'; apply SAME; intros n t e He; destruct e; try discriminate He; reflexivity|].
  split; [rewrite R2, R2'; apply SAME; intros n t e He; destruct e; try discriminate He; reflexivity|].
  split; [rewrite Q1, Q1'; apply SAME; intros n t e He; destruct e; try discriminate He; reflexivity|].
  auto 10.
Qed.
Print Assumptions C95_the_bytes_of_the_log_suffice.

(** every log of typed events is written in some way, so the hypotheses can be met *)
Lemma C95_logs_are_written y ix w : exists bs, written y ix w bs.
Proof.
  induction w as [|[t e] w [bs IH]]; [exists []; constructor|]. destruct (event_bytes y ix e) as [b|] eqn:E.
  - eexists. apply (written_own y ix t e PhFinalization); [exact I|unfold record_bytes; rewrite E; reflexivity|exact IH].
  - exists bs. now apply written_other.
Qed.
Print Assumptions C95_logs_are_written.

(** ** Examples *)
Lemma router_t : router_typed cfg_t.
Proof. intros m h H. cbn in H. injection H as <-. exact (replicate_wf 32 0 eq_refl). Qed.
(** the events of the history of C82 all have their types *)
Example C95_example_typed : Forall (ev_typed layout0 ix0) (rt_ev (run cfg_t (genesis_state gen_t) hist_t)).
Proof.
  apply C95_deposited_events_have_their_types; [apply cfg_t_typed|apply router_t|apply gen_t_typed|apply hist_t_typed].
Qed.
(** and these are the first bytes of each: pallet (50 + its number) and event, oldest first *)
Example C95_example_indices :
  map (fun e => takeN 2 (default [] (event_bytes layout0 ix0 e))) (rev (rt_ev (run cfg_t (genesis_state gen_t) hist_t))) =
  [[54; 4]; [54; 3]; [54; 0]; [54; 0]; [50; 0]; [50; 2]; [50; 1]; [51; 5]; [52; 0]; [53; 3]; [53; 0]; [53; 2]; [56; 0]].
Proof. vm_compute. reflexivity. Qed.
Example C95_example_bytes :
  record_bytes layout0 ix0 (PhApply 3) (EvBonded (replicate 32 1) 500) =
    Some ([0; 3; 0; 0; 0] ++ [50; 0] ++ replicate 32 1 ++ [244; 1] ++ replicate 14 0 ++ [0]) /\
  record_bytes layout0 ix0 (PhApply 3) (EvPublishedHash [replicate 32 8; replicate 32 9] (replicate 32 9) (replicate 32 7) [1; 2]) =
    Some ([0; 3; 0; 0; 0] ++ [51; 4] ++ replicate 32 9 ++ replicate 32 7 ++ [8; 1; 2] ++ [8] ++ replicate 32 8 ++ replicate 32 9) /\
  event_bytes layout0 ix0 (EvAddedSgxEnclave (replicate 32 1) (Some [119]) StOk (MDcap true)) =
    Some ([54; 0] ++ replicate 32 1 ++ [1; 4; 119] ++ [1; 1] ++ [2; 1]) /\
  event_bytes layout0 ix0 (EvSwapTransactSent 2039 2267) = Some [57; 1; 247; 7; 0; 0; 219; 8; 0; 0] /\
  event_bytes layout0 ix0 (EvDeposit alice 7) = None.
Proof. vm_compute. auto 10. Qed.
(** read back from bytes followed by others *)
Example C95_example_read :
  dec (c_record layout0 ix0) ([0; 3; 0; 0; 0] ++ [53; 1] ++ [4; 99] ++ [8; 84; 69] ++ [0] ++ [255]) =
    Some (PhApply 3, (WTo (WExchangeRateDeleted [99] [84; 69]), []), [255]) /\
  dec (c_record layout0 ix0) [0; 3; 0; 0; 0; 53; 5; 4; 99; 0] = None.
Proof. vm_compute. auto. Qed.
