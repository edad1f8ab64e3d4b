(** * Properties of pallet teeracle: C25-C27. *)
From Verif Require Import Base State Env TeerdaysModel TeerexBase SgxVerifyModel TeerexModel
  EnclaveBridgeModel SidechainModel TeeracleModel ClaimsModel AssetRegistryModel XcmTransactorModel
  Runtime Frame EnvFacts Panic Examples.

(** ** The calls *)
Lemma add_wl_ok c o src fp s s' : add_to_whitelist c o src fp s = Ok tt s' ->
  o = Root /\ lenN src <= 40 /\ ~ fp ∈ whitelist s src /\ lenN (whitelist s src) < c_max_wl c /\
  s' = add_ev (EvAddedToWhitelist src fp) (put_wl src (whitelist s src ++ [fp]) s).
Proof.
  unfold add_to_whitelist. intros H. inv_rt H. bools. unfold is_whitelisted in *.
  repeat split; auto.
  match goal with Hx : bool_decide _ = false |- _ => apply bool_decide_eq_false in Hx; exact Hx end.
Qed.
Lemma remove_wl_ok o src fp s s' : remove_from_whitelist o src fp s = Ok tt s' ->
  o = Root /\ fp ∈ whitelist s src /\
  s' = add_ev (EvRemovedFromWhitelist src fp) (put_wl src (filter (fun m => m <> fp) (whitelist s src)) s).
Proof.
  unfold remove_from_whitelist. intros H. inv_rt H. bools. unfold is_whitelisted in *. repeat split; auto.
  match goal with Hx : bool_decide _ = true |- _ => apply bool_decide_eq_true in Hx; exact Hx end.
Qed.
Lemma update_oracle_ok c o n src b s s' : update_oracle c o n src b s = Ok tt s' ->
  exists a e, o = Signed a /\ tx_sov (rt_tx s) !! a = Some e /\ fingerprint e ∈ whitelist s src /\
  lenN n <= 40 /\ lenN src <= 40 /\ lenN b <= c_max_blob c /\
  s' = add_ev (EvOracleUpdated n src) (put_data (n, src) b s).
Proof.
  unfold update_oracle. intros H. inv_rt H. bools. unfold is_whitelisted in *. eexists _, _. repeat split; eauto.
  match goal with Hx : bool_decide _ = true |- _ => apply bool_decide_eq_true in Hx; exact Hx end.
Qed.
Definition nonzero (v : option N) : option N := match v with Some 0 => None | _ => v end.
Lemma update_rate_ok o src p v s s' : update_exchange_rate o src p v s = Ok tt s' ->
  exists a e, o = Signed a /\ tx_sov (rt_tx s) !! a = Some e /\ fingerprint e ∈ whitelist s src /\ lenN p <= 11 /\
  s' = add_ev (match nonzero v with Some r => EvExchangeRateUpdated src p r | None => EvExchangeRateDeleted src p end)
         (put_rate (p, src) (nonzero v) s).
Proof.
  unfold update_exchange_rate. intros H. inv_rt H. bools. unfold is_whitelisted in *.
  match goal with Hx : bool_decide _ = true |- _ => apply bool_decide_eq_true in Hx end.
  destruct v as [[|q]|]; inv_rt H; eexists _, _; repeat split; eauto.
Qed.

(** ** C25 *)
Theorem C25_only_whitelisted_enclaves_change_rates : forall c o k s pair src,
  to_rates (rt_to (dispatch c o k s).2) !! (pair, src) <> to_rates (rt_to s) !! (pair, src) ->
  exists a e v, o = Signed a /\ k = CTo (ToUpdateRate src pair v) /\
  tx_sov (rt_tx s) !! a = Some e /\ en_mr_enclave e ∈ whitelist s src.
Proof. change en_mr_enclave with fingerprint.
  intros c o k s pair src H. unfold dispatch in H.
  destruct (run_call_cases (exec c o k) s) as [(s' & E & Er)|[_ Er]]; rewrite Er in H; [|contradiction]. cbn [snd] in H.
  destruct (may_write k PTo) eqn:Hw; [|rewrite (exec_keeps c o k PTo Hw _ _ _ E) in H; contradiction].
  destruct k as [x|x|x|x|x|x|x|x]; try discriminate Hw; cbn [exec] in E; destruct x; cbn [to_exec] in E.
  - apply add_wl_ok in E as (_ & _ & _ & _ & ->). cbn in H. contradiction.
  - apply remove_wl_ok in E as (_ & _ & ->). cbn in H. contradiction.
  - apply update_oracle_ok in E as (a & e & _ & _ & _ & _ & _ & _ & ->). cbn in H. contradiction.
  - apply update_rate_ok in E as (a & e & -> & H1 & H2 & _ & ->). exists a, e, v.
    destruct (decide ((pair0, src0) = (pair, src))) as [Ek|Ek]; [inversion Ek; subst; auto|].
    exfalso. apply H. destruct (nonzero v); cbn; [rewrite lookup_insert_ne|rewrite lookup_delete_ne]; auto.
Qed.
Print Assumptions C25_only_whitelisted_enclaves_change_rates.
Theorem C25_only_whitelisted_enclaves_change_data : forall c o k s name src,
  to_data (rt_to (dispatch c o k s).2) !! (name, src) <> to_data (rt_to s) !! (name, src) ->
  exists a e b, o = Signed a /\ k = CTo (ToUpdateOracle name src b) /\
  tx_sov (rt_tx s) !! a = Some e /\ en_mr_enclave e ∈ whitelist s src.
Proof. change en_mr_enclave with fingerprint.
  intros c o k s name src H. unfold dispatch in H.
  destruct (run_call_cases (exec c o k) s) as [(s' & E & Er)|[_ Er]]; rewrite Er in H; [|contradiction]. cbn [snd] in H.
  destruct (may_write k PTo) eqn:Hw; [|rewrite (exec_keeps c o k PTo Hw _ _ _ E) in H; contradiction].
  destruct k as [x|x|x|x|x|x|x|x]; try discriminate Hw; cbn [exec] in E; destruct x; cbn [to_exec] in E.
  - apply add_wl_ok in E as (_ & _ & _ & _ & ->). cbn in H. contradiction.
  - apply remove_wl_ok in E as (_ & _ & ->). cbn in H. contradiction.
  - apply update_oracle_ok in E as (a & e & -> & H1 & H2 & _ & _ & _ & ->). exists a, e, blob.
    destruct (decide ((name0, src0) = (name, src))) as [Ek|Ek]; [inversion Ek; subst; auto|].
    exfalso. apply H. cbn. rewrite lookup_insert_ne; auto.
  - apply update_rate_ok in E as (a & e & _ & _ & _ & _ & ->). cbn in H. destruct (nonzero v); contradiction.
Qed.
Print Assumptions C25_only_whitelisted_enclaves_change_data.
(** The environment never touches oracle data. *)
Theorem C25_environment_leaves_oracle_alone : forall c s x,
  (forall o k, x <> OCall o k) -> rt_to (step c s x) = rt_to s.
Proof. intros c s x H. apply (step_same c s x PTo). destruct x; auto. exfalso. eapply H; eauto. Qed.
Print Assumptions C25_environment_leaves_oracle_alone.

(** ** C26, C27 *)
Definition oracle_ok (c : cfg) (s : rt) : Prop :=
  (forall src l, to_wl (rt_to s) !! src = Some l -> lenN l <= c_max_wl c /\ NoDup l /\ lenN src <= 40) /\
  (forall p src r, to_rates (rt_to s) !! (p, src) = Some r -> r <> 0 /\ lenN p <= 11 /\ lenN src <= 40) /\
  (forall n src b, to_data (rt_to s) !! (n, src) = Some b -> lenN n <= 40 /\ lenN src <= 40 /\ lenN b <= c_max_blob c).
Lemma oracle_view c s s' : rt_to s' = rt_to s -> oracle_ok c s -> oracle_ok c s'.
Proof. unfold oracle_ok. intros ->. auto. Qed.
Lemma whitelisted_source c s src fp : oracle_ok c s -> fp ∈ whitelist s src -> lenN src <= 40.
Proof.
  intros [H _] Hi. unfold whitelist in Hi. destruct (to_wl (rt_to s) !! src) as [l|] eqn:E; [|cbn in Hi; inversion Hi].
  destruct (H _ _ E) as (_ & _ & Hl). exact Hl.
Qed.
Lemma whitelist_ok c s src : oracle_ok c s -> lenN (whitelist s src) <= c_max_wl c /\ NoDup (whitelist s src).
Proof.
  intros [H _]. unfold whitelist. destruct (to_wl (rt_to s) !! src) as [l|] eqn:E; cbn.
  - destruct (H _ _ E) as (H1 & H2 & _). auto.
  - rewrite lenN_nil. split; [lia|apply NoDup_nil_2].
Qed.
Lemma oracle_step c s x : oracle_ok c s -> oracle_ok c (step c s x).
Proof.
  intros Hs. destruct (op_may_write x PTo) eqn:Hw; [|exact (oracle_view c _ _ (step_same c s x PTo Hw) Hs)].
  destruct x as [o k| | | | | | | | | |]; try discriminate Hw.
  destruct (step_call c s o k) as [(s' & E & ->)| ->]; [|auto].
  destruct k as [x|x|x|x|x|x|x|x]; try discriminate Hw; cbn [exec] in E. pose proof Hs as (Hw1 & Hr & Hd).
  destruct x; cbn [to_exec] in E.
  - apply add_wl_ok in E as (_ & Hl & Hn & Hlt & ->). split; [|split; [exact Hr|exact Hd]].
    intros src' l. cbn. destruct (decide (src = src')) as [->|Hne].
    + rewrite lookup_insert. intros E; inversion E; subst. destruct (whitelist_ok c s src' Hs) as [H1 H2].
      rewrite lenN_app, lenN_cons, lenN_nil. split; [lia|]. split; [|auto].
      apply NoDup_app. split; [auto|]. split; [|apply NoDup_singleton].
      intros y Hy Hy'. apply elem_of_list_singleton in Hy'. subst. auto.
    + rewrite lookup_insert_ne by auto. apply Hw1.
  - apply remove_wl_ok in E as (_ & Hi & ->). split; [|split; [exact Hr|exact Hd]].
    intros src' l. cbn. destruct (decide (src = src')) as [->|Hne].
    + rewrite lookup_insert. intros E; inversion E; subst. destruct (whitelist_ok c s src' Hs) as [H1 H2].
      split; [|split; [apply NoDup_filter; auto|eapply whitelisted_source; eauto]].
      pose proof (filter_length (fun m => m <> fp) (whitelist s src')). unfold lenN in *. lia.
    + rewrite lookup_insert_ne by auto. apply Hw1.
  - apply update_oracle_ok in E as (a & e & _ & _ & Hi & Hn & Hsrc & Hb & ->). split; [exact Hw1|split; [exact Hr|]].
    intros n' src' b'. cbn. destruct (decide ((name, src) = (n', src'))) as [Ek|Hne].
    + rewrite Ek, lookup_insert. inversion Ek; subst. intros E; inversion E; subst. auto.
    + rewrite lookup_insert_ne by auto. apply Hd.
  - apply update_rate_ok in E as (a & e & _ & _ & Hi & Hp & ->). split; [|split].
    + destruct (nonzero v); exact Hw1.
    + intros p' src' r'. destruct (decide ((pair, src) = (p', src'))) as [Ek|Hne].
      * inversion Ek; subst. destruct (nonzero v) as [r|] eqn:Ev; cbn.
        -- rewrite lookup_insert. intros E; inversion E; subst. split; [|split; [auto|eapply whitelisted_source; eauto]].
           unfold nonzero in Ev. destruct v as [[|q]|]; inversion Ev; subst. discriminate.
        -- rewrite lookup_delete. discriminate.
      * destruct (nonzero v); cbn; [rewrite lookup_insert_ne by auto|rewrite lookup_delete_ne by auto]; apply Hr.
    + destruct (nonzero v); exact Hd.
Qed.
Lemma oracle_run c g l : oracle_ok c (run c (genesis_state g) l).
Proof.
  apply run_inv'; [intros; apply oracle_step; auto|]. repeat split; intros; exfalso;
  match goal with H : _ !! _ = Some _ |- _ => cbn in H; rewrite lookup_empty in H; discriminate end.
Qed.
Theorem C26_whitelists_bounded_and_unique : forall c g l src,
  let s := run c (genesis_state g) l in lenN (whitelist s src) <= c_max_wl c /\ NoDup (whitelist s src).
Proof. intros c g l src. apply whitelist_ok, oracle_run. Qed.
Print Assumptions C26_whitelists_bounded_and_unique.
Theorem C26_only_root_changes_whitelists : forall c s x src,
  whitelist (step c s x) src <> whitelist s src ->
  exists fp, (x = OCall Root (CTo (ToAdd src fp)) /\ ~ fp ∈ whitelist s src /\ whitelist (step c s x) src = whitelist s src ++ [fp]) \/
             (x = OCall Root (CTo (ToRemove src fp)) /\ fp ∈ whitelist s src /\
              forall y, y ∈ whitelist (step c s x) src <-> (y ∈ whitelist s src /\ y <> fp)).
Proof.
  intros c s x src H. destruct (op_may_write x PTo) eqn:Hw.
  2: { exfalso. apply H. unfold whitelist. rewrite (step_same c s x PTo Hw). auto. }
  destruct x as [o k| | | | | | | | | |]; try discriminate Hw.
  destruct (step_call c s o k) as [(s' & E & Es)|Es]; rewrite Es in *; [|contradiction].
  destruct k as [x|x|x|x|x|x|x|x]; try discriminate Hw; cbn [exec] in E. unfold whitelist in H at 1.
  destruct x; cbn [to_exec] in E.
  - apply add_wl_ok in E as (-> & Hl & Hn & Hlt & ->). exists fp. left. cbn in H.
    destruct (decide (src0 = src)) as [->|Hne]; [|rewrite lookup_insert_ne in H by auto; contradiction].
    repeat split; auto. unfold whitelist at 1. cbn. rewrite lookup_insert. auto.
  - apply remove_wl_ok in E as (-> & Hi & ->). exists fp. right. cbn in H.
    destruct (decide (src0 = src)) as [->|Hne]; [|rewrite lookup_insert_ne in H by auto; contradiction].
    split; [auto|]. split; [auto|]. intros y. unfold whitelist at 1. cbn. rewrite lookup_insert. cbn. unfold id.
    rewrite elem_of_list_filter. tauto.
  - apply update_oracle_ok in E as (a & e & _ & _ & _ & _ & _ & _ & ->). contradiction.
  - apply update_rate_ok in E as (a & e & _ & _ & _ & _ & ->). destruct (nonzero v); contradiction.
Qed.
Print Assumptions C26_only_root_changes_whitelists.
Theorem C26_removed_enclave_cannot_write : forall c s src fp a e x,
  (dispatch c Root (CTo (ToRemove src fp)) s).1 = Success ->
  let s' := (dispatch c Root (CTo (ToRemove src fp)) s).2 in
  tx_sov (rt_tx s') !! a = Some e -> en_mr_enclave e = fp ->
  (exists p v, x = ToUpdateRate src p v) \/ (exists n b, x = ToUpdateOracle n src b) ->
  (dispatch c (Signed a) (CTo x) s').1 <> Success.
Proof. change en_mr_enclave with fingerprint.
  intros c s src fp a e x H s' He Hf Hx Hok.
  assert (~ fp ∈ whitelist s' src) as Hn.
  { subst s'. unfold dispatch in *. destruct (run_call_cases (exec c Root (CTo (ToRemove src fp))) s) as [(s1 & E & Er)|[Hne _]]; [|contradiction].
    rewrite Er. cbn [snd]. cbn [exec to_exec] in E. apply remove_wl_ok in E as (_ & _ & ->).
    unfold whitelist. cbn. rewrite lookup_insert. cbn. unfold id. rewrite elem_of_list_filter. tauto. }
  unfold dispatch in Hok. destruct (run_call_cases (exec c (Signed a) (CTo x)) s') as [(s1 & E & _)|[Hne _]]; [|contradiction].
  cbn [exec] in E. destruct Hx as [(p & v & ->)|(n & b & ->)]; cbn [to_exec] in E.
  - apply update_rate_ok in E as (a' & e' & Ho & H1 & H2 & _). inversion Ho; subst. congruence.
  - apply update_oracle_ok in E as (a' & e' & Ho & H1 & H2 & _). inversion Ho; subst. congruence.
Qed.
Print Assumptions C26_removed_enclave_cannot_write.
Theorem C27_stored_rates_and_keys_well_formed : forall c g l,
  let s := run c (genesis_state g) l in
  (forall p src r, to_rates (rt_to s) !! (p, src) = Some r -> r <> 0 /\ lenN p <= 11 /\ lenN src <= 40) /\
  (forall n src b, to_data (rt_to s) !! (n, src) = Some b -> lenN n <= 40 /\ lenN src <= 40 /\ lenN b <= c_max_blob c) /\
  (forall src w, to_wl (rt_to s) !! src = Some w -> lenN src <= 40).
Proof.
  intros c g l s. destruct (oracle_run c g l) as (H1 & H2 & H3). split; [exact H2|]. split; [exact H3|].
  intros src w H. destruct (H1 _ _ H) as (_ & _ & Hl). exact Hl.
Qed.
Print Assumptions C27_stored_rates_and_keys_well_formed.
Theorem C27_submitted_rate_is_stored_or_deleted : forall c o src p v s s',
  dispatch c o (CTo (ToUpdateRate src p v)) s = (Success, s') ->
  exchange_rate s' p src = default 0 v /\
  (to_rates (rt_to s') !! (p, src) = None <-> default 0 v = 0).
Proof.
  intros c o src p v s s' H. apply run_call_ok in H. cbn [exec to_exec] in H.
  apply update_rate_ok in H as (a & e & _ & _ & _ & _ & ->). unfold exchange_rate.
  destruct v as [[|q]|]; cbn.
  - rewrite lookup_delete. split; [auto|split; auto].
  - rewrite lookup_insert. cbn. unfold id. split; [auto|]. split; discriminate.
  - rewrite lookup_delete. split; [auto|split; auto].
Qed.
Print Assumptions C27_submitted_rate_is_stored_or_deleted.

(** *** A concrete history *)
Definition src1 : bytes := [99; 103].
Definition to_hist : list op :=
  [register alice (acc 9); register bob (acc 8); OCall Root (CTo (ToAdd src1 (acc 9)));
   OCall Root (CTo (ToAdd src1 (acc 9))); OCall Root (CTo (ToAdd src1 (acc 7)));
   OCall (Signed alice) (CTo (ToUpdateRate src1 [1; 2] (Some 42)));
   OCall (Signed alice) (CTo (ToUpdateOracle [7] src1 [1; 2; 3]));
   OCall (Signed bob) (CTo (ToUpdateRate src1 [1; 2] (Some 43)))].
Definition to_state := run cfg0 (genesis_state (gen0 [alice; bob])) to_hist.
Example C25_example :
  to_rates (rt_to to_state) !! ([1; 2], src1) = Some 42 /\ to_data (rt_to to_state) !! ([7], src1) = Some [1; 2; 3] /\
  whitelist to_state src1 = [acc 9; acc 7] /\
  to_rates (rt_to (dispatch cfg0 (Signed alice) (CTo (ToUpdateRate src1 [1; 2] (Some 44))) to_state).2) !! ([1; 2], src1) = Some 44.
Proof. vm_compute. repeat split; reflexivity. Qed.
Example C26_example :
  let s := (dispatch cfg0 Root (CTo (ToRemove src1 (acc 9))) to_state).2 in
  (dispatch cfg0 Root (CTo (ToRemove src1 (acc 9))) to_state).1 = Success /\ whitelist s src1 = [acc 7] /\
  (dispatch cfg0 (Signed alice) (CTo (ToUpdateRate src1 [1; 2] (Some 44))) s).1 = Failed FingerprintNotWhitelisted.
Proof. vm_compute. repeat split; reflexivity. Qed.
Example C27_example :
  let s := (dispatch cfg0 (Signed alice) (CTo (ToUpdateRate src1 [1; 2] (Some 0))) to_state).2 in
  (dispatch cfg0 (Signed alice) (CTo (ToUpdateRate src1 [1; 2] (Some 0))) to_state).1 = Success /\
  to_rates (rt_to s) !! ([1; 2], src1) = None.
Proof. vm_compute. repeat split; reflexivity. Qed.
