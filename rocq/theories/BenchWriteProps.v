(** * Which entries the benchmarks change: C92. *)
From Coq Require Import String.
From Verif Require Import Base State Env TeerdaysModel TeerexBase SgxVerifyModel TeerexModel
  EnclaveBridgeModel SidechainModel TeeracleModel ClaimsModel AssetRegistryModel XcmTransactorModel
  Runtime Frame EnvFacts Panic Examples BridgeProofs TeerexProofs TeeracleProps XcmProps
  AttestationProps RuntimeProps ClaimsProps AcceptProps EffectProps WeightsModel WeightProps
  CollateralModel TextModel TestData SerialModel BenchmarksModel BenchProps ClaimBenchProps.

(** The benchmark of [update_other] measures a call in the block of the bond, which writes the bond as it
    was: no entry of the storage changes, while calls in later blocks change one. *)
Theorem C92_update_other_benchmark_changes_nothing : forall c e g o k s s',
  measures c e g BnUpdateOther o k s s' -> o = Signed (be_alice e) /\ k = CTd (TdUpdateOther (be_alice e)) /\ forall i, keeps_item s s' i.
Proof.
  intros c e g o k s s' (s0 & H & -> & Hd & _). cbn [setup] in H. set (a := be_alice e) in *.
  apply bind_ok in H as ([] & s1 & H1 & H). unfold set_timestamp, modify in H1. injection H1 as <-.
  apply bind_ok in H as ([] & s2 & H2 & H).
  destruct (make_free_eq c a 4000000000 (set_clock 0 (rt_blk (genesis_state g)) (genesis_state g))) as (s2' & E & _ & Hn & _ & Ht & _).
  pose proof (eq_trans (eq_sym E) H2) as HE. injection HE as <-. clear H2. apply bind_ok in H as ([] & s3 & H3 & H). unfold ret in H. injection H as <- <- <-.
  split; [auto|]. split; [auto|]. apply dispatch_iff in H3. apply C69_teerdays_calls_do_exactly_this in H3 as (a' & [= <-] & (B & _) & HU).
  pose proof (HU PClock eq_refl) as HC. cbn [same] in HC. unfold v_clock in HC. injection HC as HC _. rewrite Hn in *. cbn [rt_now set_clock] in *.
  apply C69_teerdays_calls_do_exactly_this in Hd as (a' & [= <-] & (b & H1 & H2 & H3 & H4 & _) & HV). revert H1 H2 H3. fb. intros H1 H2 H3.
  assert (entry_set (td_bonds (rt_td s3)) (td_bonds (rt_td s')) a (Some b)) as H2'.
  { revert H2. rewrite HC. rewrite B in H1. destruct (decide (a = a)); [|tauto]. injection H1 as <-. unfold token_time. cbn [bd_tt bd_value bd_last].
    rewrite N.sub_diag, N.mul_0_r, N.add_0_r, N.min_0_r. auto. }
  intros i. destruct i; try (apply (frame_item _ _ _ _ HV); reflexivity); cbn [keeps_item].
  - intros id. apply H4.
  - fb. rewrite H2'. destruct (decide _) as [->|]; congruence.
  - fb. congruence.
Qed.
Print Assumptions C92_update_other_benchmark_changes_nothing.

(** The benchmarks of the calls that enact a due upgrade of the shard's configuration measure calls that
    do not: no configuration changes, while there are successful calls that change one. *)
Definition enacts (k : call) : Prop := exists c g o s s' sh, reachable c g s /\ dispatch c o k s = (Success, s') /\ ~ keeps_item s s' (IConfig sh).
Ltac enact ops :=
  exists cfg0, (gen0 [alice]), (Signed alice), (run cfg0 (genesis_state (gen0 [alice])) ops); eexists; exists (acc 9);
  split; [exists ops; reflexivity|]; split;
  [match goal with |- ?d = _ => rewrite (surjective_pairing d); apply (f_equal2 pair); [vm_compute; reflexivity|reflexivity] end|];
  intros Hk; vm_compute in Hk; discriminate Hk.
Definition upgrade_ops : list op :=
  [register alice (acc 9); OCall Root (CEb (EbUpdateConfig (acc 9) (mkScfg (acc 9) None None false) 0));
   OCall Root (CEb (EbUpdateConfig (acc 9) (mkScfg (acc 9) None None true) 1)); call_eb alice (EbShield (acc 9) [] 500); ONextBlock 1].
Lemma no_config_kept c e g b s0 o k : setup c e b (genesis_state g) = Ok (o, k) s0 -> eb_config (rt_eb s0) = ∅ ->
  forall sh l, config_items (first_block s0) sh l -> l = [].
Proof.
  intros _ H sh l [[(u & p & t & Hu & _) _]|[_ Hl]]; [|exact Hl]. revert Hu. fb. rewrite H. rewrite lookup_empty. discriminate.
Qed.
Theorem C92_due_upgrades_are_not_measured :
  (forall c e g b o k s s', b = BnConfirm \/ b = BnUnshield \/ b = BnSidechain -> measures c e g b o k s s' ->
     forall sh, keeps_item s s' (IConfig sh)) /\
  (exists sh h n r, enacts (CEb (EbConfirm sh h n r))) /\ (exists sh b v h, enacts (CEb (EbUnshield sh b v h))) /\
  (exists sh anc cand, enacts (CSc (ScConfirm sh anc cand))).
Proof.
  split; [|split; [|split]].
  - intros c e g b o k s s' Hb (s0 & H & -> & Hd & _) sh.
    assert (eb_config (rt_eb s0) = ∅) as H0.
    { destruct Hb as [Hb | [Hb | Hb]]; rewrite Hb in H; cbn [setup] in H.
      - apply bind_ok in H as ([] & s1 & H1 & H). unfold ret in H. injection H as _ _ <-. injection H1 as <-. reflexivity.
      - apply bind_ok in H as ([] & s1 & H1 & H). injection H1 as <-. apply bind_ok in H as ([] & s2 & H2 & H). unfold ret in H. injection H as _ _ <-.
        match type of H2 with make_free_balance_be _ ?a ?v ?s = _ => destruct (make_free_eq c a v s) as (s2' & E & _ & _ & _ & _ & He & _) end.
        pose proof (eq_trans (eq_sym E) H2) as HE. injection HE as <-. rewrite He. reflexivity.
      - apply bind_ok in H as ([] & s1 & H1 & H). unfold ret in H. injection H as _ _ <-. injection H1 as <-. reflexivity. }
    pose proof (no_config_kept c e g b s0 o k H H0) as HN.
    apply C73_calls_write_only_these_entries in Hd as (l & Hf & Hk). apply Hk. clear Hk.
    destruct Hb as [Hb | [Hb | Hb]]; rewrite Hb in H; cbn [setup] in H.
    + apply bind_ok in H as ([] & s1 & _ & H). unfold ret in H. injection H as <- <- <-. cbn [footprint] in Hf. destruct Hf as (l' & Hl & ->).
      apply HN in Hl as ->. intros [Hx|[]]. discriminate Hx.
    + apply bind_ok in H as ([] & s1 & _ & H). apply bind_ok in H as ([] & s2 & _ & H). unfold ret in H. injection H as <- <- <-. cbn [footprint] in Hf. destruct Hf as (l' & Hl & ->).
      apply HN in Hl as ->. intros Hx. cbn [In] in Hx. repeat destruct Hx as [Hx|Hx]; try discriminate Hx; contradiction.
    + apply bind_ok in H as ([] & s1 & _ & H). unfold ret in H. injection H as <- <- <-. cbn [footprint] in Hf. destruct Hf as (a & l' & _ & Hl & Hf).
      apply HN in Hl as ->. destruct Hf as [[_ ->]|[_ ->]]; cbn [In]; intros Hx; repeat destruct Hx as [Hx|Hx]; try discriminate Hx; contradiction.
  - exists (acc 9), [], 1, []. enact upgrade_ops.
  - exists (acc 9), carol, 100, [7]. enact upgrade_ops.
  - exists (acc 9), None, (mkSconf 1 []). enact upgrade_ops.
Qed.
Print Assumptions C92_due_upgrades_are_not_measured.

(** A runtime on which every benchmark passes: small deposit, the real documents, debug enclaves allowed *)
Definition bench_cfg : cfg :=
  mkCfg true 10 (2 ^ 128 - 1) u32_max 1000 86400000 172800000 3 64 []
        (fun o => beq (match o with Signed a => a | _ => [] end) carol) (fun o => match o with Root => true | _ => false end) (fun _ => false) 2267 2039 2039
        (fun b => b) (fun sig _ => Some (zeros 12 ++ takeN 20 sig)) (fun _ => inr []) real_oracles.
Definition bench_env : benv := mkBenv (fun n => acc (10 + n)) alice bob (fun b => b) 5 0.
Definition claim_env : clenv := mkClenv (fun n => zeros 12 ++ replicate 20 n) (fun n _ => replicate 20 n) carol (replicate 20 1).
Definition bench_genesis : genesis := mkGenesis 0 ∅ [] [] true false {[5 := 1]}.
Example C92_example : let p := passes bench_cfg bench_env bench_genesis in let q := claim_passes bench_cfg claim_env bench_genesis in
  (p BnBond /\ p BnUnbond /\ p BnUpdateOther /\ p BnWithdraw) /\
  (p BnInvoke /\ p BnConfirm /\ p BnShield /\ p BnUnshield /\ p (BnPublish 100 5) /\ ~ p (BnPublish 100 6) /\ p BnUpdateConfig /\ p BnPurge /\ p BnSidechain) /\
  (p BnAddWl /\ p BnRemoveWl /\ p BnUnregSovereign /\ p BnUnregProxied /\ p BnFlags) /\
  (p BnAssetRegister /\ p BnAssetUnregister) /\ (p BnRegister /\ p BnRegisterQe /\ p BnRegisterTcb) /\ (p BnRate /\ p BnOracle) /\
  (q BcClaim /\ q BcMint /\ q BcClaimAttest /\ q BcAttest /\ q BcMove).
Proof.
  intros p q. split; [|split; [|split; [|split; [|split; [|split]]]]].
  - destruct (C92_teerdays_benchmarks_pass_iff bench_cfg bench_env bench_genesis) as (H1 & H2 & H3 & H4).
    split; [apply H1; vm_compute; discriminate|]. split; [apply H2; split; [|intros _]; vm_compute; discriminate|]. split; [apply H3; vm_compute; discriminate|exact H4].
  - destruct (C92_bridge_benchmarks_pass_iff bench_cfg bench_env bench_genesis) as (H1 & H2 & H3 & H4 & H5 & H6 & H7 & H8);
      [vm_compute; discriminate|vm_compute; discriminate|apply lookup_empty|apply lookup_empty|].
    split; [exact H1|]. split; [exact H2|]. split; [apply H3; right; vm_compute; discriminate|]. split; [apply H4; right; vm_compute; discriminate|].
    split; [apply H5; split; vm_compute; discriminate|]. split; [intros Hx; apply H5 in Hx as [_ Hx]; lia|]. auto.
  - destruct (C92_upkeep_benchmarks_pass_iff bench_cfg bench_env bench_genesis) as (H1 & H2 & H3 & H4 & H5).
    split; [apply H1; vm_compute; discriminate|]. split; [apply H2; vm_compute; discriminate|]. split; [apply H3; vm_compute; discriminate|].
    split; [apply H4; vm_compute; discriminate|exact H5].
  - destruct (C92_asset_benchmarks_pass_iff bench_cfg bench_env bench_genesis) as (H1 & H2).
    split; [apply H1|apply H2]; (split; [reflexivity|]); exists 1; reflexivity.
  - destruct (C92_registration_benchmarks_pass_iff bench_cfg bench_env bench_genesis eq_refl) as (H1 & H2 & H3). split; [apply H1; reflexivity|auto].
  - destruct (C92_oracle_benchmarks_pass_iff bench_cfg bench_env bench_genesis eq_refl) as (H1 & H2).
    assert (g_debug bench_genesis = true /\ 0 < c_day bench_cfg /\ 1 <= c_max_wl bench_cfg) as HR by (split; [reflexivity|split; [reflexivity|vm_compute; discriminate]]).
    split; [apply H1, HR|apply H2]. split; [exact HR|vm_compute; discriminate].
  - destruct (C92_claims_benchmarks_pass_iff bench_cfg claim_env bench_genesis) as (H1 & H2 & H3 & H4 & H5);
      [reflexivity|intros n h; reflexivity|vm_compute; discriminate|vm_compute; discriminate|vm_compute; discriminate|].
    assert (forall n, n <= 10001 -> cl_total (rt_cl (genesis_state bench_genesis)) + n * 1000000 <= c_bal_max bench_cfg) as HR.
    { intros n Hn. change (cl_total (rt_cl (genesis_state bench_genesis))) with 0. change (c_bal_max bench_cfg) with (2 ^ 128 - 1). lia. }
    split; [apply H1; split; [apply HR; lia|apply lookup_empty]|]. split; [apply H2, HR; lia|]. split; [apply H3, HR; lia|]. split; [apply H4, HR; lia|].
    apply H5. split; [apply HR; lia|apply lookup_empty].
Qed.
(** A later call of [update_other] changes the bond *)
Example C92_example_update :
  let s := run cfg0 (genesis_state (gen0 [alice])) [call_td alice (TdBond 100); ONextBlock 50] in
  ~ keeps_item s (dispatch cfg0 (Signed bob) (CTd (TdUpdateOther alice)) s).2 (IBond alice).
Proof. intros s Hk. vm_compute in Hk. discriminate Hk. Qed.
