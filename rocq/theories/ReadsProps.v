(** * C94: declared storage reads, and which of the listed reads are needed. *)
From Verif Require Import Base State Env TeerdaysModel TeerexBase SgxVerifyModel TeerexModel
  EnclaveBridgeModel SidechainModel TeeracleModel ClaimsModel AssetRegistryModel XcmTransactorModel
  MigrationsModel Runtime ScaleModel StorageModel Frame EnvFacts WeightsModel WeightProps Footprint FootprintProps
  SgxProps TeerexProps AttestationProps ClaimsProps Examples.

(** ** Declared reads *)
(** The number of storage reads the declared weight of a call pays for *)
Definition declared_reads (k : call) : N :=
  (call_weight (mkDbw 1 0) no_clw k).1 - (call_weight (mkDbw 0 0) no_clw k).1.
Definition declared_reads_spec (k : call) : N :=
  match k with
  | CTd (TdBond _) | CTd (TdBondExtra _) | CTd TdWithdrawUnbonded => 5
  | CTd (TdUnbond _) => 3
  | CTd (TdUpdateOther _) => 2
  | CEb (EbPublish _ _ data) => 3 + lenN data
  | CEb (EbUpdateConfig _ _ _) => 3
  | CEb (EbConfirm _ _ _ _) | CEb (EbPurge _ _) => 1
  | CEb _ => 0
  | CSc _ => 1
  | CTo (ToUpdateRate _ _ _) => 3
  | CTo (ToUpdateOracle _ _ _) => 2
  | CTo _ => 1
  | CTx (TxRegister _ _ _) => 4
  | CTx (TxUnregisterSovereign _) | CTx (TxUnregisterProxied _) => 2
  | CTx (TxSetFlags _ _) => 0
  | CTx _ => 1
  | CAr (ArRegister _ _) => 2
  | CAr (ArUnregister _) => 1
  | CCl _ | CXt _ => 0
  end.
(** That number is what a read costs in the declared weight, at all realistic prices *)
Theorem C94_declared_reads_are_what_is_priced : forall r p w k, r <= 10 ^ 12 -> p <= 10 ^ 12 -> small_publication k ->
  (call_weight (mkDbw r p) w k).1 = (call_weight (mkDbw 0 p) w k).1 + r * declared_reads k /\
  declared_reads k = declared_reads_spec k.
Proof.
  intros r p w k Hr Hp Hs. change (10 ^ 12) with 1000000000000 in *.
  assert (u64_max = 18446744073709551615) as Eu by reflexivity.
  assert (declared_reads k = declared_reads_spec k) as Hd.
  { destruct k as [x|x|x|x|x|x|x|x]; destruct x; try reflexivity. destruct Hs as [Ht Hd].
    unfold declared_reads. cbn [call_weight eb_weight declared_reads_spec].
    rewrite !(N.min_l _ u32_max) by (change u32_max with 4294967295; lia).
    rewrite !publish_weight by (cbn; lia). cbn [fst db_read db_write]. lia. }
  split; [|exact Hd]. rewrite Hd. clear Hd.
  destruct k as [x|x|x|x|x|x|x|x]; destruct x;
    cbn [call_weight td_weight eb_weight sc_weight to_weight tx_weight cl_weight ar_weight xt_weight declared_reads_spec];
    try (rewrite !w4_time by (cbn; lia); cbn [db_read db_write]; lia);
    try (rewrite N.mul_0_r, N.add_0_r; reflexivity);
    cbn in Hs; try (lazymatch type of Hs with _ /\ _ => destruct Hs as [Ht Hd] end; rewrite !(N.min_l _ u32_max) by (change u32_max with 4294967295; lia);
      rewrite !publish_weight by (cbn; lia); cbn [fst db_read db_write]; lia);
    unfold sc_weight, w_add, w_parts, WeightsModel.reads, WeightsModel.writes; cbn [fst snd db_read db_write];
    repeat match goal with
    | |- context [sat64 ?n] => lazymatch n with context [sat64 _] => fail | _ => rewrite (sat64_small n) by (rewrite Eu; lia) end
    end; lia.
Qed.
Print Assumptions C94_declared_reads_are_what_is_priced.

(** The whole declared weight: computation, reads and writes at their prices, and the proof size. (The
    weights of claims are chosen by the runtime.) *)
Definition declared_time (k : call) : N :=
  match k with
  | CTd (TdBond _) | CTd (TdBondExtra _) => 86401000
  | CTd (TdUnbond _) => 56711000
  | CTd (TdUpdateOther _) => 37183000
  | CTd TdWithdrawUnbonded => 82512000
  | CEb (EbInvoke _ _) | CEb (EbShield _ _ _) | CEb (EbUnshield _ _ _ _) => 26600000
  | CEb (EbConfirm _ _ _ _) => 28700000
  | CEb (EbPublish _ t d) => 28179644 + 318271 * lenN t + 7329090 * lenN d
  | CEb (EbUpdateConfig _ _ _) => 28742000
  | CEb (EbPurge _ _) => 10000000
  | CSc _ | CTx (TxSetFlags _ _) | CXt _ => 46200000
  | CTo (ToUpdateRate _ _ _) => 49230000
  | CTo (ToUpdateOracle _ _ _) => 41294000
  | CTo (ToAdd _ _) => 19529000
  | CTo (ToRemove _ _) => 21866000
  | CTx (TxRegister _ _ _) => 2049028000
  | CTx (TxRegisterQe _ _ _) => 1031990000
  | CTx (TxRegisterTcb _ _ _) => 1128361000
  | CTx (TxUnregisterSovereign _) => 18139000
  | CTx (TxUnregisterProxied _) => 21264000
  | CAr (ArRegister _ _) => 22970000
  | CAr (ArUnregister _) => 18454000
  | CCl _ => 0
  end.
Definition declared_proof (k : call) : N :=
  match k with
  | CTd (TdBond _) | CTd (TdBondExtra _) | CTd TdWithdrawUnbonded => 4764
  | CTd _ => 3718
  | CEb (EbConfirm _ _ _ _) => 2717
  | CEb (EbPublish _ _ d) => 8511 + 2475 * lenN d
  | CEb (EbUpdateConfig _ _ _) => 3928
  | CEb _ | CSc _ | CTx (TxSetFlags _ _) | CXt _ | CCl _ => 0
  | CTo (ToUpdateRate _ _ _) => 3919
  | CTo (ToUpdateOracle _ _ _) => 3910
  | CTo (ToAdd _ _) => 3471
  | CTo (ToRemove _ _) => 3572
  | CTx (TxRegister _ _ _) => 3859
  | CTx (TxRegisterQe _ _ _) | CTx (TxRegisterTcb _ _ _) => 1493
  | CTx (TxUnregisterSovereign _) => 3938
  | CTx (TxUnregisterProxied _) => 4040
  | CAr (ArRegister _ _) => 7762
  | CAr (ArUnregister _) => 4087
  end.
Theorem C94_declared_weights : forall r p k, r <= 10 ^ 12 -> p <= 10 ^ 12 -> small_publication k ->
  call_weight (mkDbw r p) no_clw k =
  (declared_time k + r * declared_reads_spec k + p * declared_writes_spec k, declared_proof k).
Proof.
  intros r p k Hr Hp Hs. change (10 ^ 12) with 1000000000000 in *.
  assert (u64_max = 18446744073709551615) as Eu by reflexivity.
  destruct k as [x|x|x|x|x|x|x|x]; destruct x;
    cbn [call_weight td_weight eb_weight sc_weight to_weight tx_weight cl_weight ar_weight xt_weight declared_reads_spec
      declared_writes_spec declared_time declared_proof no_clw clw_claim clw_mint clw_claim_attest clw_attest clw_move];
    cbn in Hs; try (lazymatch type of Hs with _ /\ _ => destruct Hs as [Ht Hd] end;
      rewrite !(N.min_l _ u32_max) by (change u32_max with 4294967295; lia);
      rewrite !publish_weight by (cbn; lia); cbn [fst db_read db_write]; apply f_equal2; lia);
    unfold sc_weight, w4, w_add, w_parts, WeightsModel.reads, WeightsModel.writes; cbn [fst snd db_read db_write];
    repeat match goal with
    | |- context [sat64 ?n] => lazymatch n with context [sat64 _] => fail | _ => rewrite (sat64_small n) by (rewrite Eu; lia) end
    end; apply f_equal2; lia.
Qed.
Print Assumptions C94_declared_weights.

(** The entries of the chain's database behind an entry of the state. How much of a balance is
    frozen is kept with the account ([frame_system::Account]), the single locks in [Balances::Locks];
    the block number is kept in memory and is not charged for. *)
Inductive entry :=
| DNow | DAccount (a : acct) | DLocks (a : acct) | DVest (a : acct) | DAsset (i : N) | DE (k : skey).
#[global] Instance entry_dec : EqDecision entry. Proof. solve_decision. Defined.
Definition kept_in (x : cell) : list entry :=
  match x with
  | XNow => [DNow]
  | XBlk => []
  | XFree a => [DAccount a]
  | XLocks a => [DAccount a; DLocks a]
  | XVest a => [DVest a]
  | XAsset i => [DAsset i]
  | XE k => [DE k]
  end.
(** The calls whose declared reads cover what they depend on. (The weights of claims are chosen by
    the runtime.) *)
Definition reads_declared (k : call) : Prop :=
  match k with
  | CEb (EbConfirm _ _ _ _) | CEb (EbShield _ _ _) | CEb (EbUnshield _ _ _ _) | CSc _ | CCl _ => False
  | _ => small_publication k
  end.
Lemma dups_len {A} `{EqDecision A} (l l' : list A) : (forall x, x ∈ l -> x ∈ l') -> lenN (remove_dups l) <= lenN l'.
Proof.
  intros H. unfold lenN. assert (length (remove_dups l) <= length l')%nat; [|lia].
  apply NoDup_incl_length; [apply NoDup_ListNoDup, NoDup_remove_dups|]. intros x Hx.
  apply elem_of_list_In, H, elem_of_remove_dups, elem_of_list_In, Hx.
Qed.
Ltac small := cbn -[N.add N.le lenN length]; unfold lenN; cbn [length]; lia.
Theorem C94_declared_reads_cover_what_calls_depend_on : forall c o k s, reads_declared k ->
  exists l, NoDup l /\ lenN l <= declared_reads k /\
  forall s2, (forall x, (forall d, d ∈ kept_in x -> d ∈ l) -> same_at x s s2) ->
    (dispatch c o k s).1 = (dispatch c o k s2).1 /\
    does_same s (dispatch c o k s).2 s2 (dispatch c o k s2).2.
Proof.
  intros c o k s Hk.
  exists (remove_dups (op_reads c (OCall o k) s ≫= kept_in)).
  split; [apply NoDup_remove_dups|]. split.
  - assert (small_publication k) as Hsm.
    { destruct k as [x|x|x|x|x|x|x|x]; try exact I. destruct x; try exact I; try contradiction. exact Hk. }
    destruct (C94_declared_reads_are_what_is_priced 0 0 no_clw k ltac:(lia) ltac:(lia) Hsm) as [_ ->].
    assert (forall l', (forall x, x ∈ op_reads c (OCall o k) s ≫= kept_in -> x ∈ l') -> lenN l' <= declared_reads_spec k ->
      lenN (remove_dups (op_reads c (OCall o k) s ≫= kept_in)) <= declared_reads_spec k) as G.
    { intros l' H1 H2. etransitivity; [apply dups_len, H1|exact H2]. }
    cbn [op_reads] in *. unfold reads, reads_signed, reads_root, reads_none, reads_other in *.
    destruct o as [|a|]; destruct k as [x|x|x|x|x|x|x|x]; destruct x; try contradiction; clear Hk Hsm; cbn [app declared_reads_spec] in *;
      try (apply (G _ (fun x Hx => Hx)); small).
    + apply (G [DE (KPending a); DE (KBonds a); DAccount a; DLocks a; DNow]); [|small]. intros x. rewrite !elem_of_list_In. cbn. tauto.
    + apply (G _ (fun x Hx => Hx)). destruct (tx_sov _ !! _); small.
    + apply (G _ (fun x Hx => Hx)). destruct m as [| |]; try (small).
      destruct (extract_tcb_info_from_raw _ _) as [[? ?]| |]; small.
  - intros s2 H. destruct (C86_operations_depend_only_on_their_reads c (OCall o k) s s2) as [H1 H2]; [|exact (conj H1 H2)].
    intros x Hx. apply H. intros d Hd. apply elem_of_remove_dups, elem_of_list_bind. eauto.
Qed.
Print Assumptions C94_declared_reads_cover_what_calls_depend_on.

(** ** Dependence *)
(** What [p] does in [s] depends on the entry [x]: it does something else in a state that differs
    from [s] only there *)
Definition depends_at (c : cfg) (p : op) (s : rt) (x : cell) : Prop :=
  exists s', (forall y, y <> x -> same_at y s s') /\
  ~ (ends c s p = ends c s' p /\ does_same s (step c s p) s' (step c s' p)).

(** [s] with the entry [x] taken from [t] *)
Definition from {K V} `{Countable K} (k : K) (m' m : gmap K V) : gmap K V := partial_alter (fun _ => m' !! k) k m.
Definition graft (x : cell) (s t : rt) : rt :=
  match x with
  | XNow => set_clock (rt_now t) (rt_blk s) s
  | XBlk => set_clock (rt_now s) (rt_blk t) s
  | XFree a => set_bal (mkBal (from a (b_free (rt_bal t)) (b_free (rt_bal s))) (b_locks (rt_bal s))) s
  | XLocks a => set_bal (mkBal (b_free (rt_bal s)) (from a (b_locks (rt_bal t)) (b_locks (rt_bal s)))) s
  | XVest a => set_vest (from a (rt_vest t) (rt_vest s)) s
  | XAsset i => set_ar (mkAr (ar_loc (rt_ar s)) (ar_id (rt_ar s)) (from i (ar_assets (rt_ar t)) (ar_assets (rt_ar s)))) s
  | XE k =>
      let tx := rt_tx s in let eb := rt_eb s in let td := rt_td s in let cl := rt_cl s in let to := rt_to s in let ar := rt_ar s in
      match k with
      | KSov a => set_tx (mkTx (from a (tx_sov (rt_tx t)) (tx_sov tx)) (tx_prox tx) (tx_qe tx) (tx_tcb tx) (tx_allow_debug tx) (tx_allow_skip tx)) s
      | KProx a => set_tx (mkTx (tx_sov tx) (from a (tx_prox (rt_tx t)) (tx_prox tx)) (tx_qe tx) (tx_tcb tx) (tx_allow_debug tx) (tx_allow_skip tx)) s
      | KQe => set_tx (mkTx (tx_sov tx) (tx_prox tx) (tx_qe (rt_tx t)) (tx_tcb tx) (tx_allow_debug tx) (tx_allow_skip tx)) s
      | KTcb f => set_tx (mkTx (tx_sov tx) (tx_prox tx) (tx_qe tx) (from f (tx_tcb (rt_tx t)) (tx_tcb tx)) (tx_allow_debug tx) (tx_allow_skip tx)) s
      | KDebug => set_tx (mkTx (tx_sov tx) (tx_prox tx) (tx_qe tx) (tx_tcb tx) (tx_allow_debug (rt_tx t)) (tx_allow_skip tx)) s
      | KSkip => set_tx (mkTx (tx_sov tx) (tx_prox tx) (tx_qe tx) (tx_tcb tx) (tx_allow_debug tx) (tx_allow_skip (rt_tx t))) s
      | KStatus h => set_eb (mkEb (from h (eb_status (rt_eb t)) (eb_status eb)) (eb_config eb) (eb_exec eb)) s
      | KConfig h => set_eb (mkEb (eb_status eb) (from h (eb_config (rt_eb t)) (eb_config eb)) (eb_exec eb)) s
      | KExec h => set_eb (mkEb (eb_status eb) (eb_config eb) (from h (eb_exec (rt_eb t)) (eb_exec eb))) s
      | KLatest h => set_sc (from h (rt_sc t) (rt_sc s)) s
      | KRates p a => set_to (mkTo (from (p, a) (to_rates (rt_to t)) (to_rates to)) (to_data to) (to_wl to)) s
      | KData n a => set_to (mkTo (to_rates to) (from (n, a) (to_data (rt_to t)) (to_data to)) (to_wl to)) s
      | KWhitelist a => set_to (mkTo (to_rates to) (to_data to) (from a (to_wl (rt_to t)) (to_wl to))) s
      | KBonds a => set_td (mkTd (from a (td_bonds (rt_td t)) (td_bonds td)) (td_pending td)) s
      | KPending a => set_td (mkTd (td_bonds td) (from a (td_pending (rt_td t)) (td_pending td))) s
      | KClaims e => set_cl (mkCl (from e (cl_claims (rt_cl t)) (cl_claims cl)) (cl_total cl) (cl_vesting cl) (cl_signing cl) (cl_preclaims cl)) s
      | KTotal => set_cl (mkCl (cl_claims cl) (cl_total (rt_cl t)) (cl_vesting cl) (cl_signing cl) (cl_preclaims cl)) s
      | KVesting e => set_cl (mkCl (cl_claims cl) (cl_total cl) (from e (cl_vesting (rt_cl t)) (cl_vesting cl)) (cl_signing cl) (cl_preclaims cl)) s
      | KSigning e => set_cl (mkCl (cl_claims cl) (cl_total cl) (cl_vesting cl) (from e (cl_signing (rt_cl t)) (cl_signing cl)) (cl_preclaims cl)) s
      | KPreclaims a => set_cl (mkCl (cl_claims cl) (cl_total cl) (cl_vesting cl) (cl_signing cl) (from a (cl_preclaims (rt_cl t)) (cl_preclaims cl))) s
      | KAssetLoc i => set_ar (mkAr (from i (ar_loc (rt_ar t)) (ar_loc ar)) (ar_id ar) (ar_assets ar)) s
      | KAssetId l => set_ar (mkAr (ar_loc ar) (from l (ar_id (rt_ar t)) (ar_id ar)) (ar_assets ar)) s
      | KV0Registry _ | KV0Count | KV0Index _ | KV0Debug | KVersion => s
      end
  end.
Lemma from_ne {K V} `{Countable K} (k k' : K) (m' m : gmap K V) : k' <> k -> m !! k' = from k m' m !! k'.
Proof. intros H0. unfold from. rewrite lookup_partial_alter_ne; auto. Qed.
Lemma graft_elsewhere x s t y : y <> x -> same_at y s (graft x s t).
Proof.
  intros Hn. destruct x as [| | | | | |k]; [..|destruct k]; try (destruct y as [| | | | | |k']; [..|destruct k']; cbn; try reflexivity;
    first [congruence|apply from_ne; congruence]).
Qed.

(** Both are decidable *)
#[local] Instance rp_sgx_error_dec : EqDecision sgx_error. Proof. solve_decision. Defined.
#[local] Instance rp_error_dec : EqDecision error. Proof. solve_decision. Defined.
#[local] Instance rp_status_dec : EqDecision status. Proof. solve_decision. Defined.
#[local] Instance rp_enclave_dec : EqDecision enclave. Proof. solve_decision. Defined.
#[local] Instance rp_qe_dec : EqDecision qenclave. Proof. solve_decision. Defined.
#[local] Instance rp_level_dec : EqDecision tcb_level. Proof. solve_decision. Defined.
#[local] Instance rp_tcb_dec : EqDecision tcb_info. Proof. solve_decision. Defined.
#[local] Instance rp_bond_dec : EqDecision bond. Proof. solve_decision. Defined.
#[local] Instance rp_sstat_dec : EqDecision sstat. Proof. solve_decision. Defined.
#[local] Instance rp_scfg_dec : EqDecision scfg. Proof. solve_decision. Defined.
#[local] Instance rp_uscfg_dec : EqDecision uscfg. Proof. solve_decision. Defined.
#[local] Instance rp_sconf_dec : EqDecision sconf. Proof. solve_decision. Defined.
#[local] Instance same_at_dec x s t : Decision (same_at x s t).
Proof. destruct x as [| | | | | |k]; [..|destruct k]; cbn; apply _. Defined.
Definition alikeb (x : cell) (s1 t1 s2 t2 : rt) : bool :=
  (bool_decide (same_at x s1 t1) && bool_decide (same_at x s2 t2)) || bool_decide (same_at x t1 t2).
(** [p] ends differently in [s] and [s'], or what it does to the entry [y] is not the same *)
Definition diffb (c : cfg) (p : op) (s s' : rt) (y : cell) : bool :=
  negb (bool_decide (ends c s p = ends c s' p)) || negb (alikeb y s (step c s p) s' (step c s' p)).
Lemma diffb_ok c p s s' y : diffb c p s s' y = true ->
  ~ (ends c s p = ends c s' p /\ does_same s (step c s p) s' (step c s' p)).
Proof.
  unfold diffb, alikeb. intros H [He D]. rewrite (bool_decide_true _ He) in H. cbn in H. apply negb_true_iff in H.
  apply orb_false_iff in H as [H1 H2]. apply andb_false_iff in H1. apply bool_decide_eq_false in H2.
  destruct (ds_cells _ _ _ _ D y) as [[A B]|A]; [|auto]. destruct H1 as [H1|H1]; apply bool_decide_eq_false in H1; auto.
Qed.
Lemma graft_depends c p s t x y : diffb c p s (graft x s t) y = true -> depends_at c p s x.
Proof. intros H. exists (graft x s t). split; [intros z Hz; apply graft_elsewhere, Hz|eapply diffb_ok, H]. Qed.

(** ** The calls that are not covered *)
(** Entries of the database that are read: each holds an entry of the state that the call depends on *)
Definition under_declared_reads (k : call) : Prop :=
  exists c g o s l, reachable c g s /\ NoDup l /\
  Forall (fun d => exists x, kept_in x = [d] /\ depends_at c (OCall o k) s x) l /\ declared_reads k < lenN l.
Ltac under_reads g o ops l :=
  exists cfg0, g, o, (run cfg0 (genesis_state g) ops), l; split; [exists ops; reflexivity|];
  split; [apply (bool_decide_unpack _); vm_compute; reflexivity|]; split; [|vm_compute; reflexivity].
Ltac dep x t y := apply Forall_cons; split; [exists x; split; [reflexivity|apply (graft_depends _ _ _ t x y); vm_compute; reflexivity]|].
Theorem C94_declared_reads_cover_what_calls_depend_on_refuted :
  (exists sh h n r, under_declared_reads (CEb (EbConfirm sh h n r))) /\
  (exists sh b v, under_declared_reads (CEb (EbShield sh b v))) /\
  (exists sh b v h, under_declared_reads (CEb (EbUnshield sh b v h))) /\
  (exists sh anc cand, under_declared_reads (CSc (ScConfirm sh anc cand))).
Proof.
  set (s0 := genesis_state (gen0 [])).
  set (conf := [register alice (acc 9); OCall Root (CEb (EbUpdateConfig (acc 9) (mkScfg (acc 8) None None false) 0))]).
  set (s1 := run cfg0 (genesis_state (gen0 [])) conf).
  set (s2 := run cfg0 (genesis_state (gen0 [])) [register bob (acc 9); call_eb bob (EbConfirm (acc 9) [] 1 [])]).
  set (s3 := run cfg0 (genesis_state (gen0 [alice; acc 9])) [register alice (acc 9); call_eb alice (EbUnshield (acc 9) carol 100 [7])]).
  set (s4 := run cfg0 (genesis_state (gen0 [])) [register alice (acc 9); call_sc alice (ScConfirm (acc 9) None (mkSconf 1 []))]).
  split; [|split; [|split]].
  - exists (acc 9), [], 1, [].
    under_reads (gen0 [alice]) (Signed alice) [register alice (acc 9); register bob (acc 9); call_eb bob (EbConfirm (acc 9) [] 1 [])]
      [DE (KSov alice); DE (KConfig (acc 9)); DE (KStatus (acc 9))].
    dep (XE (KSov alice)) s0 XNow. dep (XE (KConfig (acc 9))) s1 XNow. dep (XE (KStatus (acc 9))) s0 (XE (KStatus (acc 9))). apply Forall_nil_2.
  - exists (acc 9), [], 100. under_reads (gen0 [alice]) (Signed alice) (@nil op) [DAccount alice; DAccount (acc 9)].
    dep (XFree alice) s0 XNow. dep (XFree (acc 9)) (genesis_state (gen0 [acc 9])) (XFree (acc 9)). apply Forall_nil_2.
  - exists (acc 9), carol, 100, [7].
    under_reads (gen0 [alice; acc 9]) (Signed alice) [register alice (acc 9)]
      [DE (KSov alice); DE (KConfig (acc 9)); DE (KStatus (acc 9)); DE (KExec [7]); DAccount (acc 9); DAccount carol].
    dep (XE (KSov alice)) s0 XNow. dep (XE (KConfig (acc 9))) s1 XNow. dep (XE (KStatus (acc 9))) s2 (XE (KStatus (acc 9))).
    dep (XE (KExec [7])) s3 (XE (KExec [7])). dep (XFree (acc 9)) s0 XNow. dep (XFree carol) (genesis_state (gen0 [carol])) (XFree carol). apply Forall_nil_2.
  - exists (acc 9), None, (mkSconf 1 []).
    under_reads (gen0 [alice]) (Signed alice) [register alice (acc 9)]
      [DE (KSov alice); DE (KConfig (acc 9)); DE (KStatus (acc 9)); DE (KLatest (acc 9))].
    dep (XE (KSov alice)) s0 XNow. dep (XE (KConfig (acc 9))) s1 XNow. dep (XE (KStatus (acc 9))) s2 (XE (KStatus (acc 9))).
    dep (XE (KLatest (acc 9))) s4 XNow. apply Forall_nil_2.
Qed.
Print Assumptions C94_declared_reads_cover_what_calls_depend_on_refuted.

(** Neither do these calls and the removal of an enclave from a shard's status declare any size of the
    storage proof, though what they do depends on the state *)
Theorem C94_proof_sizes_are_declared_refuted : forall w,
  (exists c g o s sh b v x, reachable c g s /\ depends_at c (OCall o (CEb (EbShield sh b v))) s x /\
     (forall d, (call_weight d w (CEb (EbShield sh b v))).2 = 0)) /\
  (exists c g o s sh b v h x, reachable c g s /\ depends_at c (OCall o (CEb (EbUnshield sh b v h))) s x /\
     (forall d, (call_weight d w (CEb (EbUnshield sh b v h))).2 = 0)) /\
  (exists c g o s sh a x, reachable c g s /\ depends_at c (OCall o (CEb (EbPurge sh a))) s x /\
     (forall d, (call_weight d w (CEb (EbPurge sh a))).2 = 0)) /\
  (exists c g o s sh anc k x, reachable c g s /\ depends_at c (OCall o (CSc (ScConfirm sh anc k))) s x /\
     (forall d, (call_weight d w (CSc (ScConfirm sh anc k))).2 = 0)).
Proof.
  intros w. set (s1 := run cfg0 (genesis_state (gen0 [alice])) [register alice (acc 9)]).
  set (s2 := run cfg0 (genesis_state (gen0 [alice; acc 9])) [register alice (acc 9)]).
  split; [|split; [|split]].
  - exists cfg0, (gen0 [alice]), (Signed alice), (run cfg0 (genesis_state (gen0 [alice])) []), (acc 9), [], 100, (XFree alice).
    split; [exists []; reflexivity|]. split; [|reflexivity].
    apply (graft_depends _ _ _ (genesis_state (gen0 [])) _ XNow). vm_compute. reflexivity.
  - exists cfg0, (gen0 [alice; acc 9]), (Signed alice), s2, (acc 9), carol, 100, [7], (XE (KSov alice)).
    split; [exists [register alice (acc 9)]; reflexivity|]. split; [|reflexivity].
    apply (graft_depends _ _ _ (genesis_state (gen0 [])) _ XNow). vm_compute. reflexivity.
  - exists cfg0, (gen0 [alice]), Root, (run cfg0 (genesis_state (gen0 [alice])) []), (acc 9), bob, (XE (KStatus (acc 9))).
    split; [exists []; reflexivity|]. split; [|reflexivity].
    apply (graft_depends _ _ _ (run cfg0 (genesis_state (gen0 [])) [register bob (acc 9); call_eb bob (EbConfirm (acc 9) [] 1 [])]) _ XNow).
    vm_compute. reflexivity.
  - exists cfg0, (gen0 [alice]), (Signed alice), s1, (acc 9), None, (mkSconf 1 []), (XE (KSov alice)).
    split; [exists [register alice (acc 9)]; reflexivity|]. split; [|reflexivity].
    apply (graft_depends _ _ _ (genesis_state (gen0 [])) _ XNow). vm_compute. reflexivity.
Qed.
Print Assumptions C94_proof_sizes_are_declared_refuted.

(** ** The listed reads are needed *)
(** There is a reachable state in which [p] depends on each of the entries listed for it *)
Definition needs_its_reads (c : cfg) (p : op) : Prop :=
  exists g s, reachable c g s /\ op_reads c p s <> [] /\ Forall (depends_at c p s) (op_reads c p s).
(** A list of (entry, state to take another value from, entry in which the difference shows) *)
Definition checks (c : cfg) (p : op) (s : rt) (l : list (cell * rt * cell)) : bool :=
  match l with [] => false | _ => true end && bool_decide (map (fun w => w.1.1) l = op_reads c p s) &&
  forallb (fun w => diffb c p s (graft w.1.1 s w.1.2) w.2) l.
Lemma checked c p g ops l : checks c p (run c (genesis_state g) ops) l = true -> needs_its_reads c p.
Proof.
  unfold checks. set (s := run c (genesis_state g) ops). intros H. bools. exists g, s. split; [exists ops; reflexivity|].
  match goal with H : map _ l = _ |- _ => rewrite <- H; clear H end.
  split; [destruct l; [discriminate|discriminate]|]. clear -H0.
  induction l as [|w l IH]; cbn in *; [constructor|]. bools. apply Forall_cons. split; [eapply graft_depends; eassumption|auto].
Qed.

(** States to take other values from *)
Definition nothing : rt := genesis_state (gen0 []).
Definition rich : rt := genesis_state (gen0 [alice; bob; carol; acc 9]).
(** Later, and debug enclaves are allowed instead of unattested ones *)
Definition late : rt := genesis_state (mkGenesis 9000 ∅ [] [] true false ∅).
Definition reconfigured : op := OCall Root (CEb (EbUpdateConfig (acc 9) (mkScfg (acc 8) None None false) 0)).
Definition other : rt := run cfg0 (genesis_state (gen0 []))
  [reconfigured; register bob (acc 9); ONextBlock 5; OCreateAsset 4 1; OLock alice 5 1000; OLock bob 5 1000; OLock (acc 9) 5 1000].
Definition busy : rt := run cfg0 (genesis_state (gen0 [alice; acc 9]))
  [register alice (acc 9); register bob (acc 9); call_eb bob (EbConfirm (acc 9) [] 1 []);
   call_eb alice (EbUnshield (acc 9) carol 100 [7]); call_sc alice (ScConfirm (acc 9) None (mkSconf 1 []))].
Definition bonded : rt := run cfg0 (genesis_state (gen0 [alice; bob])) [call_td alice (TdBond 100); call_td bob (TdBond 50)].
Definition unbonding : rt := run cfg0 (genesis_state (gen0 [alice; bob])) [call_td alice (TdBond 100); call_td alice (TdUnbond 40)].
(** In the configuration of the claims examples Carol may move claims *)
Definition settled : rt := run (cfg_cl true 5) (genesis_state (gen_cl [(eth 1, 100, Some alice, Some StRegular); (eth 2, 30, Some bob, None)] [(eth 1, (80, 2, 0))]))
  [OMint alice 300; OMint bob 20; OAddVesting alice 10 1 1; OCall NoneO (CCl (ClClaim bob (toy_sign (cfg_cl true 5) 2 bob []))); ONextBlock 5;
   OLock alice 5 1000; OLock bob 5 10].
Definition oracle (x : to_call) : op := OCall Root (CTo x).
Definition empty_dcap : rt := run cfg_dcap nothing [reg_qe 100 9000 12; OCall Root (CTx (TxSetFlags false false)); ONextBlock 90000000].
Definition registered : rt := run cfg0 (genesis_state (gen0 [])) [OCreateAsset 4 1; OCall Root (CAr (ArRegister 4 (mkLoc 1 [])))].
Definition saft : rt := genesis_state (gen_cl [(eth 1, 100, Some alice, Some StSaft)] []).
Definition confirmed : rt := run cfg0 nothing [register alice (acc 9); call_sc alice (ScConfirm (acc 9) None (mkSconf 1 []))].
Lemma needs_bond : needs_its_reads cfg0 (call_td alice (TdBond 100)).
Proof.
  apply (checked _ _ (gen0 [alice]) []
    [(XE (KBonds alice), bonded, XNow); (XFree alice, nothing, XE (KBonds alice)); (XLocks alice, other, XLocks alice); (XNow, late, XE (KBonds alice))]). vm_compute. reflexivity.
Qed.
Lemma needs_bond_extra : needs_its_reads cfg0 (call_td alice (TdBondExtra 100)).
Proof.
  apply (checked _ _ (gen0 [alice]) [call_td alice (TdBond 100)]
    [(XE (KPending alice), unbonding, XNow); (XE (KBonds alice), nothing, XNow); (XFree alice, nothing, XE (KBonds alice)); (XLocks alice, other, XLocks alice); (XNow, late, XE (KBonds alice))]). vm_compute. reflexivity.
Qed.
Lemma needs_unbond : needs_its_reads cfg0 (call_td alice (TdUnbond 50)).
Proof.
  apply (checked _ _ (gen0 [alice]) [call_td alice (TdBond 100)]
    [(XE (KPending alice), unbonding, XNow); (XE (KBonds alice), nothing, XNow); (XNow, late, XE (KBonds alice))]). vm_compute. reflexivity.
Qed.
Lemma needs_update_other : needs_its_reads cfg0 (call_td bob (TdUpdateOther alice)).
Proof.
  apply (checked _ _ (gen0 [alice]) [call_td alice (TdBond 100)]
    [(XE (KBonds alice), nothing, XNow); (XNow, late, XE (KBonds alice))]). vm_compute. reflexivity.
Qed.
Lemma needs_withdraw : needs_its_reads cfg0 (call_td alice TdWithdrawUnbonded).
Proof.
  apply (checked _ _ (gen0 [alice]) [call_td alice (TdBond 100); call_td alice (TdUnbond 40); ONextBlock 2000]
    [(XE (KPending alice), nothing, XNow); (XLocks alice, other, XLocks alice); (XNow, nothing, XNow)]). vm_compute. reflexivity.
Qed.
Lemma needs_confirm : needs_its_reads cfg0 (call_eb alice (EbConfirm (acc 9) [] 1 [])).
Proof.
  apply (checked _ _ (gen0 [alice]) [register alice (acc 9)]
    [(XE (KSov alice), nothing, XNow); (XBlk, other, XE (KStatus (acc 9))); (XE (KConfig (acc 9)), other, XNow); (XE (KStatus (acc 9)), busy, XE (KStatus (acc 9)))]). vm_compute. reflexivity.
Qed.
Lemma needs_shield : needs_its_reads cfg0 (call_eb alice (EbShield (acc 9) [] 100)).
Proof.
  apply (checked _ _ (gen0 [alice]) []
    [(XFree alice, nothing, XNow); (XLocks alice, other, XNow); (XFree (acc 9), rich, XFree (acc 9))]). vm_compute. reflexivity.
Qed.
Lemma needs_unshield : needs_its_reads cfg0 (call_eb alice (EbUnshield (acc 9) carol 100 [7])).
Proof.
  apply (checked _ _ (gen0 [alice; acc 9]) [register alice (acc 9)]
    [(XE (KSov alice), nothing, XNow); (XBlk, other, XE (KStatus (acc 9))); (XE (KConfig (acc 9)), other, XNow); (XE (KStatus (acc 9)), busy, XE (KStatus (acc 9))); (XE (KExec [7]), busy, XE (KExec [7])); (XFree (acc 9), nothing, XNow); (XLocks (acc 9), other, XNow); (XFree carol, rich, XFree carol)]). vm_compute. reflexivity.
Qed.
Lemma needs_publish : needs_its_reads cfg0 (call_eb alice (EbPublish (acc 70) [] [1])).
Proof.
  apply (checked _ _ (gen0 [alice]) [register alice (acc 9)]
    [(XE (KSov alice), nothing, XNow); (XBlk, other, XE (KStatus (acc 9))); (XE (KStatus (acc 9)), busy, XE (KStatus (acc 9)))]). vm_compute. reflexivity.
Qed.
Lemma needs_update_config : needs_its_reads cfg0 (call_eb alice (EbUpdateConfig (acc 9) (mkScfg (acc 9) None None true) 0)).
Proof.
  apply (checked _ _ (gen0 [alice]) [register alice (acc 9)]
    [(XE (KSov alice), nothing, XNow); (XBlk, other, XE (KStatus (acc 9))); (XE (KConfig (acc 9)), other, XNow); (XE (KStatus (acc 9)), busy, XE (KStatus (acc 9)))]). vm_compute. reflexivity.
Qed.
Lemma needs_update_config_root : needs_its_reads cfg0 (OCall Root (CEb (EbUpdateConfig (acc 9) (mkScfg (acc 9) None None true) 1))).
Proof.
  apply (checked _ _ (gen0 [alice]) [OCall Root (CEb (EbUpdateConfig (acc 9) (mkScfg (acc 9) None None false) 0))]
    [(XBlk, other, XE (KConfig (acc 9))); (XE (KConfig (acc 9)), other, XE (KConfig (acc 9)))]). vm_compute. reflexivity.
Qed.
Lemma needs_purge : needs_its_reads cfg0 (OCall Root (CEb (EbPurge (acc 9) bob))).
Proof.
  apply (checked _ _ (gen0 []) []
    [(XE (KStatus (acc 9)), busy, XNow)]). vm_compute. reflexivity.
Qed.
Lemma needs_sidechain : needs_its_reads cfg0 (call_sc alice (ScConfirm (acc 9) None (mkSconf 1 []))).
Proof.
  apply (checked _ _ (gen0 [alice]) [register alice (acc 9)]
    [(XE (KSov alice), nothing, XNow); (XBlk, other, XE (KStatus (acc 9))); (XE (KConfig (acc 9)), other, XNow); (XE (KStatus (acc 9)), busy, XE (KStatus (acc 9))); (XE (KLatest (acc 9)), confirmed, XNow)]). vm_compute. reflexivity.
Qed.
Lemma needs_update_oracle : needs_its_reads cfg0 (OCall (Signed alice) (CTo (ToUpdateOracle [2] [1] [3]))).
Proof.
  apply (checked _ _ (gen0 []) [register alice (acc 9); oracle (ToAdd [1] (acc 9))]
    [(XE (KSov alice), nothing, XNow); (XE (KWhitelist [1]), nothing, XNow)]). vm_compute. reflexivity.
Qed.
Lemma needs_update_rate : needs_its_reads cfg0 (OCall (Signed alice) (CTo (ToUpdateRate [1] [2] (Some 5)))).
Proof.
  apply (checked _ _ (gen0 []) [register alice (acc 9); oracle (ToAdd [1] (acc 9))]
    [(XE (KSov alice), nothing, XNow); (XE (KWhitelist [1]), nothing, XNow)]). vm_compute. reflexivity.
Qed.
Lemma needs_whitelist_add : needs_its_reads cfg0 (oracle (ToAdd [1] (acc 9))).
Proof.
  apply (checked _ _ (gen0 []) [oracle (ToAdd [1] (acc 9))]
    [(XE (KWhitelist [1]), nothing, XNow)]). vm_compute. reflexivity.
Qed.
Lemma needs_whitelist_remove : needs_its_reads cfg0 (oracle (ToRemove [1] (acc 9))).
Proof.
  apply (checked _ _ (gen0 []) [oracle (ToAdd [1] (acc 9))]
    [(XE (KWhitelist [1]), nothing, XNow)]). vm_compute. reflexivity.
Qed.
Lemma needs_register_ias : needs_its_reads cfg_dcap (OCall (Signed alice) (CTx (TxRegister ias_cert (Some [7]) MIas))).
Proof.
  apply (checked _ _ (gen0 []) [OCall Root (CTx (TxSetFlags true true))]
    [(XNow, empty_dcap, XNow); (XE KDebug, nothing, XNow)]). vm_compute. reflexivity.
Qed.
Lemma needs_register_dcap : needs_its_reads cfg_dcap (reg_dcap_op alice (acc 77) 2 false).
Proof.
  apply (checked _ _ (gen0 []) [reg_qe 100 9000 7; reg_tcb 100 9000 11; OCall Root (CTx (TxSetFlags true true))]
    [(XNow, empty_dcap, XE (KSov alice)); (XE KQe, nothing, XNow); (XE KDebug, nothing, XNow); (XE (KTcb [0; 144; 110; 161; 0; 0]), nothing, XNow)]). vm_compute. reflexivity.
Qed.
Lemma needs_register_skip : needs_its_reads cfg0 (register alice (acc 9)).
Proof.
  apply (checked _ _ (gen0 []) []
    [(XE KSkip, late, XNow); (XNow, late, XE (KSov alice))]). vm_compute. reflexivity.
Qed.
Lemma needs_unregister : needs_its_reads cfg0 (OCall (Signed bob) (CTx (TxUnregisterSovereign alice))).
Proof.
  apply (checked _ _ (gen0 []) [register alice (acc 9); ONextBlock 500000000]
    [(XE (KSov alice), nothing, XNow); (XNow, nothing, XNow)]). vm_compute. reflexivity.
Qed.
Lemma needs_unregister_proxied : needs_its_reads cfg0 (OCall (Signed bob) (CTx (TxUnregisterProxied (acc 9, alice, inl ((alice ++ zeros 32) ++ zeros 2))))).
Proof.
  apply (checked _ _ (gen0 []) [OCall (Signed alice) (CTx (TxRegister (acc 9) None (MSkip true))); ONextBlock 500000000]
    [(XE (KProx (acc 9, alice, inl ((alice ++ zeros 32) ++ zeros 2))), nothing, XNow); (XNow, nothing, XNow)]). vm_compute. reflexivity.
Qed.
Lemma needs_register_qe : needs_its_reads cfg_dcap (reg_qe 100 9000 7).
Proof.
  apply (checked _ _ (gen0 []) []
    [(XNow, empty_dcap, XNow)]). vm_compute. reflexivity.
Qed.
Lemma needs_register_tcb : needs_its_reads cfg_dcap (reg_tcb 100 9000 7).
Proof.
  apply (checked _ _ (gen0 []) []
    [(XNow, empty_dcap, XNow)]). vm_compute. reflexivity.
Qed.
Lemma needs_attest : needs_its_reads (cfg_cl true 5) (OCall (Signed alice) (CCl (ClAttest (to_text StRegular)))).
Proof.
  apply (checked _ _ (gen_cl [(eth 1, 100, Some alice, Some StRegular)] [(eth 1, (80, 2, 0))]) []
    [(XE (KPreclaims alice), nothing, XNow); (XE (KClaims (eth 1)), nothing, XNow); (XE KTotal, nothing, XNow); (XE (KVesting (eth 1)), nothing, XVest alice); (XE (KSigning (eth 1)), saft, XNow); (XFree alice, settled, XFree alice); (XLocks alice, settled, XLocks alice); (XVest alice, settled, XNow); (XBlk, settled, XLocks alice)]). vm_compute. reflexivity.
Qed.
Lemma needs_claim_attest : needs_its_reads (cfg_cl true 5) (OCall NoneO (CCl (ClClaimAttest alice (toy_sign (cfg_cl true 5) 1 alice (to_text StRegular)) (to_text StRegular)))).
Proof.
  apply (checked _ _ (gen_cl [(eth 1, 100, Some alice, Some StRegular)] [(eth 1, (80, 2, 0))]) []
    [(XE (KClaims (eth 1)), nothing, XNow); (XE KTotal, nothing, XNow); (XE (KVesting (eth 1)), nothing, XVest alice); (XE (KSigning (eth 1)), saft, XNow); (XFree alice, settled, XFree alice); (XLocks alice, settled, XLocks alice); (XVest alice, settled, XNow); (XBlk, settled, XLocks alice)]). vm_compute. reflexivity.
Qed.
Lemma needs_claim : needs_its_reads (cfg_cl true 5) (OCall NoneO (CCl (ClClaim alice (toy_sign (cfg_cl true 5) 1 alice [])))).
Proof.
  apply (checked _ _ (gen_cl [(eth 1, 100, Some alice, None)] [(eth 1, (80, 2, 0))]) []
    [(XE (KClaims (eth 1)), nothing, XNow); (XE KTotal, nothing, XNow); (XE (KVesting (eth 1)), nothing, XVest alice); (XE (KSigning (eth 1)), saft, XNow); (XFree alice, settled, XFree alice); (XLocks alice, settled, XLocks alice); (XVest alice, settled, XNow); (XBlk, settled, XLocks alice)]). vm_compute. reflexivity.
Qed.
Lemma needs_move : needs_its_reads (cfg_cl true 5) (OCall (Signed carol) (CCl (ClMove (eth 1) (eth 2) (Some alice)))).
Proof.
  apply (checked _ _ (gen_cl [(eth 1, 100, Some alice, Some StRegular)] [(eth 1, (80, 2, 0))]) []
    [(XE (KClaims (eth 1)), nothing, XE (KClaims (eth 2))); (XE (KVesting (eth 1)), nothing, XE (KVesting (eth 2))); (XE (KSigning (eth 1)), nothing, XE (KSigning (eth 2))); (XE (KPreclaims alice), nothing, XE (KPreclaims alice))]). vm_compute. reflexivity.
Qed.
Lemma needs_mint : needs_its_reads (cfg_cl true 5) (do_mint 1 50).
Proof.
  apply (checked _ _ (gen_cl [(eth 1, 100, Some alice, Some StRegular)] [(eth 1, (80, 2, 0))]) []
    [(XE KTotal, nothing, XE KTotal)]). vm_compute. reflexivity.
Qed.
Lemma needs_asset_register : needs_its_reads cfg0 (OCall Root (CAr (ArRegister 4 (mkLoc 1 [])))).
Proof.
  apply (checked _ _ (gen0 []) [OCreateAsset 4 1]
    [(XAsset 4, nothing, XNow); (XE (KAssetLoc 4), registered, XNow)]). vm_compute. reflexivity.
Qed.
Lemma needs_asset_unregister : needs_its_reads cfg0 (OCall Root (CAr (ArUnregister 4))).
Proof.
  apply (checked _ _ (gen0 []) []
    [(XE (KAssetLoc 4), registered, XNow)]). vm_compute. reflexivity.
Qed.
Lemma needs_next_block : needs_its_reads cfg0 (ONextBlock 7).
Proof.
  apply (checked _ _ (gen0 []) []
    [(XNow, late, XNow); (XBlk, other, XBlk)]). vm_compute. reflexivity.
Qed.
Lemma needs_transfer : needs_its_reads cfg0 (OTransfer alice bob 100).
Proof.
  apply (checked _ _ (gen0 [alice]) []
    [(XFree alice, nothing, XNow); (XLocks alice, other, XNow); (XFree bob, rich, XFree bob)]). vm_compute. reflexivity.
Qed.
Lemma needs_deposit : needs_its_reads cfg0 (OMint alice 100).
Proof.
  apply (checked _ _ (gen0 [alice]) []
    [(XFree alice, nothing, XFree alice)]). vm_compute. reflexivity.
Qed.
Lemma needs_fee : needs_its_reads cfg0 (OFee alice 100).
Proof.
  apply (checked _ _ (gen0 [alice]) []
    [(XFree alice, nothing, XNow); (XLocks alice, other, XNow)]). vm_compute. reflexivity.
Qed.
Lemma needs_vest : needs_its_reads (cfg_cl true 5) (OVest alice).
Proof.
  apply (checked _ _ (gen0 [alice]) [OAddVesting alice 100 2 0]
    [(XBlk, settled, XLocks alice); (XLocks alice, settled, XLocks alice); (XVest alice, nothing, XNow)]). vm_compute. reflexivity.
Qed.
Lemma needs_add_vesting : needs_its_reads (cfg_cl true 5) (OAddVesting alice 100 2 0).
Proof.
  apply (checked _ _ (gen0 [alice]) []
    [(XBlk, settled, XLocks alice); (XLocks alice, settled, XLocks alice); (XVest alice, settled, XVest alice)]). vm_compute. reflexivity.
Qed.
Lemma needs_lock : needs_its_reads cfg0 (OLock alice 4 100).
Proof.
  apply (checked _ _ (gen0 [alice]) []
    [(XLocks alice, other, XLocks alice)]). vm_compute. reflexivity.
Qed.
Lemma needs_unlock : needs_its_reads cfg0 (OUnlock alice 4).
Proof.
  apply (checked _ _ (gen0 [alice]) [OLock alice 4 100]
    [(XLocks alice, other, XLocks alice)]). vm_compute. reflexivity.
Qed.

(** For each operation that depends on anything there are a configuration, arguments and a reachable
    state for which none of the entries listed in C86 can be left out *)
Theorem C94_listed_reads_are_needed :
  (exists c a v, needs_its_reads c (call_td a (TdBond v))) /\
  (exists c a v, needs_its_reads c (call_td a (TdBondExtra v))) /\
  (exists c a v, needs_its_reads c (call_td a (TdUnbond v))) /\
  (exists c a w, needs_its_reads c (call_td a (TdUpdateOther w))) /\
  (exists c a, needs_its_reads c (call_td a TdWithdrawUnbonded)) /\
  (exists c a sh h n r, needs_its_reads c (call_eb a (EbConfirm sh h n r))) /\
  (exists c a sh b v, needs_its_reads c (call_eb a (EbShield sh b v))) /\
  (exists c a sh b v h, needs_its_reads c (call_eb a (EbUnshield sh b v h))) /\
  (exists c a h t d, needs_its_reads c (call_eb a (EbPublish h t d))) /\
  (exists c a sh n d, needs_its_reads c (call_eb a (EbUpdateConfig sh n d))) /\
  (exists c sh n d, needs_its_reads c (OCall Root (CEb (EbUpdateConfig sh n d)))) /\
  (exists c sh w, needs_its_reads c (OCall Root (CEb (EbPurge sh w)))) /\
  (exists c a sh anc k, needs_its_reads c (call_sc a (ScConfirm sh anc k))) /\
  (exists c a n src b, needs_its_reads c (OCall (Signed a) (CTo (ToUpdateOracle n src b)))) /\
  (exists c a src p v, needs_its_reads c (OCall (Signed a) (CTo (ToUpdateRate src p v)))) /\
  (exists c src fp, needs_its_reads c (oracle (ToAdd src fp))) /\
  (exists c src fp, needs_its_reads c (oracle (ToRemove src fp))) /\
  (exists c a p u, needs_its_reads c (OCall (Signed a) (CTx (TxRegister p u MIas)))) /\
  (exists c a p u b, needs_its_reads c (OCall (Signed a) (CTx (TxRegister p u (MDcap b))))) /\
  (exists c a p u b, needs_its_reads c (OCall (Signed a) (CTx (TxRegister p u (MSkip b))))) /\
  (exists c a w, needs_its_reads c (OCall (Signed a) (CTx (TxUnregisterSovereign w)))) /\
  (exists c a w, needs_its_reads c (OCall (Signed a) (CTx (TxUnregisterProxied w)))) /\
  (exists c a i g ch, needs_its_reads c (OCall (Signed a) (CTx (TxRegisterQe i g ch)))) /\
  (exists c a i g ch, needs_its_reads c (OCall (Signed a) (CTx (TxRegisterTcb i g ch)))) /\
  (exists c a t, needs_its_reads c (OCall (Signed a) (CCl (ClAttest t)))) /\
  (exists c d g t, needs_its_reads c (OCall NoneO (CCl (ClClaimAttest d g t)))) /\
  (exists c d g, needs_its_reads c (OCall NoneO (CCl (ClClaim d g)))) /\
  (exists c o old new p, needs_its_reads c (OCall o (CCl (ClMove old new (Some p))))) /\
  (exists c e v vs st, needs_its_reads c (OCall Root (CCl (ClMint e v vs st)))) /\
  (exists c o i l, needs_its_reads c (OCall o (CAr (ArRegister i l)))) /\
  (exists c o i, needs_its_reads c (OCall o (CAr (ArUnregister i)))) /\
  (exists c d, needs_its_reads c (ONextBlock d)) /\
  (exists c a b v, needs_its_reads c (OTransfer a b v)) /\
  (exists c a v, needs_its_reads c (OMint a v)) /\
  (exists c a v, needs_its_reads c (OFee a v)) /\
  (exists c a, needs_its_reads c (OVest a)) /\
  (exists c a v p b, needs_its_reads c (OAddVesting a v p b)) /\
  (exists c a i v, needs_its_reads c (OLock a i v)) /\
  (exists c a i, needs_its_reads c (OUnlock a i)).
Proof.
  split; [do 3 eexists; apply needs_bond|].
  split; [do 3 eexists; apply needs_bond_extra|].
  split; [do 3 eexists; apply needs_unbond|].
  split; [do 3 eexists; apply needs_update_other|].
  split; [do 2 eexists; apply needs_withdraw|].
  split; [do 6 eexists; apply needs_confirm|].
  split; [do 5 eexists; apply needs_shield|].
  split; [do 6 eexists; apply needs_unshield|].
  split; [do 5 eexists; apply needs_publish|].
  split; [do 5 eexists; apply needs_update_config|].
  split; [do 4 eexists; apply needs_update_config_root|].
  split; [do 3 eexists; apply needs_purge|].
  split; [do 5 eexists; apply needs_sidechain|].
  split; [do 5 eexists; apply needs_update_oracle|].
  split; [do 5 eexists; apply needs_update_rate|].
  split; [do 3 eexists; apply needs_whitelist_add|].
  split; [do 3 eexists; apply needs_whitelist_remove|].
  split; [do 4 eexists; apply needs_register_ias|].
  split; [do 5 eexists; apply needs_register_dcap|].
  split; [do 5 eexists; apply needs_register_skip|].
  split; [do 3 eexists; apply needs_unregister|].
  split; [do 3 eexists; apply needs_unregister_proxied|].
  split; [do 5 eexists; apply needs_register_qe|].
  split; [do 5 eexists; apply needs_register_tcb|].
  split; [do 3 eexists; apply needs_attest|].
  split; [do 4 eexists; apply needs_claim_attest|].
  split; [do 3 eexists; apply needs_claim|].
  split; [do 5 eexists; apply needs_move|].
  split; [do 5 eexists; apply needs_mint|].
  split; [do 4 eexists; apply needs_asset_register|].
  split; [do 3 eexists; apply needs_asset_unregister|].
  split; [do 2 eexists; apply needs_next_block|].
  split; [do 4 eexists; apply needs_transfer|].
  split; [do 3 eexists; apply needs_deposit|].
  split; [do 3 eexists; apply needs_fee|].
  split; [do 2 eexists; apply needs_vest|].
  split; [do 5 eexists; apply needs_add_vesting|].
  split; [do 4 eexists; apply needs_lock|].
  do 3 eexists; apply needs_unlock.
Qed.
Print Assumptions C94_listed_reads_are_needed.

(** ** The listed writes happen *)
Definition makes_its_writes (c : cfg) (p : op) : Prop :=
  exists g s, reachable c g s /\ op_writes c p s <> [] /\ Forall (fun y => ~ same_at y s (step c s p)) (op_writes c p s).
Definition changesb (c : cfg) (p : op) (s : rt) : bool :=
  let l := op_writes c p s in let t := step c s p in
  match l with [] => false | _ => true end && forallb (fun y => negb (bool_decide (same_at y s t))) l.
Lemma changed c p g ops : changesb c p (run c (genesis_state g) ops) = true -> makes_its_writes c p.
Proof.
  unfold changesb. set (s := run c (genesis_state g) ops). intros H. exists g, s. split; [exists ops; reflexivity|].
  cbv zeta in H. apply andb_true_iff in H as [H1 H2]. split; [intros E; rewrite E in H1; discriminate|].
  apply Forall_forall. intros y Hy Hs. rewrite forallb_forall in H2. specialize (H2 y (proj1 (elem_of_list_In _ _) Hy)).
  rewrite (bool_decide_true _ Hs) in H2. discriminate.
Qed.
(** For each operation that changes anything there are a configuration, arguments and a reachable state
    for which every entry listed in C86 changes *)
Theorem C94_listed_writes_happen :
  (exists c a v, makes_its_writes c (call_td a (TdBond v))) /\
  (exists c a v, makes_its_writes c (call_td a (TdBondExtra v))) /\
  (exists c a v, makes_its_writes c (call_td a (TdUnbond v))) /\
  (exists c a w, makes_its_writes c (call_td a (TdUpdateOther w))) /\
  (exists c a, makes_its_writes c (call_td a TdWithdrawUnbonded)) /\
  (exists c a sh h n r, makes_its_writes c (call_eb a (EbConfirm sh h n r))) /\
  (exists c a sh b v, makes_its_writes c (call_eb a (EbShield sh b v))) /\
  (exists c a sh b v h, makes_its_writes c (call_eb a (EbUnshield sh b v h))) /\
  (exists c a h t d, makes_its_writes c (call_eb a (EbPublish h t d))) /\
  (exists c a sh n d, makes_its_writes c (call_eb a (EbUpdateConfig sh n d))) /\
  (exists c sh n d, makes_its_writes c (OCall Root (CEb (EbUpdateConfig sh n d)))) /\
  (exists c sh w, makes_its_writes c (OCall Root (CEb (EbPurge sh w)))) /\
  (exists c a sh anc k, makes_its_writes c (call_sc a (ScConfirm sh anc k))) /\
  (exists c a n src b, makes_its_writes c (OCall (Signed a) (CTo (ToUpdateOracle n src b)))) /\
  (exists c a src p v, makes_its_writes c (OCall (Signed a) (CTo (ToUpdateRate src p v)))) /\
  (exists c src fp, makes_its_writes c (oracle (ToAdd src fp))) /\
  (exists c src fp, makes_its_writes c (oracle (ToRemove src fp))) /\
  (exists c a p u, makes_its_writes c (OCall (Signed a) (CTx (TxRegister p u MIas)))) /\
  (exists c a p u b, makes_its_writes c (OCall (Signed a) (CTx (TxRegister p u (MDcap b))))) /\
  (exists c a p u, makes_its_writes c (OCall (Signed a) (CTx (TxRegister p u (MSkip false))))) /\
  (exists c a w, makes_its_writes c (OCall (Signed a) (CTx (TxUnregisterSovereign w)))) /\
  (exists c a w, makes_its_writes c (OCall (Signed a) (CTx (TxUnregisterProxied w)))) /\
  (exists c a i g ch, makes_its_writes c (OCall (Signed a) (CTx (TxRegisterQe i g ch)))) /\
  (exists c a i g ch, makes_its_writes c (OCall (Signed a) (CTx (TxRegisterTcb i g ch)))) /\
  (exists c a t, makes_its_writes c (OCall (Signed a) (CCl (ClAttest t)))) /\
  (exists c d g t, makes_its_writes c (OCall NoneO (CCl (ClClaimAttest d g t)))) /\
  (exists c d g, makes_its_writes c (OCall NoneO (CCl (ClClaim d g)))) /\
  (exists c o old new p, makes_its_writes c (OCall o (CCl (ClMove old new (Some p))))) /\
  (exists c e v vs st, makes_its_writes c (OCall Root (CCl (ClMint e v vs st)))) /\
  (exists c o i l, makes_its_writes c (OCall o (CAr (ArRegister i l)))) /\
  (exists c o i, makes_its_writes c (OCall o (CAr (ArUnregister i)))) /\
  (exists c d, makes_its_writes c (ONextBlock d)) /\
  (exists c a b v, makes_its_writes c (OTransfer a b v)) /\
  (exists c a v, makes_its_writes c (OMint a v)) /\
  (exists c a v, makes_its_writes c (OFee a v)) /\
  (exists c a, makes_its_writes c (OVest a)) /\
  (exists c a v p b, makes_its_writes c (OAddVesting a v p b)) /\
  (exists c a i v, makes_its_writes c (OLock a i v)) /\
  (exists c a i, makes_its_writes c (OUnlock a i)) /\
  (exists c k d, makes_its_writes c (OCall Root (CTx (TxSetFlags k d)))) /\
  (exists c i m, makes_its_writes c (OCreateAsset i m)) /\
  (exists c i, makes_its_writes c (ODestroyAsset i)) /\
  (exists c a p u, makes_its_writes c (OCall (Signed a) (CTx (TxRegister p u (MSkip true))))).
Proof.
  split; [do 3 eexists; apply (changed cfg0 (call_td alice (TdBond 100)) (gen0 [alice])
      []); vm_compute; reflexivity|].
  split; [do 3 eexists; apply (changed cfg0 (call_td alice (TdBondExtra 100)) (gen0 [alice])
      [call_td alice (TdBond 100)]); vm_compute; reflexivity|].
  split; [do 3 eexists; apply (changed cfg0 (call_td alice (TdUnbond 50)) (gen0 [alice])
      [call_td alice (TdBond 100)]); vm_compute; reflexivity|].
  split; [do 3 eexists; apply (changed cfg0 (call_td bob (TdUpdateOther alice)) (gen0 [alice])
      [call_td alice (TdBond 100); ONextBlock 5]); vm_compute; reflexivity|].
  split; [do 2 eexists; apply (changed cfg0 (call_td alice TdWithdrawUnbonded) (gen0 [alice])
      [call_td alice (TdBond 100); call_td alice (TdUnbond 40); ONextBlock 2000]); vm_compute; reflexivity|].
  split; [do 6 eexists; apply (changed cfg0 (call_eb alice (EbConfirm (acc 9) [] 1 [])) (gen0 [alice])
      [register alice (acc 9); OCall Root (CEb (EbUpdateConfig (acc 9) (mkScfg (acc 9) None None false) 0)); OCall Root (CEb (EbUpdateConfig (acc 9) (mkScfg (acc 9) None None true) 1)); ONextBlock 1]); vm_compute; reflexivity|].
  split; [do 5 eexists; apply (changed cfg0 (call_eb alice (EbShield (acc 9) [] 100)) (gen0 [alice])
      []); vm_compute; reflexivity|].
  split; [do 6 eexists; apply (changed cfg0 (call_eb alice (EbUnshield (acc 9) carol 100 [7])) (gen0 [alice; acc 9])
      [register alice (acc 9); OCall Root (CEb (EbUpdateConfig (acc 9) (mkScfg (acc 9) None None false) 0)); OCall Root (CEb (EbUpdateConfig (acc 9) (mkScfg (acc 9) None None true) 1)); ONextBlock 1]); vm_compute; reflexivity|].
  split; [do 5 eexists; apply (changed cfg0 (call_eb alice (EbPublish (acc 70) [] [1])) (gen0 [alice])
      [register alice (acc 9)]); vm_compute; reflexivity|].
  split; [do 5 eexists; apply (changed cfg0 (call_eb alice (EbUpdateConfig (acc 9) (mkScfg (acc 9) None None true) 0)) (gen0 [alice])
      [register alice (acc 9)]); vm_compute; reflexivity|].
  split; [do 4 eexists; apply (changed cfg0 (OCall Root (CEb (EbUpdateConfig (acc 9) (mkScfg (acc 9) None None true) 1))) (gen0 [alice])
      [OCall Root (CEb (EbUpdateConfig (acc 9) (mkScfg (acc 9) None None false) 0))]); vm_compute; reflexivity|].
  split; [do 3 eexists; apply (changed cfg0 (OCall Root (CEb (EbPurge (acc 9) bob))) (gen0 [])
      [register bob (acc 9); call_eb bob (EbConfirm (acc 9) [] 1 [])]); vm_compute; reflexivity|].
  split; [do 5 eexists; apply (changed cfg0 (call_sc alice (ScConfirm (acc 9) None (mkSconf 1 []))) (gen0 [alice])
      [register alice (acc 9); OCall Root (CEb (EbUpdateConfig (acc 9) (mkScfg (acc 9) None None false) 0)); OCall Root (CEb (EbUpdateConfig (acc 9) (mkScfg (acc 9) None None true) 1)); ONextBlock 1]); vm_compute; reflexivity|].
  split; [do 5 eexists; apply (changed cfg0 (OCall (Signed alice) (CTo (ToUpdateOracle [2] [1] [3]))) (gen0 [])
      [register alice (acc 9); oracle (ToAdd [1] (acc 9))]); vm_compute; reflexivity|].
  split; [do 5 eexists; apply (changed cfg0 (OCall (Signed alice) (CTo (ToUpdateRate [1] [2] (Some 5)))) (gen0 [])
      [register alice (acc 9); oracle (ToAdd [1] (acc 9))]); vm_compute; reflexivity|].
  split; [do 3 eexists; apply (changed cfg0 (oracle (ToAdd [1] (acc 9))) (gen0 [])
      [OCreateAsset 1 1]); vm_compute; reflexivity|].
  split; [do 3 eexists; apply (changed cfg0 (oracle (ToRemove [1] (acc 9))) (gen0 [])
      [oracle (ToAdd [1] (acc 9))]); vm_compute; reflexivity|].
  split; [do 4 eexists; apply (changed cfg_dcap (OCall (Signed alice) (CTx (TxRegister ias_cert (Some [7]) MIas))) (gen0 [])
      [OCall Root (CTx (TxSetFlags true true))]); vm_compute; reflexivity|].
  split; [do 5 eexists; apply (changed cfg_dcap (reg_dcap_op alice (acc 77) 2 false) (gen0 [])
      [reg_qe 100 9000 7; reg_tcb 100 9000 11; OCall Root (CTx (TxSetFlags true true))]); vm_compute; reflexivity|].
  split; [do 4 eexists; apply (changed cfg0 (register alice (acc 9)) (gen0 [])
      []); vm_compute; reflexivity|].
  split; [do 3 eexists; apply (changed cfg0 (OCall (Signed bob) (CTx (TxUnregisterSovereign alice))) (gen0 [])
      [register alice (acc 9); ONextBlock 500000000]); vm_compute; reflexivity|].
  split; [do 3 eexists; apply (changed cfg0 (OCall (Signed bob) (CTx (TxUnregisterProxied (acc 9, alice, inl ((alice ++ zeros 32) ++ zeros 2))))) (gen0 [])
      [OCall (Signed alice) (CTx (TxRegister (acc 9) None (MSkip true))); ONextBlock 500000000]); vm_compute; reflexivity|].
  split; [do 5 eexists; apply (changed cfg_dcap (reg_qe 100 9000 7) (gen0 [])
      []); vm_compute; reflexivity|].
  split; [do 5 eexists; apply (changed cfg_dcap (reg_tcb 100 9000 7) (gen0 [])
      []); vm_compute; reflexivity|].
  split; [do 3 eexists; apply (changed (cfg_cl true 5) (OCall (Signed alice) (CCl (ClAttest (to_text StRegular)))) (gen_cl [(eth 1, 100, Some alice, Some StRegular)] [(eth 1, (80, 2, 0))])
      []); vm_compute; reflexivity|].
  split; [do 4 eexists; apply (changed (cfg_cl true 5) (OCall NoneO (CCl (ClClaimAttest alice (toy_sign (cfg_cl true 5) 1 alice (to_text StRegular)) (to_text StRegular)))) (gen_cl [(eth 1, 100, Some alice, Some StRegular)] [(eth 1, (80, 2, 0))])
      []); vm_compute; reflexivity|].
  split; [do 3 eexists; apply (changed (cfg_cl true 5) (OCall NoneO (CCl (ClClaim alice (toy_sign (cfg_cl true 5) 1 alice [])))) (gen_cl [(eth 1, 100, Some alice, None)] [(eth 1, (80, 2, 0))])
      []); vm_compute; reflexivity|].
  split; [do 5 eexists; apply (changed (cfg_cl true 5) (OCall (Signed carol) (CCl (ClMove (eth 1) (eth 2) (Some alice)))) (gen_cl [(eth 1, 100, Some alice, Some StRegular)] [(eth 1, (80, 2, 0))])
      []); vm_compute; reflexivity|].
  split; [do 5 eexists; apply (changed (cfg_cl true 5) (OCall Root (CCl (ClMint (eth 3) 50 (Some (7, 1, 2)) (Some StSaft)))) (gen_cl [(eth 1, 100, Some alice, Some StRegular)] [(eth 1, (80, 2, 0))])
      []); vm_compute; reflexivity|].
  split; [do 4 eexists; apply (changed cfg0 (OCall Root (CAr (ArRegister 4 (mkLoc 1 [])))) (gen0 [])
      [OCreateAsset 4 1]); vm_compute; reflexivity|].
  split; [do 3 eexists; apply (changed cfg0 (OCall Root (CAr (ArUnregister 4))) (gen0 [])
      [OCreateAsset 4 1; OCall Root (CAr (ArRegister 4 (mkLoc 1 [])))]); vm_compute; reflexivity|].
  split; [do 2 eexists; apply (changed cfg0 (ONextBlock 7) (gen0 [])
      []); vm_compute; reflexivity|].
  split; [do 4 eexists; apply (changed cfg0 (OTransfer alice bob 100) (gen0 [alice])
      []); vm_compute; reflexivity|].
  split; [do 3 eexists; apply (changed cfg0 (OMint alice 100) (gen0 [alice])
      []); vm_compute; reflexivity|].
  split; [do 3 eexists; apply (changed cfg0 (OFee alice 100) (gen0 [alice])
      []); vm_compute; reflexivity|].
  split; [do 2 eexists; apply (changed cfg0 (OVest alice) (gen0 [alice])
      [OAddVesting alice 10 20 0; ONextBlock 5]); vm_compute; reflexivity|].
  split; [do 5 eexists; apply (changed (cfg_cl true 5) (OAddVesting alice 100 2 0) (gen0 [alice])
      []); vm_compute; reflexivity|].
  split; [do 4 eexists; apply (changed cfg0 (OLock alice 4 100) (gen0 [alice])
      []); vm_compute; reflexivity|].
  split; [do 3 eexists; apply (changed cfg0 (OUnlock alice 4) (gen0 [alice])
      [OLock alice 4 100]); vm_compute; reflexivity|].
  split; [do 3 eexists; apply (changed cfg0 (OCall Root (CTx (TxSetFlags false true))) (gen0 [])
      []); vm_compute; reflexivity|].
  split; [do 3 eexists; apply (changed cfg0 (OCreateAsset 4 1) (gen0 [])
      []); vm_compute; reflexivity|].
  split; [do 2 eexists; apply (changed cfg0 (ODestroyAsset 4) (gen0 [])
      [OCreateAsset 4 1]); vm_compute; reflexivity|].
  do 4 eexists; apply (changed cfg0 (OCall (Signed alice) (CTx (TxRegister (acc 9) None (MSkip true)))) (gen0 [])
      []); vm_compute; reflexivity.
Qed.
Print Assumptions C94_listed_writes_happen.

(** The bound is met: [bond_extra] is declared with five reads, and what it depends on in this state is
    kept in five entries of the database (the locks of an account in two) *)
Example C94_example :
  let s := run cfg0 (genesis_state (gen0 [alice])) [call_td alice (TdBond 100)] in
  ends cfg0 s (call_td alice (TdBondExtra 100)) = Success /\
  Forall (depends_at cfg0 (call_td alice (TdBondExtra 100)) s)
    [XE (KPending alice); XE (KBonds alice); XFree alice; XLocks alice; XNow] /\
  remove_dups (concat (map kept_in [XE (KPending alice); XE (KBonds alice); XFree alice; XLocks alice; XNow])) =
    [DE (KPending alice); DE (KBonds alice); DAccount alice; DLocks alice; DNow] /\
  declared_reads (CTd (TdBondExtra 100)) = 5 /\ reads_declared (CTd (TdBondExtra 100)).
Proof.
  intros s. split; [vm_compute; reflexivity|]. split.
  { repeat (apply Forall_cons; split); [apply (graft_depends _ _ _ unbonding _ XNow)|apply (graft_depends _ _ _ nothing _ XNow)
    |apply (graft_depends _ _ _ nothing _ (XE (KBonds alice)))|apply (graft_depends _ _ _ other _ (XLocks alice))
    |apply (graft_depends _ _ _ late _ (XE (KBonds alice)))|apply Forall_nil_2]; vm_compute; reflexivity. }
  split; [vm_compute; reflexivity|]. split; [vm_compute; reflexivity|exact I].
Qed.
