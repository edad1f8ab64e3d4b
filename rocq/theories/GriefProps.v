(** * C99: what outsiders can and cannot block
    The coalition is that of C98. What others were able to do they are still able to do after any calls
    of the coalition: operate their shard, feed the oracle, collect a claim, leave the bond. Three
    services can be blocked by strangers: a shard without configuration can be taken over before its
    operator configures it, the ten places of a shard's operators can be filled, and a preclaimed account
    can be given a vesting schedule. *)
From Coq Require Import String.
From Verif Require Import Base State Env TeerdaysModel TeerexBase SgxVerifyModel TeerexModel
  EnclaveBridgeModel SidechainModel TeeracleModel ClaimsModel AssetRegistryModel XcmTransactorModel
  Runtime Frame EnvFacts Panic TeerdaysProofs BridgeProofs ClaimsProofs Examples TeerdaysProps ClaimsProps BridgeProps SidechainProps
  TeeracleProps SgxProofs SgxProps TeerexProofs TeerexProps PemProps AttestationProps AcceptProps EffectProps ErrorProps RuntimeProps
  OutsiderProps.

(** ** Registrations last until they may be renewed *)
Lemma sov_kept c f g p l a e : let s := run c (genesis_state g) p in
  armed f s -> history c f s l -> ~ owns f a -> tx_sov (rt_tx s) !! a = Some e ->
  rt_now (run c s l) - c_renewal c <= en_timestamp e -> tx_sov (rt_tx (run c s l)) !! a = Some e.
Proof.
  intros s Ha Hl Hn He Ht.
  destruct (history_all c f g p l (fun t => rt_now t - c_renewal c <= en_timestamp e -> tx_sov (rt_tx t) !! a = Some e)) as [H _];
    [|intros _; exact He|exact Ha|exact Hl|exact (H Ht)].
  intros q x t Hi _ Hx Hc. pose proof (clock_step c t x) as [Hm _]. fold t in Hm.
  assert (tx_sov (rt_tx t) !! a = Some e) as Het by (apply Hi; lia).
  destruct (sov_step c t x a) as [E|[(o & e' & -> & E1 & E2 & _)|(pr & u & m & e' & Ex & _)]].
  - rewrite E. exact Het.
  - assert (e' = e) as -> by congruence. lia.
  - subst x. destruct Hx as (_ & _ & _ & _ & Ho & _). destruct (Hn (Ho a eq_refl)).
Qed.

(** ** What cannot be blocked *)
Theorem C99_operators_keep_their_shard : forall c f g p l v a e,
  let s := run c (genesis_state g) p in let s' := run c s l in
  armed f s -> history c f s l -> guarded f s v -> ~ attests f v -> ~ owns f a ->
  tx_sov (rt_tx s) !! a = Some e -> listable s v a -> en_mr_enclave e = operator s v (rt_blk s') ->
  rt_now s' - c_renewal c <= en_timestamp e ->
  operates s' v a /\ forall h n r, (dispatch c (Signed a) (CEb (EbConfirm v h n r)) s').1 = Success.
Proof.
  intros c f g p l v a e s s' Ha Hl Hg Hv Hn He Hlist Hop Ht.
  destruct (C98_outsiders_cannot_steer_a_shard c f g p l v Ha Hl Hg) as (E1 & _ & E3). fold s s' in E1, E3. specialize (E3 Hv).
  assert (operates s' v a) as Hs'.
  { exists e. split; [exact (sov_kept c f g p l a e Ha Hl Hn He Ht)|]. split.
    - rewrite Hop. unfold operator, in_force. rewrite E1. reflexivity.
    - unfold listable, signers_of, status_of in *. rewrite E3. exact Hlist. }
  split; [exact Hs'|]. intros h n r. unfold s', s. rewrite <- run_app. apply C68_bridge_calls_accepted_exactly. rewrite run_app.
  exists a. auto.
Qed.
Print Assumptions C99_operators_keep_their_shard.

Theorem C99_oracles_keep_their_source : forall c f g p l src a e,
  let s := run c (genesis_state g) p in let s' := run c s l in
  armed f s -> history c f s l -> (forall m, In m (default [] (to_wl (rt_to s) !! src)) -> ~ attests f m) -> ~ owns f a ->
  tx_sov (rt_tx s) !! a = Some e -> In (en_mr_enclave e) (default [] (to_wl (rt_to s) !! src)) ->
  rt_now s' - c_renewal c <= en_timestamp e ->
  (forall pair r, lenN pair <= 11 -> (dispatch c (Signed a) (CTo (ToUpdateRate src pair r)) s').1 = Success) /\
  (forall name blob, lenN name <= 40 -> lenN src <= 40 -> lenN blob <= c_max_blob c ->
     (dispatch c (Signed a) (CTo (ToUpdateOracle name src blob)) s').1 = Success).
Proof.
  intros c f g p l src a e s s' Ha Hl Hw Hn He Hin Ht.
  destruct (C98_outsiders_cannot_forge_a_source c f g p l src Ha Hl Hw) as (E1 & _). fold s s' in E1.
  pose proof (sov_kept c f g p l a e Ha Hl Hn He Ht) as He'. fold s s' in He'. rewrite <- E1 in Hin.
  split; intros; apply C68_teeracle_calls_accepted_exactly; exists a, e; auto 10.
Qed.
Print Assumptions C99_oracles_keep_their_source.

Theorem C99_stakers_can_leave : forall c f g p l v,
  let s := run c (genesis_state g) p in let s' := run c s l in
  armed f s -> history c f s l -> ~ owns f v ->
  (forall due amt, pending_of s v = Some (due, amt) -> due <= rt_now s' ->
     (dispatch c (Signed v) (CTd TdWithdrawUnbonded) s').1 = Success) /\
  (forall b w, bond_of s v = Some b -> pending_of s v = None -> c_ed c <= w -> rt_now s' + c_unlock c <= u64_max ->
     (dispatch c (Signed v) (CTd (TdUnbond w)) s').1 = Success).
Proof.
  intros c f g p l v s s' Ha Hl Hn.
  destruct (C98_outsiders_cannot_touch_a_stake c f g p l v Ha Hl Hn) as (_ & E2 & _ & E4). fold s s' in E2, E4.
  unfold pending_of, bond_of in *. split; intros; apply C68_teerdays_calls_accepted_exactly; exists v; (split; [reflexivity|]).
  - exists due, amt. rewrite E2. auto.
  - rewrite H in E4. destruct E4 as (b' & Hb' & _). rewrite Hb', E2. eauto.
Qed.
Print Assumptions C99_stakers_can_leave.

Lemma open_claims_kept c f g p l : let s := run c (genesis_state g) p in
  armed f s -> history c f s l -> open_claims s <= cl_total (rt_cl s) -> open_claims (run c s l) <= cl_total (rt_cl (run c s l)).
Proof.
  intros s Ha Hl H0. change (sum_map (cl_claims (rt_cl s)) <= cl_total (rt_cl s)) in H0.
  destruct (history_all c f g p l (fun t => sum_map (cl_claims (rt_cl t)) <= cl_total (rt_cl t))) as [H _];
    [|exact H0|exact Ha|exact Hl|exact H].
  intros q x t Hi _ Hx. destruct (claims_step c t x) as [(-> & _)|(o & k & -> & E)]; [exact Hi|].
  destruct Hx as (Hroot & Hmove & _). fold t. destruct k; cbn [cl_exec] in E.
  - apply claim_ok in E as (_ & sg & _ & _ & E). apply process_ok in E as (due & P1 & P2 & _ & _ & -> & _). cbn [cl_claims cl_total].
    rewrite (sum_delete _ sg), P1 in Hi. cbn [default] in Hi. unfold id in Hi. lia.
  - apply mint_ok in E as (-> & _). contradiction.
  - apply claim_attest_ok in E as (_ & sg & _ & _ & E). apply process_ok in E as (due & P1 & P2 & _ & _ & -> & _). cbn [cl_claims cl_total].
    rewrite (sum_delete _ sg), P1 in Hi. cbn [default] in Hi. unfold id in Hi. lia.
  - apply attest_ok in E as (a & sg & s1 & _ & _ & _ & E & ->). apply process_ok in E as (due & P1 & P2 & _ & _ & P5 & _).
    unfold upd_cl. cbn [rt_cl set_cl cl_claims cl_total]. rewrite P5. cbn [cl_claims cl_total].
    rewrite (sum_delete _ sg), P1 in Hi. cbn [default] in Hi. unfold id in Hi. lia.
  - apply move_ok in E as ([Hm|Hm] & _); [congruence|contradiction].
Qed.
(** The holder of the key collects the claim later just as now, into any account that does not vest yet *)
Theorem C99_claims_stay_collectable : forall c f g p l w dest sig,
  let s := run c (genesis_state g) p in let s' := run c s l in
  armed f s -> history c f s l -> ~ holds f w -> (forall a, owns f a -> cl_preclaims (rt_cl s) !! a <> Some w) ->
  open_claims s <= cl_total (rt_cl s) ->
  (exists due, cl_claims (rt_cl s) !! w = Some due) -> cl_signing (rt_cl s) !! w = None ->
  (forall lk per st, cl_vesting (rt_cl s) !! w = Some (lk, per, st) -> rt_vest s' !! dest = None /\ (lk = 0 \/ per <> 0)) ->
  eth_signed c sig w dest [] ->
  (dispatch c NoneO (CCl (ClClaim dest sig)) s').1 = Success.
Proof.
  intros c f g p l w dest sig s s' Ha Hl Hw Hpre Ho [due Hd] Hst Hv Hsig.
  destruct (C98_outsiders_cannot_take_a_claim c f g p l w Ha Hl Hw Hpre) as (E1 & E2 & E3). fold s s' in E1, E2, E3.
  apply C68_claims_calls_accepted_exactly. exists w. split; [reflexivity|]. split; [exact Hsig|]. split; [rewrite E3; exact Hst|].
  exists due. split; [rewrite E1; exact Hd|]. split.
  - pose proof (open_claims_kept c f g p l Ha Hl Ho) as H. fold s s' in H.
    change (sum_map (cl_claims (rt_cl s')) <= cl_total (rt_cl s')) in H.
    rewrite (sum_delete _ w), E1, Hd in H. cbn [default] in H. unfold id in H. lia.
  - intros lk per st H. rewrite E2 in H. eapply Hv; eauto.
Qed.
Print Assumptions C99_claims_stay_collectable.

(** ** What can be blocked: shards without configuration *)
(** A stranger [b] configures the shard named after the measurement of the enclaves of [f]: from then on
    these cannot operate it, and without root they never get it back *)
Theorem C99_a_taken_shard_stays_taken : forall c g p b e v,
  let s := run c (genesis_state g) p in
  tx_sov (rt_tx s) !! b = Some e -> eb_config (rt_eb s) !! v = None -> listable s v b ->
  let x := OCall (Signed b) (CEb (EbUpdateConfig v (mkScfg (en_mr_enclave e) None None false) 0)) in
  let s1 := step c s x in
  operator s v (rt_blk s) = v /\
  forall f l, armed f s1 -> history c f s1 l -> ~ attests f (en_mr_enclave e) ->
  operator (run c s1 l) v (rt_blk (run c s1 l)) = en_mr_enclave e /\
  forall a, owns f a -> ~ operates (run c s1 l) v a.
Proof.
  intros c g p b e v s He Hc Hl x s1. split; [unfold operator, in_force; rewrite Hc; reflexivity|].
  intros f l Ha Hh Hn.
  assert (eb_config (rt_eb s1) !! v = Some (mkUscfg (mkScfg (en_mr_enclave e) None None false) None None)) as E1.
  { assert ((dispatch c (Signed b) (CEb (EbUpdateConfig v (mkScfg (en_mr_enclave e) None None false) 0)) s).1 = Success) as E.
    { apply (C68_bridge_calls_accepted_exactly c g p). right. exists b, e. fold s. split; [auto|]. split; [auto|]. split; [auto|].
      intros y Hy. unfold in_force in Hy. rewrite Hc in Hy. discriminate. }
    apply succ_pair in E. apply C69_bridge_calls_do_exactly_this in E as [(_ & [E _]%entry_split & _) _]. rewrite Hc in E. exact E. }
  assert (run c (genesis_state g) (p ++ [x]) = s1) as Er by (rewrite run_snoc; auto).
  assert (guarded f s1 v) as Hg.
  { right. intros b' _. exists (mkScfg (en_mr_enclave e) None None false). split; [unfold in_force; rewrite E1; reflexivity|exact Hn]. }
  pose proof (C98_outsiders_cannot_steer_a_shard c f g (p ++ [x]) l v) as H. cbv zeta in H. rewrite Er in H.
  specialize (H Ha Hh Hg) as (E2 & _). rewrite E1 in E2.
  assert (operator (run c s1 l) v (rt_blk (run c s1 l)) = en_mr_enclave e) as Eo by (unfold operator, in_force; rewrite E2; reflexivity).
  split; [exact Eo|]. intros a Hoa (e' & H1 & H2 & _). rewrite Eo in H2.
  assert (armed f (run c s1 l)) as Har.
  { pose proof (history_all c f g (p ++ [x]) l (fun _ => True)) as H. cbv zeta in H. rewrite Er in H.
    apply H; auto. }
  apply Hn. rewrite <- H2. eapply Har; eauto.
Qed.
Print Assumptions C99_a_taken_shard_stays_taken.

(** ** What can be blocked: shards with ten operators *)
Definition full (s : rt) (v : bytes) : Prop := lenN (status_of s v) = 10.
Lemma refreshed_full x l l' : refreshed x l l' -> lenN l = 10 -> lenN l' <= 10 -> map ss_signer l' = map ss_signer l.
Proof.
  intros [(l1 & y & l2 & -> & Hy & _ & ->)|[_ ->]] H1 H2.
  - rewrite !map_app. cbn [map]. rewrite Hy. reflexivity.
  - unfold lenN in *. rewrite app_length in H2. cbn [length] in H2. lia.
Qed.
Lemma full_step c g p x v : let s := run c (genesis_state g) p in full s v -> (forall a, x <> OCall Root (CEb (EbPurge v a))) ->
  full (step c s x) v /\ signers_of (step c s x) v = signers_of s v.
Proof.
  intros s Hf Hx.
  assert (forall t, eb_status (rt_eb t) = eb_status (rt_eb s) -> full t v /\ signers_of t v = signers_of s v) as Hsame.
  { intros t E. unfold full, signers_of, status_of in *. rewrite E. auto. }
  assert (lenN (status_of (step c s x) v) <= 10) as Hlen.
  { pose proof (status_of_ok (step c s x) v) as H. unfold s in H. rewrite <- run_snoc in H.
    destruct (H (status_ok_run c g (p ++ [x]))) as [H1 _]. rewrite run_snoc in H1. exact H1. }
  assert (forall sh a e, operator_seen s (step c s x) sh a e -> full (step c s x) v /\ signers_of (step c s x) v = signers_of s v) as Hseen.
  { intros sh a e (l' & Hr & [E1 E2]%entry_split). destruct (decide (v = sh)) as [->|Hn].
    - assert (status_of (step c s x) sh = l') as El by (unfold status_of; rewrite E1; reflexivity). rewrite El in Hlen.
      assert (signers_of (step c s x) sh = signers_of s sh) as Es.
      { unfold signers_of. rewrite El. exact (refreshed_full _ _ _ Hr Hf Hlen). }
      split; [|exact Es]. unfold full, lenN in *. pose proof (f_equal length Es) as Hl. unfold signers_of in Hl. rewrite !map_length in Hl. lia.
    - unfold full, signers_of, status_of in *. rewrite E2 by auto. auto. }
  destruct (op_may_write x PEb) eqn:Hw; [|apply Hsame; f_equal; apply (step_same c s x PEb Hw)].
  destruct x as [o k| | | | | | | | | |]; try discriminate Hw.
  destruct (step_call c s o k) as [(s' & E & Es)|Es]; [|rewrite Es; auto].
  apply succ_of in E. rewrite Es in *. destruct k as [k|k|k|k|k|k|k|k]; try discriminate Hw.
  - pose proof E as E0. apply C69_bridge_calls_do_exactly_this in E as [E _].
    destruct k as [sh cy|sh h n r|sh b w|sh b w h|h tp d|sh new delay|sh a]; cbn [eb_does] in E.
    + destruct E as [E _]. apply Hsame. rewrite E. auto.
    + destruct E as (a & e & _ & _ & E & _). exact (Hseen _ _ _ E).
    + destruct E as (a & evs & _ & E & _). apply Hsame. rewrite E. auto.
    + destruct E as (a & e & _ & _ & E & _). exact (Hseen _ _ _ E).
    + destruct E as (a & e & _ & _ & E & _). exact (Hseen _ _ _ E).
    + destruct E as [E _]. destruct o as [|a|]; [apply Hsame, E| |apply Hsame, E]. destruct E as (e & _ & E). exact (Hseen _ _ _ E).
    + assert (o = Root) as ->.
      { assert ((dispatch c o (CEb (EbPurge sh a)) s).1 = Success) as HS by (rewrite E0; auto).
        unfold s in HS. rewrite C68_bridge_calls_accepted_exactly in HS. destruct HS as [HS _]. exact HS. }
      destruct E as (l0 & _ & [_ E]%entry_split & _). assert (v <> sh) as Hn by (intros ->; exact (Hx a eq_refl)).
      unfold full, signers_of, status_of in *. rewrite E by auto. auto.
  - destruct k as [sh anc cand]. apply C69_sidechain_confirmation_does_exactly_this in E as (a & e & _ & _ & E & _). exact (Hseen _ _ _ E).
Qed.
(** Once ten accounts are listed nobody else operates the shard until root removes one of them *)
Theorem C99_ten_operators_lock_out_all_others : forall c g p l v a,
  let s := run c (genesis_state g) p in
  full s v -> ~ In a (signers_of s v) -> (forall b, ~ In (OCall Root (CEb (EbPurge v b))) l) ->
  ~ operates (run c s l) v a.
Proof.
  intros c g p l v a s Hf Ha Hl.
  assert (full (run c s l) v /\ signers_of (run c s l) v = signers_of s v) as [H1 H2].
  { induction l as [|x l IH] using rev_ind; [auto|]. destruct IH as [I1 I2].
    { intros b H. apply (Hl b), in_or_app. auto. }
    rewrite run_snoc. unfold s in *. rewrite <- run_app in *. destruct (full_step c g (p ++ l) x v I1) as [J1 J2].
    { intros b ->. apply (Hl b), in_or_app. right. left. auto. }
    rewrite J2. auto. }
  intros (e & _ & _ & [H|H]); [rewrite H2 in H; auto|]. unfold full in H1. lia.
Qed.
Print Assumptions C99_ten_operators_lock_out_all_others.

(** ** What can be blocked: preclaimed accounts *)
(** A vested transfer of a stranger to the account that alone may attest blocks the claim *)
Theorem C99_preclaims_cannot_be_blocked_refuted : exists c f g p l v w text,
  let s := run c (genesis_state g) p in
  armed f s /\ history c f s l /\ ~ owns f v /\ ~ holds f w /\ cl_preclaims (rt_cl s) !! v = Some w /\
  (dispatch c (Signed v) (CCl (ClAttest text)) s).1 = Success /\
  (dispatch c (Signed v) (CCl (ClAttest text)) (run c s l)).1 = Failed VestedBalanceExists.
Proof.
  exists (cfg_cl true 5), (mkFoe (fun x => x = bob) (fun _ => False) (fun _ => False)),
    (gen_cl [(eth 1, 100, Some alice, Some StRegular)] [(eth 1, (50, 1, 0))]), [OMint bob 500; ONextBlock 6000],
    [OTransfer bob alice 20; OAddVesting alice 20 1 0], alice, (eth 1), (to_text StRegular).
  cbv zeta. split.
  { intros a e _ He. exfalso.
    assert (tx_sov (rt_tx (run (cfg_cl true 5) (genesis_state (gen_cl [(eth 1, 100, Some alice, Some StRegular)] [(eth 1, (50, 1, 0))])) [OMint bob 500; ONextBlock 6000])) = empty) as E
      by (vm_compute; reflexivity).
    rewrite E, lookup_empty in He. discriminate. }
  split; [cbn [history acts]; split; [reflexivity|split; [exact I|exact I]]|]. split; [cbn; vm_compute; discriminate|].
  split; [cbn; auto|]. vm_compute. auto.
Qed.
Print Assumptions C99_preclaims_cannot_be_blocked_refuted.

(** ** Concrete cases *)
(** alice operates the shard of her enclave and has configured it: bob's attempts do not keep her from it *)
Definition configured : list op :=
  [register alice (acc 9); OCall (Signed alice) (CEb (EbUpdateConfig (acc 9) (mkScfg (acc 9) None None false) 0)); register bob (acc 8)].
Definition tries : list op := [ONextBlock 6000;
  OCall (Signed bob) (CEb (EbUpdateConfig (acc 9) (mkScfg (acc 8) None None false) 0));
  OCall (Signed bob) (CEb (EbConfirm (acc 9) (acc 1) 1 (acc 2)));
  OCall (Signed bob) (CTx (TxUnregisterSovereign alice))].
Example C99_operator_example :
  let s := run cfg0 (genesis_state (gen0 [alice; bob])) configured in let s' := run cfg0 s tries in
  armed thief s /\ history cfg0 thief s tries /\ guarded thief s (acc 9) /\ ~ attests thief (acc 9) /\
  signers_of s (acc 9) = [alice] /\ operator s (acc 9) (rt_blk s') = acc 9 /\
  (dispatch cfg0 (Signed alice) (CEb (EbConfirm (acc 9) (acc 1) 1 (acc 2))) s').1 = Success.
Proof.
  intros s s'. split.
  { intros a e Ha He. cbn [owns attests thief] in *. subst a.
    assert (en_mr_enclave <$> tx_sov (rt_tx s) !! bob = Some (acc 8)) as E by (vm_compute; reflexivity).
    rewrite He in E. change (Some (en_mr_enclave e) = Some (acc 8)) in E. congruence. }
  split.
  { assert (forall t k, (forall p u m, k <> CTx (TxRegister p u m)) -> (forall k', k <> CCl k') -> acts cfg0 thief t (OCall (Signed bob) k)) as Hacts.
    { intros t k K1 K2. cbn [acts]. split; [discriminate|]. do 3 (split; [reflexivity|]). split; [intros b [= <-]; reflexivity|].
      split; [intros b q u m e' _ Hk; destruct (K1 _ _ _ Hk)|]. split; intros; exfalso; eapply K2; eauto. }
    unfold tries. cbn [history]. split; [exact I|]. repeat (split; [apply Hacts; congruence|]). exact I. }
  split.
  { right. intros b Hb. exists (mkScfg (acc 9) None None false). split.
    - assert (eb_config (rt_eb s) !! acc 9 = Some (mkUscfg (mkScfg (acc 9) None None false) None None)) as E by (vm_compute; reflexivity).
      exact (f_equal (fmap (M := option) (fun u => in_force_of u b)) E).
    - vm_compute. discriminate. }
  split; [vm_compute; discriminate|]. vm_compute. auto.
Qed.
(** the same shard without configuration: one call of bob and alice is out *)
Example C99_takeover_example :
  let s := run cfg0 (genesis_state (gen0 [alice; bob])) [register alice (acc 9); register bob (acc 8)] in
  let s1 := step cfg0 s (OCall (Signed bob) (CEb (EbUpdateConfig (acc 9) (mkScfg (acc 8) None None false) 0))) in
  (dispatch cfg0 (Signed alice) (CEb (EbConfirm (acc 9) (acc 1) 1 (acc 2))) s).1 = Success /\
  (dispatch cfg0 (Signed alice) (CEb (EbConfirm (acc 9) (acc 1) 1 (acc 2))) s1).1 = Failed WrongFingerprintForShard /\
  (dispatch cfg0 (Signed alice) (CEb (EbUpdateConfig (acc 9) (mkScfg (acc 9) None None false) 0)) s1).1 = Failed WrongFingerprintForShard /\
  (dispatch cfg0 Root (CEb (EbUpdateConfig (acc 9) (mkScfg (acc 9) None None false) 0)) s1).1 = Success.
Proof. vm_compute. auto. Qed.
(** ten accounts with enclaves of the same measurement fill the list *)
Definition crowd : list acct := map (fun i => acc (100 + i)) [0; 1; 2; 3; 4; 5; 6; 7; 8; 9].
Definition filling : list op :=
  map (fun a => register a (acc 9)) (alice :: crowd) ++ map (fun a => OCall (Signed a) (CEb (EbPublish (acc 1) [] []))) crowd.
Example C99_crowd_example :
  let s := run cfg0 (genesis_state (gen0 [alice])) filling in
  full s (acc 9) /\ signers_of s (acc 9) = crowd /\ operator s (acc 9) (rt_blk s) = acc 9 /\
  (en_mr_enclave <$> tx_sov (rt_tx s) !! alice) = Some (acc 9) /\
  (dispatch cfg0 (Signed alice) (CEb (EbConfirm (acc 9) (acc 1) 1 (acc 2))) s).1 = Failed TooManyEnclaves /\
  (dispatch cfg0 (Signed alice) (CEb (EbConfirm (acc 9) (acc 1) 1 (acc 2)))
     (dispatch cfg0 Root (CEb (EbPurge (acc 9) (acc 104))) s).2).1 = Success.
Proof. vm_compute. repeat split. Qed.
(** the oracle and the stake of C98's example go on after the attempts *)
Example C99_service_example :
  let s := run cfg0 (genesis_state (gen0 [alice; bob])) guarded_start in let s' := run cfg0 s attempts in
  (dispatch cfg0 (Signed alice) (CTo (ToUpdateRate [67; 71] [85] (Some 7))) s').1 = Success /\
  (dispatch cfg0 (Signed alice) (CTd (TdUnbond 100)) s').1 = Success.
Proof. vm_compute. auto. Qed.
(** and so does the claim of the first address in C98's example *)
Example C99_claim_example :
  let c := cfg_cl true 5 in let g := gen_cl [(eth 1, 100, Some alice, None); (eth 2, 70, None, None)] [] in
  let s := run c (genesis_state g) [ONextBlock 6000] in
  let s' := run c s [do_claim true 5 2 bob; OCall (Signed bob) (CCl (ClAttest (to_text StRegular)))] in
  open_claims s = 170 /\ cl_total (rt_cl s) = 170 /\
  (dispatch c NoneO (CCl (ClClaim carol (toy_sign c 1 carol []))) s').1 = Success.
Proof. vm_compute. auto. Qed.
