(** * Properties of enclave-bridge: C09-C20, C60 (second part).

    Observables ([BridgeProofs]): [status_of s sh] the signer status of shard [sh]; [in_force s sh b] the
    explicit configuration in force at block [b]; [operator s sh b] the fingerprint that may operate the shard;
    [confirmations s h] the counter of unshield hash [h]; [vault sh] the account holding the shard's funds. *)
From Verif Require Import Base State Env TeerdaysModel TeerexBase SgxVerifyModel TeerexModel
  EnclaveBridgeModel SidechainModel TeeracleModel ClaimsModel AssetRegistryModel XcmTransactorModel
  Runtime Frame EnvFacts Panic BridgeProofs Ledger Erase Examples.

(** Example shards and a history in which alice runs an enclave with fingerprint [acc 9] on the shard of
    the same name *)
Definition shard9 : bytes := acc 9.
Definition base_hist : list op :=
  [register alice (acc 9); register bob (acc 8); OMint carol 100000; ONextBlock 6000;
   OCall (Signed carol) (CEb (EbShield shard9 [1; 2] 5000))].
Definition base_state : rt := run cfg0 (genesis_state (gen0 [alice; bob])) base_hist.

(** ** C09 *)
(** [payouts c s l h]: UnshieldedFunds events emitted by the calls of the history [l] carrying hash [h];
    [accepted c s l h]: number of accepted unshield calls carrying it. *)
Lemma payouts_bound c l : forall s h,
  payouts c s l h = (if eb_exec (rt_eb s) !! h then 0 else if accepted c s l h =? 0 then 0 else 1) /\
  (accepted c s l h = 0 -> eb_exec (rt_eb (run c s l)) !! h = eb_exec (rt_eb s) !! h) /\
  (confirmations s h + accepted c s l h <= u64_max ->
   confirmations (run c s l) h = confirmations s h + accepted c s l h).
Proof.
  induction l as [|x l IH]; intros s h.
  - cbn. destruct (eb_exec (rt_eb s) !! h); repeat split; auto; lia.
  - destruct (IH (step c s x) h) as (IH1 & IH2 & IH3). cbn [payouts accepted]. rewrite run_cons.
    pose proof (counter_step c s x h) as Hs. cbv zeta in Hs. unfold confirmations in *.
    destruct (is_unshield h x) eqn:Ex; cbn [andb] in *.
    + destruct (succeeds c s x).
      * destruct Hs as [(E1 & E2 & E3)|(m & m' & E1 & E2 & E3 & E4 & _)].
        -- rewrite E1, E2, E3 in *. cbn in IH3 |- *. rewrite IH1.
           split; [|split; [lia|intros; rewrite IH3 by lia; lia]].
           destruct (N.eqb_spec (1 + accepted c (step c s x) l h) 0); lia.
        -- rewrite E1, E2, E4 in *. cbn in IH3 |- *. rewrite IH1. unfold id in *.
           split; [lia|]. split; [lia|]. intros. rewrite IH3; rewrite E3; lia.
      * destruct Hs as [E1 E2]. rewrite (E2 eq_refl), E1 in *. rewrite N.sub_diag, !N.add_0_l. auto.
    + destruct Hs as [E1 _]. rewrite E1 in *. rewrite !N.add_0_l. auto.
Qed.
Theorem C09_unshield_pays_at_most_once : forall c g l h,
  payouts c (genesis_state g) l h = (if accepted c (genesis_state g) l h =? 0 then 0 else 1).
Proof. intros c g l h. destruct (payouts_bound c l (genesis_state g) h) as [-> _]. cbn. rewrite lookup_empty. auto. Qed.
Print Assumptions C09_unshield_pays_at_most_once.
Theorem C09_counter_counts_accepted_calls : forall c g l h,
  accepted c (genesis_state g) l h <= u64_max ->
  confirmations (run c (genesis_state g) l) h = accepted c (genesis_state g) l h.
Proof.
  intros c g l h H. destruct (payouts_bound c l (genesis_state g) h) as (_ & _ & H3).
  assert (confirmations (genesis_state g) h = 0) as E by (unfold confirmations; cbn; rewrite lookup_empty; auto).
  rewrite E in H3. apply H3. lia.
Qed.
Print Assumptions C09_counter_counts_accepted_calls.
(** Once a hash was accepted, no further call carrying it moves any funds. *)
Theorem C09_repeated_unshield_moves_nothing : forall c g l1 o sh benef v h a,
  let s := run c (genesis_state g) l1 in
  0 < accepted c (genesis_state g) l1 h ->
  free (dispatch c o (CEb (EbUnshield sh benef v h)) s).2 a = free s a.
Proof.
  intros c g l1 o sh benef v h a s H.
  assert (eb_exec (rt_eb s) !! h <> None) as Hn.
  { assert (forall l t, (0 < accepted c t l h \/ eb_exec (rt_eb t) !! h <> None) -> eb_exec (rt_eb (run c t l)) !! h <> None) as HI.
    { clear. induction l as [|x l IH]; intros t Ht; [cbn in *; destruct Ht; [lia|auto]|].
      rewrite run_cons. apply IH. cbn [accepted] in Ht. pose proof (counter_step c t x h) as Hs. cbv zeta in Hs.
      destruct (is_unshield h x && succeeds c t x).
      - right. destruct Hs as [(_ & E & _)|(m & m' & _ & E & _)]; rewrite E; congruence.
      - destruct Hs as [E _]. rewrite E. destruct Ht as [Ht|Ht]; [left; lia|auto]. }
    apply HI. auto. }
  pose proof (counter_step c s (OCall o (CEb (EbUnshield sh benef v h))) h) as Hs. cbv zeta in Hs.
  cbn [is_unshield succeeds step] in Hs. rewrite beq_refl in Hs. cbn [andb] in Hs.
  unfold dispatch in *. destruct (run_call_cases (exec c o (CEb (EbUnshield sh benef v h))) s) as [(s' & _ & E)|[Hf E]].
  - rewrite E in *. cbn [fst snd] in *. destruct Hs as [(E1 & _)|(m & m' & _ & _ & _ & _ & Hfree)]; [congruence|]. auto.
  - rewrite E. auto.
Qed.
Print Assumptions C09_repeated_unshield_moves_nothing.
Definition unshields : list op :=
  [call_eb alice (EbUnshield shard9 carol 300 (acc 77)); call_eb alice (EbUnshield shard9 bob 400 (acc 77));
   call_eb bob (EbUnshield (acc 8) bob 0 (acc 77)); call_eb alice (EbUnshield shard9 bob 400 (acc 78))].
Example C09_example :
  accepted cfg0 base_state unshields (acc 77) = 3 /\ payouts cfg0 base_state unshields (acc 77) = 1 /\
  confirmations (run cfg0 base_state unshields) (acc 77) = 3 /\
  free base_state shard9 = 5000 /\ free (run cfg0 base_state unshields) shard9 = 4300.
Proof. vm_compute. repeat split; reflexivity. Qed.

(** ** C10 *)
Lemma free_touched sh a fp s b : free (touched sh a fp s) b = free s b.
Proof. apply free_view. apply (touched_other _ v_free). auto. Qed.
Lemma cl_free_mono c o x s s' a : cl_exec c o x s = Ok tt s' -> free s a <= free s' a.
Proof.
  set (P := fun t => free s a <= free t a). intros H.
  assert (keepsP P (cl_exec c o x)) as HP; [|exact (HP s tt s' (N.le_refl _) H)].
  assert (forall t t', v_free t' = v_free t -> P t -> P t') as Hv.
  { unfold P. intros t t' E. rewrite (free_view _ _ E). auto. }
  assert (forall b v, keepsP P (deposit_creating c b v)) as Hd.
  { intros b v t u t' Ht Hd. unfold P in *. apply deposit_ok in Hd as [(-> & _)|(_ & _ & _ & HF & _)]; [auto|].
    rewrite HF. destruct (decide (a = b)); subst; lia. }
  destruct x; cbn [cl_exec]; unfold claim, mint_claim, claim_attest, attest, move_claim, process_claim,
    add_vesting_schedule, write_vesting, set_lock, remove_lock, deposit_event, ensure_signed, ensure_root, ensure_none;
  repeat first [ apply Hd
    | apply keepsP_modify; let t := fresh in intros t; apply Hv; cbn; repeat case_match; reflexivity | keepsP_step ].
Qed.
Theorem C10_only_authorised_enclave_releases_vault : forall c o k s sh,
  free (dispatch c o k s).2 (vault sh) < free s (vault sh) ->
  (exists sh' b v, o = Signed (vault sh) /\ k = CEb (EbShield sh' b v)) \/
  (exists a e benef v h, o = Signed a /\ k = CEb (EbUnshield sh benef v h) /\
   tx_sov (rt_tx s) !! a = Some e /\ en_mr_enclave e = operator s sh (rt_blk s) /\
   eb_exec (rt_eb s) !! h = None /\ v <= free s (vault sh) /\
   free s (vault sh) - free (dispatch c o k s).2 (vault sh) < v + N.max 1 (c_ed c) /\
   In (EvUnshieldedFunds sh benef v) (rt_ev (dispatch c o k s).2)).
Proof. change en_mr_enclave with fingerprint.
  intros c o k s sh H. destruct (run_call_cases (exec c o k) s) as [(s' & E & Er)|[_ Er]]; unfold dispatch in *; rewrite Er in *.
  2: lia.
  cbn [snd] in *. destruct (may_write k PFree) eqn:Hw.
  2: { rewrite (free_view _ _ (exec_keeps c o k PFree Hw _ _ _ E)) in H. lia. }
  destruct k as [x|x|x|x|x|x|x|x]; try discriminate Hw; cbn [exec] in E.
  2: { apply cl_free_mono with (a := vault sh) in E. lia. }
  destruct x; cbn [eb_exec_call] in E.
  - unfold invoke in E. inv_rt E. change (free (add_ev ?e ?t) ?z) with (free t z) in H. lia.
  - apply confirm_processed_ok in E as (a & e & -> & _ & _ & ->).
    change (free (add_ev ?e ?t) ?z) with (free t z) in H. rewrite free_touched in H. lia.
  - apply shield_ok in E as (a & s1 & -> & Ht & ->). change (free (add_ev ?e ?t) ?z) with (free t z) in H.
    apply transfer_ok in Ht as [(_ & ->)|(_ & _ & _ & _ & _ & _ & HF & _)]; [lia|]. rewrite HF in H.
    destruct (decide (vault sh = a)) as [<-|]; [left; eauto|]. destruct (decide _) as [E|]; [rewrite E in H|]; lia.
  - apply unshield_ok in E as (a & e & -> & [H1 H2] & _ & [(Hx & s1 & Ht & ->)|(n & n1 & _ & _ & _ & ->)]).
    2: { change (free (put_exec ?p ?q ?t) ?z) with (free t z) in H. rewrite free_touched in H. lia. }
    change (free (put_exec ?p ?q (add_ev ?e (put_exec ?p' ?q' ?t))) ?z) with (free t z) in *. right. exists a, e, benef, amount, call_hash.
    apply transfer_ok in Ht as [(_ & ->)|(_ & _ & Hv & _ & _ & _ & HF & HE)]; [rewrite free_touched in H; lia|].
    rewrite HF in *. rewrite !free_touched in *.
    destruct (decide (vault sh = vault shard)) as [Es|]; [|destruct (decide _) as [Es|]; [rewrite Es in H|]; lia].
    unfold vault in Es. subst shard. repeat split; auto.
    + unfold after_dust in *. destruct (N.ltb_spec (free s (vault sh) - amount) (c_ed c)); lia.
    + left. auto.
  - apply publish_ok in E as (a & e & -> & _ & _ & _ & _ & ->).
    change (free (add_ev ?e (put_status ?p ?q ?t)) ?z) with (free t z) in H. lia.
  - apply update_config_ok in E as [(-> & ->)|(a & e & -> & _ & _ & _ & ->)];
    change (free (add_ev ?e (put_config ?p ?q ?t)) ?z) with (free t z) in H; [lia|].
    change (free (put_status ?p ?q ?t) ?z) with (free t z) in H. lia.
  - apply purge_ok in E as (-> & l & _ & ->). change (free (add_ev ?e (put_status ?p ?q ?t)) ?z) with (free t z) in H. lia.
Qed.
Print Assumptions C10_only_authorised_enclave_releases_vault.
Example C10_example :
  free (dispatch cfg0 (Signed alice) (CEb (EbUnshield shard9 carol 300 (acc 77))) base_state).2 shard9 = 4700 /\
  (dispatch cfg0 (Signed bob) (CEb (EbUnshield shard9 bob 300 (acc 77))) base_state).1 = Failed WrongFingerprintForShard.
Proof. vm_compute. repeat split; reflexivity. Qed.

(** ** C11 *)
(** Bob's enclave, on its own shard, uses up the hash of a call for alice's shard; alice's call is then
    accepted although the hash was never used on that shard, and pays nothing. *)
Theorem C11_hash_burnt_on_another_shard_refuted : exists c g l1 x a sh benef v h,
  let s0 := run c (genesis_state g) l1 in
  let s := step c s0 x in
  (forall o sh' b v', In (OCall o (CEb (EbUnshield sh' b v' h))) (l1 ++ [x]) -> sh' <> sh) /\
  v <= free s (vault sh) /\ 0 < v /\
  (dispatch c (Signed a) (CEb (EbUnshield sh benef v h)) s).1 = Success /\
  free (dispatch c (Signed a) (CEb (EbUnshield sh benef v h)) s).2 benef = free s benef.
Proof.
  exists cfg0, (gen0 [alice; bob]), base_hist, (call_eb bob (EbUnshield (acc 8) bob 0 (acc 77))), alice, shard9, carol, 300, (acc 77).
  split; [|vm_compute; repeat split; congruence].
  intros o sh' b v' Hi. cbn in Hi. repeat (destruct Hi as [Hi|Hi]; [inversion Hi; subst; vm_compute; congruence|]). contradiction.
Qed.
Print Assumptions C11_hash_burnt_on_another_shard_refuted.
Theorem C11_fresh_hash_pays : forall c g l o sh benef v h s',
  let s := run c (genesis_state g) l in
  accepted c (genesis_state g) l h = 0 ->
  dispatch c o (CEb (EbUnshield sh benef v h)) s = (Success, s') ->
  (benef <> vault sh -> free s' benef = free s benef + v) /\
  In (EvUnshieldedFunds sh benef v) (rt_ev s') /\ confirmations s' h = 1.
Proof.
  intros c g l o sh benef v h s' s Ha H. apply run_call_ok in H. cbn [exec eb_exec_call] in H.
  destruct (payouts_bound c l (genesis_state g) h) as (_ & H2 & _). specialize (H2 Ha).
  fold s in H2. change (eb_exec (rt_eb (genesis_state g))) with (∅ : gmap bytes N) in H2. rewrite lookup_empty in H2.
  apply unshield_ok in H as (a & e & -> & _ & _ & [(_ & s1 & Ht & ->)|(n & n1 & E & _)]); [|congruence].
  repeat split.
  - intros Hb. change (free (put_exec ?p ?q (add_ev ?e (put_exec ?p' ?q' ?t))) ?z) with (free t z).
    apply transfer_ok in Ht as [(Hz & ->)|(_ & _ & _ & _ & _ & _ & HF & _)].
    + rewrite free_touched. destruct Hz as [->|Hz]; [lia|congruence].
    + rewrite HF. destruct (decide (benef = vault sh)); [contradiction|]. rewrite free_touched.
      destruct (decide (benef = benef)); [auto|contradiction].
  - left. auto.
  - unfold confirmations. cbn. rewrite lookup_insert. auto.
Qed.
Print Assumptions C11_fresh_hash_pays.
Example C11_example :
  accepted cfg0 (genesis_state (gen0 [alice; bob])) base_hist (acc 77) = 0 /\
  (dispatch cfg0 (Signed alice) (CEb (EbUnshield shard9 carol 300 (acc 77))) base_state).1 = Success.
Proof. vm_compute. repeat split; reflexivity. Qed.

(** ** C12 *)
(** [total f log] sums [f] over the event log: [in_ev]: transfers and deposits received, [unshielded_ev]:
    UnshieldedFunds of the shard to other accounts, [dust_ev]: dust lost. *)
Theorem C12_vault_ledger : forall c g l sh,
  Forall (fun x => vault_signs sh x = false) l ->
  let s := run c (genesis_state g) l in
  free s (vault sh) + total (unshielded_ev sh) (rt_ev s) + total (dust_ev (vault sh)) (rt_ev s)
  = default 0 (g_bal g !! vault sh) + total (in_ev (vault sh)) (rt_ev s).
Proof.
  intros c g l sh HF s. pose proof (balanced_run (vault sh) c g l) as Hb. pose proof (vault_run sh c g l HF) as [H1 H2].
  fold s in Hb, H1, H2. unfold balanced in Hb. lia.
Qed.
Print Assumptions C12_vault_ledger.
Theorem C12_payouts_never_exceed_deposits : forall c g l sh,
  Forall (fun x => vault_signs sh x = false) l -> g_bal g !! vault sh = None ->
  let s := run c (genesis_state g) l in
  total (unshielded_ev sh) (rt_ev s) <= total (in_ev (vault sh)) (rt_ev s).
Proof. intros c g l sh HF Hg s. pose proof (C12_vault_ledger c g l sh HF) as H. fold s in H. rewrite Hg in H. cbn in H. lia. Qed.
Print Assumptions C12_payouts_never_exceed_deposits.
(** The same for every account: nothing appears or disappears outside the log. *)
Theorem C12_every_account_ledger : forall c g l a,
  let s := run c (genesis_state g) l in
  free s a + total (sent_ev a) (rt_ev s) + total (fee_ev a) (rt_ev s) + total (dust_ev a) (rt_ev s)
  = default 0 (g_bal g !! a) + total (in_ev a) (rt_ev s).
Proof. intros c g l a. exact (balanced_run a c g l). Qed.
Print Assumptions C12_every_account_ledger.
Example C12_example :
  let l := base_hist ++ unshields in let s := run cfg0 (genesis_state (gen0 [alice; bob])) l in
  forallb (fun x => negb (vault_signs shard9 x)) l = true /\
  (free s shard9, total (unshielded_ev shard9) (rt_ev s), total (in_ev shard9) (rt_ev s)) = (4300, 700, 5000).
Proof. vm_compute. repeat split; reflexivity. Qed.

(** ** C13 *)
Theorem C13_operator_changed_only_by_operator_or_root : forall c g l x sh b,
  let s := run c (genesis_state g) l in
  in_force s sh (rt_blk s) <> None ->
  rt_blk s <= b -> in_force (step c s x) sh b <> in_force s sh b ->
  exists o new d, x = OCall o (CEb (EbUpdateConfig sh new d)) /\
  (o = Root \/ exists a e, o = Signed a /\ tx_sov (rt_tx s) !! a = Some e /\ en_mr_enclave e = operator s sh (rt_blk s)).
Proof. change en_mr_enclave with fingerprint.
  intros c g l x sh b s Hs Hb Hd.
  destruct x as [o k| | | | | | | | | |].
  2-11: exfalso; apply Hd; apply in_force_view; rewrite step_eb_other by congruence; auto.
  destruct (step_call c s o k) as [(s' & H & E)|E]; rewrite E in *; [|contradiction].
  destruct (config_effect c o k s s' H) as [(sh' & new & d & -> & Ec & Ho)|[_ Hc]].
  2: { exfalso. apply Hd. auto. }
  destruct (decide (sh' = sh)) as [->|Hn].
  2: { exfalso. apply Hd. unfold in_force. rewrite Ec, lookup_insert_ne by auto. auto. }
  exists o, new, d. split; [auto|]. destruct Ho as [->|(a & e & -> & H1 & H2)]; [auto|]. right. exists a, e. auto.
Qed.
Print Assumptions C13_operator_changed_only_by_operator_or_root.
Definition config9 : scfg := mkScfg (acc 9) None None false.
Example C13_example :
  let s := run cfg0 base_state [call_eb alice (EbUpdateConfig shard9 config9 0)] in
  in_force s shard9 (rt_blk s) = Some config9 /\
  (dispatch cfg0 (Signed bob) (CEb (EbUpdateConfig shard9 (mkScfg (acc 8) None None false) 0)) s).1 = Failed WrongFingerprintForShard /\
  in_force (step cfg0 s (call_eb alice (EbUpdateConfig shard9 (mkScfg (acc 7) None None false) 0))) shard9 1 <> Some config9.
Proof. vm_compute. repeat split; congruence. Qed.
(** A shard operated without explicit configuration: bob's unrelated enclave takes it over and empties the vault. *)
Theorem C13_implicit_shard_takeover_refuted : exists c g l1 l2 sh a e,
  let s := run c (genesis_state g) l1 in
  let s' := run c s l2 in
  tx_sov (rt_tx s) !! a = Some e /\ en_mr_enclave e <> operator s sh (rt_blk s) /\
  Forall (fun x => exists k, x = OCall (Signed a) k) l2 /\
  0 < free s (vault sh) /\ free s' (vault sh) = 0 /\ free s' a = free s a + free s (vault sh).
Proof. change en_mr_enclave with fingerprint.
  exists cfg0, (gen0 [alice; bob]), base_hist,
    [call_eb bob (EbUpdateConfig shard9 (mkScfg (acc 8) None None false) 0); call_eb bob (EbUnshield shard9 bob 5000 (acc 77))],
    shard9, bob. eexists.
  split; [vm_compute; reflexivity|]. split; [vm_compute; congruence|].
  split; [repeat constructor; eexists; reflexivity|]. vm_compute. repeat split; reflexivity.
Qed.
Print Assumptions C13_implicit_shard_takeover_refuted.

(** ** C14 *)
Theorem C14_upgrade_enacted_exactly_on_time : forall c s o sh new d s' old l b,
  in_force s sh (rt_blk s) = Some old ->
  dispatch c o (CEb (EbUpdateConfig sh new d)) s = (Success, s') ->
  Forall (fun x => ~ exists o' new' d', x = OCall o' (CEb (EbUpdateConfig sh new' d'))) l ->
  rt_blk (run c s' l) <= b ->
  in_force (run c s' l) sh b = Some (if b <? N.min (rt_blk s + d) (c_blk_max c) then old else new).
Proof.
  intros c s o sh new d s' old l b Ho H HF Hb. rewrite (in_force_run c s' l sh b HF Hb).
  apply run_call_ok in H. destruct (config_effect c o _ s s' H) as [(sh' & n' & d' & E & Ec & _)|[Hn _]].
  2: { exfalso. eapply Hn; eauto. }
  inversion E; subst. unfold in_force. rewrite Ec, lookup_insert. cbn. unfold new_config. rewrite Ho.
  unfold in_force_of. cbn. f_equal. rewrite N.ltb_antisym. destruct (_ <=? _); auto.
Qed.
Print Assumptions C14_upgrade_enacted_exactly_on_time.
Theorem C14_first_configuration_is_immediate : forall c s o sh new d s' l b,
  in_force s sh (rt_blk s) = None ->
  dispatch c o (CEb (EbUpdateConfig sh new d)) s = (Success, s') ->
  Forall (fun x => ~ exists o' new' d', x = OCall o' (CEb (EbUpdateConfig sh new' d'))) l ->
  rt_blk (run c s' l) <= b ->
  in_force (run c s' l) sh b = Some new.
Proof.
  intros c s o sh new d s' l b Ho H HF Hb. rewrite (in_force_run c s' l sh b HF Hb).
  apply run_call_ok in H. destruct (config_effect c o _ s s' H) as [(sh' & n' & d' & E & Ec & _)|[Hn _]].
  2: { exfalso. eapply Hn; eauto. }
  inversion E; subst. unfold in_force. rewrite Ec, lookup_insert. cbn. unfold new_config. rewrite Ho. auto.
Qed.
Print Assumptions C14_first_configuration_is_immediate.
(** What the pallet's own lookup returns is the configuration in force. *)
Theorem C14_lookup_returns_what_is_in_force : forall s sh b ap,
  exists s', get_config sh b ap s = Ok (in_force s sh b) s'.
Proof. intros. rewrite get_config_eq. eauto. Qed.
Print Assumptions C14_lookup_returns_what_is_in_force.
Example C14_example :
  let s := run cfg0 base_state [call_eb alice (EbUpdateConfig shard9 config9 0)] in
  let s' := step cfg0 s (call_eb alice (EbUpdateConfig shard9 (mkScfg (acc 8) None None false) 3)) in
  rt_blk s = 1 /\ in_force s shard9 1 = Some config9 /\
  operator (run cfg0 s' [ONextBlock 1; ONextBlock 1; call_eb alice (EbConfirm shard9 [] 0 [])]) shard9 3 = acc 9 /\
  operator (run cfg0 s' [ONextBlock 1; ONextBlock 1; ONextBlock 1; call_eb bob (EbConfirm shard9 [] 0 [])]) shard9 4 = acc 8.
Proof. vm_compute. repeat split; reflexivity. Qed.

(** ** C15 *)
Theorem C15_status_bounded_and_unique : forall c g l sh,
  let s := run c (genesis_state g) l in
  lenN (status_of s sh) <= 10 /\ NoDup (signers_of s sh) /\
  forall x, In x (status_of s sh) -> ss_last x <= rt_blk s.
Proof.
  intros c g l sh s. destruct (status_of_ok s sh (status_ok_run c g l)) as (H1 & H2 & H3).
  split; [exact H1|]. split; [exact H2|]. intros x Hx. rewrite Forall_forall in H3. apply H3, elem_of_list_In, Hx.
Qed.
Print Assumptions C15_status_bounded_and_unique.
Example C15_example :
  let s := run cfg0 base_state
    (unshields ++ flat_map (fun i => [register (acc (100 + i)) (acc 9); call_eb (acc (100 + i)) (EbConfirm shard9 [] 0 [])])
       [1; 2; 3; 4; 5; 6; 7; 8; 9; 10; 11; 12]) in
  signers_of s shard9 = alice :: map (fun i => acc (100 + i)) [1; 2; 3; 4; 5; 6; 7; 8; 9].
Proof. vm_compute. reflexivity. Qed.

(** ** C16 *)
(** [l'] is [l] with the entry of [ss_signer x] replaced by [x] in place, or [x] appended if there was none. *)
Definition refreshed (x : sstat) (l l' : list sstat) : Prop :=
  (exists l1 y l2, l = l1 ++ y :: l2 /\ ss_signer y = ss_signer x /\ l' = l1 ++ x :: l2) \/
  (~ In (ss_signer x) (map ss_signer l) /\ l' = l ++ [x]).
Lemma refreshed_touch x l : refreshed x l (touch_list x l).
Proof.
  destruct (touch_list_cases x l) as [(_ & l1 & y & l2 & H1 & H2 & _ & H3)|(H1 & H2)]; [left|right]; [|auto].
  exists l1, y, l2. auto.
Qed.
(** [touch_target k e]: the shard that call [k] of an enclave [e] touches: the shard argument of
    confirm_processed_parentchain_block, unshield_funds, update_shard_config and
    confirm_imported_sidechain_block, the enclave's fingerprint for publish_hash. *)
Theorem C16_touching_changes_exactly_the_callers_entry : forall c a k s s' e sh,
  dispatch c (Signed a) k s = (Success, s') ->
  tx_sov (rt_tx s) !! a = Some e -> touch_target k e = Some sh ->
  refreshed (mkSstat a (en_mr_enclave e) (rt_blk s)) (status_of s sh) (status_of s' sh) /\
  (forall sh', sh' <> sh -> status_of s' sh' = status_of s sh').
Proof. change en_mr_enclave with fingerprint.
  intros c a k s s' e sh H He Ht. apply run_call_ok in H.
  destruct (status_effect c _ k s s' H) as [(a' & e' & sh' & Ho & He' & Ht' & Hl & Es)|[(Ho & _)|(_ & Hn & _)]].
  - inversion Ho; subst a'. assert (e' = e) as -> by congruence. assert (sh' = sh) as -> by congruence.
    unfold status_of at 2 3. rewrite Es. split; [rewrite lookup_insert; apply refreshed_touch|].
    intros sh' Hn. rewrite lookup_insert_ne by auto. auto.
  - discriminate.
  - rewrite (Hn a e eq_refl) in Ht. discriminate.
Qed.
Print Assumptions C16_touching_changes_exactly_the_callers_entry.
(** Calls that touch nothing (and are no purge) leave every status alone. *)
Theorem C16_other_calls_leave_status_alone : forall c o k s sh,
  (forall a e, o = Signed a -> tx_sov (rt_tx s) !! a = Some e -> touch_target k e = None) ->
  (forall sh' a, k <> CEb (EbPurge sh' a)) ->
  status_of (dispatch c o k s).2 sh = status_of s sh.
Proof.
  intros c o k s sh Hn Hp. unfold dispatch. destruct (run_call_cases (exec c o k) s) as [(s' & E & ->)|[_ ->]]; [|auto].
  cbn [snd]. unfold status_of. destruct (status_effect c o k s s' E) as [(a & e & sh' & Ho & He & Ht & _)|[(_ & sh' & a & l & Hk & _)|(Es & _)]].
  - rewrite (Hn a e Ho He) in Ht. discriminate.
  - exfalso. eapply Hp; eauto.
  - rewrite Es. auto.
Qed.
Print Assumptions C16_other_calls_leave_status_alone.
(** An authorised confirmation fails exactly when the caller is new and ten signers are listed. *)
Theorem C16_touch_fails_exactly_when_full : forall c g l a e sh h n r,
  let s := run c (genesis_state g) l in
  tx_sov (rt_tx s) !! a = Some e -> en_mr_enclave e = operator s sh (rt_blk s) ->
  (dispatch c (Signed a) (CEb (EbConfirm sh h n r)) s).1 =
  if negb (existsb (beq a) (signers_of s sh)) && (lenN (status_of s sh) =? 10) then Failed TooManyEnclaves else Success.
Proof. change en_mr_enclave with fingerprint.
  intros c g l a e sh h n r s H1 H2. destruct (status_of_ok s sh (status_ok_run c g l)) as (Hlen & _ & _).
  unfold dispatch, run_call. cbn [exec eb_exec_call]. unfold confirm_processed, bind at 1, ensure_signed, ret at 1.
  unfold bind at 1, gets. unfold bind at 1. rewrite (get_enclave_eq a sh s e); [|split; auto]. cbv zeta.
  rewrite touch_list_len. cbn [ss_signer]. fold (signers_of s sh).
  assert (existsb (beq a) (signers_of s sh) = true <-> In a (signers_of s sh)) as Hx.
  { rewrite existsb_exists. split; [intros (x & Hi & E); bools; subst; auto|intros; exists a; rewrite beq_refl; auto]. }
  destruct (in_dec _ a (signers_of s sh)) as [Hi|Hi].
  - destruct (N.leb_spec (lenN (status_of s sh) + 0) max_signers); [|lia].
    rewrite (proj2 Hx Hi). reflexivity.
  - destruct (existsb _ _) eqn:Ee; [exfalso; tauto|]. cbn [negb andb]. unfold max_signers in *.
    destruct (N.leb_spec (lenN (status_of s sh) + 1) 10); destruct (N.eqb_spec (lenN (status_of s sh)) 10); try lia; reflexivity.
Qed.
Print Assumptions C16_touch_fails_exactly_when_full.
Example C16_example :
  let s := run cfg0 base_state [call_eb alice (EbConfirm shard9 [] 0 []); register carol (acc 9);
    call_eb carol (EbConfirm shard9 [] 0 []); ONextBlock 1] in
  status_of s shard9 = [mkSstat alice (acc 9) 1; mkSstat carol (acc 9) 1] /\
  status_of (step cfg0 s (call_eb alice (EbUnshield shard9 bob 1000 [5]))) shard9 = [mkSstat alice (acc 9) 2; mkSstat carol (acc 9) 1].
Proof. vm_compute. repeat split; reflexivity. Qed.

(** ** C17 *)
Theorem C17_purge_removes_exactly_the_subject : forall c o sh a s s',
  dispatch c o (CEb (EbPurge sh a)) s = (Success, s') ->
  o = Root /\ eb_status (rt_eb s) !! sh <> None /\
  status_of s' sh = List.filter (fun x => negb (beq (ss_signer x) a)) (status_of s sh) /\
  (forall sh', sh' <> sh -> status_of s' sh' = status_of s sh') /\
  rt_ev s' = EvPurgedEnclave sh a :: rt_ev s.
Proof.
  intros c o sh a s s' H. apply run_call_ok in H. cbn [exec eb_exec_call] in H.
  apply purge_ok in H as (-> & l & E & ->). split; [auto|]. split; [congruence|].
  unfold status_of. cbn. rewrite lookup_insert, E. cbn.
  split; [|split; [|auto]].
  - clear E. induction l as [|x l IH]; [reflexivity|]. rewrite filter_cons. cbn [List.filter].
    destruct (beq (ss_signer x) a) eqn:Eb; bools; cbn [negb].
    + destruct (decide (ss_signer x <> a)); [contradiction|exact IH].
    + destruct (decide (ss_signer x <> a)); [rewrite IH; reflexivity|contradiction].
  - intros sh' Hn. rewrite lookup_insert_ne by auto. auto.
Qed.
Print Assumptions C17_purge_removes_exactly_the_subject.
Theorem C17_purge_outcome : forall c g l o sh a,
  let s := run c (genesis_state g) l in
  (dispatch c o (CEb (EbPurge sh a)) s).1 =
  match o with
  | Root => match eb_status (rt_eb s) !! sh with Some _ => Success | None => Failed ShardNotFound end
  | _ => Failed BadOrigin
  end.
Proof.
  intros c g l o sh a s. unfold dispatch, run_call. cbn [exec eb_exec_call].
  unfold purge, bind, ensure_root, gets, ok_or, ret, fail. destruct o; try reflexivity.
  destruct (eb_status (rt_eb s) !! sh) as [x|] eqn:E; [|reflexivity].
  destruct (status_ok_run c g l sh x E) as (Hlen & _). 
  pose proof (lenN_filter (fun x => ss_signer x <> a) x).
  destruct (N.leb_spec (lenN (filter (fun x0 => ss_signer x0 <> a) x)) max_signers); [reflexivity|lia].
Qed.
Print Assumptions C17_purge_outcome.
Example C17_example :
  let s := run cfg0 base_state [call_eb alice (EbConfirm shard9 [] 0 []); register carol (acc 9);
    call_eb carol (EbConfirm shard9 [] 0 []); OCall Root (CEb (EbPurge shard9 alice))] in
  status_of s shard9 = [mkSstat carol (acc 9) 1] /\ (dispatch cfg0 Root (CEb (EbPurge (acc 5) alice)) s).1 = Failed ShardNotFound.
Proof. vm_compute. repeat split; reflexivity. Qed.

(** ** C18 *)
(** Sortedness makes the last element a maximum *)
Inductive ascending : list sstat -> Prop :=
| asc_nil : ascending []
| asc_cons x l : Forall (fun y => ss_last x <= ss_last y) l -> ascending l -> ascending (x :: l).
Lemma insert_by_Forall (P : sstat -> Prop) x l : P x -> Forall P l -> Forall P (insert_by x l).
Proof. induction l as [|y r IH]; cbn; intros Hx Hl; [auto|]. inversion Hl; subst. destruct (_ <=? _); auto. Qed.
Lemma insert_by_asc x l : ascending l -> ascending (insert_by x l).
Proof.
  induction 1 as [|y l HF H IH]; cbn; [constructor; [auto|constructor]|].
  destruct (N.leb_spec (ss_last y) (ss_last x)).
  - constructor; [apply insert_by_Forall; auto|auto].
  - constructor; [|constructor; auto]. constructor; [lia|]. eapply Forall_impl; [exact HF|]. cbn. intros; lia.
Qed.
Lemma insert_by_last x l : ascending l ->
  list.last (insert_by x l) = Some (match list.last l with Some y => if ss_last y <=? ss_last x then x else y | None => x end).
Proof.
  induction 1 as [|y l HF H IH]; [reflexivity|]. cbn [insert_by].
  destruct (N.leb_spec (ss_last y) (ss_last x)) as [Hy|Hy].
  - assert (insert_by x l <> []) as Hne by (destruct l; cbn; [congruence|destruct (_ <=? _); congruence]).
    destruct (insert_by x l) as [|z t] eqn:E; [congruence|]. rewrite last_cons_cons, IH.
    destruct l as [|w r]; [cbn; destruct (N.leb_spec (ss_last y) (ss_last x)); [auto|lia]|]. rewrite last_cons_cons. auto.
  - rewrite last_cons_cons. destruct (list.last (y :: l)) as [z|] eqn:E; [|apply last_None in E; discriminate].
    assert (ss_last y <= ss_last z) as Hz.
    { destruct l as [|w r]; [cbn in E; inversion E; lia|]. rewrite last_cons_cons in E.
      apply last_Some in E as [l' E]. rewrite E in HF. apply Forall_app in HF as [_ HF]. inversion HF; auto. }
    destruct (N.leb_spec (ss_last z) (ss_last x)); [lia|auto].
Qed.
(** Specification: [x] is an entry with the largest activity, and every later entry has smaller activity. *)
Definition latest_maximum (l : list sstat) (x : sstat) : Prop :=
  exists l1 l2, l = l1 ++ x :: l2 /\ Forall (fun y => ss_last y <= ss_last x) l1 /\ Forall (fun y => ss_last y < ss_last x) l2.
Lemma sort_snoc l x : sort_by_activity (l ++ [x]) = insert_by x (sort_by_activity l).
Proof. unfold sort_by_activity. rewrite fold_left_app. reflexivity. Qed.
Lemma sort_asc l : ascending (sort_by_activity l).
Proof.
  induction l as [|x l IH] using rev_ind; [constructor|]. rewrite sort_snoc. apply insert_by_asc, IH.
Qed.
Lemma sort_last l : match list.last (sort_by_activity l) with
  | None => l = [] | Some x => latest_maximum l x end.
Proof.
  induction l as [|x l IH] using rev_ind; [reflexivity|]. rewrite sort_snoc, insert_by_last by apply sort_asc.
  destruct (list.last (sort_by_activity l)) as [y|].
  - destruct IH as (l1 & l2 & -> & H1 & H2). destruct (N.leb_spec (ss_last y) (ss_last x)).
    + exists (l1 ++ y :: l2), []. split; [auto|]. split; [|constructor].
      apply Forall_app. split; [eapply Forall_impl; [exact H1|]; cbn; intros; lia|].
      constructor; [auto|]. eapply Forall_impl; [exact H2|]. cbn. intros; lia.
    + exists l1, (l2 ++ [x]). rewrite <- app_assoc. split; [auto|]. split; [auto|]. apply Forall_app. split; [auto|]. auto.
  - subst l. exists [], []. repeat split; constructor.
Qed.
Theorem C18_most_recent_is_a_maximum : forall s sh,
  match most_recent s sh with
  | None => status_of s sh = []
  | Some x => latest_maximum (status_of s sh) x
  end.
Proof.
  intros s sh. unfold most_recent, status_of. destruct (eb_status (rt_eb s) !! sh) as [l|]; [|reflexivity]. apply sort_last.
Qed.
Print Assumptions C18_most_recent_is_a_maximum.
Example C18_example :
  let s := run cfg0 base_state [call_eb alice (EbConfirm shard9 [] 0 []); register carol (acc 9);
    call_eb carol (EbConfirm shard9 [] 0 []); ONextBlock 1; call_eb alice (EbConfirm shard9 [] 0 [])] in
  most_recent s shard9 = Some (mkSstat alice (acc 9) 2).
Proof. vm_compute. repeat split; reflexivity. Qed.

(** ** C19 *)
Theorem C19_publish_hash_limited_and_attributable : forall c o h t d s s',
  dispatch c o (CEb (EbPublish h t d)) s = (Success, s') ->
  exists a e, o = Signed a /\ tx_sov (rt_tx s) !! a = Some e /\ lenN t <= 5 /\ lenN d <= 100 /\
  rt_ev s' = EvPublishedHash (t ++ [en_mr_enclave e]) (en_mr_enclave e) h d :: rt_ev s /\
  rt_bal s' = rt_bal s /\ eb_config (rt_eb s') = eb_config (rt_eb s) /\ eb_exec (rt_eb s') = eb_exec (rt_eb s) /\
  rt_tx s' = rt_tx s.
Proof. change en_mr_enclave with fingerprint.
  intros c o h t d s s' H. apply run_call_ok in H. cbn [exec eb_exec_call] in H.
  apply publish_ok in H as (a & e & -> & H1 & H2 & H3 & _ & ->). exists a, e. repeat split; auto.
Qed.
Print Assumptions C19_publish_hash_limited_and_attributable.
(** An enclave that was upgraded away still enters the status of the shard. *)
Theorem C19_replaced_enclave_enters_status_refuted : exists c g l a e sh h t d,
  let s := run c (genesis_state g) l in
  tx_sov (rt_tx s) !! a = Some e /\ operator s sh (rt_blk s) <> en_mr_enclave e /\ ~ In a (signers_of s sh) /\
  (dispatch c (Signed a) (CEb (EbPublish h t d)) s).1 = Success /\
  In a (signers_of (dispatch c (Signed a) (CEb (EbPublish h t d)) s).2 sh).
Proof. change en_mr_enclave with fingerprint.
  exists cfg0, (gen0 [alice; bob]), (base_hist ++ [OCall Root (CEb (EbUpdateConfig shard9 (mkScfg (acc 8) None None false) 0))]), alice.
  eexists. exists shard9, [1], [], [2].
  split; [vm_compute; reflexivity|]. split; [vm_compute; congruence|]. split; [vm_compute; tauto|].
  split; [vm_compute; reflexivity|]. vm_compute. auto.
Qed.
Print Assumptions C19_replaced_enclave_enters_status_refuted.

(** ** C20 *)
(** [erase] forgets maintenance mode, instance limit and authorities in all stored configurations, [erase_op]
    in the arguments of calls. Two runs that agree up to these fields accept the same calls and stay in agreement. *)
Theorem C20_maintenance_limits_authorities_not_enforced : forall c s1 s2 l1 l2 o k1 k2,
  erase s1 = erase s2 -> map erase_op l1 = map erase_op l2 -> erase_call k1 = erase_call k2 ->
  erase (run c s1 l1) = erase (run c s2 l2) /\
  (dispatch c o k1 (run c s1 l1)).1 = (dispatch c o k2 (run c s2 l2)).1 /\
  erase (dispatch c o k1 (run c s1 l1)).2 = erase (dispatch c o k2 (run c s2 l2)).2.
Proof.
  intros c s1 s2 l1 l2 o k1 k2 Hs Hl Hk.
  assert (erase (run c s1 l1) = erase (run c s2 l2)) as E by (rewrite <- !run_erase; congruence).
  split; [auto|]. destruct (dispatch_erase c o k1 (run c s1 l1)) as [E1 E2]. destruct (dispatch_erase c o k2 (run c s2 l2)) as [E3 E4].
  rewrite <- E1, <- E3, <- E2, <- E4. rewrite E, Hk. auto.
Qed.
Print Assumptions C20_maintenance_limits_authorities_not_enforced.
(** What [erase] forgets is only that: everything else is unchanged. *)
Theorem C20_erase_keeps_everything_else : forall s,
  rt_now (erase s) = rt_now s /\ rt_blk (erase s) = rt_blk s /\ rt_bal (erase s) = rt_bal s /\ rt_vest (erase s) = rt_vest s /\
  rt_sc (erase s) = rt_sc s /\ rt_to (erase s) = rt_to s /\ rt_tx (erase s) = rt_tx s /\ rt_td (erase s) = rt_td s /\
  rt_cl (erase s) = rt_cl s /\ rt_ar (erase s) = rt_ar s /\ rt_out (erase s) = rt_out s /\
  rt_ev (erase s) = rt_ev s /\ eb_status (rt_eb (erase s)) = eb_status (rt_eb s) /\ eb_exec (rt_eb (erase s)) = eb_exec (rt_eb s) /\
  forall sh b, operator (erase s) sh b = operator s sh b.
Proof.
  intros s. repeat split. intros sh b. unfold operator. rewrite in_force_erase. destruct (in_force s sh b); reflexivity.
Qed.
Print Assumptions C20_erase_keeps_everything_else.
Example C20_example :
  let s m := run cfg0 base_state [call_eb alice (EbUpdateConfig shard9 (mkScfg (acc 9) (Some 0) (Some []) m) 0)] in
  eb_config (rt_eb (s true)) <> eb_config (rt_eb (s false)) /\
  (dispatch cfg0 (Signed alice) (CEb (EbUnshield shard9 bob 100 [1])) (s true)).1 = Success.
Proof. vm_compute. split; congruence. Qed.

(** ** C60, second part *)
Theorem C60_bridge_never_panics_below_counter_limit : forall c g l o y,
  let s := run c (genesis_state g) l in
  (forall h, confirmations s h < u64_max) ->
  (dispatch c o (CEb y) s).1 <> Panicked.
Proof.
  intros c g l o y s Hc Hp.
  assert (eb_exec_call c o y s = Panic) as HP.
  { unfold dispatch, run_call in Hp. cbn [exec] in Hp. destruct (eb_exec_call c o y s); try discriminate; auto. }
  clear Hp. destruct y; cbn [eb_exec_call] in HP.
  4: {
    unfold unshield_funds in HP. inv_panic HP;
    try (revert HP; match goal with |- ?m ?z = Panic -> _ => enough (np m) as Hnp by exact (Hnp z) end;
         unfold get_enclave_and_touch, get_config, touch_shard; np_tac; fail).
    match goal with Hx : get_enclave_and_touch _ _ _ _ = Ok ?p _ |- _ => destruct p; apply get_enclave_ok in Hx as (_ & _ & _ & ->); [|reflexivity] end.
    assert (forall m, @plain_add rt error (c_ovf c) u64_max m 1 = ret (m + 1) \/ u64_max <= m) as Hpa.
    { intros m. unfold plain_add. destruct (N.leb_spec (m + 1) u64_max); [auto|right; lia]. }
    specialize (Hc call_hash). unfold confirmations in Hc.
    match type of HP with plain_add _ _ ?m _ _ = Panic => destruct (Hpa m) as [E|Hle]; [rewrite E in HP; discriminate|] end.
    match goal with Hx : match ?q with Some _ => _ | None => _ end _ = Ok _ _ |- _ => destruct q eqn:Eq end.
    - match goal with Hx : ret () _ = Ok _ _ |- _ => inv_rt Hx end.
      cbn in Hle. rewrite enact_exec in Hle. fold s in Hle. lia.
    - match goal with Hx : bind _ _ _ = Ok _ _ |- _ => inv_rt Hx end.
      cbn in Hle. rewrite lookup_insert in Hle. cbn in Hle. unfold u64_max in Hle. lia. }
  6: {
    unfold purge in HP. inv_panic HP.
    match goal with Hx : eb_status _ !! _ = Some ?q |- _ => destruct (status_ok_run c g l _ _ Hx) as (Hlen & _);
      pose proof (lenN_filter (fun x => ss_signer x <> subject) q) end.
    match type of HP with (if ?q <=? ?r then _ else _) _ = Panic => destruct (N.leb_spec q r); [discriminate|lia] end. }
  all: revert HP; match goal with |- ?m ?z = Panic -> _ => enough (np m) as Hnp by exact (Hnp z) end;
    unfold invoke, confirm_processed, shield_funds, publish_hash, update_shard_config, get_enclave_and_touch, get_config, touch_shard; np_tac.
Qed.
Print Assumptions C60_bridge_never_panics_below_counter_limit.
Example C60_bridge_example : forall h, h = acc 77 \/ h = acc 78 -> confirmations (run cfg0 base_state unshields) h < u64_max.
Proof. intros h [->| ->]; vm_compute; reflexivity. Qed.
