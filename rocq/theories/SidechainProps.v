(** * Properties of pallet sidechain: C21-C24. *)
From Verif Require Import Base State Env TeerdaysModel TeerexBase SgxVerifyModel TeerexModel
  EnclaveBridgeModel SidechainModel TeeracleModel ClaimsModel AssetRegistryModel XcmTransactorModel
  Runtime Frame EnvFacts Panic BridgeProofs Events Examples.

(** The finalisations of a shard in an event log (most recent first) *)
Fixpoint finals (sh : bytes) (ev : list event) : list (N * bytes) :=
  match ev with
  | [] => []
  | EvFinalizedSidechainBlock sh' n h _ :: r => if beq sh' sh then (n, h) :: finals sh r else finals sh r
  | _ :: r => finals sh r
  end.
Fixpoint decreasing (l : list (N * bytes)) : Prop :=
  match l with
  | [] => True
  | x :: r => match r with y :: _ => y.1 < x.1 | [] => True end /\ decreasing r
  end.
Definition latest (s : rt) (sh : bytes) : option (N * bytes) := (fun k => (sn_number k, sn_hash k)) <$> rt_sc s !! sh.

Lemma finals_app sh e1 e2 : finals sh (e1 ++ e2) = finals sh e1 ++ finals sh e2.
Proof. induction e1 as [|e e1 IH]; [auto|]. destruct e; cbn; auto. destruct (beq _ _); cbn; congruence. Qed.
Lemma finals_none sh evs : Forall (fun e => forall n h a, e <> EvFinalizedSidechainBlock sh n h a) evs -> finals sh evs = [].
Proof.
  induction 1 as [|e evs He _ IH]; [auto|]. destruct e; cbn; auto. destruct (beq shard sh) eqn:E; [|auto].
  bools. subst. exfalso. eapply He; eauto.
Qed.
(** What a step does to the finalisations of a shard *)
Lemma final_step c s x sh :
  (finals sh (rt_ev (step c s x)) = finals sh (rt_ev s) /\ rt_sc (step c s x) !! sh = rt_sc s !! sh) \/
  (exists a e anc cand, x = OCall (Signed a) (CSc (ScConfirm sh anc cand)) /\ authorised s sh a e /\
   hd_error (signers_of (step c s x) sh) = Some a /\ ancestor_ok (rt_sc s !! sh) anc cand /\
   finals sh (rt_ev (step c s x)) = (sn_number cand, sn_hash cand) :: finals sh (rt_ev s) /\
   rt_sc (step c s x) = <[sh := cand]> (rt_sc s)).
Proof.
  assert ((forall o sh' anc cand, x <> OCall o (CSc (ScConfirm sh' anc cand))) ->
    finals sh (rt_ev (step c s x)) = finals sh (rt_ev s) /\ rt_sc (step c s x) !! sh = rt_sc s !! sh) as Hother.
  { intros Hx. destruct (step_emits c s x) as (evs & E & F). split.
    - rewrite E, finals_app. rewrite finals_none; [auto|]. eapply Forall_impl; [exact F|]. cbn. intros e He n h a ->.
      destruct x; try exact He. destruct k as [y|y|y|y|y|y|y|y]; try exact He. destruct y. eapply Hx; eauto.
    - f_equal. apply (step_same c s x PSc). destruct x; auto. destruct k as [y|y|y|y|y|y|y|y]; auto.
      exfalso. destruct y. eapply Hx; eauto. }
  destruct x as [o k| | | | | | | | | |]; try (left; apply Hother; congruence).
  destruct k as [y|y|y|y|y|y|y|y]; try (left; apply Hother; congruence). clear Hother. destruct y as [sh' anc cand].
  destruct (step_call c s o (CSc (ScConfirm sh' anc cand))) as [(s' & H & E)|E]; rewrite E; [|auto]. clear E.
  cbn [exec sc_exec] in H. apply confirm_sidechain_ok in H as (a & e & first & r & -> & Ha & Hl & _ & [(_ & ->)|(-> & Hanc & ->)]).
  - left. rewrite (touched_other _ rt_ev) by auto. rewrite (touched_other _ rt_sc) by auto. auto.
  - set (z := EvFinalizedSidechainBlock sh' (sn_number cand) (sn_hash cand) (ss_signer first)).
    change (rt_ev (add_ev z (set_sc ?p ?q))) with (z :: rt_ev q).
    change (rt_sc (add_ev z (set_sc ?p ?q))) with p. rewrite (touched_other _ rt_ev) by auto. subst z. cbn [finals].
    destruct (decide (sh' = sh)) as [->|Hn].
    + right. exists (ss_signer first), e, anc, cand. rewrite beq_refl. repeat split; auto; try apply Ha.
      unfold signers_of, status_of. change (rt_eb (add_ev ?p (set_sc ?q ?r))) with (rt_eb r).
      rewrite touched_status, lookup_insert. cbn [default]. unfold id. rewrite Hl. reflexivity.
    + left. destruct (beq sh' sh) eqn:Eb; bools; [contradiction|]. split; [auto|]. apply lookup_insert_ne. auto.
Qed.

(** ** C21 *)
Theorem C21_finalised_numbers_strictly_increase : forall c g l sh,
  let s := run c (genesis_state g) l in
  decreasing (finals sh (rt_ev s)) /\ latest s sh = hd_error (finals sh (rt_ev s)).
Proof.
  intros c g l sh. apply (run_inv' c (fun s => decreasing (finals sh (rt_ev s)) /\ latest s sh = hd_error (finals sh (rt_ev s)))).
  2: { split; [exact I|reflexivity]. }
  intros s x [H1 H2]. unfold latest in *. destruct (final_step c s x sh) as [[E1 E2]|(a & e & anc & cand & -> & _ & _ & Hanc & E1 & E2)].
  - rewrite E1, E2. auto.
  - rewrite E1, E2, lookup_insert. split; [|auto]. cbn [decreasing]. split; [|auto].
    unfold ancestor_ok in Hanc. destruct (rt_sc s !! sh) as [k|]; cbn in H2.
    + destruct Hanc as (p & _ & _ & _ & Hlt). destruct (finals sh (rt_ev s)); [auto|]. inversion H2. subst. auto.
    + destruct (finals sh (rt_ev s)); [auto|discriminate].
Qed.
Print Assumptions C21_finalised_numbers_strictly_increase.

(** ** C22 *)
(** A step that adds a finalisation of [sh] names the previous one as ancestor; it comes from a confirmation of
    that very shard by an authorised enclave. *)
Theorem C22_finalisation_extends_the_previous_one : forall c s x sh,
  finals sh (rt_ev (step c s x)) <> finals sh (rt_ev s) ->
  exists a e anc cand, x = OCall (Signed a) (CSc (ScConfirm sh anc cand)) /\
  tx_sov (rt_tx s) !! a = Some e /\ en_mr_enclave e = operator s sh (rt_blk s) /\
  finals sh (rt_ev (step c s x)) = (sn_number cand, sn_hash cand) :: finals sh (rt_ev s) /\
  (forall n h, latest s sh = Some (n, h) -> exists p, anc = Some p /\ sn_number p = n /\ sn_hash p = h) /\
  latest (step c s x) sh = Some (sn_number cand, sn_hash cand).
Proof. change en_mr_enclave with fingerprint.
  intros c s x sh H. destruct (final_step c s x sh) as [[E1 E2]|(a & e & anc & cand & -> & [H1 H2] & _ & Hanc & E1 & E2)]; [contradiction|].
  exists a, e, anc, cand. repeat split; auto.
  - intros n h Hl. unfold latest in Hl. unfold ancestor_ok in Hanc. destruct (rt_sc s !! sh) as [k|]; [|discriminate].
    destruct Hanc as (p & -> & Hn & Hh & _). inversion Hl; subst. eauto.
  - unfold latest. rewrite E2, lookup_insert. auto.
Qed.
Print Assumptions C22_finalisation_extends_the_previous_one.
Theorem C22_other_shards_unaffected : forall c s x sh,
  (forall o anc cand, x <> OCall o (CSc (ScConfirm sh anc cand))) ->
  finals sh (rt_ev (step c s x)) = finals sh (rt_ev s) /\ rt_sc (step c s x) !! sh = rt_sc s !! sh.
Proof.
  intros c s x sh H. destruct (final_step c s x sh) as [E|(a & e & anc & cand & -> & _)]; [exact E|]. exfalso. eapply H; eauto.
Qed.
Print Assumptions C22_other_shards_unaffected.
(** Exact outcome for the first-listed enclave *)
Theorem C22_confirmation_outcome : forall c g l a e sh anc cand r,
  let s := run c (genesis_state g) l in
  tx_sov (rt_tx s) !! a = Some e -> en_mr_enclave e = operator s sh (rt_blk s) -> signers_of s sh = a :: r ->
  (dispatch c (Signed a) (CSc (ScConfirm sh anc cand)) s).1 =
  match latest s sh with
  | None => Success
  | Some (n, h) =>
      match anc with
      | None => Failed AncestorMissing
      | Some p => if sn_number cand <=? n then Failed FinalizationCandidateIsOutdated
                  else if negb (n =? sn_number p) then Failed AncestorNumberMismatch
                  else if negb (beq h (sn_hash p)) then Failed AncestorHashMismatch
                  else Success
      end
  end.
Proof. change en_mr_enclave with fingerprint.
  intros c g l a e sh anc cand r s H1 H2 Hs. destruct (status_of_ok s sh (status_ok_run c g l)) as (Hlen & _ & _).
  unfold dispatch, run_call. cbn [exec sc_exec]. unfold confirm_sidechain, bind at 1, ensure_signed, ret at 1.
  unfold bind at 1, gets at 1. unfold bind at 1. rewrite (get_enclave_eq a sh s e); [|split; auto]. cbv zeta.
  rewrite touch_list_len. cbn [ss_signer]. fold (signers_of s sh).
  destruct (in_dec _ a (signers_of s sh)) as [Hi|Hi].
  2: { exfalso. apply Hi. rewrite Hs. left. auto. }
  destruct (N.leb_spec (lenN (status_of s sh) + 0) max_signers); [|lia]. cbn [snd].
  destruct (touch_list_hd (mkSstat a (fingerprint e) (rt_blk s)) (status_of s sh)) as (y & t & Et & Ey). rewrite Et.
  assert (ss_signer y = a) as ->.
  { rewrite Ey. unfold signers_of in Hs. destruct (status_of s sh); [auto|]. cbn in Hs. congruence. }
  rewrite beq_refl. cbn [negb]. unfold bind at 1, gets at 1. rewrite (touched_other _ rt_sc) by auto. unfold latest.
  destruct (rt_sc s !! sh) as [k|]; cbn [fmap option_fmap option_map]; [|reflexivity].
  unfold bind, ok_or, ensure, ret, fail. destruct anc as [p|]; [|reflexivity].
  rewrite N.ltb_antisym. destruct (sn_number cand <=? sn_number k); cbn [negb]; [reflexivity|].
  destruct (sn_number k =? sn_number p); cbn [negb]; [|reflexivity].
  destruct (beq (sn_hash k) (sn_hash p)); reflexivity.
Qed.
Print Assumptions C22_confirmation_outcome.

(** ** C23 *)
Theorem C23_only_the_first_listed_finalises : forall c s x sh,
  finals sh (rt_ev (step c s x)) <> finals sh (rt_ev s) ->
  exists a k, x = OCall (Signed a) k /\ hd_error (signers_of (step c s x) sh) = Some a /\
  (forall b, hd_error (signers_of s sh) = Some b -> a = b).
Proof.
  intros c s x sh H. destruct (final_step c s x sh) as [[E _]|(a & e & anc & cand & -> & [H1 H2] & Hh & _)]; [contradiction|].
  exists a, (CSc (ScConfirm sh anc cand)). repeat split; auto. intros b Hb.
  destruct (step_call c s (Signed a) (CSc (ScConfirm sh anc cand))) as [(s' & He & E)|E]; rewrite E in Hh; [|congruence].
  cbn [exec sc_exec] in He. apply confirm_sidechain_ok in He as (a' & e' & first & r & Ho & _ & Hl & _ & Hc). inversion Ho; subst a'.
  destruct (touch_list_hd (mkSstat a (fingerprint e') (rt_blk s)) (status_of s sh)) as (y & t & Et & Ey).
  rewrite Et in Hl. inversion Hl; subst first r. unfold signers_of in Hb.
  destruct (status_of s sh) as [|z w] eqn:Est; [discriminate|]. cbn in Hb. inversion Hb; subst b.
  assert (hd_error (signers_of s' sh) = Some (ss_signer y)) as Hy.
  { enough (status_of s' sh = y :: t) as Ez by (unfold signers_of; rewrite Ez; reflexivity). unfold status_of.
    destruct Hc as [[_ ->]|(_ & _ & ->)];
    [|change (rt_eb (add_ev ?p (set_sc ?q ?r))) with (rt_eb r)]; rewrite touched_status, lookup_insert; cbn [default]; unfold id; rewrite Est, Et; auto. }
  rewrite Hy in Hh. congruence.
Qed.
Print Assumptions C23_only_the_first_listed_finalises.
(** Another authorised enclave's confirmation succeeds, only refreshing its entry, whatever it confirms. *)
Theorem C23_others_only_refresh_activity : forall c g l a e sh anc cand b r,
  let s := run c (genesis_state g) l in
  tx_sov (rt_tx s) !! a = Some e -> en_mr_enclave e = operator s sh (rt_blk s) ->
  signers_of s sh = b :: r -> a <> b -> (In a r \/ lenN r < 9) ->
  exists s', dispatch c (Signed a) (CSc (ScConfirm sh anc cand)) s = (Success, s') /\
  rt_sc s' = rt_sc s /\ rt_ev s' = rt_ev s /\ In (mkSstat a (en_mr_enclave e) (rt_blk s)) (status_of s' sh).
Proof. change en_mr_enclave with fingerprint.
  intros c g l a e sh anc cand b r s H1 H2 Hs Hab Hr. destruct (status_of_ok s sh (status_ok_run c g l)) as (Hlen & _ & _).
  unfold dispatch, run_call. cbn [exec sc_exec]. unfold confirm_sidechain, bind at 1, ensure_signed, ret at 1.
  unfold bind at 1, gets at 1. unfold bind at 1. rewrite (get_enclave_eq a sh s e); [|split; auto]. cbv zeta.
  rewrite touch_list_len. cbn [ss_signer]. fold (signers_of s sh).
  assert (lenN (status_of s sh) = 1 + lenN r) as El.
  { transitivity (lenN (signers_of s sh)); [unfold lenN, signers_of; rewrite map_length; auto|]. rewrite Hs, lenN_cons. auto. }
  match goal with |- context [if ?q <=? max_signers then _ else _] => assert (q <= max_signers) as Hq end.
  { destruct (in_dec _ a (signers_of s sh)) as [Hi|Hi]; [lia|]. destruct Hr as [Hr|Hr]; [|unfold max_signers; lia].
    exfalso. apply Hi. rewrite Hs. right. auto. }
  apply N.leb_le in Hq. rewrite Hq. cbn [snd].
  destruct (touch_list_hd (mkSstat a (fingerprint e) (rt_blk s)) (status_of s sh)) as (y & t & Et & Ey).
  assert (ss_signer y = b) as Eb.
  { rewrite Ey. unfold signers_of in Hs. destruct (status_of s sh); [discriminate|]. cbn in Hs. congruence. }
  assert (status_of (touched sh a (fingerprint e) s) sh = y :: t) as Est.
  { unfold status_of. rewrite touched_status, lookup_insert. cbn [default]. unfold id. auto. }
  rewrite Et, Eb. destruct (beq a b) eqn:Ex; bools; [contradiction|]. cbn [negb].
  exists (touched sh a (fingerprint e) s). split; [reflexivity|].
  rewrite (touched_other _ rt_sc), (touched_other _ rt_ev) by auto. split; [auto|]. split; [auto|]. rewrite Est, <- Et.
  destruct (touch_list_cases (mkSstat a (fingerprint e) (rt_blk s)) (status_of s sh)) as [(_ & l1 & z & l2 & _ & _ & _ & ->)|(_ & ->)];
  apply in_app_iff; right; left; auto.
Qed.
Print Assumptions C23_others_only_refresh_activity.
Theorem C23_confirmation_never_panics : forall c o y s, (dispatch c o (CSc y) s).1 <> Panicked.
Proof.
  intros c o y s Hp. assert (sc_exec o y s = Panic) as HP.
  { unfold dispatch, run_call in Hp. cbn [exec] in Hp. destruct (sc_exec o y s); try discriminate; auto. }
  clear Hp. destruct y as [sh anc cand]. cbn [sc_exec] in HP. unfold confirm_sidechain in HP.
  destruct o; try discriminate HP. cbn [ensure_signed] in HP. unfold bind at 1, ret at 1 in HP. unfold bind at 1, gets at 1 in HP.
  apply bind_panic in HP as [HP|([e l] & s1 & H1 & HP)].
  { revert HP. match goal with |- ?m ?z = Panic -> _ => enough (np m) as Hnp by exact (Hnp z) end.
    unfold get_enclave_and_touch, get_config, touch_shard; np_tac. }
  apply get_enclave_ok in H1 as (_ & -> & _ & ->); [|reflexivity]. cbn [snd] in HP.
  destruct (touch_list_hd (mkSstat a (fingerprint e) (rt_blk s)) (status_of s sh)) as (y & t & Et & _). rewrite Et in HP.
  revert HP. match goal with |- ?m ?z = Panic -> _ => enough (np m) as Hnp by exact (Hnp z) end.
  unfold finalize_block. np_tac.
Qed.
Print Assumptions C23_confirmation_never_panics.

(** ** C24 *)
Definition purges (sh : bytes) (a : acct) (x : op) : Prop := exists o, x = OCall o (CEb (EbPurge sh a)).
Lemma first_signer_step c s x sh a :
  hd_error (signers_of s sh) = Some a -> ~ purges sh a x -> hd_error (signers_of (step c s x) sh) = Some a.
Proof.
  intros Hh Hp.
  assert (forall t, eb_status (rt_eb t) !! sh = eb_status (rt_eb s) !! sh -> hd_error (signers_of t sh) = Some a) as Hsame.
  { intros t E. unfold signers_of, status_of. rewrite E. exact Hh. }
  destruct x as [o k| | | | | | | | | |].
  2-11: apply Hsame; rewrite step_eb_other by congruence; auto.
  destruct (step_call c s o k) as [(s' & H & ->)| ->]; [|auto].
  destruct (status_effect c o k s s' H) as [(b & e & sh' & _ & _ & _ & _ & E)|[(_ & sh' & b & l & -> & Hl & E)|(E & _)]].
  - destruct (decide (sh' = sh)) as [->|Hn]; [|apply Hsame; rewrite E, lookup_insert_ne; auto].
    unfold signers_of in *. unfold status_of at 1. rewrite E, lookup_insert. cbn [default]. unfold id.
    rewrite touch_signers. destruct (map ss_signer (status_of s sh)); [discriminate|exact Hh].
  - destruct (decide (sh' = sh)) as [->|Hn]; [|apply Hsame; rewrite E, lookup_insert_ne; auto].
    unfold signers_of in *. unfold status_of in *. rewrite E, lookup_insert. rewrite Hl in Hh. cbn [default] in *. unfold id in *.
    destruct l as [|z w]; [discriminate|]. cbn in Hh. inversion Hh; subst a. rewrite filter_cons.
    destruct (decide (ss_signer z <> b)) as [Hz|Hz]; [reflexivity|].
    exfalso. apply Hp. apply dec_stable in Hz. subst b. exists o. auto.
  - apply Hsame. rewrite E. auto.
Qed.
Theorem C24_first_signer_stays_first : forall c s l sh a,
  hd_error (signers_of s sh) = Some a -> Forall (fun x => ~ purges sh a x) l ->
  hd_error (signers_of (run c s l) sh) = Some a.
Proof.
  intros c s l sh a H HF. apply (run_inv c (fun t => hd_error (signers_of t sh) = Some a) (fun x => ~ purges sh a x)); auto.
  intros t x Ht Hx. apply first_signer_step; auto.
Qed.
Print Assumptions C24_first_signer_stays_first.
(** No block of the shard is finalised as long as the first signer is not an enclave in force, except after a purge. *)
Theorem C24_finalisation_stalls : forall c s l sh a,
  hd_error (signers_of s sh) = Some a -> Forall (fun x => ~ purges sh a x) l ->
  (forall l1 l2 e, l = l1 ++ l2 -> tx_sov (rt_tx (run c s l1)) !! a = Some e ->
     en_mr_enclave e <> operator (run c s l1) sh (rt_blk (run c s l1))) ->
  rt_sc (run c s l) !! sh = rt_sc s !! sh /\ finals sh (rt_ev (run c s l)) = finals sh (rt_ev s).
Proof. change en_mr_enclave with fingerprint.
  intros c s l sh a Hh HF Hno. induction l as [|x l IH] using rev_ind; [auto|].
  apply Forall_app in HF as [HF Hx]. destruct IH as [IH1 IH2]; auto.
  { intros l1 l2 e -> . apply (Hno l1 (l2 ++ [x]) e). rewrite app_assoc. auto. }
  rewrite run_snoc. destruct (final_step c (run c s l) x sh) as [[E1 E2]|(b & e & anc & cand & -> & [H1 H2] & Hb & _)].
  - rewrite E1, E2. auto.
  - exfalso. assert (hd_error (signers_of (step c (run c s l) (OCall (Signed b) (CSc (ScConfirm sh anc cand)))) sh) = Some a) as Ha.
    { rewrite <- run_snoc. apply C24_first_signer_stays_first; [auto|]. apply Forall_app. auto. }
    rewrite Hb in Ha. inversion Ha; subst b. exact (Hno l _ e eq_refl H1 H2).
Qed.
Print Assumptions C24_finalisation_stalls.
(** Nor without a transaction of the first signer's own. *)
Theorem C24_only_first_signer_or_purge_helps : forall c s l sh a,
  hd_error (signers_of s sh) = Some a ->
  Forall (fun x => ~ purges sh a x /\ forall k, x <> OCall (Signed a) (CSc k)) l ->
  rt_sc (run c s l) !! sh = rt_sc s !! sh /\ finals sh (rt_ev (run c s l)) = finals sh (rt_ev s).
Proof.
  intros c s l sh a Hh HF. induction l as [|x l IH] using rev_ind; [auto|].
  apply Forall_app in HF as [HF Hx]. inversion Hx as [|? ? [Hx1 Hx2] _]; subst. destruct IH as [IH1 IH2]; auto.
  rewrite run_snoc. destruct (final_step c (run c s l) x sh) as [[E1 E2]|(b & e & anc & cand & -> & _ & Hb & _)].
  - rewrite E1, E2. auto.
  - exfalso. assert (hd_error (signers_of (step c (run c s l) (OCall (Signed b) (CSc (ScConfirm sh anc cand)))) sh) = Some a) as Ha.
    { apply first_signer_step; [|auto]. apply C24_first_signer_stays_first; [auto|]. eapply Forall_impl; [exact HF|]. cbn. tauto. }
    rewrite Hb in Ha. inversion Ha; subst b. eapply Hx2; eauto.
Qed.
Print Assumptions C24_only_first_signer_or_purge_helps.

(** *** Concrete histories *)
Definition shard9 : bytes := acc 9.
Definition blk (n : N) (h : bytes) : sconf := mkSconf n h.
Definition sc_hist : list op :=
  [register alice (acc 9); register bob (acc 9); ONextBlock 6000;
   call_sc alice (ScConfirm shard9 None (blk 5 [1]));
   call_sc bob (ScConfirm shard9 (Some (blk 5 [1])) (blk 6 [2]));
   call_sc alice (ScConfirm shard9 (Some (blk 5 [1])) (blk 7 [3]));
   call_sc alice (ScConfirm shard9 (Some (blk 7 [4])) (blk 8 [5]))].
Definition sc_state := run cfg0 (genesis_state (gen0 [alice; bob])) sc_hist.
Example C21_example : finals shard9 (rt_ev sc_state) = [(7, [3]); (5, [1])] /\ latest sc_state shard9 = Some (7, [3]).
Proof. vm_compute. auto. Qed.
Example C22_example :
  (dispatch cfg0 (Signed alice) (CSc (ScConfirm shard9 (Some (blk 7 [3])) (blk 9 [6]))) sc_state).1 = Success /\
  (dispatch cfg0 (Signed alice) (CSc (ScConfirm shard9 (Some (blk 7 [4])) (blk 9 [6]))) sc_state).1 = Failed AncestorHashMismatch /\
  (dispatch cfg0 (Signed alice) (CSc (ScConfirm shard9 (Some (blk 7 [3])) (blk 7 [6]))) sc_state).1 = Failed FinalizationCandidateIsOutdated.
Proof. vm_compute. auto. Qed.
Example C23_example : signers_of sc_state shard9 = [alice; bob] /\
  (dispatch cfg0 (Signed bob) (CSc (ScConfirm shard9 None (blk 1 []))) sc_state).1 = Success.
Proof. vm_compute. auto. Qed.
(** After an upgrade of the shard to fingerprint [acc 8], bob's new enclave confirms in vain; after the purge of alice it finalises. *)
Definition upgraded : rt := run cfg0 sc_state
  [OCall Root (CEb (EbUpdateConfig shard9 (mkScfg (acc 8) None None false) 0)); register bob (acc 8)].
Definition bob_confirms : op := call_sc bob (ScConfirm shard9 (Some (blk 7 [3])) (blk 8 [6])).
Theorem C24_stall_after_upgrade_refuted : exists c g l a b e sh anc cand,
  let s := run c (genesis_state g) l in
  tx_sov (rt_tx s) !! b = Some e /\ en_mr_enclave e = operator s sh (rt_blk s) /\ ancestor_ok (rt_sc s !! sh) anc cand /\
  (dispatch c (Signed b) (CSc (ScConfirm sh anc cand)) s).1 = Success /\
  rt_sc (dispatch c (Signed b) (CSc (ScConfirm sh anc cand)) s).2 = rt_sc s /\
  (dispatch c (Signed a) (CSc (ScConfirm sh anc cand)) s).1 = Failed WrongFingerprintForShard /\
  rt_sc (run c s [OCall Root (CEb (EbPurge sh a)); call_sc b (ScConfirm sh anc cand)]) !! sh = Some cand.
Proof. change en_mr_enclave with fingerprint.
  exists cfg0, (gen0 [alice; bob]), (sc_hist ++ [OCall Root (CEb (EbUpdateConfig shard9 (mkScfg (acc 8) None None false) 0)); register bob (acc 8)]),
    alice, bob. eexists. exists shard9, (Some (blk 7 [3])), (blk 8 [6]).
  split; [vm_compute; reflexivity|]. split; [vm_compute; reflexivity|].
  split; [vm_compute; eexists; repeat split; reflexivity|]. vm_compute. repeat split; reflexivity.
Qed.
Print Assumptions C24_stall_after_upgrade_refuted.
