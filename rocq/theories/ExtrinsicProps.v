(** * Properties of extrinsics: C84. *)
From Coq Require Import String.
From Verif Require Import Base State Env TeerdaysModel TeerexBase SgxVerifyModel TeerexModel
  EnclaveBridgeModel SidechainModel TeeracleModel ClaimsModel AssetRegistryModel XcmTransactorModel
  Runtime Frame EnvFacts Ledger Events ClaimsProofs ClaimsProps WeightsModel ExtrinsicModel Examples.

Lemma chain_cons c s i l : chain c s (i :: l) = chain c (next c s i) l.
Proof. reflexivity. Qed.
Lemma chain_app c s l1 l2 : chain c s (l1 ++ l2) = chain c (chain c s l1) l2.
Proof. apply fold_left_app. Qed.

(** ** C84: chains are histories *)
Lemma charge_step c a fee s s' : charge c a fee s = Some s' -> s' = step c s (OFee a fee).
Proof.
  unfold charge. cbn [step]. destruct (N.eqb_spec fee 0) as [->|].
  - intros H. inversion H. reflexivity.
  - destruct (_ <=? _); [|discriminate]. destruct (run_call _ _) as [[] s1]; try discriminate. intros H. inversion H. reflexivity.
Qed.
(** Everything that happens on a chain is a short history of the model, and the origin None gets in
    only with an unsigned extrinsic that was validated in this very state, a signed one only with an
    admitted extrinsic or from within another pallet's call. *)
Theorem C84_every_item_is_a_history : forall c s i, exists l, next c s i = run c s l /\
  (forall o k, OCall o k ∈ l ->
   match o with
   | NoneO => i = IUnsigned k /\ l = [OCall NoneO k] /\ exists x tag, k = CCl x /\ validate_unsigned c s x = inr tag
   | Signed a => (exists fee, i = ISigned a k fee /\ admitted s a k = true) \/ i = IInner (Signed a) k
   | Root => i = IInner Root k
   end).
Proof.
  intros c s i. destruct i as [k|a k fee|o k|x]; cbn [next].
  - unfold apply_unsigned. destruct k as [x|x|x|x|x|x|x|x]; try (exists []; split; [reflexivity|intros o k H; inversion H]; fail).
    destruct (validate_unsigned c s x) as [e|tag] eqn:Ev; [exists []; split; [reflexivity|intros o k H; inversion H]|].
    destruct (dispatch c NoneO (CCl x) s) as [st s'] eqn:Ed.
    exists [OCall NoneO (CCl x)]. split.
    + cbn [run fold_left step]. rewrite Ed. destruct st; try reflexivity.
      cbn [snd]. unfold dispatch, run_call in Ed. destruct (exec c NoneO (CCl x) s); inversion Ed. reflexivity.
    + intros o k H. apply elem_of_list_singleton in H. inversion H. subst. split; [auto|]. split; [auto|]. eauto.
  - unfold apply_signed. destruct (admitted s a k) eqn:Ea; [|exists []; split; [reflexivity|intros o k' H; inversion H]].
    destruct (charge c a _ s) as [s1|] eqn:Ec; [|exists []; split; [reflexivity|intros o k' H; inversion H]].
    apply charge_step in Ec. destruct (dispatch c (Signed a) k s1) as [st s2] eqn:Ed.
    assert (s2 = step c s1 (OCall (Signed a) k)) as Hs2 by (cbn [step]; rewrite Ed; reflexivity).
    set (due := if declared_pays k then fee else 0) in *.
    assert (forall o k', OCall o k' ∈ [OFee a due; OCall (Signed a) k] ++ (if free s2 a =? 0 then [] else [OMint a due]) ->
      match o with
      | NoneO => False
      | Signed b => exists f, ISigned a k fee = ISigned b k' f /\ admitted s b k' = true
      | Root => False
      end) as Hin.
    { intros o k' H. apply elem_of_app in H as [H|H].
      - apply elem_of_cons in H as [H|H]; [discriminate|]. apply elem_of_list_singleton in H. inversion H. subst. eauto.
      - destruct (_ =? 0); [inversion H|]. apply elem_of_list_singleton in H. discriminate. }
    assert (st = Panicked \/ st <> Panicked) as [->|Hp] by (destruct st; auto; right; discriminate); [exists []; split; [reflexivity|intros o k' H; inversion H]|].
    destruct (post_pays k st) eqn:Ep.
    + exists [OFee a due; OCall (Signed a) k]. split.
      * rewrite !run_cons, <- Ec, <- Hs2. destruct st; try congruence; reflexivity.
      * intros o k' H. specialize (Hin o k'). destruct o; try (exfalso; apply Hin; apply elem_of_app; auto).
        left. apply Hin. apply elem_of_app. auto.
    + exists ([OFee a due; OCall (Signed a) k] ++ (if free s2 a =? 0 then [] else [OMint a due])). split.
      * rewrite run_app, !run_cons, <- Ec, <- Hs2. cbn [run fold_left]. unfold refund.
        destruct st; try congruence; cbn [snd]; destruct (free s2 a =? 0); reflexivity.
      * intros o k' H. specialize (Hin o k' H). destruct o; try contradiction. left. exact Hin.
  - destruct o as [|a|].
    + exists [OCall Root k]. split; [reflexivity|]. intros o k' H. apply elem_of_list_singleton in H. inversion H. auto.
    + exists [OCall (Signed a) k]. split; [reflexivity|]. intros o k' H. apply elem_of_list_singleton in H. inversion H. auto.
    + exists []. split; [reflexivity|]. intros o k' H. inversion H.
  - destruct x; (try (exists []; split; [reflexivity|intros o' k' H; inversion H]; fail));
      match goal with |- context [IEnv ?x] => exists [x] end; (split; [reflexivity|]); intros o' k' H; apply elem_of_list_singleton in H; discriminate.
Qed.
Print Assumptions C84_every_item_is_a_history.
(** So whatever holds of all histories holds of all chains; the only unsigned calls are claims. *)
Theorem C84_chains_are_histories : forall c s l, exists h, chain c s l = run c s h /\
  forall k, OCall NoneO k ∈ h -> exists dest, (exists sig, k = CCl (ClClaim dest sig)) \/ (exists sig text, k = CCl (ClClaimAttest dest sig text)).
Proof.
  intros c s l. revert s. induction l as [|i l IH]; intros s.
  { exists []. split; [reflexivity|]. intros k H. inversion H. }
  destruct (C84_every_item_is_a_history c s i) as (h1 & E1 & F1). destruct (IH (next c s i)) as (h2 & E2 & F2).
  exists (h1 ++ h2). rewrite chain_cons, run_app, <- E1. split; [exact E2|].
  intros k H. apply elem_of_app in H as [H|H]; [|eauto].
  destruct (F1 NoneO k H) as (_ & _ & x & tag & -> & Hv).
  apply validate_ok in Hv as (dest & sg & due & [(sig & ->)|(sig & text & ->)] & _); exists dest; eauto.
Qed.
Print Assumptions C84_chains_are_histories.
Theorem C84_chain_states_are_reachable : forall c g l, reachable c g (chain c (genesis_state g) l).
Proof. intros c g l. destruct (C84_chains_are_histories c (genesis_state g) l) as (h & E & _). exists h. exact E. Qed.
Print Assumptions C84_chain_states_are_reachable.

(** ** C84: which unsigned extrinsics get into a block *)
(** [k] claims for [dest] with a signature of [signer], who has the open claim [due], and names the
    required statement exactly: none if none is required. *)
Definition proper_claim (c : cfg) (s : rt) (k : call) (dest : acct) (signer : bytes) (due : N) : Prop :=
  cl_claims (rt_cl s) !! signer = Some due /\
  ((exists sig, k = CCl (ClClaim dest sig) /\ eth_signed c sig signer dest [] /\ cl_signing (rt_cl s) !! signer = None) \/
   (exists sig st, k = CCl (ClClaimAttest dest sig (to_text st)) /\ eth_signed c sig signer dest (to_text st) /\
      cl_signing (rt_cl s) !! signer = Some st)).
Lemma proper_valid c s x : (exists tag, validate_unsigned c s x = inr tag) <-> exists dest signer due, proper_claim c s (CCl x) dest signer due.
Proof.
  unfold validate_unsigned, proper_claim. split.
  - intros (tag & H). destruct x; try discriminate.
    + destruct (eth_recover c sig (to_ascii_hex dest) []) as [sg|] eqn:Er; [|discriminate].
      destruct (cl_claims (rt_cl s) !! sg) as [due|] eqn:Ec; [|discriminate].
      destruct (cl_signing (rt_cl s) !! sg) eqn:Es; [discriminate|].
      exists dest, sg, due. split; [auto|]. left. exists sig. split; [auto|]. split; [apply eth_recover_signed; auto|auto].
    + destruct (eth_recover c sig (to_ascii_hex dest) text) as [sg|] eqn:Er; [|discriminate].
      destruct (cl_claims (rt_cl s) !! sg) as [due|] eqn:Ec; [|discriminate].
      destruct (cl_signing (rt_cl s) !! sg) as [st|] eqn:Es; [|discriminate].
      destruct (beq (to_text st) text) eqn:Eb; [|discriminate]. apply beq_true in Eb. subst text.
      exists dest, sg, due. split; [auto|]. right. exists sig, st. split; [auto|]. split; [apply eth_recover_signed; auto|auto].
  - intros (dest & sg & due & Hc & [(sig & E & Hs & Hn)|(sig & st & E & Hs & Hn)]); inversion E; subst;
      apply eth_recover_signed in Hs; rewrite Hs, Hc, Hn; [eauto|]. rewrite beq_refl. eauto.
Qed.
Lemma apply_unsigned_dispatch c k s r : apply_unsigned c k s = Some r ->
  dispatch c NoneO k s = r /\ r.1 <> Panicked /\ exists x tag, k = CCl x /\ validate_unsigned c s x = inr tag.
Proof.
  unfold apply_unsigned. destruct k; try discriminate. destruct (validate_unsigned c s x) as [|tag] eqn:Ev; [discriminate|].
  destruct (dispatch c NoneO (CCl x) s) as [st s'] eqn:Ed. intros H.
  assert (st <> Panicked) by (destruct st; congruence). assert (r = (st, s')) as -> by (destruct st; congruence). eauto 6.
Qed.
Theorem C84_unsigned_included_iff : forall c k s,
  (exists r, apply_unsigned c k s = Some r) <->
  (exists dest signer due, proper_claim c s k dest signer due) /\ (dispatch c NoneO k s).1 <> Panicked.
Proof.
  intros c k s. split.
  - intros (r & H). apply apply_unsigned_dispatch in H as (<- & Hp & x & tag & -> & Hv). split; [|auto]. apply proper_valid. eauto.
  - intros [(dest & sg & due & H) Hp].
    assert (exists x, k = CCl x) as (x & ->) by (destruct H as [_ [(? & -> & _)|(? & ? & -> & _)]]; eauto).
    assert (exists tag, validate_unsigned c s x = inr tag) as (tag & Hv) by (apply proper_valid; eauto).
    unfold apply_unsigned. rewrite Hv. destruct (dispatch c NoneO (CCl x) s) as [[] s']; cbn in Hp; try congruence; eauto.
Qed.
Print Assumptions C84_unsigned_included_iff.

(** What an included unsigned extrinsic does: it pays the claim of the signer to the named account, or
    it fails and changes nothing. *)
Theorem C84_unsigned_outcome : forall c k s st s', apply_unsigned c k s = Some (st, s') ->
  exists dest signer due, proper_claim c s k dest signer due /\
  ((st = Success /\ due <= cl_total (rt_cl s) /\ cl_claims (rt_cl s') = delete signer (cl_claims (rt_cl s)) /\
    (forall a, a <> dest -> free s' a = free s a) /\ free s dest <= free s' dest <= free s dest + due /\
    exists evs, rt_ev s' = EvClaimed dest signer due :: evs ++ rt_ev s) \/
   (st = Failed VestedBalanceExists /\ s' = s /\ cl_vesting (rt_cl s) !! signer <> None /\ rt_vest s !! dest <> None) \/
   (st = Failed PotUnderflow /\ s' = s /\ cl_total (rt_cl s) < due)).
Proof.
  intros c k s st s' H. apply apply_unsigned_dispatch in H as (Hd & Hp & x & tag & -> & Hv).
  assert (exists dest signer due, proper_claim c s (CCl x) dest signer due) as (dest & sg & due & Hpc) by (apply proper_valid; eauto).
  exists dest, sg, due. split; [exact Hpc|]. destruct Hpc as (Hc & Hpc).
  assert (cl_exec c NoneO x s = process_claim c sg dest s) as He.
  { destruct Hpc as [(sig & E & Hs & Hn)|(sig & t & E & Hs & Hn)]; inversion E; subst; apply eth_recover_signed in Hs; cbn [cl_exec].
    - apply claim_fw; auto.
    - apply claim_attest_fw; auto. intros t' Ht. congruence. }
  unfold dispatch, run_call in Hd. cbn [exec] in Hd. rewrite He in Hd.
  destruct (process_cases c sg dest s) as [(e & E & Hcases)|(due' & E1 & Hle & E2 & Hcases)].
  - rewrite E in Hd. injection Hd as <- <-. right. destruct Hcases as [[_ Hn]|[(-> & d' & H1 & H2)|(-> & H1 & H2)]].
    + congruence.
    + right. split; [auto|]. split; [auto|]. congruence.
    + left. split; [auto|]. split; [auto|]. split; [intros Hn; rewrite Hn in H1; destruct H1; discriminate|].
      unfold has_vesting in H2. destruct (rt_vest s !! dest); congruence.
  - assert (due' = due) as -> by congruence. destruct Hcases as [[Hpn _]|(s1 & Hok)].
    + rewrite Hpn in Hd. injection Hd as <- <-. cbn in Hp. congruence.
    + rewrite Hok in Hd. injection Hd as <- <-. left. split; [auto|].
      apply process_ok in Hok as (d & H1 & H2 & H3 & H4 & H5 & H6 & H7 & _).
      assert (d = due) as -> by congruence. split; [lia|]. split; [rewrite H5; reflexivity|].
      split; [intros a Ha; rewrite H6; destruct (decide (a = dest)); [congruence|lia]|].
      split; [rewrite H6; destruct (decide (dest = dest)); [|congruence]; unfold paid; destruct (_ || _); lia|].
      eexists. rewrite H7. reflexivity.
Qed.
Print Assumptions C84_unsigned_outcome.

(** ** C84: an unsigned claim is paid once *)
(** [i] may give the address a claim: a call of [mint_claim] or [move_claim] *)
Definition regives (signer : bytes) (i : item) : Prop :=
  exists k, match i with IUnsigned k' | ISigned _ k' _ | IInner _ k' => k' = k | IEnv _ => False end /\
  ((exists v vs st, k = CCl (ClMint signer v vs st)) \/ (exists old p, k = CCl (ClMove old signer p))).
Lemma no_claim_run c s l signer : cl_claims (rt_cl s) !! signer = None -> Forall (fun x => ~ gives_claim signer x) l ->
  cl_claims (rt_cl (run c s l)) !! signer = None.
Proof.
  intros Hn HF. apply (run_inv c (fun s => cl_claims (rt_cl s) !! signer = None) (fun x => ~ gives_claim signer x)); auto.
  intros. apply no_claim_step; auto.
Qed.
Lemma no_claim_chain c l signer s : cl_claims (rt_cl s) !! signer = None -> Forall (fun i => ~ regives signer i) l ->
  cl_claims (rt_cl (chain c s l)) !! signer = None.
Proof.
  intros Hn HF. revert s Hn. induction HF as [|i l Hi HF IH]; intros s Hn; [auto|]. rewrite chain_cons. apply IH.
  destruct (C84_every_item_is_a_history c s i) as (h & -> & Hh). apply no_claim_run; [auto|].
  apply Forall_forall. intros x Hx Hg. apply Hi.
  assert (forall o k, x = OCall o k -> match i with IUnsigned k' | ISigned _ k' _ | IInner _ k' => k' = k | IEnv _ => False end) as Hk.
  { intros o k ->. specialize (Hh o k Hx). destruct o; [subst; auto|destruct Hh as [(f & -> & _)| ->]; auto|destruct Hh as [-> _]; auto]. }
  unfold regives. destruct Hg as [(o & v & vs & st & E)|(o & old & p & E)]; eexists; (split; [apply (Hk _ _ E)|]); eauto 8.
Qed.
(** After an unsigned extrinsic has paid a claim, no unsigned extrinsic signed by the same address gets
    into any later block, whoever sends it and whatever it names, unless root mints a new claim for
    the address or one is moved there. *)
Theorem C84_paid_claims_are_not_accepted_again : forall c k s s1 dest signer due l,
  apply_unsigned c k s = Some (Success, s1) -> proper_claim c s k dest signer due ->
  Forall (fun i => ~ regives signer i) l ->
  let s2 := chain c s1 l in
  forall k' dest' due', ~ proper_claim c s2 k' dest' signer due'.
Proof.
  intros c k s s1 dest signer due l H Hpc HF. cbn zeta. intros k' dest' due' [Hc _].
  destruct (C84_unsigned_outcome c k s Success s1 H) as (d & sg & du & Hpc2 & [(_ & _ & Hdel & _)|[(E & _)|(E & _)]]); try discriminate.
  assert (sg = signer) as ->.
  { destruct Hpc as [_ [(sig & -> & (pk & H1 & ->) & _)|(sig & st & -> & (pk & H1 & ->) & _)]],
      Hpc2 as [_ [(sig2 & E & (pk2 & H2 & ->) & _)|(sig2 & st2 & E & (pk2 & H2 & ->) & _)]]; inversion E; subst; try congruence.
    }
  rewrite (no_claim_chain c l signer s1) in Hc; [discriminate| |auto]. rewrite Hdel. apply lookup_delete.
Qed.
Print Assumptions C84_paid_claims_are_not_accepted_again.

(** ** C84: unsigned extrinsics that fail *)
(** A failing unsigned extrinsic leaves no trace: it stays includable, any number of times. *)
Theorem C84_failed_unsigned_stays_includable : forall c k s e s', apply_unsigned c k s = Some (Failed e, s') ->
  s' = s /\ forall n, let s2 := chain c s (replicate n (IUnsigned k)) in s2 = s /\ apply_unsigned c k s2 = Some (Failed e, s2).
Proof.
  intros c k s e s' H.
  assert (s' = s) as ->.
  { destruct (C84_unsigned_outcome c k s (Failed e) s' H) as (d & sg & du & _ & [(E & _)|[(_ & E & _)|(_ & E & _)]]); auto; discriminate. }
  split; [auto|]. intros n. cbn zeta.
  assert (chain c s (replicate n (IUnsigned k)) = s) as ->; [|auto].
  induction n as [|n IH]; [reflexivity|]. cbn [replicate]. rewrite chain_cons. cbn [next]. rewrite H. exact IH.
Qed.
Print Assumptions C84_failed_unsigned_stays_includable.
(** One might hope that whatever gets into a block without a fee has an effect, so that blocks cannot
    be filled for nothing. A claim with vesting for an account that already vests is the exception:
    it is valid, fails, costs nothing and stays valid. *)
Theorem C84_unsigned_extrinsics_have_an_effect_refuted : exists c g l k, let s := chain c (genesis_state g) l in
  apply_unsigned c k s = Some (Failed VestedBalanceExists, s).
Proof.
  exists (cfg_cl true 5), (gen_cl [(eth 1, 100, None, None)] [(eth 1, (100, 1, 0))]),
    [IEnv (OMint alice 50); IEnv (OAddVesting alice 20 1 0)], (CCl claim1).
  vm_compute. reflexivity.
Qed.
Print Assumptions C84_unsigned_extrinsics_have_an_effect_refuted.

(** ** C84: signed extrinsics *)
Lemma charge_effect c a fee s s' : charge c a fee s = Some s' ->
  (fee = 0 /\ s' = s) \/
  (fee <> 0 /\ fee <= spendable c s a /\ c_ed c <= free s a - fee /\
   (forall b, free s' b = if decide (b = a) then free s a - fee else free s b) /\ rt_ev s' = EvWithdraw a fee :: rt_ev s).
Proof.
  unfold charge. destruct (N.eqb_spec fee 0) as [->|Hz]; [intros H; inversion H; auto|].
  destruct (N.leb_spec (c_ed c) (free s a - fee)) as [Hle|]; [|discriminate].
  destruct (run_call (withdraw c a fee) s) as [st s1] eqn:E. destruct st; try discriminate. intros H. inversion H. subst s1.
  apply run_call_ok in E. apply withdraw_ok in E as [[? _]|(_ & Hs & Hf & He)]; [congruence|].
  right. split; [auto|]. split; [auto|]. split; [auto|].
  unfold after_dust, dust_event in *. replace (free s a - fee <? c_ed c) with false in * by (symmetry; apply N.ltb_ge; lia).
  auto.
Qed.
(** A signed extrinsic that fails costs its sender exactly the fee and changes nothing else. The fee is
    taken from what is not locked and leaves the existential deposit. Purging and attesting are free. *)
Theorem C84_failed_signed_costs_exactly_the_fee : forall c a k fee s e s', apply_signed c a k fee s = Some (Failed e, s') ->
  let due := match k with CEb (EbPurge _ _) => 0 | CCl (ClAttest _) => 0 | _ => fee end in
  (forall b, free s' b + (if decide (b = a) then due else 0) = free s b) /\
  (due <> 0 -> due <= spendable c s a /\ c_ed c <= free s' a) /\
  rt_ev s' = (if due =? 0 then [] else [EvWithdraw a due]) ++ rt_ev s /\
  (forall p, p <> PFree -> p <> PEvents -> same p s s').
Proof.
  intros c a k fee s e s' H. cbn zeta. unfold apply_signed in H. destruct (admitted s a k); [|discriminate].
  assert ((if declared_pays k then fee else 0) = match k with CEb (EbPurge _ _) => 0 | CCl (ClAttest _) => 0 | _ => fee end) as Edue.
  { destruct k as [x|x|x|x|x|x|x|x]; try reflexivity; destruct x; reflexivity. }
  rewrite <- Edue. set (due := if declared_pays k then fee else 0) in *. clearbody due. clear Edue.
  destruct (charge c a due s) as [s1|] eqn:Ec; [|discriminate].
  destruct (dispatch c (Signed a) k s1) as [st s2] eqn:Ed.
  assert (st = Failed e /\ s' = s1) as [_ ->].
  { destruct st; try discriminate.
    assert (post_pays k (Failed e0) = true) as Hp by (destruct k as [x|x|x|x|x|x|x|x]; try reflexivity; destruct x; reflexivity).
    rewrite Hp in H. inversion H. subst. split; [auto|].
    unfold dispatch, run_call in Ed. destruct (exec c (Signed a) k s1); inversion Ed. reflexivity. }
  pose proof (charge_step _ _ _ _ _ Ec) as Hst. apply charge_effect in Ec as [[-> ->]|(Hz & Hs & Hed & Hf & He)].
  - split; [intros b; destruct (decide (b = a)); lia|]. split; [congruence|]. split; [reflexivity|]. intros. apply same_refl.
  - assert (due <= free s a) by (unfold spendable in Hs; lia).
    split; [intros b; rewrite Hf; destruct (decide (b = a)) as [->|]; lia|].
    split; [intros _; split; [auto|]; rewrite Hf; destruct (decide (a = a)); [lia|congruence]|].
    split; [rewrite He; destruct (N.eqb_spec due 0); [congruence|reflexivity]|].
    intros p H1 H2. subst s1. apply step_same. destruct p; try reflexivity; congruence.
Qed.
Print Assumptions C84_failed_signed_costs_exactly_the_fee.
(** A successful move of a claim costs nothing: the fee is charged first and given back. Somebody who
    is not allowed to move claims pays. *)
Theorem C84_moves_are_refunded : forall c a old new pre fee s s',
  apply_signed c a (CCl (ClMove old new pre)) fee s = Some (Success, s') -> 0 < c_ed c -> free s a <= c_bal_max c ->
  c_move_origin c (Signed a) = true /\ (forall b, free s' b = free s b) /\
  (fee <> 0 -> fee <= spendable c s a /\ c_ed c + fee <= free s a).
Proof.
  intros c a old new pre fee s s' H He Hm. unfold apply_signed in H. cbn [admitted prevalidate declared_pays] in H.
  destruct (charge c a fee s) as [s1|] eqn:Ec; [|discriminate].
  destruct (dispatch c (Signed a) _ s1) as [st s2] eqn:Ed. destruct st; try discriminate. cbn [post_pays] in H.
  inversion H. subst s'. clear H. apply run_call_ok in Ed. cbn [exec cl_exec] in Ed. apply move_ok in Ed as (Ho & ->).
  split; [destruct Ho; [auto|discriminate]|]. unfold refund.
  match goal with |- context [if free ?t a =? 0 then _ else _] => change (free t a) with (free s1 a) end.
  apply charge_effect in Ec as [[-> ->]|(Hz & Hs & Hed & Hf & _)].
  - split; [|congruence]. intros b. destruct (free s a =? 0); reflexivity.
  - assert (fee <= free s a) by (unfold spendable in Hs; lia).
    assert (free s1 a = free s a - fee) as Ha by (rewrite Hf; destruct (decide (a = a)); [auto|congruence]).
    destruct (N.eqb_spec (free s1 a) 0); [lia|]. split; [|intros _; split; [auto|lia]].
    match goal with |- context [run_call (deposit_creating c a fee) ?t] => set (t0 := t) end.
    destruct (deposit_creating c a fee t0) as [[] s3|? ?|] eqn:E3.
    + assert ((run_call (deposit_creating c a fee) t0).2 = s3) as -> by (unfold run_call; rewrite E3; reflexivity).
      apply deposit_paid in E3 as (E3 & _). intros b. rewrite E3. change (free t0 ?x) with (free s1 x). rewrite Hf.
      destruct (decide (b = a)) as [->|]; [|lia]. unfold paid. change (free t0 a) with (free s1 a).
      replace (free s1 a =? 0) with false by (symmetry; apply N.eqb_neq; lia). cbn [andb orb].
      replace (c_bal_max c <? free s1 a + fee) with false by (symmetry; apply N.ltb_ge; lia). lia.
    + exfalso. revert E3. unfold deposit_creating, bind, gets, ret, modify, deposit_event.
      destruct (fee =? 0); [discriminate|]. destruct (_ && _); [discriminate|]. destruct (_ <? _); discriminate.
    + exfalso. revert E3. unfold deposit_creating, bind, gets, ret, modify, deposit_event.
      destruct (fee =? 0); [discriminate|]. destruct (_ && _); [discriminate|]. destruct (_ <? _); discriminate.
Qed.
Print Assumptions C84_moves_are_refunded.

(** ** Examples *)
(** Two claims, one with a statement. The claims are paid; replays and claims with the wrong statement
    are not included; a signed [claim] is included, fails and costs the fee; an unsigned bond is not
    included; carol may move claims and gets the fee back; bob may not and pays. *)
Definition claim2 (text : bytes) : cl_call := ClClaimAttest bob (toy_sign (cfg_cl true 5) 2 bob text) text.
Example C84_example : let c := cfg_cl true 5 in
  let s := genesis_state (mkGenesis 5000 (<[bob := 50]> (<[carol := 50]> ∅)) [(eth 1, 100, None, None); (eth 2, 70, None, Some StSaft)] [] false false ∅) in
  let s1 := chain c s [IUnsigned (CCl claim1)] in
  let s2 := chain c s1 [IUnsigned (CCl (claim2 (to_text StSaft)))] in
  free s1 alice = 100 /\ apply_unsigned c (CCl claim1) s1 = None /\
  apply_unsigned c (CCl (claim2 [])) s1 = None /\ free s2 bob = 120 /\
  apply_unsigned c (CTd (TdBond 10)) s = None /\
  option_map fst (apply_signed c alice (CCl claim1) 3 s1) = Some (Failed BadOrigin) /\
  free (chain c s1 [ISigned alice (CCl claim1) 3]) alice = 97 /\
  (let s3 := chain c s [ISigned carol (CCl (ClMove (eth 2) (eth 3) None)) 4] in
   free s3 carol = 50 /\ cl_claims (rt_cl s3) !! eth 3 = Some 70) /\
  (let s3 := chain c s [ISigned bob (CCl (ClMove (eth 2) (eth 3) None)) 4] in
   free s3 bob = 46 /\ cl_claims (rt_cl s3) !! eth 3 = None) /\
  apply_signed c bob (CCl (ClMove (eth 2) (eth 3) None)) 46 s = None.
Proof. vm_compute. repeat split. Qed.
