(** * The answer to every call: which check fails first: C70. *)
From Coq Require Import String.
From Verif Require Import Base State Env TeerdaysModel TeerexBase SgxVerifyModel TeerexModel
  EnclaveBridgeModel SidechainModel TeeracleModel ClaimsModel AssetRegistryModel XcmTransactorModel
  Runtime Frame EnvFacts Panic Examples BridgeProofs ClaimsProps SgxProofs SgxProps TeerexProofs TeerexProps PemProps
  AttestationProps AcceptProps EffectProps.

(** ** Ordered demands *)
(** A list of demands, each with the answer that is given when it is the first one that is not met; when
    all are met the call succeeds. *)
Definition demand : Type := Prop * status.
Fixpoint answers (l : list demand) (st : status) : Prop :=
  match l with
  | [] => st = Success
  | (P, r) :: l' => (P /\ answers l' st) \/ (~ P /\ st = r)
  end.
Definition or_err (P : Prop) (e : error) : demand := (P, Failed e).
Definition or_panic (P : Prop) : demand := (P, Panicked).
Definition or_sgx (P : Prop) (e : sgx_error) : demand := (P, Failed (TxSgx e)).

Lemma answers_fun l : forall st st', answers l st -> answers l st' -> st = st'.
Proof.
  induction l as [|[P r] l IH]; cbn; [congruence|]. intros st st' [[H1 H2]|[H1 H2]] [[H3 H4]|[H3 H4]]; try tauto; [auto|congruence].
Qed.
Definition proper (l : list demand) : Prop := Forall (fun d => d.2 <> Success) l.
Lemma answers_app l1 l2 st : proper l1 -> answers l1 Success -> answers l2 st -> answers (l1 ++ l2) st.
Proof.
  intros Hp H1 H2. induction Hp as [|[P r] l1 Hr Hp IH]; cbn in *; [auto|].
  destruct H1 as [[H H1]|[_ H1]]; [auto|congruence].
Qed.
Lemma answers_stop l1 l2 st : st <> Success -> answers l1 st -> answers (l1 ++ l2) st.
Proof. intros Hs. induction l1 as [|[P r] l1 IH]; cbn; [congruence|]. intuition. Qed.

Definition verdict {A} (m : RM A) (s : rt) : status :=
  match m s with Ok _ _ => Success | Err e _ => Failed e | Panic => Panicked end.
Definition rverdict {A} (m : res A) : status :=
  match m with ROk _ => Success | RErr e => Failed (TxSgx e) | RPanic => Panicked end.
Lemma verdict_dispatch c o k s : (dispatch c o k s).1 = verdict (exec c o k) s.
Proof. unfold dispatch, run_call, verdict. destruct (exec c o k s); reflexivity. Qed.
Lemma exact c o k s l : answers l (verdict (exec c o k) s) -> forall st, (dispatch c o k s).1 = st <-> answers l st.
Proof.
  intros H st. rewrite verdict_dispatch. split; [intros <-; exact H|]. intros H'. apply (answers_fun l); auto.
Qed.

Lemma a_step {A B} (m : RM A) (k : A -> RM B) s a s1 l : m s = Ok a s1 ->
  answers l (verdict (k a) s1) -> answers l (verdict (bind m k) s).
Proof. intros H. unfold verdict. rewrite (bind_fw m k s a s1 H). auto. Qed.
Lemma a_bind {A B} (m : RM A) (k : A -> RM B) s l1 l2 : proper l1 -> answers l1 (verdict m s) ->
  (forall a s1, m s = Ok a s1 -> answers l2 (verdict (k a) s1)) -> answers (l1 ++ l2) (verdict (bind m k) s).
Proof.
  intros Hp H1 H2. unfold verdict, bind in *. destruct (m s) as [a s1|e s1|].
  - apply answers_app; [exact Hp|exact H1|]. apply (H2 a s1 eq_refl).
  - apply answers_stop; [discriminate|auto].
  - apply answers_stop; [discriminate|auto].
Qed.
Lemma a_last {A B} (m : RM A) (k : A -> RM B) s l1 : proper l1 -> answers l1 (verdict m s) ->
  (forall a s1, m s = Ok a s1 -> exists b s2, k a s1 = Ok b s2) -> answers l1 (verdict (bind m k) s).
Proof.
  intros Hp H1 H2. rewrite <- (app_nil_r l1). apply a_bind; auto. intros a s1 H. destruct (H2 a s1 H) as (b & s2 & H3).
  unfold verdict. rewrite H3. reflexivity.
Qed.
Lemma a_ensure {B} b e (k : unit -> RM B) s (P : Prop) l : (b = true <-> P) ->
  (P -> answers l (verdict (k tt) s)) -> answers (or_err P e :: l) (verdict (bind (ensure b e) k) s).
Proof.
  intros Hb Hk. destruct b; cbn.
  - left. split; [apply Hb; auto|]. apply Hk, Hb. auto.
  - right. split; [rewrite <- Hb; discriminate|reflexivity].
Qed.
Lemma a_ensure_last b e s (P : Prop) : (b = true <-> P) -> answers [or_err P e] (verdict (ensure b e) s).
Proof.
  intros Hb. destruct b; cbn; [left; split; [apply Hb|]; reflexivity|right; split; [rewrite <- Hb; discriminate|reflexivity]].
Qed.
Lemma a_ok_or {A B} (x : option A) e (k : A -> RM B) s (P : Prop) l : (is_Some x <-> P) ->
  (forall a, x = Some a -> answers l (verdict (k a) s)) -> answers (or_err P e :: l) (verdict (bind (ok_or x e) k) s).
Proof.
  intros Hx Hk. destruct x as [a|]; cbn.
  - left. split; [apply Hx; eauto|]. apply Hk. reflexivity.
  - right. split; [rewrite <- Hx; intros [? ?]; discriminate|reflexivity].
Qed.
Lemma a_signed {B} o (k : acct -> RM B) s l : (forall a, o = Signed a -> answers l (verdict (k a) s)) ->
  answers (or_err (exists a, o = Signed a) BadOrigin :: l) (verdict (bind (ensure_signed o) k) s).
Proof.
  intros H. destruct o as [|a|]; cbn; [right|left|right].
  - split; [intros [? ?]; discriminate|reflexivity].
  - split; [eauto|]. apply (H a eq_refl).
  - split; [intros [? ?]; discriminate|reflexivity].
Qed.
Lemma a_root {B} o (k : unit -> RM B) s l : (o = Root -> answers l (verdict (k tt) s)) ->
  answers (or_err (o = Root) BadOrigin :: l) (verdict (bind (ensure_root o) k) s).
Proof. intros H. destruct o as [|a|]; cbn; [left|right|right]; split; try discriminate; try reflexivity; apply H; reflexivity. Qed.
Lemma a_none {B} o (k : unit -> RM B) s l : (o = NoneO -> answers l (verdict (k tt) s)) ->
  answers (or_err (o = NoneO) BadOrigin :: l) (verdict (bind (ensure_none o) k) s).
Proof. intros H. destruct o as [|a|]; cbn; [right|right|left]; split; try discriminate; try reflexivity; apply H; reflexivity. Qed.
Lemma a_gets {A B} (f : rt -> A) (k : A -> RM B) s l : answers l (verdict (k (f s)) s) -> answers l (verdict (bind (gets f) k) s).
Proof. apply a_step. reflexivity. Qed.
Lemma a_modify {B} f (k : unit -> RM B) s l : answers l (verdict (k tt) (f s)) -> answers l (verdict (bind (modify f) k) s).
Proof. apply a_step. reflexivity. Qed.
Lemma a_event {B} ev (k : unit -> RM B) s l : answers l (verdict (k tt) (add_ev ev s)) -> answers l (verdict (bind (deposit_event ev) k) s).
Proof. apply a_step. reflexivity. Qed.
Lemma a_plain_add {B} ovf mx x y (k : N -> RM B) s l :
  (forall n, answers l (verdict (k n) s)) ->
  answers (or_panic (ovf = true -> x + y <= mx) :: l) (verdict (bind (plain_add ovf mx x y) k) s).
Proof.
  intros Hk. unfold plain_add. destruct (N.leb_spec (x + y) mx) as [H|H]; [left; split; [auto|apply Hk]|].
  destruct ovf; [right|left].
  - split; [intros H'; specialize (H' eq_refl); lia|reflexivity].
  - split; [discriminate|]. apply Hk.
Qed.
Lemma a_weaken l l' st : Forall2 (fun d d' : demand => (d.1 <-> d'.1) /\ d.2 = d'.2) l l' -> answers l st -> answers l' st.
Proof.
  induction 1 as [|[P r] [P' r'] l l' [H1 H2] _ IH]; cbn in *; [auto|]. subst r'. intros [[Hp H]|[Hp H]]; [left|right]; tauto.
Qed.
Ltac done_ok := solve [reflexivity | cbn; reflexivity].

(** ** teerdays *)
Definition td_demands (c : cfg) (s : rt) (o : origin) (k : td_call) : list demand :=
  or_err (exists a, o = Signed a) BadOrigin ::
  match o with
  | Signed a =>
    match k with
    | TdBond v => [or_err (td_bonds (rt_td s) !! a = None) AlreadyBonded; or_err (c_ed c <= v) InsufficientBond]
    | TdBondExtra v =>
        [or_err (td_pending (rt_td s) !! a = None) PendingUnlock; or_err (c_ed c <= v) InsufficientBond;
         or_err (is_Some (td_bonds (rt_td s) !! a)) NoBond]
    | TdUnbond v =>
        [or_err (td_pending (rt_td s) !! a = None) PendingUnlock; or_err (c_ed c <= v) InsufficientUnbond;
         or_err (is_Some (td_bonds (rt_td s) !! a)) NoBond; or_panic (c_ovf c = true -> rt_now s + c_unlock c <= u64_max)]
    | TdUpdateOther w => [or_err (is_Some (td_bonds (rt_td s) !! w)) NoBond]
    | TdWithdrawUnbonded =>
        [or_err (is_Some (td_pending (rt_td s) !! a)) NotUnlocking;
         or_err (forall due amt, td_pending (rt_td s) !! a = Some (due, amt) -> due <= rt_now s) PendingUnlock]
    end
  | _ => []
  end.
Lemma a_update {B} c a (k : bond -> RM B) s l :
  (forall b, td_bonds (rt_td s) !! a = Some b ->
     answers l (verdict (k (bond_update c b (rt_now s)))
       (add_ev (EvTokenTimeUpdated a (bond_update c b (rt_now s))) (put_bond a (bond_update c b (rt_now s)) s)))) ->
  answers (or_err (is_Some (td_bonds (rt_td s) !! a)) NoBond :: l) (verdict (bind (do_update_teerdays c a) k) s).
Proof.
  intros Hk. destruct (td_bonds (rt_td s) !! a) as [b|] eqn:E.
  - left. split; [eauto|]. eapply a_step; [|apply (Hk b eq_refl)].
    unfold do_update_teerdays, bind, gets, ok_or; cbv beta iota; rewrite E; reflexivity.
  - right. split; [intros [? ?]; discriminate|]. unfold verdict, do_update_teerdays, bind, gets, ok_or. cbv beta iota. rewrite E. reflexivity.
Qed.
Theorem C70_teerdays_answers : forall c s o k st,
  (dispatch c o (CTd k) s).1 = st <-> answers (td_demands c s o k) st.
Proof.
  intros c s o k. apply exact. cbn [exec]. unfold td_demands. destruct k as [v|v|v|w|]; cbn [td_exec].
  - unfold td_bond. apply a_signed. intros a ->. apply a_gets, a_ensure; [apply is_none_true|]. intros _.
    apply a_ensure; [apply N.leb_le|]. intros _. apply a_gets, a_event. done_ok.
  - unfold td_bond_extra. apply a_signed. intros a ->. apply a_gets, a_ensure; [apply is_none_true|]. intros _.
    apply a_ensure; [apply N.leb_le|]. intros _. apply a_update. intros b _. apply a_gets, a_event. done_ok.
  - unfold td_unbond. apply a_signed. intros a ->. apply a_gets, a_ensure; [apply is_none_true|]. intros _.
    apply a_ensure; [apply N.leb_le|]. intros _. apply a_update. intros b _. cbv zeta.
    match goal with |- answers _ (verdict (bind ?m ?k1) ?s1) =>
      assert (exists s2, m s1 = Ok tt s2) as [s2 Hs2] by (destruct (_ <? _); eexists; reflexivity);
      apply (a_step m k1 s1 tt s2 _ Hs2) end.
    apply a_plain_add. intros n. done_ok.
  - unfold td_update_other. apply a_signed. intros a ->. apply a_update. intros b _. done_ok.
  - unfold td_withdraw_unbonded. apply a_signed. intros a ->.
    apply a_last; [repeat constructor; discriminate| |intros; eexists; eexists; reflexivity].
    unfold try_withdraw_unbonded. apply a_gets, a_ok_or; [reflexivity|]. intros [due amt] E. apply a_gets. rewrite E.
    destruct (N.ltb_spec (rt_now s) due) as [Hlt|Hge].
    + right. split; [|reflexivity]. intros H. specialize (H _ _ eq_refl). lia.
    + left. split; [intros d m [= <- <-]; lia|]. apply a_gets. unfold verdict, bind. destruct (_ =? _); reflexivity.
Qed.
Print Assumptions C70_teerdays_answers.

(** ** enclave-bridge and sidechain *)
(** A transfer between different accounts *)
Definition transfer_demands (c : cfg) (s : rt) (src dst : acct) (v : N) : list demand :=
  let moves (P : Prop) := v = 0 \/ src = dst \/ P in
  [or_err (moves (v <= free s src)) FundsUnavailable;
   or_err (moves (v + (if decide (frozen s src = 0) then 0 else N.max (frozen s src) (c_ed c)) <= free s src)) Frozen;
   or_err (moves (free s dst + v <= c_bal_max c)) ArithmeticOverflow;
   or_err (moves (c_ed c <= free s dst + v)) BelowMinimum].
(** The caller [a] must be an enclave that operates the shard and can be listed *)
Definition operator_demands (s : rt) (sh : bytes) (a : acct) : list demand :=
  [or_err (is_Some (tx_sov (rt_tx s) !! a)) EnclaveIsNotRegistered;
   or_err (forall e, tx_sov (rt_tx s) !! a = Some e -> en_mr_enclave e = operator s sh (rt_blk s)) WrongFingerprintForShard;
   or_err (listable s sh a) TooManyEnclaves].
Definition eb_demands (c : cfg) (s : rt) (o : origin) (k : eb_call) : list demand :=
  match k with
  | EbPurge sh _ => [or_err (o = Root) BadOrigin; or_err (is_Some (eb_status (rt_eb s) !! sh)) ShardNotFound]
  | EbUpdateConfig sh _ _ =>
      or_err (o <> NoneO) BadOrigin ::
      match o with
      | Signed a =>
          [or_err (is_Some (tx_sov (rt_tx s) !! a)) EnclaveIsNotRegistered;
           or_err (forall e x, tx_sov (rt_tx s) !! a = Some e -> in_force s sh (rt_blk s) = Some x -> sc_fp x = en_mr_enclave e)
             WrongFingerprintForShard;
           or_err (listable s sh a) TooManyEnclaves]
      | _ => []
      end
  | _ =>
    or_err (exists a, o = Signed a) BadOrigin ::
    match o with
    | Signed a =>
      match k with
      | EbConfirm sh _ _ _ => operator_demands s sh a
      | EbShield sh _ v => transfer_demands c s a sh v
      | EbUnshield sh b v h => operator_demands s sh a ++
          (if decide (eb_exec (rt_eb s) !! h = None) then transfer_demands c s sh b v else []) ++
          [or_panic (c_ovf c = true -> confirmations s h + 1 <= u64_max)]
      | EbPublish _ topics data =>
          [or_err (is_Some (tx_sov (rt_tx s) !! a)) EnclaveIsNotRegistered;
           or_err (forall e, tx_sov (rt_tx s) !! a = Some e -> listable s (en_mr_enclave e) a) TooManyEnclaves;
           or_err (lenN topics <= 5) TooManyTopics; or_err (lenN data <= 100) DataTooLong]
      | _ => []
      end
    | _ => []
    end
  end.
Definition sc_demands (s : rt) (o : origin) (k : sc_call) : list demand :=
  match k with
  | ScConfirm sh anc cand =>
    or_err (exists a, o = Signed a) BadOrigin ::
    match o with
    | Signed a => operator_demands s sh a ++
        (let judged (P : sconf -> Prop) := leads s sh a -> forall last, rt_sc s !! sh = Some last -> P last in
         [or_err (judged (fun _ => is_Some anc)) AncestorMissing;
          or_err (judged (fun last => sn_number last < sn_number cand)) FinalizationCandidateIsOutdated;
          or_err (judged (fun last => forall p, anc = Some p -> sn_number p = sn_number last)) AncestorNumberMismatch;
          or_err (judged (fun last => forall p, anc = Some p -> sn_hash p = sn_hash last)) AncestorHashMismatch])
    | _ => []
    end
  end.
Lemma transfer_proper c s src dst v : proper (transfer_demands c s src dst v).
Proof. repeat constructor; discriminate. Qed.
Lemma operator_proper s sh a : proper (operator_demands s sh a).
Proof. repeat constructor; discriminate. Qed.
Lemma reap_total c a v s : exists s', reap c a v s = Ok tt s'.
Proof. unfold reap. destruct (_ <? _); [|eexists; reflexivity]. unfold bind, modify. destruct (_ =? _); eexists; reflexivity. Qed.
Lemma a_transfer c src dst v s : answers (transfer_demands c s src dst v) (verdict (transfer c src dst v) s).
Proof.
  unfold transfer, transfer_demands. cbv zeta. destruct (N.eqb_spec v 0) as [->|Hv].
  { cbn [orb]. cbn. repeat (left; split; [auto|]). reflexivity. }
  destruct (beq src dst) eqn:Eb.
  { apply beq_true in Eb. cbn [orb]. cbn. repeat (left; split; [auto|]). reflexivity. }
  apply beq_false in Eb. cbn [orb]. apply a_gets, a_gets, a_gets.
  apply a_ensure; [rewrite N.leb_le; tauto|]. intros H1. apply a_ensure.
  { rewrite N.leb_le. unfold spendable, untouchable.
    destruct (decide (frozen s src = 0)) as [->|Hf]; [rewrite N.eqb_refl|rewrite (proj2 (N.eqb_neq _ _) Hf)];
      (split; [intros; right; right; lia|]); intros [|[|]]; try congruence; lia. }
  intros _. apply a_ensure; [rewrite N.leb_le; tauto|]. intros _. apply a_ensure; [rewrite N.leb_le; tauto|]. intros _.
  destruct (reap_total c src (free s src - v) s) as [s1 Hs1]. apply (a_step _ _ _ _ _ _ Hs1). done_ok.
Qed.
Lemma a_touch {B} sh a fp b (k : list sstat -> RM B) s l : lenN (status_of s sh) <= max_signers ->
  answers l (verdict (k (touch_list (mkSstat a fp b) (status_of s sh)))
    (put_status sh (touch_list (mkSstat a fp b) (status_of s sh)) s)) ->
  answers (or_err (listable s sh a) TooManyEnclaves :: l) (verdict (bind (touch_shard sh a fp b) k) s).
Proof.
  intros Hl Hk. pose proof (touch_eq sh a fp b s) as E. cbv zeta in E. cbn [answers or_err].
  rewrite <- (listable_len s sh a fp b Hl).
  destruct (N.leb_spec (lenN (touch_list (mkSstat a fp b) (status_of s sh))) max_signers) as [H|H].
  - left. split; [auto|]. apply (a_step _ _ _ _ _ _ E). exact Hk.
  - right. split; [lia|]. unfold verdict, bind. rewrite E. reflexivity.
Qed.
Lemma a_sovereign {B} a (k : enclave -> RM B) s l :
  (forall e, tx_sov (rt_tx s) !! a = Some e -> answers l (verdict (k e) s)) ->
  answers (or_err (is_Some (tx_sov (rt_tx s) !! a)) EnclaveIsNotRegistered :: l) (verdict (bind (get_sovereign_enclave a) k) s).
Proof.
  intros Hk. unfold get_sovereign_enclave. destruct (tx_sov (rt_tx s) !! a) as [e|] eqn:E.
  - left. split; [eauto|]. eapply a_step; [|apply (Hk e eq_refl)]. unfold bind, gets, ok_or. cbv beta iota. rewrite E. reflexivity.
  - right. split; [intros [? ?]; discriminate|]. unfold verdict, bind, gets, ok_or. cbv beta iota. rewrite E. reflexivity.
Qed.
Lemma a_enclave {B} a sh (k : enclave * list sstat -> RM B) s l : lenN (status_of s sh) <= max_signers ->
  (forall e, BridgeProofs.authorised s sh a e ->
     answers l (verdict (k (e, touch_list (mkSstat a (fingerprint e) (rt_blk s)) (status_of s sh))) (touched sh a (fingerprint e) s))) ->
  answers (operator_demands s sh a ++ l) (verdict (bind (get_enclave_and_touch a sh (rt_blk s)) k) s).
Proof.
  intros Hl Hk. unfold operator_demands. cbn [app]. cbn [answers or_err]. destruct (tx_sov (rt_tx s) !! a) as [e|] eqn:E.
  - left. split; [eauto|]. destruct (decide (en_mr_enclave e = operator s sh (rt_blk s))) as [Hf|Hf].
    + left. split; [intros e' [= <-]; exact Hf|]. assert (BridgeProofs.authorised s sh a e) as Ha by (split; auto).
      pose proof (get_enclave_eq a sh s e Ha) as G. cbv zeta in G.
      rewrite <- (listable_len s sh a (fingerprint e) (rt_blk s) Hl).
      destruct (N.leb_spec (lenN (touch_list (mkSstat a (fingerprint e) (rt_blk s)) (status_of s sh))) max_signers) as [H|H].
      * left. split; [auto|]. apply (a_step _ _ _ _ _ _ G). auto.
      * right. split; [lia|]. unfold verdict, bind. rewrite G. reflexivity.
    + right. split; [intros H; apply Hf, H; reflexivity|].
      unfold verdict. unfold bind at 1. unfold get_enclave_and_touch, get_sovereign_enclave.
      unfold bind at 1 2 3, gets, ok_or, ret. rewrite E. unfold bind at 1. rewrite get_config_eq.
      unfold bind at 1. unfold operator in Hf.
      assert (beq (fingerprint e) (sc_fp (match in_force s sh (rt_blk s) with Some x => x | None => new_scfg sh end)) = false) as ->.
      { apply beq_false. intros H. apply Hf. unfold fingerprint in H. rewrite H. destruct (in_force s sh (rt_blk s)); reflexivity. }
      reflexivity.
  - right. split; [intros [? ?]; discriminate|].
    unfold verdict, bind, get_enclave_and_touch, get_sovereign_enclave, bind, gets, ok_or. rewrite E. reflexivity.
Qed.
Theorem C70_bridge_answers : forall c g l o k st, let s := run c (genesis_state g) l in
  (dispatch c o (CEb k) s).1 = st <-> answers (eb_demands c s o k) st.
Proof.
  intros c g l o k st s. revert st. apply exact. pose proof (status_ok_run c g l) as Hs. fold s in Hs.
  assert (forall sh, lenN (status_of s sh) <= max_signers) as Hl by (intros sh; apply (status_of_ok s sh Hs)).
  clearbody s. cbn [exec].
  destruct k as [sh cy|sh h n r|sh b v|sh b v h|h tp d|sh new delay|sh a]; cbn [eb_exec_call eb_demands].
  - unfold invoke. apply a_signed. intros a ->. done_ok.
  - unfold confirm_processed. apply a_signed. intros a ->. apply a_gets. rewrite <- (app_nil_r (operator_demands s sh a)).
    apply a_enclave; [auto|]. intros e He. done_ok.
  - unfold shield_funds. apply a_signed. intros a ->. apply a_last; [apply transfer_proper|apply a_transfer|].
    intros; eexists; eexists; reflexivity.
  - unfold unshield_funds. apply a_signed. intros a ->. apply a_gets, a_enclave; [auto|]. intros e He. apply a_gets.
    assert (eb_exec (rt_eb (touched sh a (fingerprint e) s)) = eb_exec (rt_eb s)) as Ex by apply touched_exec.
    assert (transfer_demands c (touched sh a (fingerprint e) s) sh b v = transfer_demands c s sh b v) as Ep.
    { apply (touched_other _ (fun s => transfer_demands c s sh b v)). reflexivity. }
    rewrite Ex. unfold confirmations. destruct (eb_exec (rt_eb s) !! h) as [n|] eqn:E.
    + rewrite decide_False by discriminate. cbn [app]. apply (a_step _ _ _ tt (touched sh a (fingerprint e) s)); [reflexivity|].
      apply a_gets. rewrite Ex, E. change (default 0 (Some n)) with n. apply a_plain_add. intros; done_ok.
    + rewrite decide_True by reflexivity. rewrite <- Ep. apply a_bind; [apply transfer_proper| |].
      * apply a_last; [apply transfer_proper|apply a_transfer|]. intros; eexists; eexists; reflexivity.
      * intros u s1 H. apply a_gets. apply bind_ok in H as (? & s2 & _ & H). inv_rt H.
        cbn [add_ev put_exec rt_eb set_eb eb_exec]. rewrite lookup_insert. cbn [default].
        apply (a_plain_add _ _ (id 0)). intros; done_ok.
  - unfold publish_hash. apply a_signed. intros a ->. apply a_sovereign. intros e He. apply a_gets. rewrite He.
    apply (a_weaken [or_err (listable s (fingerprint e) a) TooManyEnclaves; or_err (lenN tp <= 5) TooManyTopics; or_err (lenN d <= 100) DataTooLong]);
      [|apply a_touch; [auto|]; apply a_ensure; [apply N.leb_le|]; intros _; apply a_ensure; [apply N.leb_le|]; intros _; done_ok].
    constructor; [|constructor; [|constructor; [|constructor]]]; cbn; split; auto; try reflexivity.
    unfold fingerprint. split; [intros H e' [= <-]; exact H|]. intros H. apply H. reflexivity.
  - unfold update_shard_config. destruct o as [|a|].
    + left. split; [discriminate|]. apply (a_step _ _ _ None s); [reflexivity|]. apply a_gets.
      apply (a_step _ _ _ _ _ _ (get_config_eq sh (rt_blk s) false s)).
      destruct (in_force s sh (rt_blk s)); done_ok.
    + left. split; [discriminate|]. apply (a_step _ _ _ (Some a) s); [reflexivity|]. apply a_gets.
      apply (a_step _ _ _ _ _ _ (get_config_eq sh (rt_blk s) false s)).
      destruct (in_force s sh (rt_blk s)) as [x|] eqn:Ei; (apply a_last; [repeat constructor; discriminate| |intros; eexists; eexists; reflexivity]);
        (apply a_last; [repeat constructor; discriminate| |intros; eexists; eexists; reflexivity]); apply a_sovereign; intros e He; rewrite He.
      * apply a_ensure.
        { rewrite beq_true. unfold fingerprint. split; [intros H e' x' [= <-] [= <-]; exact H|]. intros H. apply H; reflexivity. }
        intros _. apply a_touch; [auto|]. done_ok.
      * left. split; [discriminate|]. apply a_touch; [auto|]. done_ok.
    + right. split; [congruence|reflexivity].
  - unfold purge. apply a_root. intros ->. apply a_gets, a_ok_or; [reflexivity|]. intros lst E.
    apply (a_step _ _ _ tt s); [|done_ok]. pose proof (Hl sh) as H. unfold status_of in H. rewrite E in H. cbn in H.
    rewrite (proj2 (N.leb_le _ _)); [reflexivity|].
    unfold lenN in *. pose proof (filter_length (fun x => ss_signer x <> a) lst). lia.
Qed.
Print Assumptions C70_bridge_answers.

Theorem C70_sidechain_answers : forall c g l o k st, let s := run c (genesis_state g) l in
  (dispatch c o (CSc k) s).1 = st <-> answers (sc_demands s o k) st.
Proof.
  intros c g l o [sh anc cand] st s. revert st. apply exact. pose proof (status_ok_run c g l) as Hs. fold s in Hs.
  pose proof (proj1 (status_of_ok s sh Hs)) as Hl. cbn [exec sc_exec sc_demands]. clearbody s.
  unfold confirm_sidechain. apply a_signed. intros a ->. apply a_gets, a_enclave; [auto|]. intros e He. cbn [snd].
  destruct (touch_list_hd (mkSstat a (fingerprint e) (rt_blk s)) (status_of s sh)) as (y & r & -> & Hy).
  assert (rt_sc (touched sh a (fingerprint e) s) = rt_sc s) as Es by (apply (touched_other _ rt_sc); reflexivity).
  assert (leads s sh a <-> ss_signer y = a) as Hlead.
  { unfold leads. change (default [] (eb_status (rt_eb s) !! sh)) with (status_of s sh) in *.
    destruct (status_of s sh) as [|z rest]; cbn in Hy; rewrite Hy; cbn; tauto. }
  destruct (beq a (ss_signer y)) eqn:Eb; cbn [negb].
  - apply beq_true in Eb. assert (leads s sh a) as Hld by (apply Hlead; auto). apply a_gets. rewrite Es.
    destruct (rt_sc s !! sh) as [kn|] eqn:Ek.
    + apply a_last; [repeat constructor; discriminate| |intros; eexists; eexists; reflexivity].
      apply a_ok_or; [split; [intros H _ last _; exact H|intros H; apply (H Hld kn eq_refl)]|]. intros p ->.
      apply a_ensure; [rewrite N.ltb_lt; split; [intros H _ last [= <-]; exact H|intros H; apply (H Hld kn eq_refl)]|]. intros _.
      apply a_ensure.
      { rewrite N.eqb_eq. split; [intros H _ last [= <-] p' [= <-]; auto|]. intros H. symmetry. apply (H Hld kn eq_refl p eq_refl). }
      intros _. apply a_ensure_last. rewrite beq_true. split; [intros H _ last [= <-] p' [= <-]; auto|].
      intros H. symmetry. apply (H Hld kn eq_refl p eq_refl).
    + cbn. repeat (left; split; [intros; discriminate|]). reflexivity.
  - apply beq_false in Eb. assert (~ leads s sh a) as Hld by (rewrite Hlead; congruence).
    cbn. repeat (left; split; [intros; tauto|]). reflexivity.
Qed.
Print Assumptions C70_sidechain_answers.

(** ** teeracle *)
Definition to_demands (c : cfg) (s : rt) (o : origin) (k : to_call) : list demand :=
  let listed src fp := In fp (default [] (to_wl (rt_to s) !! src)) in
  let caller_listed src := forall a e, o = Signed a -> tx_sov (rt_tx s) !! a = Some e -> listed src (en_mr_enclave e) in
  let caller_registered := forall a, o = Signed a -> is_Some (tx_sov (rt_tx s) !! a) in
  match k with
  | ToAdd src fp => [or_err (o = Root) BadOrigin; or_err (lenN src <= 40) DataSourceStringTooLong;
      or_err (~ listed src fp) FingerprintAlreadyWhitelisted;
      or_err (lenN (default [] (to_wl (rt_to s) !! src)) < c_max_wl c) FingerprintWhitelistOverflow]
  | ToRemove src fp => [or_err (o = Root) BadOrigin; or_err (listed src fp) FingerprintNotWhitelisted]
  | ToUpdateOracle name src blob =>
      [or_err (exists a, o = Signed a) BadOrigin; or_err caller_registered EnclaveIsNotRegistered;
       or_err (caller_listed src) FingerprintNotWhitelisted; or_err (lenN name <= 40) OracleDataNameStringTooLong;
       or_err (lenN src <= 40) DataSourceStringTooLong; or_err (lenN blob <= c_max_blob c) OracleBlobTooBig]
  | ToUpdateRate src tp _ =>
      [or_err (exists a, o = Signed a) BadOrigin; or_err caller_registered EnclaveIsNotRegistered;
       or_err (lenN tp <= 11) TradingPairStringTooLong; or_err (caller_listed src) FingerprintNotWhitelisted]
  end.
Lemma a_caller {B} a (k : enclave -> RM B) s l :
  (forall e, tx_sov (rt_tx s) !! a = Some e -> answers l (verdict (k e) s)) ->
  answers (or_err (forall a', Signed a = Signed a' -> is_Some (tx_sov (rt_tx s) !! a')) EnclaveIsNotRegistered :: l)
    (verdict (bind (get_sovereign_enclave a) k) s).
Proof.
  intros Hk. pose proof (a_sovereign a k s l Hk) as H. cbn [answers or_err] in *. destruct H as [[H1 H2]|[H1 H2]]; [left|right]; (split; [|auto]).
  - intros a' [= <-]. exact H1.
  - intros H. apply H1, H. reflexivity.
Qed.
Theorem C70_teeracle_answers : forall c s o k st,
  (dispatch c o (CTo k) s).1 = st <-> answers (to_demands c s o k) st.
Proof.
  intros c s o k. apply exact. cbn [exec]. unfold to_demands. cbv zeta.
  assert (forall a e src, tx_sov (rt_tx s) !! a = Some e ->
    (is_whitelisted src (fingerprint e) s = true <->
     forall a' e', Signed a = Signed a' -> tx_sov (rt_tx s) !! a' = Some e' -> In (en_mr_enclave e') (default [] (to_wl (rt_to s) !! src)))) as Hw.
  { intros a e src He. rewrite is_whitelisted_In. unfold fingerprint. split.
    - intros H a' e' [= <-] He'. rewrite He in He'. injection He' as <-. exact H.
    - intros H. apply (H a e eq_refl He). }
  destruct k as [src fp|src fp|name src blob|src tp v]; cbn [to_exec].
  - unfold add_to_whitelist. apply a_root. intros ->. apply a_ensure; [apply N.leb_le|]. intros _. apply a_gets.
    apply a_ensure; [rewrite <- is_whitelisted_In, not_true_iff_false, negb_true_iff; reflexivity|]. intros _. apply a_gets.
    apply a_ensure; [apply N.ltb_lt|]. intros _. done_ok.
  - unfold remove_from_whitelist. apply a_root. intros ->. apply a_gets, a_ensure; [apply is_whitelisted_In|]. intros _. done_ok.
  - unfold update_oracle. apply a_signed. intros a ->. apply a_caller. intros e He. apply a_gets, a_ensure; [apply Hw; auto|]. intros _.
    do 3 (apply a_ensure; [apply N.leb_le|]; intros _). done_ok.
  - unfold update_exchange_rate. apply a_signed. intros a ->. apply a_caller. intros e He.
    apply a_ensure; [apply N.leb_le|]. intros _. apply a_gets, a_ensure; [apply Hw; auto|]. intros _.
    destruct v as [[|p]|]; done_ok.
Qed.
Print Assumptions C70_teeracle_answers.

(** ** claims *)
(** Paying the claims of the addresses in [who] (there is at most one) to [dest] *)
Definition payout_demands (s : rt) (who : bytes -> Prop) (dest : acct) : list demand :=
  [or_err (forall signer, who signer -> is_Some (cl_claims (rt_cl s) !! signer)) SignerHasNoClaim;
   or_err (forall signer due, who signer -> cl_claims (rt_cl s) !! signer = Some due -> due <= cl_total (rt_cl s)) PotUnderflow;
   or_err (forall signer, who signer -> is_Some (cl_vesting (rt_cl s) !! signer) -> rt_vest s !! dest = None) VestedBalanceExists;
   or_panic (forall signer lk per st, who signer -> cl_vesting (rt_cl s) !! signer = Some (lk, per, st) -> lk = 0 \/ per <> 0)].
Definition cl_demands (c : cfg) (s : rt) (o : origin) (k : cl_call) : list demand :=
  match k with
  | ClClaim dest sig =>
      let who signer := eth_signed c sig signer dest [] in
      [or_err (o = NoneO) BadOrigin; or_err (exists signer, who signer) InvalidEthereumSignature;
       or_err (forall signer, who signer -> cl_signing (rt_cl s) !! signer = None) InvalidStatement] ++ payout_demands s who dest
  | ClClaimAttest dest sig text =>
      let who signer := eth_signed c sig signer dest text in
      [or_err (o = NoneO) BadOrigin; or_err (exists signer, who signer) InvalidEthereumSignature;
       or_err (forall signer, who signer -> statement_met s signer text) InvalidStatement] ++ payout_demands s who dest
  | ClAttest text =>
      or_err (exists a, o = Signed a) BadOrigin ::
      match o with
      | Signed a =>
          let who signer := cl_preclaims (rt_cl s) !! a = Some signer in
          [or_err (exists signer, who signer) SenderHasNoClaim;
           or_err (forall signer, who signer -> statement_met s signer text) InvalidStatement] ++ payout_demands s who a
      | _ => []
      end
  | ClMint _ v _ _ => [or_err (o = Root) BadOrigin; or_panic (c_ovf c = true -> cl_total (rt_cl s) + v <= c_bal_max c)]
  | ClMove _ _ _ => [or_err (o = Root \/ c_move_origin c o = true) BadOrigin]
  end.
Lemma payout_proper s who dest : proper (payout_demands s who dest).
Proof. repeat constructor; discriminate. Qed.
Lemma a_process c (who : bytes -> Prop) signer dest s : who signer -> (forall x, who x -> x = signer) ->
  answers (payout_demands s who dest) (verdict (process_claim c signer dest) s).
Proof.
  intros Hw Hu. unfold process_claim, payout_demands. apply a_gets. apply a_ok_or.
  { split; [intros H x Hx; rewrite (Hu x Hx); exact H|]. intros H. apply H, Hw. }
  intros due Hd. apply a_gets. apply a_ensure.
  { rewrite N.leb_le. split; [intros H x d Hx Hx'; rewrite (Hu x Hx) in Hx'; congruence|]. intros H. apply (H signer); auto. }
  intros _. apply a_gets, a_gets, a_ensure.
  { rewrite negb_true_iff. unfold has_vesting. split.
    - intros H x Hx [y Hy]. rewrite (Hu x Hx) in Hy. rewrite Hy in H. destruct (rt_vest s !! dest); [discriminate|auto].
    - intros H. specialize (H signer Hw). destruct (cl_vesting (rt_cl s) !! signer); [|auto]. rewrite H; eauto. }
  intros _. destruct (deposit_succ c dest due s) as (s1 & H1 & Hv). apply (a_step _ _ _ _ _ _ H1).
  apply a_last; [repeat constructor; discriminate| |intros; eexists; eexists; reflexivity].
  destruct (cl_vesting (rt_cl s) !! signer) as [[[lk per] st]|] eqn:E.
  - unfold add_vesting_schedule. destruct (N.eqb_spec lk 0) as [->|Hlk].
    + left. split; [|done_ok]. intros x lk' per' st' Hx H. rewrite (Hu x Hx), E in H. injection H as <- <- <-. auto.
    + destruct (N.eqb_spec per 0) as [->|Hper].
      * right. split; [|done_ok]. intros H. destruct (H signer _ _ _ Hw E); congruence.
      * left. split.
        { intros x lk' per' st' Hx H. rewrite (Hu x Hx), E in H. injection H as <- <- <-. auto. }
        destruct (write_vesting_succ dest (default [] (rt_vest s1 !! dest) ++ [(lk, per, st)]) s1) as [s2 Hs2].
        apply (a_step _ _ _ true s2); [|done_ok]. unfold bind, gets. cbv beta iota. rewrite Hs2. reflexivity.
  - left. split; [|done_ok]. intros x lk' per' st' Hx H. rewrite (Hu x Hx), E in H. discriminate.
Qed.
Theorem C70_claims_answers : forall c s o k st,
  (dispatch c o (CCl k) s).1 = st <-> answers (cl_demands c s o k) st.
Proof.
  intros c s o k. apply exact. cbn [exec].
  assert (forall dest sig text x y, eth_signed c sig x dest text -> eth_signed c sig y dest text -> x = y) as Hf.
  { intros dest sig text x y H1 H2. apply eth_recover_signed in H1, H2. congruence. }
  destruct k as [dest sig|w v vs st|dest sig text|text|old new pre]; cbn [cl_exec cl_demands app].
  - unfold claim. apply a_none. intros ->. apply a_ok_or.
    { split; [intros [x Hx]; exists x; apply eth_recover_signed; auto|]. intros [x Hx]. exists x. apply eth_recover_signed; auto. }
    intros signer Hs. apply eth_recover_signed in Hs. apply a_gets, a_ensure.
    { rewrite is_none_true. split; [intros H x Hx; rewrite (Hf _ _ _ _ _ Hx Hs); auto|auto]. }
    intros _. apply a_process; [auto|]. intros x Hx. apply (Hf _ _ _ _ _ Hx Hs).
  - unfold mint_claim. apply a_root. intros ->. apply a_gets, a_plain_add. intros n. done_ok.
  - unfold claim_attest. apply a_none. intros ->. apply a_ok_or.
    { split; [intros [x Hx]; exists x; apply eth_recover_signed; auto|]. intros [x Hx]. exists x. apply eth_recover_signed; auto. }
    intros signer Hs. apply eth_recover_signed in Hs. apply a_gets, a_ensure.
    { rewrite statement_ok_met. split; [intros H x Hx; rewrite (Hf _ _ _ _ _ Hx Hs); auto|auto]. }
    intros _. apply a_process; [auto|]. intros x Hx. apply (Hf _ _ _ _ _ Hx Hs).
  - unfold attest. apply a_signed. intros a ->. apply a_gets, a_ok_or; [reflexivity|]. intros signer Hs. apply a_gets, a_ensure.
    { rewrite statement_ok_met. split; [intros H x Hx; assert (x = signer) as -> by congruence; auto|auto]. }
    intros _. apply a_last; [apply payout_proper| |intros; eexists; eexists; reflexivity].
    apply a_process; [auto|]. intros x Hx. congruence.
  - unfold move_claim. apply a_ensure; [|intros _; done_ok]. rewrite orb_true_iff.
    assert (match o with Root => true | _ => false end = true <-> o = Root) as -> by (destruct o; split; congruence). tauto.
Qed.
Print Assumptions C70_claims_answers.

(** The reasons come in the order of the demands *)
Example C70_example : let t o k := (dispatch cfg0 o k acc_state).1 in
  t Root (CTd (TdBond 1)) = Failed BadOrigin /\ t (Signed bob) (CTd (TdBond 1)) = Failed AlreadyBonded /\
  t (Signed alice) (CTd (TdBond 9)) = Failed InsufficientBond /\ t (Signed alice) (CTd (TdUnbond 9)) = Failed InsufficientUnbond /\
  t (Signed alice) (CTd (TdUnbond 10)) = Failed NoBond /\ t (Signed alice) (CTd TdWithdrawUnbonded) = Failed NotUnlocking /\
  t NoneO (CEb (EbUnshield (acc 8) bob 1 [7])) = Failed BadOrigin /\
  t (Signed bob) (CEb (EbUnshield (acc 8) bob 1 [7])) = Failed EnclaveIsNotRegistered /\
  t (Signed alice) (CEb (EbPublish [] (replicate 6 []) (zeros 101))) = Failed TooManyTopics /\
  t (Signed alice) (CEb (EbPublish [] [] (zeros 101))) = Failed DataTooLong /\
  t (Signed alice) (CEb (EbPurge (acc 8) bob)) = Failed BadOrigin /\ t Root (CEb (EbPurge (acc 8) bob)) = Failed ShardNotFound /\
  t (Signed bob) (CTo (ToUpdateRate [1] (replicate 12 65) (Some 3))) = Failed EnclaveIsNotRegistered /\
  t (Signed alice) (CTo (ToUpdateRate [2] (replicate 12 65) (Some 3))) = Failed TradingPairStringTooLong /\
  t (Signed alice) (CTo (ToUpdateRate [2] (replicate 11 65) (Some 3))) = Failed FingerprintNotWhitelisted /\
  t (Signed alice) (CCl (ClAttest [])) = Failed SenderHasNoClaim.
Proof. vm_compute. repeat split; reflexivity. Qed.
