(** * Exactly which calls are accepted: C68. *)
From Verif Require Import Base State Env TeerdaysModel TeerexBase SgxVerifyModel TeerexModel
  EnclaveBridgeModel SidechainModel TeeracleModel ClaimsModel AssetRegistryModel XcmTransactorModel
  Runtime Frame EnvFacts Panic Examples BridgeProofs ClaimsProps.

(** ** When a body succeeds *)
Definition succ {A} (m : RM A) (s : rt) : Prop := exists a s', m s = Ok a s'.
Lemma succ_dispatch c o k s : (dispatch c o k s).1 = Success <-> succ (exec c o k) s.
Proof.
  unfold dispatch, run_call, succ. destruct (exec c o k s) as [[] s'|e s'|]; cbn; split; intros H; eauto; try discriminate.
  - destruct H as (a & s1 & H). discriminate.
  - destruct H as (a & s1 & H). discriminate.
Qed.
Lemma succ_bind {A B} (m : RM A) (k : A -> RM B) s a s1 : m s = Ok a s1 -> succ (bind m k) s <-> succ (k a) s1.
Proof. intros H. unfold succ. rewrite (bind_fw m k s a s1 H). reflexivity. Qed.
Lemma succ_bind_fail {A B} (m : RM A) (k : A -> RM B) s : ~ succ m s -> succ (bind m k) s <-> False.
Proof. intros H. split; [|tauto]. intros (b & s' & E). apply bind_ok in E as (a & s1 & E & _). apply H. exists a, s1. exact E. Qed.
Lemma succ_ok {A} (m : RM A) s a s1 : m s = Ok a s1 -> succ m s <-> True.
Proof. intros H. split; [auto|]. intros _. exists a, s1. exact H. Qed.
Lemma succ_ensure {B} b e (k : unit -> RM B) s : succ (bind (ensure b e) k) s <-> b = true /\ succ (k tt) s.
Proof.
  destruct b; cbn [ensure].
  - rewrite (succ_bind _ _ s tt s) by reflexivity. tauto.
  - rewrite succ_bind_fail; [intuition discriminate|]. intros (a & s' & H). discriminate.
Qed.
Lemma succ_ensure_last b e s : succ (ensure b e) s <-> b = true.
Proof.
  destruct b; cbn [ensure].
  - rewrite (succ_ok _ s tt s) by reflexivity. tauto.
  - split; [|discriminate]. intros (a & s' & H). discriminate.
Qed.
Lemma succ_ok_or {A B} (o : option A) e (k : A -> RM B) s :
  succ (bind (ok_or o e) k) s <-> exists a, o = Some a /\ succ (k a) s.
Proof.
  destruct o as [a|]; cbn [ok_or].
  - rewrite (succ_bind _ _ s a s) by reflexivity. split; [eauto|]. intros (a' & [= ->] & H). exact H.
  - rewrite succ_bind_fail; [|intros (a & s' & H); discriminate]. split; [tauto|]. intros (a & H & _). discriminate.
Qed.
Lemma succ_gets {A B} (f : rt -> A) (k : A -> RM B) s : succ (bind (gets f) k) s <-> succ (k (f s)) s.
Proof. apply succ_bind. reflexivity. Qed.
Lemma succ_modify {B} f (k : unit -> RM B) s : succ (bind (modify f) k) s <-> succ (k tt) (f s).
Proof. apply succ_bind. reflexivity. Qed.
Lemma succ_event {B} ev (k : unit -> RM B) s : succ (bind (deposit_event ev) k) s <-> succ (k tt) (add_ev ev s).
Proof. apply succ_bind. reflexivity. Qed.
Lemma succ_event_last ev s : succ (deposit_event ev) s <-> True.
Proof. eapply succ_ok. reflexivity. Qed.
Lemma succ_modify_last f s : succ (@modify rt error f) s <-> True.
Proof. eapply succ_ok. reflexivity. Qed.
Lemma succ_signed {B} o (k : acct -> RM B) s :
  succ (bind (ensure_signed o) k) s <-> exists a, o = Signed a /\ succ (k a) s.
Proof.
  destruct o as [|a|]; cbn [ensure_signed].
  1,3: rewrite succ_bind_fail; [|intros (b & s' & H); discriminate]; split; [tauto|]; intros (b & H & _); discriminate.
  rewrite (succ_bind _ _ s a s) by reflexivity. split; [eauto|]. intros (b & [= ->] & H). exact H.
Qed.
Lemma succ_root {B} o (k : unit -> RM B) s : succ (bind (ensure_root o) k) s <-> o = Root /\ succ (k tt) s.
Proof.
  destruct o as [|a|]; cbn [ensure_root].
  1: rewrite (succ_bind _ _ s tt s) by reflexivity; tauto.
  all: rewrite succ_bind_fail; [|intros (b & s' & H); discriminate]; split; [tauto|]; intros (H & _); discriminate.
Qed.
Lemma succ_none {B} o (k : unit -> RM B) s : succ (bind (ensure_none o) k) s <-> o = NoneO /\ succ (k tt) s.
Proof.
  destruct o as [|a|]; cbn [ensure_none].
  3: rewrite (succ_bind _ _ s tt s) by reflexivity; tauto.
  all: rewrite succ_bind_fail; [|intros (b & s' & H); discriminate]; split; [tauto|]; intros (H & _); discriminate.
Qed.
Lemma succ_plain_add {B} ovf mx a b (k : N -> RM B) s :
  (forall n, succ (k n) s) -> succ (bind (plain_add ovf mx a b) k) s <-> (ovf = true -> a + b <= mx).
Proof.
  intros Hk. unfold plain_add. destruct (N.leb_spec (a + b) mx).
  - rewrite (succ_bind _ _ s (a + b) s) by reflexivity. intuition.
  - destruct ovf.
    + rewrite succ_bind_fail; [|intros (x & s' & H'); discriminate]. split; [tauto|]. intros H'. specialize (H' eq_refl). lia.
    + rewrite (succ_bind _ _ s ((a + b) mod (mx + 1)) s) by reflexivity. split; [discriminate|]. intros _. apply Hk.
Qed.

(** ** teerdays *)
(** Arithmetic on the clock panics only in builds with overflow checks *)
Definition td_accepts (c : cfg) (s : rt) (o : origin) (k : td_call) : Prop :=
  exists a, o = Signed a /\
  match k with
  | TdBond v => td_bonds (rt_td s) !! a = None /\ c_ed c <= v
  | TdBondExtra v => is_Some (td_bonds (rt_td s) !! a) /\ td_pending (rt_td s) !! a = None /\ c_ed c <= v
  | TdUnbond v => is_Some (td_bonds (rt_td s) !! a) /\ td_pending (rt_td s) !! a = None /\ c_ed c <= v /\
                  (c_ovf c = true -> rt_now s + c_unlock c <= u64_max)
  | TdUpdateOther w => is_Some (td_bonds (rt_td s) !! w)
  | TdWithdrawUnbonded => exists due amt, td_pending (rt_td s) !! a = Some (due, amt) /\ due <= rt_now s
  end.
Lemma succ_update {B} c (a : acct) (k : bond -> RM B) s (P : Prop) :
  (forall b, td_bonds (rt_td s) !! a = Some b ->
     succ (k (bond_update c b (rt_now s)))
          (add_ev (EvTokenTimeUpdated a (bond_update c b (rt_now s))) (put_bond a (bond_update c b (rt_now s)) s)) <-> P) ->
  succ (bind (do_update_teerdays c a) k) s <-> is_Some (td_bonds (rt_td s) !! a) /\ P.
Proof.
  intros Hk. destruct (td_bonds (rt_td s) !! a) as [b|] eqn:E.
  - erewrite succ_bind; [|unfold do_update_teerdays, bind, gets, ok_or; cbv beta iota; rewrite E; reflexivity].
    rewrite (Hk b eq_refl). split; [eauto|tauto].
  - rewrite succ_bind_fail.
    + split; [tauto|]. intros [[x Hx] _]. discriminate.
    + intros (x & s' & H). revert H. unfold do_update_teerdays, bind, gets, ok_or. cbv beta iota. rewrite E. discriminate.
Qed.
Lemma is_none_true {A} (o : option A) : match o with None => true | Some _ => false end = true <-> o = None.
Proof. destruct o; split; congruence. Qed.

Theorem C68_teerdays_calls_accepted_exactly : forall c s o k,
  (dispatch c o (CTd k) s).1 = Success <-> td_accepts c s o k.
Proof.
  intros c s o k. rewrite succ_dispatch. cbn [exec]. unfold td_accepts. destruct k as [v|v|v|w|]; cbn [td_exec].
  - unfold td_bond. rewrite succ_signed. f_equiv. intros a. f_equiv.
    rewrite succ_gets, !succ_ensure, is_none_true, N.leb_le, succ_gets, succ_event.
    erewrite succ_ok; [|reflexivity]. tauto.
  - unfold td_bond_extra. rewrite succ_signed. f_equiv. intros a. f_equiv.
    rewrite succ_gets, !succ_ensure, is_none_true, N.leb_le.
    rewrite (succ_update c a _ s True).
    + tauto.
    + intros b _. rewrite succ_gets, succ_event. eapply succ_ok. reflexivity.
  - unfold td_unbond. rewrite succ_signed. f_equiv. intros a. f_equiv.
    rewrite succ_gets, !succ_ensure, is_none_true, N.leb_le.
    rewrite (succ_update c a _ s (c_ovf c = true -> rt_now s + c_unlock c <= u64_max)).
    + tauto.
    + intros b _. cbv zeta. rewrite <- (succ_plain_add (c_ovf c) u64_max _ _ (fun _ => ret tt)
        (add_ev (EvTokenTimeUpdated a (bond_update c b (rt_now s))) (put_bond a (bond_update c b (rt_now s)) s)))
        by (intros; exists tt; eexists; reflexivity).
      match goal with |- succ (bind ?m ?k1) ?s1 <-> _ =>
        assert (exists s2, m s1 = Ok tt s2) as [s2 Hs2] by (destruct (_ <? _); eexists; reflexivity);
        rewrite (succ_bind m k1 s1 tt s2 Hs2) end.
      rewrite succ_plain_add, succ_plain_add; [reflexivity| |]; intros; [exists tt|exists tt]; eexists; reflexivity.
  - unfold td_update_other. rewrite succ_signed. f_equiv. intros a. f_equiv.
    rewrite (succ_update c w _ s True); [tauto|]. intros b _. eapply succ_ok. reflexivity.
  - unfold td_withdraw_unbonded. rewrite succ_signed. f_equiv. intros a. f_equiv.
    unfold try_withdraw_unbonded. destruct (td_pending (rt_td s) !! a) as [[due amt]|] eqn:E.
    + destruct (N.ltb_spec (rt_now s) due) as [Hlt|Hge].
      * rewrite succ_bind_fail.
        -- split; [tauto|]. intros (d & x & [= <- <-] & H). lia.
        -- intros (x & s' & H). revert H. unfold bind, gets, ok_or. cbv beta iota. rewrite E. cbn. rewrite (proj2 (N.ltb_lt _ _) Hlt). discriminate.
      * split; [eauto|]. intros _. apply N.ltb_ge in Hge.
        match goal with |- succ (bind ?m ?k1) s => assert (exists n s1, m s = Ok n s1) as (n & s1 & Hm) end.
        { unfold bind at 1 2 3, gets, ok_or. cbv beta iota. rewrite E. cbn. rewrite Hge.
          unfold bind. destruct (_ =? _); eexists; eexists; reflexivity. }
        rewrite (succ_bind _ _ s n s1 Hm). apply succ_event_last; auto.
    + rewrite succ_bind_fail.
      * split; [tauto|]. intros (d & x & H & _). discriminate.
      * intros (x & s' & H). revert H. unfold bind, gets, ok_or. cbv beta iota. rewrite E. discriminate.
Qed.
Print Assumptions C68_teerdays_calls_accepted_exactly.

(** ** enclave-bridge and sidechain *)
(** What [Currency::transfer] asks for: funds that are not locked, room at the destination, and at least
    the existential deposit there *)
Definition payable (c : cfg) (s : rt) (src dst : acct) (v : N) : Prop :=
  v = 0 \/ src = dst \/
  (v <= free s src /\
   v + (if decide (frozen s src = 0) then 0 else N.max (frozen s src) (c_ed c)) <= free s src /\
   free s dst + v <= c_bal_max c /\ c_ed c <= free s dst + v).
(** An entry of the shard's status list can be written: at most ten enclaves are listed *)
Definition listable (s : rt) (sh : bytes) (a : acct) : Prop := In a (signers_of s sh) \/ lenN (status_of s sh) < 10.
(** [a] is a registered enclave that operates [sh] and can be listed *)
Definition operates (s : rt) (sh : bytes) (a : acct) : Prop :=
  exists e, tx_sov (rt_tx s) !! a = Some e /\ en_mr_enclave e = operator s sh (rt_blk s) /\ listable s sh a.
Definition eb_accepts (c : cfg) (s : rt) (o : origin) (k : eb_call) : Prop :=
  match k with
  | EbInvoke _ _ => exists a, o = Signed a
  | EbConfirm sh _ _ _ => exists a, o = Signed a /\ operates s sh a
  | EbShield sh _ v => exists a, o = Signed a /\ payable c s a sh v
  | EbUnshield sh b v h => exists a, o = Signed a /\ operates s sh a /\
      (eb_exec (rt_eb s) !! h = None -> payable c s sh b v) /\
      (c_ovf c = true -> confirmations s h < u64_max)
  | EbPublish _ topics data => exists a e, o = Signed a /\ tx_sov (rt_tx s) !! a = Some e /\
      listable s (en_mr_enclave e) a /\ lenN topics <= 5 /\ lenN data <= 100
  | EbUpdateConfig sh _ _ => o = Root \/
      exists a e, o = Signed a /\ tx_sov (rt_tx s) !! a = Some e /\ listable s sh a /\
      forall x, in_force s sh (rt_blk s) = Some x -> sc_fp x = en_mr_enclave e
  | EbPurge sh _ => o = Root /\ is_Some (eb_status (rt_eb s) !! sh)
  end.
Definition sc_accepts (s : rt) (o : origin) (k : sc_call) : Prop :=
  match k with
  | ScConfirm sh anc cand => exists a, o = Signed a /\ operates s sh a /\
      ((exists first r, signers_of s sh = first :: r /\ first <> a) \/
       rt_sc s !! sh = None \/
       exists last p, rt_sc s !! sh = Some last /\ anc = Some p /\ sn_number last < sn_number cand /\
                      sn_number p = sn_number last /\ sn_hash p = sn_hash last)
  end.

Lemma listable_len s sh a fp b : lenN (status_of s sh) <= max_signers ->
  lenN (touch_list (mkSstat a fp b) (status_of s sh)) <= max_signers <-> listable s sh a.
Proof.
  intros H. rewrite touch_list_len. cbn [ss_signer]. unfold listable, signers_of. unfold max_signers in *.
  destruct (in_dec _ _ _) as [Hi|Hi]; split; intros H0; [left; exact Hi|lia|right; lia|].
  destruct H0; [tauto|lia].
Qed.
Lemma succ_touch {B} sh a fp b (k : list sstat -> RM B) s : lenN (status_of s sh) <= max_signers ->
  succ (bind (touch_shard sh a fp b) k) s <->
  listable s sh a /\ succ (k (touch_list (mkSstat a fp b) (status_of s sh))) (put_status sh (touch_list (mkSstat a fp b) (status_of s sh)) s).
Proof.
  intros Hl. rewrite <- (listable_len s sh a fp b Hl). pose proof (touch_eq sh a fp b s) as E. cbv zeta in E.
  destruct (N.leb_spec (lenN (touch_list (mkSstat a fp b) (status_of s sh))) max_signers) as [Hx|Hx].
  - rewrite (succ_bind _ _ _ _ _ E). tauto.
  - rewrite succ_bind_fail; [|intros (y & s' & Hy); rewrite E in Hy; discriminate].
    split; [tauto|]. intros [H0 _]. lia.
Qed.
Lemma succ_sovereign {B} a (k : enclave -> RM B) s :
  succ (bind (get_sovereign_enclave a) k) s <-> exists e, tx_sov (rt_tx s) !! a = Some e /\ succ (k e) s.
Proof.
  unfold get_sovereign_enclave. destruct (tx_sov (rt_tx s) !! a) as [e|] eqn:E.
  - erewrite succ_bind; [|unfold bind, gets, ok_or; cbv beta iota; rewrite E; reflexivity].
    split; [eauto|]. intros (e' & [= ->] & H). exact H.
  - rewrite succ_bind_fail; [|intros (y & s' & Hy); revert Hy; unfold bind, gets, ok_or; cbv beta iota; rewrite E; discriminate].
    split; [tauto|]. intros (e & H & _). discriminate.
Qed.
Lemma succ_enclave {B} a sh (k : enclave * list sstat -> RM B) s (P : Prop) : lenN (status_of s sh) <= max_signers ->
  (forall e, BridgeProofs.authorised s sh a e ->
     succ (k (e, touch_list (mkSstat a (fingerprint e) (rt_blk s)) (status_of s sh))) (touched sh a (fingerprint e) s) <-> P) ->
  succ (bind (get_enclave_and_touch a sh (rt_blk s)) k) s <-> operates s sh a /\ P.
Proof.
  intros Hl Hk. split.
  - intros (b & s' & H). apply bind_ok in H as ([e l] & s1 & H1 & H).
    apply get_enclave_ok in H1 as (Ha & -> & Hle & ->); [|auto]. split.
    + destruct Ha as [Ha1 Ha2]. exists e. split; [auto|]. split; [exact Ha2|]. rewrite <- (listable_len s sh a (fingerprint e) (rt_blk s)); auto.
    + apply (Hk e Ha). exists b, s'. exact H.
  - intros [(e & H1 & H2 & H3) HP]. assert (BridgeProofs.authorised s sh a e) as Ha by (split; auto).
    pose proof (get_enclave_eq a sh s e Ha) as E. cbv zeta in E.
    rewrite <- (listable_len s sh a (fingerprint e) (rt_blk s)) in H3 by auto.
    rewrite (proj2 (N.leb_le _ _) H3) in E. rewrite (succ_bind _ _ _ _ _ E). apply (Hk e Ha), HP.
Qed.
Lemma transfer_succ c src dst v s : succ (transfer c src dst v) s <-> payable c s src dst v.
Proof.
  unfold transfer, payable. destruct (N.eqb_spec v 0) as [->|Hv].
  { cbn [orb]. split; [auto|]. intros _. exists tt, s. reflexivity. }
  destruct (beq src dst) eqn:Eb.
  { apply beq_true in Eb. cbn [orb]. split; [auto|]. intros _. exists tt, s. reflexivity. }
  apply beq_false in Eb. cbn [orb]. rewrite !succ_gets, !succ_ensure, !N.leb_le.
  unfold spendable, untouchable.
  assert (forall w, exists s1, reap c src w s = Ok tt s1) as Hr.
  { intros w. unfold reap. destruct (_ <? _); [|eexists; reflexivity]. unfold bind, modify. destruct (_ =? _); eexists; reflexivity. }
  destruct (Hr (free s src - v)) as [s1 Hs1]. rewrite (succ_bind _ _ _ _ _ Hs1), succ_modify, succ_event_last.
  destruct (decide (frozen s src = 0)) as [->|Hf]; [rewrite N.eqb_refl|rewrite (proj2 (N.eqb_neq _ _) Hf)];
    split; [intros (H1 & H2 & H3 & H4 & _)| |intros (H1 & H2 & H3 & H4 & _)|].
  1,3: right; right; repeat split; lia.
  all: intros [H|[H|(H1 & H2 & H3 & H4)]]; [lia|congruence|]; repeat split; auto; lia.
Qed.
Lemma payable_view c s s' src dst v : (forall a, free s' a = free s a) -> (forall a, frozen s' a = frozen s a) ->
  payable c s' src dst v <-> payable c s src dst v.
Proof. intros H1 H2. unfold payable. rewrite !H1, !H2. reflexivity. Qed.
Lemma bridge_accepts c s o k : (forall sh, lenN (status_of s sh) <= max_signers) ->
  (dispatch c o (CEb k) s).1 = Success <-> eb_accepts c s o k.
Proof.
  intros Hl. rewrite succ_dispatch. cbn [exec].
  destruct k as [sh cy|sh h n r|sh b v|sh b v h|h tp d|sh new delay|sh a]; cbn [eb_exec_call eb_accepts].
  - unfold invoke. rewrite succ_signed. f_equiv. intros a. rewrite succ_event_last. tauto.
  - unfold confirm_processed. rewrite succ_signed. f_equiv. intros a. f_equiv. rewrite succ_gets.
    rewrite (succ_enclave a sh _ s True) by (auto; intros e He; apply succ_event_last). tauto.
  - unfold shield_funds. rewrite succ_signed. f_equiv. intros a. f_equiv. rewrite <- transfer_succ. split.
    + intros (u & s' & H). apply bind_ok in H as (u1 & s1 & H1 & _). exists u1, s1. exact H1.
    + intros (u & s' & H). rewrite (succ_bind _ _ _ _ _ H). apply succ_event_last. auto.
  - unfold unshield_funds. rewrite succ_signed. f_equiv. intros a. f_equiv. rewrite succ_gets.
    apply succ_enclave; [auto|]. intros e He.
    assert (eb_exec (rt_eb (touched sh a (fingerprint e) s)) = eb_exec (rt_eb s)) as Ex by apply touched_exec.
    assert (payable c (touched sh a (fingerprint e) s) sh b v = payable c s sh b v) as Ep.
    { apply (touched_other _ (fun s => payable c s sh b v)). reflexivity. }
    rewrite succ_gets, Ex. unfold confirmations. destruct (eb_exec (rt_eb s) !! h) as [n|] eqn:E.
    + rewrite (succ_bind _ _ _ tt _) by reflexivity. rewrite succ_gets, Ex, E. change (default 0 (Some n)) with n.
      rewrite succ_plain_add by (intros; exists tt; eexists; reflexivity).
      split; [intros H; split; [discriminate|]; intros Ho; specialize (H Ho); cbn in H |- *; unfold u64_max in *; lia|].
      intros [_ H] Ho. specialize (H Ho). cbn in H |- *; unfold u64_max in *. lia.
    + rewrite <- Ep, <- transfer_succ. split.
      * intros (u & s' & H). apply bind_ok in H as (u1 & s1 & H1 & _). apply bind_ok in H1 as (u2 & s2 & H1 & _).
        split; [intros _; exists u2, s2; exact H1|]. intros _. cbn. unfold u64_max. lia.
      * intros [H _]. destruct (H eq_refl) as ([] & s1 & H1).
        rewrite (succ_bind _ _ _ tt (add_ev (EvUnshieldedFunds sh b v) (put_exec h 0 s1))).
        2:{ unfold bind at 1. unfold vault. rewrite H1. reflexivity. }
        rewrite succ_gets. cbn [add_ev put_exec rt_eb set_eb eb_exec]. rewrite lookup_insert. cbn [default].
        rewrite succ_plain_add by (intros; exists tt; eexists; reflexivity). intros _. unfold u64_max, id. lia.
  - unfold publish_hash. rewrite succ_signed. f_equiv. intros a. rewrite succ_sovereign. split.
    + intros (-> & e & H1 & H). rewrite succ_gets, succ_touch, !succ_ensure, !N.leb_le in H by auto.
      destruct H as (H2 & H3 & H4 & _). exists e. auto 10.
    + intros (e & -> & H1 & H2 & H3 & H4). split; [auto|]. exists e. split; [auto|].
      rewrite succ_gets, succ_touch, !succ_ensure, !N.leb_le, succ_event_last by auto. auto 10.
  - unfold update_shard_config. destruct o as [|a|].
    + split; [auto|]. intros _. rewrite (succ_bind _ _ _ None s) by reflexivity. rewrite succ_gets.
      rewrite (succ_bind _ _ _ _ _ (get_config_eq sh (rt_blk s) false s)).
      destruct (in_force s sh (rt_blk s)) as [x|]; erewrite succ_bind by reflexivity; eapply succ_ok; reflexivity.
    + rewrite (succ_bind _ _ _ (Some a) s) by reflexivity. rewrite succ_gets.
      rewrite (succ_bind _ _ _ _ _ (get_config_eq sh (rt_blk s) false s)).
      assert (forall (m : RM unit) (u : uscfg) (k : uscfg -> RM unit) s, (forall u s, succ (k u) s) ->
        succ (bind (bind m (fun _ => ret u)) k) s <-> succ m s) as Hb.
      { intros m u k s1 Hk. split.
        - intros (x & s' & H). apply bind_ok in H as (x1 & s2 & H1 & _). apply bind_ok in H1 as (x2 & s3 & H1 & _).
          exists x2, s3. exact H1.
        - intros (x & s' & H). rewrite (succ_bind _ _ _ u s'); [apply Hk|]. unfold bind. rewrite H. reflexivity. }
      destruct (in_force s sh (rt_blk s)) as [x|]; rewrite Hb by (intros; eexists; eexists; reflexivity); rewrite succ_sovereign;
        (split; [intros (e & H1 & H); right; exists a, e|
                 intros [H|(a' & e & [= <-] & H1 & H2 & H3)]; [discriminate|exists e; split; [auto|]]]).
      * rewrite succ_ensure, succ_touch in H by auto. destruct H as (H2 & H3 & _). apply beq_true in H2.
        split; [auto|]. split; [auto|]. split; [auto|]. intros x' [= <-]. exact H2.
      * rewrite succ_ensure, succ_touch by auto. split; [apply beq_true; apply H3; reflexivity|].
        split; [auto|]. eexists; eexists; reflexivity.
      * rewrite succ_touch in H by auto. split; [auto|]. split; [auto|]. split; [tauto|]. discriminate.
      * rewrite succ_touch by auto. split; [auto|]. eexists; eexists; reflexivity.
    + split; [|intros [H|(a & e & H & _)]; discriminate].
      rewrite succ_bind_fail; [tauto|]. intros (x & s' & H). discriminate.
  - unfold purge. rewrite succ_root. f_equiv. rewrite succ_gets, succ_ok_or. unfold is_Some. split.
    + intros (lst & H & _). eauto.
    + intros [lst E]. exists lst. split; [auto|]. pose proof (Hl sh) as H. unfold status_of in H. rewrite E in H. cbn in H.
      rewrite (succ_bind _ _ _ tt s); [eapply succ_ok; reflexivity|].
      rewrite (proj2 (N.leb_le _ _)); [reflexivity|].
      unfold lenN in *. pose proof (filter_length (fun x => ss_signer x <> a) lst). lia.
Qed.
Theorem C68_bridge_calls_accepted_exactly : forall c g l o k, let s := run c (genesis_state g) l in
  (dispatch c o (CEb k) s).1 = Success <-> eb_accepts c s o k.
Proof. intros c g l o k s. apply bridge_accepts. intros sh. apply (status_of_ok s sh (status_ok_run c g l)). Qed.
Print Assumptions C68_bridge_calls_accepted_exactly.

Lemma sidechain_accepts c s o k : (forall sh, lenN (status_of s sh) <= max_signers) ->
  (dispatch c o (CSc k) s).1 = Success <-> sc_accepts s o k.
Proof.
  intros HL. destruct k as [sh anc cand]. pose proof (HL sh) as Hl. rewrite succ_dispatch. cbn [exec sc_exec sc_accepts].
  unfold confirm_sidechain. rewrite succ_signed. f_equiv. intros a. f_equiv. rewrite succ_gets.
  apply succ_enclave; [auto|]. intros e He. cbn [snd].
  destruct (touch_list_hd (mkSstat a (fingerprint e) (rt_blk s)) (status_of s sh)) as (y & r & -> & Hy).
  assert (rt_sc (touched sh a (fingerprint e) s) = rt_sc s) as Es by (apply (touched_other _ rt_sc); reflexivity).
  destruct (beq a (ss_signer y)) eqn:Eb; cbn [negb].
  - apply beq_true in Eb. rewrite succ_gets, Es.
    assert (~ exists first r, signers_of s sh = first :: r /\ first <> a) as Hf.
    { intros (f & r' & H1 & H2). unfold signers_of in H1. destruct (status_of s sh) as [|z rest]; [discriminate|].
      cbn in H1, Hy. congruence. }
    destruct (rt_sc s !! sh) as [kn|] eqn:Ek.
    + assert (forall (m : RM unit) (k : unit -> RM unit) s, (forall u s, succ (k u) s) -> succ (bind m k) s <-> succ m s) as Hb.
      { intros m k s1 Hk. split.
        - intros (x & s' & H). apply bind_ok in H as (x1 & s2 & H1 & _). exists x1, s2. exact H1.
        - intros (x & s' & H). rewrite (succ_bind _ _ _ _ _ H). apply Hk. }
      rewrite Hb by (intros; eexists; eexists; reflexivity). rewrite succ_ok_or. split.
      * intros (p & -> & H). rewrite !succ_ensure, succ_ensure_last, N.ltb_lt, N.eqb_eq in H.
        destruct H as (H1 & H2 & H3). apply beq_true in H3. right. right. exists kn, p. auto 10.
      * intros [H|[H|(k' & p & [= <-] & -> & H1 & H2 & H3)]]; [tauto|discriminate|].
        exists p. split; [auto|]. rewrite !succ_ensure, succ_ensure_last, N.ltb_lt, N.eqb_eq.
        split; [auto|]. split; [auto|]. apply beq_true. auto.
    + split; [auto|]. intros _. eexists; eexists; reflexivity.
  - apply beq_false in Eb. split; [|intros _; eexists; eexists; reflexivity]. intros _. left.
    unfold signers_of. destruct (status_of s sh) as [|z rest]; cbn in Hy |- *; [congruence|].
    exists (ss_signer z), (map ss_signer rest). split; [auto|]. congruence.
Qed.
Theorem C68_sidechain_calls_accepted_exactly : forall c g l o k, let s := run c (genesis_state g) l in
  (dispatch c o (CSc k) s).1 = Success <-> sc_accepts s o k.
Proof. intros c g l o k s. apply sidechain_accepts. intros sh. apply (status_of_ok s sh (status_ok_run c g l)). Qed.
Print Assumptions C68_sidechain_calls_accepted_exactly.

(** ** teeracle *)
Definition to_accepts (c : cfg) (s : rt) (o : origin) (k : to_call) : Prop :=
  let listed src fp := In fp (default [] (to_wl (rt_to s) !! src)) in
  match k with
  | ToAdd src fp => o = Root /\ lenN src <= 40 /\ ~ listed src fp /\ lenN (default [] (to_wl (rt_to s) !! src)) < c_max_wl c
  | ToRemove src fp => o = Root /\ listed src fp
  | ToUpdateOracle name src blob => exists a e, o = Signed a /\ tx_sov (rt_tx s) !! a = Some e /\ listed src (en_mr_enclave e) /\
      lenN name <= 40 /\ lenN src <= 40 /\ lenN blob <= c_max_blob c
  | ToUpdateRate src tp _ => exists a e, o = Signed a /\ tx_sov (rt_tx s) !! a = Some e /\ listed src (en_mr_enclave e) /\
      lenN tp <= 11
  end.
Lemma is_whitelisted_In s src fp : is_whitelisted src fp s = true <-> In fp (default [] (to_wl (rt_to s) !! src)).
Proof. unfold is_whitelisted, whitelist. rewrite bool_decide_eq_true. apply elem_of_list_In. Qed.

Theorem C68_teeracle_calls_accepted_exactly : forall c s o k,
  (dispatch c o (CTo k) s).1 = Success <-> to_accepts c s o k.
Proof.
  intros c s o k. rewrite succ_dispatch. cbn [exec]. destruct k as [src fp|src fp|name src blob|src tp v]; cbn [to_exec]; unfold to_accepts.
  - unfold add_to_whitelist. rewrite succ_root, !succ_ensure, succ_gets, succ_ensure, succ_gets, succ_ensure, succ_modify, succ_event_last.
    rewrite N.leb_le, N.ltb_lt, <- is_whitelisted_In, not_true_iff_false, negb_true_iff. unfold max_source_len, whitelist. tauto.
  - unfold remove_from_whitelist. rewrite succ_root, succ_gets, succ_ensure, is_whitelisted_In, succ_gets, succ_modify, succ_event_last. tauto.
  - unfold update_oracle. rewrite succ_signed. f_equiv. intros a. rewrite succ_sovereign.
    assert (forall (A : Prop) (P Q : enclave -> Prop), (forall e, P e <-> Q e) ->
      (A /\ exists e, P e) <-> exists e, A /\ Q e) as Hx.
    { intros A P Q H. split; [intros [Ha [e He]]; exists e; split; [auto|apply H, He]|].
      intros [e [Ha He]]. split; [auto|]. exists e. apply H, He. }
    apply Hx. intros e. rewrite succ_gets, !succ_ensure, succ_modify, succ_event_last, is_whitelisted_In, !N.leb_le.
    unfold max_name_len, max_source_len, fingerprint. tauto.
  - unfold update_exchange_rate. rewrite succ_signed. f_equiv. intros a. rewrite succ_sovereign.
    assert (forall (A : Prop) (P Q : enclave -> Prop), (forall e, P e <-> Q e) ->
      (A /\ exists e, P e) <-> exists e, A /\ Q e) as Hx.
    { intros A P Q H. split; [intros [Ha [e He]]; exists e; split; [auto|apply H, He]|].
      intros [e [Ha He]]. split; [auto|]. exists e. apply H, He. }
    apply Hx. intros e. rewrite succ_ensure, succ_gets, succ_ensure, is_whitelisted_In, N.leb_le.
    match goal with |- context [succ ?m ?s1] => assert (succ m s1) as Hm by (destruct v as [[|p]|]; eexists; eexists; reflexivity) end.
    unfold max_pair_len, fingerprint. tauto.
Qed.
Print Assumptions C68_teeracle_calls_accepted_exactly.

(** ** claims *)
(** The claim of [signer] can be paid to [dest] *)
Definition payable_claim (s : rt) (signer : bytes) (dest : acct) : Prop :=
  exists due, cl_claims (rt_cl s) !! signer = Some due /\ due <= cl_total (rt_cl s) /\
  forall lk per st, cl_vesting (rt_cl s) !! signer = Some (lk, per, st) -> rt_vest s !! dest = None /\ (lk = 0 \/ per <> 0).
(** The statement that was asked for, if any, is [text] *)
Definition statement_met (s : rt) (signer : bytes) (text : bytes) : Prop :=
  forall st, cl_signing (rt_cl s) !! signer = Some st -> text = to_text st.
Definition cl_accepts (c : cfg) (s : rt) (o : origin) (k : cl_call) : Prop :=
  match k with
  | ClClaim dest sig => exists signer, o = NoneO /\ eth_signed c sig signer dest [] /\
      cl_signing (rt_cl s) !! signer = None /\ payable_claim s signer dest
  | ClClaimAttest dest sig text => exists signer, o = NoneO /\ eth_signed c sig signer dest text /\
      statement_met s signer text /\ payable_claim s signer dest
  | ClAttest text => exists a signer, o = Signed a /\ cl_preclaims (rt_cl s) !! a = Some signer /\
      statement_met s signer text /\ payable_claim s signer a
  | ClMint _ v _ _ => o = Root /\ (c_ovf c = true -> cl_total (rt_cl s) + v <= c_bal_max c)
  | ClMove _ _ _ => o = Root \/ c_move_origin c o = true
  end.
Lemma statement_ok_met s signer text :
  statement_ok (cl_signing (rt_cl s) !! signer) text = true <-> statement_met s signer text.
Proof.
  unfold statement_met, statement_ok. destruct (cl_signing (rt_cl s) !! signer) as [k|].
  - rewrite beq_true. split; [intros <- st [= <-]; auto|]. intros H. symmetry. apply H. auto.
  - split; [discriminate|auto].
Qed.
Lemma deposit_succ c a v s : exists s', deposit_creating c a v s = Ok tt s' /\ rt_vest s' = rt_vest s.
Proof.
  unfold deposit_creating. destruct (v =? 0); [eexists; split; reflexivity|]. unfold bind at 1, gets.
  destruct (_ && _); [eexists; split; reflexivity|]. destruct (_ <? _); eexists; split; reflexivity.
Qed.
Lemma write_vesting_succ a l s : exists s', write_vesting a l s = Ok tt s'.
Proof.
  unfold write_vesting, bind, gets, modify, set_lock, remove_lock, ret.
  repeat (cbv beta zeta; match goal with |- context [if ?b then _ else _] => destruct b end); eexists; reflexivity.
Qed.
Lemma process_succ c signer dest s : succ (process_claim c signer dest) s <-> payable_claim s signer dest.
Proof.
  unfold process_claim, payable_claim. rewrite succ_gets, succ_ok_or. f_equiv. intros due. f_equiv.
  rewrite succ_gets, succ_ensure, N.leb_le. f_equiv. rewrite !succ_gets, succ_ensure, negb_true_iff.
  destruct (deposit_succ c dest due s) as (s1 & H1 & Hv). rewrite (succ_bind _ _ _ _ _ H1).
  destruct (cl_vesting (rt_cl s) !! signer) as [[[lk per] st]|] eqn:E.
  - unfold has_vesting. unfold add_vesting_schedule. destruct (N.eqb_spec lk 0) as [->|Hlk].
    + split.
      * intros [H _] ? ? ? [= <- <- <-]. destruct (rt_vest s !! dest); [discriminate|]. auto.
      * intros H. destruct (H _ _ _ eq_refl) as [-> _]. split; [auto|]. eexists; eexists; reflexivity.
    + destruct (N.eqb_spec per 0) as [->|Hper].
      * split.
        -- intros [_ (x & s' & H)]. discriminate.
        -- intros H. destruct (H _ _ _ eq_refl) as [_ [?|?]]; congruence.
      * split.
        -- intros [H _] ? ? ? [= <- <- <-]. destruct (rt_vest s !! dest); [discriminate|]. auto.
        -- intros H. destruct (H _ _ _ eq_refl) as [-> _]. split; [auto|].
           destruct (write_vesting_succ dest (default [] (rt_vest s1 !! dest) ++ [(lk, per, st)]) s1) as [s2 Hs2].
           rewrite (succ_bind _ _ _ tt s2); [eexists; eexists; reflexivity|].
           unfold bind, gets. cbv beta iota. rewrite Hs2. reflexivity.
  - split; [discriminate|]. intros _. split; [auto|]. eexists; eexists; reflexivity.
Qed.

Theorem C68_claims_calls_accepted_exactly : forall c s o k,
  (dispatch c o (CCl k) s).1 = Success <-> cl_accepts c s o k.
Proof.
  intros c s o k. rewrite succ_dispatch. cbn [exec]. destruct k as [dest sig|w v vs st|dest sig text|text|old new pre]; cbn [cl_exec cl_accepts].
  - unfold claim. rewrite succ_none, succ_ok_or. split.
    + intros (-> & signer & H1 & H). apply eth_recover_signed in H1. rewrite succ_gets, succ_ensure, is_none_true, process_succ in H. eauto 10.
    + intros (signer & -> & H1 & H2 & H3). split; [auto|]. exists signer. split; [apply eth_recover_signed; auto|].
      rewrite succ_gets, succ_ensure, is_none_true, process_succ. auto.
  - unfold mint_claim. rewrite succ_root, succ_gets, succ_plain_add by (intros; eexists; eexists; reflexivity). reflexivity.
  - unfold claim_attest. rewrite succ_none, succ_ok_or. split.
    + intros (-> & signer & H1 & H). apply eth_recover_signed in H1. rewrite succ_gets, succ_ensure, statement_ok_met, process_succ in H. exists signer. tauto.
    + intros (signer & -> & H1 & H2 & H3). split; [auto|]. exists signer. split; [apply eth_recover_signed; auto|].
      rewrite succ_gets, succ_ensure, statement_ok_met, process_succ. auto.
  - unfold attest. rewrite succ_signed. f_equiv. intros a. rewrite succ_gets, succ_ok_or. split.
    + intros (-> & signer & H1 & H). rewrite succ_gets, succ_ensure, statement_ok_met in H. destruct H as [H2 (x & s' & H)].
      apply bind_ok in H as (u & s1 & H & _). exists signer. split; [auto|]. split; [auto|]. split; [auto|].
      apply (process_succ c). exists u, s1. exact H.
    + intros (signer & -> & H1 & H2 & H3). split; [auto|]. exists signer. split; [auto|].
      rewrite succ_gets, succ_ensure, statement_ok_met. split; [auto|]. apply (process_succ c) in H3 as (u & s1 & H3).
      rewrite (succ_bind _ _ _ _ _ H3). apply succ_modify_last. auto.
  - unfold move_claim. rewrite succ_ensure, succ_modify_last, orb_true_iff.
    assert (match o with Root => true | _ => false end = true <-> o = Root) as -> by (destruct o; split; congruence). tauto.
Qed.
Print Assumptions C68_claims_calls_accepted_exactly.

(** ** The rest: removal of enclaves and assets, security flags. Registrations are in C38, C53, C66 and
    C67, the swap in C56. *)
Definition misc_accepts (c : cfg) (s : rt) (o : origin) (k : call) : Prop :=
  match k with
  | CTx (TxUnregisterSovereign w) => exists a e, o = Signed a /\ tx_sov (rt_tx s) !! w = Some e /\ en_timestamp e + c_renewal c < rt_now s
  | CTx (TxUnregisterProxied w) => exists a e, o = Signed a /\ tx_prox (rt_tx s) !! w = Some e /\ en_timestamp e + c_renewal c < rt_now s
  | CTx (TxSetFlags _ _) => o = Root
  | CAr (ArUnregister i) => c_asset_origin c o = true /\ is_Some (ar_loc (rt_ar s) !! i)
  | _ => False
  end.
Definition is_misc (k : call) : bool :=
  match k with CTx (TxUnregisterSovereign _) | CTx (TxUnregisterProxied _) | CTx (TxSetFlags _ _) | CAr (ArUnregister _) => true | _ => false end.

Theorem C68_removals_accepted_exactly : forall c s o k, is_misc k = true ->
  (dispatch c o k s).1 = Success <-> misc_accepts c s o k.
Proof.
  intros c s o k Hk. rewrite succ_dispatch. destruct k as [| | | |k| |k|]; try discriminate; destruct k; try discriminate; cbn [exec tx_exec ar_exec misc_accepts].
  - unfold unregister_sovereign. rewrite succ_signed. f_equiv. intros a. rewrite succ_gets, succ_ok_or. split.
    + intros (-> & e & H1 & H). rewrite succ_gets, succ_ensure, N.ltb_lt in H. exists e. split; [auto|]. split; [auto|].
      unfold sat_sub in H. lia.
    + intros (e & -> & H1 & H). split; [auto|]. exists e. split; [auto|]. rewrite succ_gets, succ_ensure, N.ltb_lt, succ_modify, succ_event_last.
      unfold sat_sub. split; [lia|auto].
  - unfold unregister_proxied. rewrite succ_signed. f_equiv. intros x. rewrite succ_gets, succ_ok_or. split.
    + intros (-> & e & H1 & H). rewrite succ_gets, succ_ensure, N.ltb_lt in H. exists e. split; [auto|]. split; [auto|].
      unfold sat_sub in H. lia.
    + intros (e & -> & H1 & H). split; [auto|]. exists e. split; [auto|]. rewrite succ_gets, succ_ensure, N.ltb_lt, succ_modify, succ_event_last.
      unfold sat_sub. split; [lia|auto].
  - unfold set_security_flags. rewrite succ_root, succ_modify, succ_event_last. tauto.
  - unfold unregister_asset. rewrite succ_ensure, succ_gets, succ_ok_or. f_equiv. unfold is_Some. f_equiv. intros x.
    rewrite succ_modify, succ_event_last. tauto.
Qed.
Print Assumptions C68_removals_accepted_exactly.

(** Accepted calls of every kind, and the neighbouring calls that are not *)
Definition acc_state : rt := run cfg0 (genesis_state (gen0 [alice; bob]))
  [register alice (acc 9); call_td bob (TdBond 300); OCall Root (CTo (ToAdd [1] (acc 9)));
   call_eb bob (EbShield (acc 9) [] 500); call_eb alice (EbConfirm (acc 9) [] 1 [])].
Example C68_example : let ok o k := (dispatch cfg0 o k acc_state).1 in
  ok (Signed bob) (CTd (TdBondExtra 10)) = Success /\ ok (Signed bob) (CTd (TdBondExtra 9)) = Failed InsufficientBond /\
  ok (Signed bob) (CEb (EbShield (acc 8) [] 200)) = Success /\ ok (Signed bob) (CEb (EbShield (acc 8) [] 201)) = Failed Frozen /\
  ok (Signed alice) (CEb (EbUnshield (acc 9) bob 500 [7])) = Success /\
  ok (Signed alice) (CEb (EbUnshield (acc 9) bob 501 [7])) = Failed FundsUnavailable /\
  ok (Signed alice) (CEb (EbUnshield (acc 8) bob 1 [7])) = Failed WrongFingerprintForShard /\
  ok (Signed alice) (CSc (ScConfirm (acc 9) None (mkSconf 5 []))) = Success /\
  ok (Signed alice) (CTo (ToUpdateRate [1] (replicate 11 65) (Some 3))) = Success /\
  ok (Signed alice) (CTo (ToUpdateRate [1] (replicate 12 65) (Some 3))) = Failed TradingPairStringTooLong /\
  ok Root (CCl (ClMint (eth 1) 5 None None)) = Success /\ ok (Signed alice) (CCl (ClMint (eth 1) 5 None None)) = Failed BadOrigin /\
  ok (Signed bob) (CTx (TxUnregisterSovereign alice)) = Failed UnregisterActiveEnclaveIsNotAllowed.
Proof. vm_compute. repeat split; reflexivity. Qed.
