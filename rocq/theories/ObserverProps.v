(** * What can be learned from the event log: C91. *)
From Verif Require Import Base State Env TeerdaysModel TeerexBase SgxVerifyModel TeerexModel
  EnclaveBridgeModel SidechainModel TeeracleModel ClaimsModel AssetRegistryModel XcmTransactorModel
  Runtime Frame EnvFacts Events Examples RuntimeProps AttestationProps EffectProps
  TeerdaysProofs TeerexProofs ClaimsProps.

(** What a client that follows the chain sees: the events in order, each with the time of its block *)
Fixpoint watch (c : cfg) (s : rt) (l : list op) : list (N * event) :=
  match l with
  | [] => []
  | x :: r =>
      let s' := step c s x in
      map (fun e => (rt_now s', e)) (rev (firstn (length (rt_ev s') - length (rt_ev s)) (rt_ev s'))) ++ watch c s' r
  end.
(** A client that maintains a table, reading one event after the other *)
Definition follow {A} (f : N -> A -> event -> A) (w : list (N * event)) (a : A) : A :=
  fold_left (fun t x => f x.1 t x.2) w a.

(** ** The client's tables *)
Definition see_teerdays (c : cfg) (now : N) (t : td_store) (e : event) : td_store :=
  let bonds := td_bonds t in let pend := td_pending t in
  match e with
  | EvBonded a v =>
      match bonds !! a with
      | None => mkTd (<[a := mkBond v now 0]> bonds) pend
      | Some b => mkTd (<[a := mkBond (N.min (c_bal_max c) (bd_value b + v)) (bd_last b) (bd_tt b)]> bonds) pend
      end
  | EvTokenTimeUpdated a b => mkTd (<[a := b]> bonds) pend
  | EvUnbonded a v burned =>
      mkTd (match bonds !! a with
            | Some b => if bd_value b - v <? c_ed c then delete a bonds
                        else <[a := mkBond (bd_value b - v) (bd_last b) (bd_tt b - burned)]> bonds
            | None => bonds
            end)
           (<[a := ((now + c_unlock c) mod 2 ^ 64, v)]> pend)
  | EvWithdrawn a _ => mkTd bonds (delete a pend)
  | _ => t
  end.
Definition see_sidechains (_ : N) (t : gmap bytes sconf) (e : event) : gmap bytes sconf :=
  match e with EvFinalizedSidechainBlock sh n h _ => <[sh := mkSconf n h]> t | _ => t end.
Definition see_rates (_ : N) (t : gmap (bytes * bytes) N) (e : event) : gmap (bytes * bytes) N :=
  match e with
  | EvExchangeRateUpdated src p r => <[(p, src) := r]> t
  | EvExchangeRateDeleted src p => delete (p, src) t
  | _ => t
  end.
Definition see_whitelists (_ : N) (t : gmap bytes (list bytes)) (e : event) : gmap bytes (list bytes) :=
  match e with
  | EvAddedToWhitelist src fp => <[src := default [] (t !! src) ++ [fp]]> t
  | EvRemovedFromWhitelist src fp => <[src := List.filter (fun x => negb (bool_decide (x = fp))) (default [] (t !! src))]> t
  | _ => t
  end.
(** Of sovereign enclaves: account, address, status and method (not what runs there) *)
Definition seen_enclave (e : enclave) : option bytes * sgx_status * att_method := (en_url e, en_status e, en_method e).
Definition see_enclaves (_ : N) (t : gmap acct (option bytes * sgx_status * att_method)) (e : event)
  : gmap acct (option bytes * sgx_status * att_method) :=
  match e with
  | EvAddedSgxEnclave a u st m =>
      match m with MSkip true | MDcap true => t | _ => <[a := (u, st, m)]> t end
  | EvRemovedSovereignEnclave a => delete a t
  | _ => t
  end.
Definition see_collateral (_ : N) (t : qenclave * gmap bytes tcb_info) (e : event) : qenclave * gmap bytes tcb_info :=
  match e with
  | EvSgxQuotingEnclaveRegistered q => (q, t.2)
  | EvSgxTcbInfoRegistered fm i => (t.1, <[fm := i]> t.2)
  | _ => t
  end.
Definition see_flags (_ : N) (t : bool * bool) (e : event) : bool * bool :=
  match e with EvUpdatedSecurityFlags skip debug => (skip, debug) | _ => t end.
Definition see_assets (_ : N) (t : gmap N location * gmap location N) (e : event) : gmap N location * gmap location N :=
  match e with
  | EvReserveAssetRegistered i l => (<[i := l]> t.1, <[l := i]> t.2)
  | EvReserveAssetUnregistered i l => (delete i t.1, delete l t.2)
  | _ => t
  end.

(** ** One step *)
(** After one operation the table [f] is what reading its events makes of it *)
Definition followed {A} (f : rt -> A) (g : N -> A -> event -> A) (s s' : rt) : Prop :=
  exists evs, rt_ev s' = evs ++ rt_ev s /\ f s' = fold_right (fun e t => g (rt_now s') t e) (f s) evs.
Lemma followed_run {A} (f : rt -> A) g c : (forall s x, followed f g s (step c s x)) ->
  forall l s, f (run c s l) = follow g (watch c s l) (f s).
Proof.
  intros H l. induction l as [|x l IH]; intros s; [reflexivity|]. rewrite run_cons. cbn [watch]. unfold follow. rewrite fold_left_app.
  rewrite IH. unfold follow. f_equal. destruct (H s x) as (evs & E & ->). rewrite E. rewrite app_length, Nat.add_sub.
  rewrite firstn_app, Nat.sub_diag, firstn_all. cbn [firstn]. rewrite app_nil_r.
  rewrite <- (rev_involutive evs) at 1. rewrite fold_left_rev_right. generalize (rev evs). clear. intros l. generalize (f s).
  induction l as [|e l IH]; intros a; [reflexivity|]. cbn. apply IH.
Qed.
Lemma followed_refl {A} (f : rt -> A) g s : followed f g s s.
Proof. exists []. auto. Qed.
Lemma followed_other {A} (f : rt -> A) g c s x : f (step c s x) = f s ->
  (forall e n t, emitted_by x e -> g n t e = t) -> followed f g s (step c s x).
Proof.
  intros Hf Hg. destruct (step_emits c s x) as (evs & E & HF). exists evs. split; [exact E|]. rewrite Hf. clear E.
  induction HF as [|e evs He _ IH]; [reflexivity|]. cbn. rewrite <- IH, Hg; auto.
Qed.
Lemma followed_call {A} (f : rt -> A) g c o k s :
  (forall s', dispatch c o k s = (Success, s') -> followed f g s s') -> followed f g s (step c s (OCall o k)).
Proof.
  intros H. cbn [step]. destruct (dispatch c o k s) as [st t] eqn:E. cbn [snd].
  assert (st = Success \/ t = s) as [->| ->]; [| |apply followed_refl]; [|auto].
  unfold dispatch, run_call in E. destruct (exec c o k s) as [[] ?| |] in E; injection E as <- <-; auto.
Qed.
Lemma entry_some {K V} `{Countable K} (m m' : gmap K V) k v : entry_set m m' k (Some v) -> m' = <[k := v]> m.
Proof.
  intros He. apply map_eq. intros x. rewrite He. destruct (decide (x = k)) as [->|Hn]; [rewrite lookup_insert; auto|rewrite lookup_insert_ne; auto].
Qed.
Lemma entry_none {K V} `{Countable K} (m m' : gmap K V) k : entry_set m m' k None -> m' = delete k m.
Proof.
  intros He. apply map_eq. intros x. rewrite He. destruct (decide (x = k)) as [->|Hn]; [rewrite lookup_delete; auto|rewrite lookup_delete_ne; auto].
Qed.
Lemma div_mul_le a b r : r <= b -> a / b * r <= a.
Proof.
  intros H. destruct (N.eq_dec b 0) as [->|Hb]; [replace r with 0 by lia; lia|].
  etransitivity; [apply N.mul_le_mono_l; exact H|]. rewrite N.mul_comm. apply N.mul_div_le, Hb.
Qed.

(** ** Each table *)
Lemma td_followed c s x : followed rt_td (see_teerdays c) s (step c s x).
Proof.
  assert (op_may_write x PTd = false -> followed rt_td (see_teerdays c) s (step c s x)) as Hoth.
  { intros Hw. apply followed_other; [exact (step_same c s x PTd Hw)|].
    intros [] ? ? He; cbn; auto; destruct x as [o []| | | | | | | | | |]; cbn in He, Hw; first [discriminate|contradiction]. }
  destruct x as [o k| | | | | | | | | |]; try (apply Hoth; reflexivity).
  destruct k as [k|k|k|k|k|k|k|k]; try (apply Hoth; reflexivity). clear Hoth.
  apply followed_call. intros s' H. 
  destruct (C69_teerdays_calls_do_exactly_this _ _ _ _ _ H) as (a & -> & Hd & HU).
  assert (rt_now s' = rt_now s) as Hn by (pose proof (HU PClock eq_refl) as Hc; cbn in Hc; unfold v_clock in Hc; congruence).
  assert (forall b p, td_bonds (rt_td s') = b -> td_pending (rt_td s') = p -> rt_td s' = mkTd b p) as Htd
    by (intros b p <- <-; destruct (rt_td s'); reflexivity).
  unfold followed. rewrite Hn. destruct k as [v|v|v|u|]; cbn [td_does] in Hd.
  - destruct Hd as (Hb & Hp & _ & He). eexists. split; [exact He|]. cbn [fold_right see_teerdays].
    assert (td_bonds (rt_td s) !! a = None) as ->.
    { apply dispatch_iff in H. cbn [exec td_exec] in H. apply bond_ok in H as (a' & [= <-] & Hn0 & _). exact Hn0. }
    apply Htd; [apply entry_some, Hb|exact Hp].
  - destruct Hd as (b & Hl & Hb & Hp & _ & He). eexists. split; [exact He|]. cbn [fold_right see_teerdays td_bonds td_pending].
    rewrite lookup_insert. cbn [bd_value bd_last bd_tt]. rewrite insert_insert. apply Htd; [apply entry_some, Hb|exact Hp].
  - destruct Hd as (b & due & Hl & _ & Hb & Hp & _ & He). eexists. split; [exact He|]. cbn [fold_right see_teerdays td_bonds td_pending].
    rewrite lookup_insert. cbn [bd_value bd_last bd_tt]. rewrite delete_insert_delete, insert_insert.
    set (b1 := token_time (c_bal_max c) b (rt_now s)) in *. set (left := N.min (c_bal_max c) (b1 / bd_value b * (bd_value b - v))) in *.
    assert (left <= b1) as Hle by (etransitivity; [apply N.le_min_r|]; apply div_mul_le; lia).
    replace (bd_value b - N.min v (bd_value b)) with (bd_value b - v) by lia.
    replace (b1 - (b1 - left)) with left by lia.
    assert (due = (rt_now s + c_unlock c) mod 2 ^ 64) as ->.
    { apply dispatch_iff in H. cbn [exec td_exec] in H. apply unbond_ok in H as (a' & b' & due' & [= <-] & _ & _ & _ & Hdue & _ & Hp' & _).
      pose proof (Hp a) as Hpa. rewrite Hp', lookup_insert, decide_True in Hpa by auto. injection Hpa as <- _.
      change (2 ^ 64) with (u64_max + 1). destruct Hdue as [[Hdue ->]|(_ & _ & ->)]; [|reflexivity]. symmetry. apply N.mod_small. lia. }
    apply Htd; [|apply entry_some, Hp].
    destruct (_ <? c_ed c); [apply entry_none, Hb|apply entry_some, Hb].
  - destruct Hd as (b & Hl & Hb & Hp & _ & He). eexists. split; [exact He|]. cbn [fold_right see_teerdays td_bonds td_pending].
    apply Htd; [apply entry_some, Hb|exact Hp].
  - destruct Hd as (due & amt & _ & Hb & Hp & _ & He). eexists. split; [exact He|]. cbn [fold_right see_teerdays td_bonds td_pending].
    apply Htd; [exact Hb|apply entry_none, Hp].
Qed.
Ltac elsewhere P :=
  match goal with |- followed _ _ ?s (step ?c ?s ?x) =>
    let Hw := fresh "Hw" in let e := fresh "e" in let He := fresh "He" in let H := fresh "H" in
    assert (op_may_write x P = false) as Hw by reflexivity;
    apply followed_other;
    [pose proof (step_same c s x P Hw) as H; cbn [same] in H; unfold v_reg in H; first [exact H|rewrite H; reflexivity]
    |intros e ? ? He; destruct e; cbn; auto; cbn in He; contradiction]
  end.
Lemma sc_followed c s x : followed rt_sc see_sidechains s (step c s x).
Proof.
  destruct x as [o k| | | | | | | | | |]; try (elsewhere PSc; fail).
  destruct k as [k|k|k|k|k|k|k|k]; try (elsewhere PSc; fail).
  destruct k as [sh anc cand].
  apply followed_call. intros s' H.
  destruct (C69_sidechain_confirmation_does_exactly_this _ _ _ _ _ _ _ H) as (a & e & _ & _ & _ & _ & _ & H1 & H2 & _).
  assert (leads s sh a \/ ~ leads s sh a) as [Hl|Hl].
  { unfold leads. destruct (default [] (eb_status (rt_eb s) !! sh)) as [|y l]; auto. destruct (decide (ss_signer y = a)); auto. }
  - destruct (H1 Hl) as (Hs & He). eexists. split; [exact He|]. cbn. rewrite (entry_some _ _ _ _ Hs). destruct cand. reflexivity.
  - destruct (H2 Hl) as (Hs & He). eexists. split; [exact He|]. exact Hs.
Qed.
Lemma rates_followed c s x : followed (fun s => to_rates (rt_to s)) see_rates s (step c s x).
Proof.
  destruct x as [o k| | | | | | | | | |]; try (elsewhere PTo; fail).
  destruct k as [k|k|k|k|k|k|k|k]; try (elsewhere PTo; fail).
  apply followed_call. intros s' H. destruct (C69_oracle_calls_do_exactly_this _ _ _ _ _ H) as [Hd _].
  destruct k as [src fp|src fp|name src blob|src pr v]; cbn [to_does] in Hd.
  - destruct Hd as (_ & Hr & _ & He). eexists. split; [exact He|exact Hr].
  - destruct Hd as (_ & Hr & _ & He). eexists. split; [exact He|exact Hr].
  - destruct Hd as (_ & Hr & _ & He). eexists. split; [exact He|exact Hr].
  - destruct Hd as (_ & _ & Hd). destruct v as [[|r]|]; destruct Hd as (Hr & He); (eexists; split; [exact He|]); cbn;
    [apply entry_none, Hr|apply entry_some, Hr|apply entry_none, Hr].
Qed.
Lemma wl_followed c s x : followed (fun s => to_wl (rt_to s)) see_whitelists s (step c s x).
Proof.
  destruct x as [o k| | | | | | | | | |]; try (elsewhere PTo; fail).
  destruct k as [k|k|k|k|k|k|k|k]; try (elsewhere PTo; fail).
  apply followed_call. intros s' H. destruct (C69_oracle_calls_do_exactly_this _ _ _ _ _ H) as [Hd _].
  destruct k as [src fp|src fp|name src blob|src pr v]; cbn [to_does] in Hd.
  - destruct Hd as (Hw & _ & _ & He). eexists. split; [exact He|apply entry_some, Hw].
  - destruct Hd as (Hw & _ & _ & He). eexists. split; [exact He|apply entry_some, Hw].
  - destruct Hd as (_ & _ & Hw & He). eexists. split; [exact He|exact Hw].
  - destruct Hd as (_ & Hw & Hd). destruct v as [[|r]|]; destruct Hd as (Hr & He); (eexists; split; [exact He|exact Hw]).
Qed.
(** The registry: what is known of one step *)
Definition seen_registry (s : rt) :=
  (seen_enclave <$> tx_sov (rt_tx s), (tx_qe (rt_tx s), tx_tcb (rt_tx s)), (tx_allow_skip (rt_tx s), tx_allow_debug (rt_tx s))).
Definition see_registry (n : N) t e := (see_enclaves n t.1.1 e, see_collateral n t.1.2 e, see_flags n t.2 e).
Lemma tx_followed c s x : followed seen_registry see_registry s (step c s x).
Proof.
  assert (op_may_write x PTx = false -> followed seen_registry see_registry s (step c s x)) as Hoth.
  { intros Hw. apply followed_other; [unfold seen_registry; pose proof (step_same c s x PTx Hw) as H; cbn in H; rewrite H; reflexivity|].
    intros e n [[t1 t2] t3] He. unfold see_registry. cbn [fst snd].
    assert (see_enclaves n t1 e = t1 /\ see_collateral n t2 e = t2 /\ see_flags n t3 e = t3) as (-> & -> & ->); [|reflexivity].
    destruct e; cbn; auto; destruct x as [o []| | | | | | | | | |]; cbn in He, Hw; first [discriminate|contradiction]. }
  destruct x as [o k| | | | | | | | | |]; try (apply Hoth; reflexivity).
  destruct k as [k|k|k|k|k|k|k|k]; try (apply Hoth; reflexivity). clear Hoth.
  apply followed_call. intros s' H. destruct k as [p u m|a|a|doc sig chain|doc sig chain|sk d].
  - apply register_iff in H as (a & e & -> & Ha & _ & _ & _ & ->).
    assert (en_method e = m /\ en_url e = None) as [Hm Hu] by (inversion Ha; subst; auto).
    eexists [_]. split; [unfold store_enclave; destruct (is_proxied _); reflexivity|].
    unfold seen_registry, see_registry, store_enclave. cbn [fold_right fst snd see_enclaves see_collateral see_flags].
    assert (is_proxied (with_url e u) = match m with MSkip true | MDcap true => true | _ => false end) as ->
      by (rewrite <- Hm; destruct u; reflexivity).
    assert (seen_enclave (with_url e u) = (u, en_status e, m)) as Hs
      by (rewrite <- Hm; unfold seen_enclave; destruct u; cbn; rewrite ?Hu; reflexivity).
    destruct m as [[]| |[]]; cbn; rewrite ?fmap_insert, ?Hs; reflexivity.
  - destruct (C69_registry_upkeep_does_exactly_this c o s s') as (H1 & _). destruct (H1 _ H) as (Hs & Ht & He).
    eexists. split; [exact He|]. unfold seen_registry, see_registry. rewrite Ht. cbn. rewrite (entry_none _ _ _ Hs), fmap_delete. reflexivity.
  - destruct (C69_registry_upkeep_does_exactly_this c o s s') as (_ & H1 & _). destruct (H1 _ H) as (Hs & Ht & He).
    eexists. split; [exact He|]. unfold seen_registry, see_registry. rewrite Ht. reflexivity.
  - apply C38_quoting_enclave_is_stored_as_documented in H as (a & d & q & H).
    assert (s' = after_qe q s) as -> by apply H. eexists [_]. split; [reflexivity|]. reflexivity.
  - apply C38_tcb_info_is_stored_as_documented in H as (a & d & i & H).
    assert (exists fm, s' = after_tcb fm i s) as [fm ->] by (eexists; apply H). eexists [_]. split; [reflexivity|]. reflexivity.
  - destruct (C69_registry_upkeep_does_exactly_this c o s s') as (_ & _ & H1 & _). destruct (H1 _ _ H) as (Ht & He).
    eexists. split; [exact He|]. unfold seen_registry, see_registry. rewrite Ht. reflexivity.
Qed.
Lemma ar_followed c s x : followed v_reg see_assets s (step c s x).
Proof.
  destruct x as [o k| | | | | | | | | |]; try (elsewhere PReg; fail).
  destruct k as [k|k|k|k|k|k|k|k]; try (elsewhere PReg; fail).
  apply followed_call. intros s' H. destruct (C69_asset_registry_calls_do_exactly_this c o s s') as (H1 & H2 & _). unfold v_reg.
  destruct k as [i l|i].
  - destruct (H1 _ _ H) as (A & B & He). eexists. split; [exact He|]. cbn. rewrite (entry_some _ _ _ _ A), (entry_some _ _ _ _ B). reflexivity.
  - destruct (H2 _ H) as (l & _ & A & B & He). eexists. split; [exact He|]. cbn. rewrite (entry_none _ _ _ A), (entry_none _ _ _ B). reflexivity.
Qed.

(** ** Theorems *)
(** Bonds, pending unlocks, finalised sidechain blocks, rates, whitelists, the accounts of sovereign enclaves with
    address, status and method, collateral, security flags and the asset registry can be followed from the
    events alone, exactly, over every history of all pallets. *)
Theorem C91_bonds_can_be_followed : forall c g l,
  rt_td (run c (genesis_state g) l) = follow (see_teerdays c) (watch c (genesis_state g) l) (mkTd ∅ ∅).
Proof. intros c g l. apply (followed_run rt_td _ c (td_followed c)). Qed.
Print Assumptions C91_bonds_can_be_followed.
Theorem C91_finality_can_be_followed : forall c g l,
  rt_sc (run c (genesis_state g) l) = follow see_sidechains (watch c (genesis_state g) l) ∅.
Proof. intros c g l. apply (followed_run rt_sc _ c (sc_followed c)). Qed.
Print Assumptions C91_finality_can_be_followed.
Theorem C91_rates_and_whitelists_can_be_followed : forall c g l,
  to_rates (rt_to (run c (genesis_state g) l)) = follow see_rates (watch c (genesis_state g) l) ∅ /\
  to_wl (rt_to (run c (genesis_state g) l)) = follow see_whitelists (watch c (genesis_state g) l) ∅.
Proof.
  intros c g l. split; [apply (followed_run (fun s => to_rates (rt_to s)) _ c (rates_followed c))|].
  apply (followed_run (fun s => to_wl (rt_to s)) _ c (wl_followed c)).
Qed.
Print Assumptions C91_rates_and_whitelists_can_be_followed.
Theorem C91_registry_can_be_followed : forall c g l,
  let s := run c (genesis_state g) l in let w := watch c (genesis_state g) l in
  seen_enclave <$> tx_sov (rt_tx s) = follow see_enclaves w ∅ /\
  (tx_qe (rt_tx s), tx_tcb (rt_tx s)) = follow see_collateral w (qe_default, ∅) /\
  (tx_allow_skip (rt_tx s), tx_allow_debug (rt_tx s)) = follow see_flags w (g_skip g, g_debug g).
Proof.
  intros c g l. cbn zeta. pose proof (followed_run seen_registry _ c (tx_followed c) l (genesis_state g)) as H.
  assert (seen_registry (genesis_state g) = (∅, (qe_default, ∅), (g_skip g, g_debug g))) as E.
  { unfold seen_registry, genesis_state. cbn [rt_tx tx_sov tx_qe tx_tcb tx_allow_skip tx_allow_debug]. rewrite fmap_empty. reflexivity. }
  rewrite E in H. clear E.
  assert (forall w t, follow see_registry w t = (follow see_enclaves w t.1.1, follow see_collateral w t.1.2, follow see_flags w t.2)) as Hf.
  { clear. intros w. unfold follow. induction w as [|x w IH]; intros [[t1 t2] t3]; [reflexivity|]. cbn [fold_left]. rewrite IH. reflexivity. }
  rewrite Hf in H. unfold seen_registry in H. cbn [fst snd] in H. injection H as H1 H2 H3.
  split; [exact H1|]. split; [exact H2|exact H3].
Qed.
Print Assumptions C91_registry_can_be_followed.
Theorem C91_asset_registry_can_be_followed : forall c g l,
  let s := run c (genesis_state g) l in
  (ar_loc (rt_ar s), ar_id (rt_ar s)) = follow see_assets (watch c (genesis_state g) l) (∅, ∅).
Proof. intros c g l. exact (followed_run v_reg _ c (ar_followed c) l (genesis_state g)). Qed.
Print Assumptions C91_asset_registry_can_be_followed.

(** Two histories of one chain that look the same to the client but differ in [f] *)
Definition hidden {A} (f : rt -> A) : Prop := exists c g l1 l2,
  let s1 := run c (genesis_state g) l1 in let s2 := run c (genesis_state g) l2 in
  watch c (genesis_state g) l1 = watch c (genesis_state g) l2 /\ rt_now s1 = rt_now s2 /\ rt_blk s1 = rt_blk s2 /\ f s1 <> f s2.
(** The other tables cannot: which enclave confirmed, the content of a shard configuration, which calls have been
    executed, oracle data, the measurement of an enclave, proxied enclaves, claims. *)
Theorem C91_everything_can_be_followed_refuted :
  hidden (fun s => eb_status (rt_eb s)) /\ hidden (fun s => eb_config (rt_eb s)) /\ hidden (fun s => eb_exec (rt_eb s)) /\
  hidden (fun s => to_data (rt_to s)) /\ hidden (fun s => tx_sov (rt_tx s)) /\ hidden (fun s => tx_prox (rt_tx s)) /\
  hidden (fun s => cl_claims (rt_cl s)) /\ hidden (fun s => cl_preclaims (rt_cl s)).
Proof.
  assert (forall A (f : rt -> A) (d : A -> N) g l1 l2,
    watch cfg0 (genesis_state g) l1 = watch cfg0 (genesis_state g) l2 ->
    rt_now (run cfg0 (genesis_state g) l1) = rt_now (run cfg0 (genesis_state g) l2) ->
    rt_blk (run cfg0 (genesis_state g) l1) = rt_blk (run cfg0 (genesis_state g) l2) ->
    d (f (run cfg0 (genesis_state g) l1)) <> d (f (run cfg0 (genesis_state g) l2)) -> hidden f) as Hh.
  { intros A f d g l1 l2 H1 H2 H3 H4. exists cfg0, g, l1, l2. cbn zeta. repeat (split; [assumption|]). congruence. }
  split; [|split; [|split; [|split; [|split; [|split; [|split]]]]]].
  - refine (Hh _ _ (fun m => lenN (concat (map ss_signer (filter (fun x => ss_signer x = alice) (default [] (m !! acc 9)))))) (gen0 [])
      [register alice (acc 9); register bob (acc 9); call_eb alice (EbConfirm (acc 9) [1] 1 [2])]
      [register alice (acc 9); register bob (acc 9); call_eb bob (EbConfirm (acc 9) [1] 1 [2])] _ _ _ _);
    vm_compute; first [reflexivity|discriminate].
  - refine (Hh _ _ (fun m => match m !! acc 9 with Some u => lenN (sc_fp (uc_active u)) | None => 0 end) (gen0 [])
      [OCall Root (CEb (EbUpdateConfig (acc 9) (new_scfg (acc 9)) 0))]
      [OCall Root (CEb (EbUpdateConfig (acc 9) (new_scfg []) 0))] _ _ _ _);
    vm_compute; first [reflexivity|discriminate].
  - refine (Hh _ _ (fun m => default 0 (m !! [1])) (gen0 [alice])
      [register alice (acc 9); call_eb alice (EbShield (acc 9) [1] 300); call_eb alice (EbUnshield (acc 9) bob 100 [1])]
      [register alice (acc 9); call_eb alice (EbShield (acc 9) [1] 300); call_eb alice (EbUnshield (acc 9) bob 100 [2])] _ _ _ _);
    vm_compute; first [reflexivity|discriminate].
  - refine (Hh _ _ (fun m => lenN (default [] (m !! ([1], [2])))) (gen0 [])
      [register alice (acc 9); OCall Root (CTo (ToAdd [2] (acc 9))); OCall (Signed alice) (CTo (ToUpdateOracle [1] [2] [3]))]
      [register alice (acc 9); OCall Root (CTo (ToAdd [2] (acc 9))); OCall (Signed alice) (CTo (ToUpdateOracle [1] [2] [3; 4]))] _ _ _ _);
    vm_compute; first [reflexivity|discriminate].
  - refine (Hh _ _ (fun m => match m !! alice with Some e => nth 0 (en_mr_enclave e) 0 | None => 0 end) (gen0 [])
      [register alice (acc 9)] [register alice (acc 8)] _ _ _ _);
    vm_compute; first [reflexivity|discriminate].
  - refine (Hh _ _ (fun m => N.of_nat (size (filter (fun x : eaddr * enclave => x.1.1.1 = acc 9) m))) (gen0 [])
      [OCall (Signed alice) (CTx (TxRegister (acc 9) None (MSkip true)))] [OCall (Signed alice) (CTx (TxRegister (acc 8) None (MSkip true)))] _ _ _ _);
    vm_compute; first [reflexivity|discriminate].
  - refine (Hh _ _ (fun m => default 0 (m !! eth 1)) (gen0 []) [do_mint 1 100] [do_mint 1 200] _ _ _ _);
    vm_compute; first [reflexivity|discriminate].
  - refine (Hh _ _ (fun m => lenN (List.filter (N.eqb 1) (default [] (m !! alice)))) (gen_cl [(eth 1, 100, Some alice, None)] [])
      [] [OCall Root (CCl (ClMove (eth 1) (eth 2) (Some alice)))] _ _ _ _);
    vm_compute; first [reflexivity|discriminate].
Qed.
Print Assumptions C91_everything_can_be_followed_refuted.

(** ** Searching by topic *)
(** frame_system files an event under each of its topics (enclave-bridge/src/lib.rs:300-306, 504-509); only published
    hashes have topics *)
Definition topics_of (e : event) : list bytes := match e with EvPublishedHash ts _ _ _ => ts | _ => [] end.
Definition found_under (t : bytes) (w : list (N * event)) : list (N * event) :=
  List.filter (fun x => bool_decide (t ∈ topics_of x.2)) w.
Lemma watch_app c l1 l2 : forall s, watch c s (l1 ++ l2) = watch c s l1 ++ watch c (run c s l1) l2.
Proof. induction l1 as [|x l1 IH]; intros s; [reflexivity|]. cbn [app watch]. rewrite IH, run_cons, app_assoc. reflexivity. Qed.
Lemma in_watch c l : forall s n e, In (n, e) (watch c s l) ->
  exists l1 x l2 evs, l = l1 ++ x :: l2 /\ let s1 := run c s l1 in
  rt_ev (step c s1 x) = evs ++ rt_ev s1 /\ In e evs /\ n = rt_now (step c s1 x).
Proof.
  induction l as [|x l IH]; intros s n e H; [contradiction|]. cbn [watch] in H. apply in_app_or in H as [H|H].
  - exists [], x, l. destruct (step_emits c s x) as (evs & E & _). exists evs. split; [reflexivity|]. cbn zeta. cbn [run fold_left].
    split; [exact E|]. rewrite E, app_length, Nat.add_sub, firstn_app, Nat.sub_diag, firstn_all in H. cbn [firstn] in H. rewrite app_nil_r in H.
    apply in_map_iff in H as (e' & [= <- <-] & H). apply in_rev in H. auto.
  - apply IH in H as (l1 & y & l2 & evs & -> & H). exists (x :: l1), y, l2, evs. split; [reflexivity|]. exact H.
Qed.
Lemma watch_in c s x evs n e : rt_ev (step c s x) = evs ++ rt_ev s -> In e evs -> n = rt_now (step c s x) -> In (n, e) (watch c s [x]).
Proof.
  intros E H ->. cbn [watch]. rewrite app_nil_r. rewrite E, app_length, Nat.add_sub, firstn_app, Nat.sub_diag, firstn_all. cbn [firstn].
  rewrite app_nil_r. apply in_map_iff. exists e. split; [reflexivity|]. apply in_rev in H. exact H.
Qed.
(** Whatever an enclave publishes is found under its own measurement and under every topic it gave, at most 6 in all;
    and every published hash found anywhere was signed by an account registered, at that moment, with the measurement the event names. *)
Theorem C91_published_hashes_are_found : forall c s l1 l2 a e h ts d, let s1 := run c s l1 in
  tx_sov (rt_tx s1) !! a = Some e ->
  (dispatch c (Signed a) (CEb (EbPublish h ts d)) s1).1 = Success ->
  forall t, t = en_mr_enclave e \/ In t ts ->
  In (rt_now s1, EvPublishedHash (ts ++ [en_mr_enclave e]) (en_mr_enclave e) h d)
     (found_under t (watch c s (l1 ++ call_eb a (EbPublish h ts d) :: l2))).
Proof.
  intros c s l1 l2 a e h ts d s1 He H t Ht. unfold found_under. apply filter_In. cbn [snd topics_of].
  split; [|apply bool_decide_eq_true, elem_of_list_In, in_or_app; destruct Ht as [->|Ht]; [right; left; reflexivity|left; exact Ht]].
  destruct (dispatch c (Signed a) (CEb (EbPublish h ts d)) s1) as [st s2] eqn:E. cbn [fst] in H. subst st.
  rewrite watch_app. apply in_or_app. right. change (call_eb a (EbPublish h ts d) :: l2) with ([call_eb a (EbPublish h ts d)] ++ l2).
  rewrite watch_app. apply in_or_app. left. fold s1.
  assert (step c s1 (call_eb a (EbPublish h ts d)) = s2) as Es by (unfold call_eb; cbn [step]; rewrite E; reflexivity).
  apply C69_bridge_calls_do_exactly_this in E as ((a' & e' & [= <-] & He' & _ & _ & _ & _ & Hev) & HU).
  rewrite He in He'. injection He' as <-. eapply watch_in; [rewrite Es; exact Hev|left; reflexivity|].
  rewrite Es. pose proof (HU PClock eq_refl) as Hc. cbn in Hc. unfold v_clock in Hc. congruence.
Qed.
Print Assumptions C91_published_hashes_are_found.
Theorem C91_published_hashes_are_genuine : forall c s l t n ts f h d,
  In (n, EvPublishedHash ts f h d) (found_under t (watch c s l)) ->
  exists l1 l2 a e ts', l = l1 ++ call_eb a (EbPublish h ts' d) :: l2 /\ ts = ts' ++ [f] /\ lenN ts' <= 5 /\ lenN d <= 100 /\
  tx_sov (rt_tx (run c s l1)) !! a = Some e /\ en_mr_enclave e = f /\ n = rt_now (run c s l1) /\ (t = f \/ In t ts').
Proof.
  intros c s l t n ts f h d H. apply filter_In in H as [H Ht]. cbn [snd topics_of] in Ht. apply bool_decide_eq_true, elem_of_list_In in Ht.
  apply in_watch in H as (l1 & x & l2 & evs & -> & E & He & ->). set (s1 := run c s l1) in *.
  destruct (step_emits c s1 x) as (evs' & E' & HF). rewrite E in E'. apply app_inv_tail in E' as <-.
  rewrite List.Forall_forall in HF. specialize (HF _ He). destruct x as [o k| | | | | | | | | |]; try contradiction.
  destruct k as [k|k|k|k|k|k|k|k]; try contradiction. destruct k; try contradiction. cbn in HF. destruct HF as (-> & -> & ->).
  rename topics into ts', hash into h, data into d.
  cbn [step] in *. destruct (dispatch c o (CEb (EbPublish h ts' d)) s1) as [st s2] eqn:D. cbn [snd] in *.
  assert (st = Success \/ s2 = s1) as [->| ->].
  { unfold dispatch, run_call in D. destruct (exec c o (CEb (EbPublish h ts' d)) s1) as [[] ?| |] in D; injection D as <- <-; auto. }
  2: { change (rt_ev s1) with ([] ++ rt_ev s1) in E at 1. apply app_inv_tail in E as <-. contradiction. }
  pose proof D as D0. apply C69_bridge_calls_do_exactly_this in D as ((a & e & -> & Hr & _ & _ & _ & _ & Hev) & HU).
  assert (evs = [EvPublishedHash (ts' ++ [en_mr_enclave e]) (en_mr_enclave e) h d]) as ->.
  { unfold EffectProps.emits in Hev. rewrite E in Hev. apply app_inv_tail in Hev. exact Hev. }
  destruct He as [[= _ <-]|[]].
  assert (rt_now s2 = rt_now s1) as Hn by (pose proof (HU PClock eq_refl) as Hc; cbn in Hc; unfold v_clock in Hc; congruence).
  assert (lenN ts' <= 5 /\ lenN d <= 100) as [H5 H100].
  { apply dispatch_iff in D0. cbn [exec eb_exec_call] in D0. unfold publish_hash, topics_limit, data_length_limit in D0. inv_rt D0. bools. lia. }
  exists l1, l2, a, e, ts'. repeat (split; [first [reflexivity|assumption]|]).
  apply in_app_or in Ht as [Ht|[Ht|[]]]; auto.
Qed.
Print Assumptions C91_published_hashes_are_genuine.
(** But a search by measurement also finds what others published: topics are free. *)
Theorem C91_topic_tells_the_publisher_refuted : exists c g l t n ts f h d,
  In (n, EvPublishedHash ts f h d) (found_under t (watch c (genesis_state g) l)) /\
  (exists a e, tx_sov (rt_tx (run c (genesis_state g) l)) !! a = Some e /\ en_mr_enclave e = t) /\ f <> t.
Proof.
  exists cfg0, (gen0 []), [register alice (acc 9); register bob (acc 8); call_eb bob (EbPublish [1] [acc 9] [2])], (acc 9).
  do 5 eexists. split; [vm_compute; left; reflexivity|]. split; [|vm_compute; discriminate].
  exists alice. eexists. split; vm_compute; reflexivity.
Qed.
Print Assumptions C91_topic_tells_the_publisher_refuted.

Definition hist91 : list op :=
  [register alice (acc 9); call_td bob (TdBond 300); ONextBlock 600; call_td bob (TdBondExtra 100); call_td bob (TdUnbond 150);
   OCall Root (CTo (ToAdd [2] (acc 9))); OCall (Signed alice) (CTo (ToUpdateRate [2] [1] (Some 7)));
   call_sc alice (ScConfirm (acc 9) None (mkSconf 4 [5])); call_eb alice (EbPublish [1] [[6]] [2]);
   OTransfer alice carol 50; OCall Root (CTx (TxSetFlags false true)); ONextBlock 1000; call_td bob TdWithdrawUnbonded].
Example C91_example :
  let s := genesis_state (gen0 [alice; bob]) in let w := watch cfg0 s hist91 in
  lenN w = 13 /\
  td_bonds (follow (see_teerdays cfg0) w (mkTd ∅ ∅)) !! bob = Some (mkBond 250 5600 112500) /\
  td_bonds (rt_td (run cfg0 s hist91)) !! bob = Some (mkBond 250 5600 112500) /\
  td_pending (follow (see_teerdays cfg0) w (mkTd ∅ ∅)) !! bob = None /\
  td_pending (follow (see_teerdays cfg0) (firstn 6 w) (mkTd ∅ ∅)) !! bob = Some (6600, 150) /\
  follow see_sidechains w ∅ !! acc 9 = Some (mkSconf 4 [5]) /\ follow see_rates w ∅ !! ([1], [2]) = Some 7 /\
  follow see_whitelists w ∅ !! [2] = Some [acc 9] /\ follow see_flags w (true, false) = (false, true) /\
  follow see_enclaves w ∅ !! alice = Some (None, StInvalid, MSkip false) /\
  found_under [6] w = [(5600, EvPublishedHash [[6]; acc 9] (acc 9) [1] [2])] /\ found_under (acc 9) w = found_under [6] w.
Proof. vm_compute. repeat split; reflexivity. Qed.
