(** * C98: what outsiders can and cannot take
    C10 to C14, C25, C29 and C43 each say who may make one call. Here the whole chain is put against a
    coalition that makes any calls in any order: it owns some accounts, can get some enclave measurements
    attested and holds some Ethereum keys. What it does not own it cannot diminish, provided the account
    is not the vault of a shard that the coalition's enclaves may operate. Since every account is the
    vault of the shard of the same name (enclave-bridge/src/lib.rs:203, 213-214, 245-246) and any registered
    enclave may configure a shard that has no configuration (lib.rs:349-361), that proviso is needed:
    without it any registered enclave takes what it likes from any account. *)
From Coq Require Import String.
From Verif Require Import Base State Env TeerdaysModel TeerexBase SgxVerifyModel TeerexModel
  EnclaveBridgeModel SidechainModel TeeracleModel ClaimsModel AssetRegistryModel XcmTransactorModel
  Runtime Frame EnvFacts Panic TeerdaysProofs BridgeProofs ClaimsProofs Examples TeerdaysProps ClaimsProps BridgeProps SidechainProps
  TeeracleProps SgxProofs SgxProps TeerexProofs TeerexProps PemProps AttestationProps AcceptProps EffectProps ErrorProps RuntimeProps.

(** ** Any registered enclave takes any account *)
Definition loot (a v : acct) (fp : bytes) (amount : N) (h : bytes) : list op :=
  [OCall (Signed a) (CEb (EbUpdateConfig v (mkScfg fp None None false) 0));
   OCall (Signed a) (CEb (EbUnshield v a amount h))].

(** ** The coalition *)
Record coalition := mkFoe {
  owns : acct -> Prop;     (* accounts it signs for *)
  attests : bytes -> Prop; (* measurements of enclaves it can register *)
  holds : bytes -> Prop    (* Ethereum addresses it signs for *)
}.
(** Every enclave registered by its accounts has one of its measurements *)
Definition armed (f : coalition) (s : rt) : Prop :=
  forall a e, owns f a -> tx_sov (rt_tx s) !! a = Some e -> attests f (en_mr_enclave e).
(** What the coalition can bring about in one step. Blocks, minting by other pallets, vesting and
    assets are not its doing, yet may happen at any time. *)
Definition acts (c : cfg) (f : coalition) (s : rt) (x : op) : Prop :=
  match x with
  | OCall o k =>
      o <> Root /\ c_move_origin c o = false /\ c_asset_origin c o = false /\ c_swap_origin c o = false /\
      (forall a, o = Signed a -> owns f a) /\
      (forall a p u m e, o = Signed a -> k = CTx (TxRegister p u m) -> (dispatch c o k s).1 = Success ->
         tx_sov (rt_tx (dispatch c o k s).2) !! a = Some e -> attests f (en_mr_enclave e)) /\
      (forall dest sig signer, k = CCl (ClClaim dest sig) -> eth_signed c sig signer dest [] -> holds f signer) /\
      (forall dest sig text signer, k = CCl (ClClaimAttest dest sig text) -> eth_signed c sig signer dest text -> holds f signer)
  | OTransfer a _ _ | OFee a _ | OLock a _ _ | OUnlock a _ => owns f a
  | _ => True
  end.
Fixpoint history (c : cfg) (f : coalition) (s : rt) (l : list op) : Prop :=
  match l with [] => True | x :: r => acts c f s x /\ history c f (step c s x) r end.
(** The coalition may not operate the shard [v]: it has no enclave at all, or the shard has a
    configuration that names, now and at every later block, an enclave that is not theirs *)
Definition guarded (f : coalition) (s : rt) (v : bytes) : Prop :=
  (forall m, ~ attests f m) \/
  (forall b, rt_blk s <= b -> exists z, in_force s v b = Some z /\ ~ attests f (sc_fp z)).

Lemma armed_step c f s x : armed f s -> acts c f s x -> armed f (step c s x).
Proof.
  intros Hs Hx a e Ha He.
  destruct (sov_step c s x a) as [E|[(o & e' & -> & _ & _ & E)|(p & u & m & e' & Ex & Ed & _)]]; [rewrite E in He; eauto|congruence|].
  subst x. destruct Hx as (_ & _ & _ & _ & _ & Hr & _). eapply (Hr a p u m); eauto. rewrite Ed. auto.
Qed.
Lemma not_operated f s v a : armed f s -> guarded f s v -> owns f a -> ~ operates s v a.
Proof.
  intros Hs Hg Ha (e & H1 & H2 & _). pose proof (Hs a e Ha H1) as Hf. destruct Hg as [Hg|Hg]; [exact (Hg _ Hf)|].
  destruct (Hg (rt_blk s)) as (z & Hz & Hn); [lia|]. unfold operator in H2. rewrite Hz in H2. congruence.
Qed.
Lemma entry_split {K V} `{Countable K} (m m' : gmap K V) k v : entry_set m m' k v ->
  m' !! k = v /\ forall x, x <> k -> m' !! x = m !! x.
Proof.
  intros E. split; [rewrite E, decide_True; auto|]. intros x Hn. rewrite E, decide_False; auto.
Qed.
Lemma succ_pair (d : status * rt) : d.1 = Success -> d = (Success, d.2).
Proof. destruct d; cbn; congruence. Qed.
Lemma succ_of c o k s s' : exec c o k s = Ok tt s' -> dispatch c o k s = (Success, s').
Proof. intros H. apply dispatch_iff, H. Qed.

(** The state of a shard the coalition may not operate *)
Definition shard_kept (f : coalition) (s s' : rt) (v : bytes) : Prop :=
  eb_config (rt_eb s') !! v = eb_config (rt_eb s) !! v /\ rt_sc s' !! v = rt_sc s !! v /\
  (~ attests f v -> eb_status (rt_eb s') !! v = eb_status (rt_eb s) !! v).
Lemma shard_step c f g l x v : let s := run c (genesis_state g) l in
  armed f s -> guarded f s v -> acts c f s x -> shard_kept f s (step c s x) v.
Proof.
  intros s Hs Hg Hx.
  assert (forall s', rt_eb s' = rt_eb s -> rt_sc s' = rt_sc s -> shard_kept f s s' v) as Hsame.
  { intros s' E1 E2. unfold shard_kept. rewrite E1, E2. auto. }
  assert ((forall o k, x <> OCall o k) -> rt_sc (step c s x) = rt_sc s) as Hsc.
  { intros Hn. apply (step_same c s x PSc). destruct x; auto. exfalso. eapply Hn; eauto. }
  destruct x as [o k| | | | | | | | | |].
  2-11: apply Hsame; [apply step_eb_other; congruence|apply Hsc; congruence].
  destruct Hx as (Hroot & _ & _ & _ & Ho & _ & _).
  destruct (step_call c s o k) as [(s' & E & ->)| ->]; [|apply Hsame; auto]. apply succ_of in E.
  assert ((dispatch c o k s).1 = Success) as HS by (rewrite E; auto).
  assert (s' = step c s (OCall o k)) as Es by (cbn [step]; rewrite E; auto).
  assert (may_write k PEb = false -> rt_eb s' = rt_eb s) as Feb by (rewrite Es; intros Hw; apply (step_same c s (OCall o k) PEb Hw)).
  assert (may_write k PSc = false -> rt_sc s' = rt_sc s) as Fsc by (rewrite Es; intros Hw; apply (step_same c s (OCall o k) PSc Hw)).
  destruct k as [k|k|k|k|k|k|k|k]; try (apply Hsame; [exact (Feb eq_refl)|exact (Fsc eq_refl)]).
  - assert (rt_sc s' = rt_sc s) as Esc by exact (Fsc eq_refl).
    apply C69_bridge_calls_do_exactly_this in E as [E _]. unfold s in HS. rewrite C68_bridge_calls_accepted_exactly in HS. fold s in HS.
    unfold shard_kept. rewrite Esc.
    destruct k as [sh cy|sh h n r|sh b w|sh b w h|h tp d|sh new delay|sh a]; cbn [eb_does eb_accepts] in *.
    + destruct E as [-> _]. auto.
    + destruct HS as (a & -> & Hop). destruct E as (a' & e & [= <-] & He & (l' & _ & [H1 H2]%entry_split) & [H3 H4]%entry_split & _).
      assert (v <> sh) as Hn by (intros ->; exact (not_operated f s sh a Hs Hg (Ho a eq_refl) Hop)).
      rewrite H2, H4 by auto. auto.
    + destruct E as (a & evs & _ & -> & _). auto.
    + destruct HS as (a & -> & Hop & _). destruct E as (a' & e & [= <-] & He & (l' & _ & [H1 H2]%entry_split) & [H3 H4]%entry_split & _).
      assert (v <> sh) as Hn by (intros ->; exact (not_operated f s sh a Hs Hg (Ho a eq_refl) Hop)).
      rewrite H2, H4 by auto. auto.
    + destruct E as (a & e & -> & He & (l' & _ & [H1 H2]%entry_split) & -> & _). split; [auto|]. split; [auto|]. intros Hn.
      apply H2. intros ->. apply Hn. eapply Hs; eauto.
    + destruct HS as [->|(a & e & -> & He & Hl & Hf)]; [contradiction|]. destruct E as ((e' & He' & (l' & _ & [H1 H2]%entry_split)) & [H3 H4]%entry_split & _).
      assert (v <> sh) as Hn.
      { intros ->. pose proof (Hs a e (Ho a eq_refl) He) as Ha. destruct Hg as [Hg|Hg]; [exact (Hg _ Ha)|].
        destruct (Hg (rt_blk s)) as (z & Hz & Hn); [lia|]. rewrite <- (Hf z Hz) in Ha. auto. }
      rewrite H2, H4 by auto. auto.
    + destruct HS as [-> _]. contradiction.
  - destruct k as [sh anc cand]. unfold s in HS. rewrite C68_sidechain_calls_accepted_exactly in HS. fold s in HS.
    destruct HS as (a & -> & Hop & _).
    apply C69_sidechain_confirmation_does_exactly_this in E as (a' & e & [= <-] & He & (l' & _ & [H1 H2]%entry_split) & [H3 H4]%entry_split & _ & H5 & H6 & _).
    assert (v <> sh) as Hn by (intros ->; exact (not_operated f s sh a Hs Hg (Ho a eq_refl) Hop)).
    unfold shard_kept. rewrite H2, H4 by auto. split; [auto|]. split; [|auto].
    assert (leads s sh a \/ ~ leads s sh a) as [Hl|Hl].
    { unfold leads. destruct (default [] (eb_status (rt_eb s) !! sh)) as [|y r]; [auto|].
      destruct (decide (ss_signer y = a)); [left|right]; auto. }
    + destruct (H5 Hl) as [[_ H7]%entry_split _]. auto.
    + destruct (H6 Hl) as [-> _]. auto.
Qed.
Lemma guarded_step c f g l x v : let s := run c (genesis_state g) l in
  armed f s -> guarded f s v -> acts c f s x -> guarded f (step c s x) v.
Proof.
  intros s Hs Hg Hx. pose proof (shard_step c f g l x v Hs Hg Hx) as (H & _). fold s in H.
  destruct Hg as [Hg|Hg]; [left; auto|right]. intros b Hb. pose proof (clock_step c s x) as [_ Hc].
  destruct (Hg b) as (z & Hz & Hn); [lia|]. exists z. split; [|auto]. unfold in_force in *. rewrite H. auto.
Qed.
Lemma history_all c f g p l (I : rt -> Prop) :
  (forall p x, let s := run c (genesis_state g) p in I s -> armed f s -> acts c f s x -> I (step c s x)) ->
  let s := run c (genesis_state g) p in
  I s -> armed f s -> history c f s l -> I (run c s l) /\ armed f (run c s l).
Proof.
  intros Hi. revert p. induction l as [|x l IH]; intros p s Hs Ha Hl; [auto|]. destruct Hl as [Hx Hl].
  rewrite run_cons. specialize (IH (p ++ [x])). rewrite run_snoc in IH. fold s in IH. apply IH; [|apply armed_step; auto|auto].
  apply (Hi p x Hs Ha Hx).
Qed.

(** ** Shards *)
Theorem C98_outsiders_cannot_steer_a_shard : forall c f g p l v,
  let s := run c (genesis_state g) p in
  armed f s -> history c f s l -> guarded f s v -> shard_kept f s (run c s l) v.
Proof.
  intros c f g p l v s Ha Hl Hg.
  destruct (history_all c f g p l (fun t => guarded f t v /\ shard_kept f s t v)) as [[_ H] _]; [| |exact Ha|exact Hl|exact H].
  - intros q x t [H1 H2] Ht Hx. split; [apply guarded_step; auto|].
    pose proof (shard_step c f g q x v Ht H1 Hx) as (E1 & E2 & E3). fold t in E1, E2, E3. destruct H2 as (D1 & D2 & D3).
    unfold shard_kept. rewrite E1, E2. split; [auto|]. split; [auto|]. intros Hn. rewrite E3 by auto. auto.
  - split; [auto|]. unfold shard_kept. auto.
Qed.
Print Assumptions C98_outsiders_cannot_steer_a_shard.

(** ** Balances *)
Lemma free_step c f g l x v : let s := run c (genesis_state g) l in
  armed f s -> guarded f s v -> acts c f s x -> ~ owns f v -> free s v <= free (step c s x) v.
Proof.
  intros s Hs Hg Hx Hv. destruct (N.le_gt_cases (free s v) (free (step c s x) v)) as [H|H]; [auto|exfalso].
  assert (op_may_write x PFree = true) as Hw.
  { destruct (op_may_write x PFree) eqn:E; [auto|]. rewrite (free_view _ _ (step_same c s x PFree E)) in H. lia. }
  destruct x as [o k| |a b w|a w|a w| | | | | |]; try discriminate Hw.
  - destruct (C10_only_authorised_enclave_releases_vault c o k s v H) as [(sh & b & w & -> & _)|(a & e & be & w & h & -> & -> & He & Hop & _)].
    + destruct Hx as (_ & _ & _ & _ & Ho & _). apply Hv. exact (Ho _ eq_refl).
    + destruct Hx as (_ & _ & _ & _ & Ho & _). specialize (Ho a eq_refl). pose proof (Hs a e Ho He) as Ha.
      destruct Hg as [Hg|Hg]; [exact (Hg _ Ha)|]. destruct (Hg (rt_blk s)) as (z & Hz & Hn); [lia|].
      unfold operator in Hop. rewrite Hz in Hop. congruence.
  - cbn [step] in H. destruct (run_call_cases (transfer c a b w) s) as [(s' & E & Er)|[_ Er]]; rewrite Er in H; cbn [snd] in H; [|lia].
    cbn [acts] in Hx. apply transfer_ok in E as [[_ ->]|(_ & _ & _ & _ & _ & _ & E & _)]; [lia|]. rewrite E in H.
    repeat case_decide; subst; [contradiction|lia|lia].
  - cbn [step] in H. destruct (run_call_cases (deposit_creating c a w) s) as [(s' & E & Er)|[_ Er]]; rewrite Er in H; cbn [snd] in H; [|lia].
    apply deposit_ok in E as [[-> _]|(_ & _ & _ & E & _)]; [lia|]. rewrite E in H. case_decide; subst; lia.
  - cbn [step] in H. destruct (run_call_cases (withdraw c a w) s) as [(s' & E & Er)|[_ Er]]; rewrite Er in H; cbn [snd] in H; [|lia].
    cbn [acts] in Hx. apply withdraw_ok in E as [[_ ->]|(_ & _ & E & _)]; [lia|]. rewrite E in H.
    case_decide; subst; [contradiction|lia].
Qed.
Theorem C98_outsiders_cannot_spend : forall c f g p l v,
  let s := run c (genesis_state g) p in
  armed f s -> history c f s l -> ~ owns f v -> guarded f s v -> free s v <= free (run c s l) v.
Proof.
  intros c f g p l v s Ha Hl Hv Hg.
  destruct (history_all c f g p l (fun t => guarded f t v /\ free s v <= free t v)) as [[_ H] _]; [| |exact Ha|exact Hl|exact H].
  - intros q x t [H1 H2] Ht Hx. split; [apply guarded_step; auto|].
    pose proof (free_step c f g q x v Ht H1 Hx Hv). fold t in H. lia.
  - split; [auto|apply N.le_refl].
Qed.
Print Assumptions C98_outsiders_cannot_spend.
Theorem C98_any_enclave_takes_any_account : forall c g p a e v amount h,
  let s := run c (genesis_state g) p in
  tx_sov (rt_tx s) !! a = Some e -> eb_config (rt_eb s) !! v = None -> listable s v a ->
  eb_exec (rt_eb s) !! h = None -> a <> v -> amount <> 0 -> payable c s v a amount ->
  let s' := run c s (loot a v (en_mr_enclave e) amount h) in
  free s' a = free s a + amount /\ free s' v + amount <= free s v /\
  armed (mkFoe (fun x => x = a) (fun m => m = en_mr_enclave e) (fun _ => False)) s /\
  (c_move_origin c (Signed a) = false -> c_asset_origin c (Signed a) = false -> c_swap_origin c (Signed a) = false ->
   history c (mkFoe (fun x => x = a) (fun m => m = en_mr_enclave e) (fun _ => False)) s (loot a v (en_mr_enclave e) amount h)).
Proof.
  intros c g p a e v amount h s He Hc Hl Hh Hn Hz Hp s'.
  set (x1 := OCall (Signed a) (CEb (EbUpdateConfig v (mkScfg (en_mr_enclave e) None None false) 0))).
  set (x2 := OCall (Signed a) (CEb (EbUnshield v a amount h))).
  set (s1 := step c s x1).
  assert (dispatch c (Signed a) (CEb (EbUpdateConfig v (mkScfg (en_mr_enclave e) None None false) 0)) s = (Success, s1)) as E1.
  { assert ((dispatch c (Signed a) (CEb (EbUpdateConfig v (mkScfg (en_mr_enclave e) None None false) 0)) s).1 = Success) as E.
    { apply (C68_bridge_calls_accepted_exactly c g p). right. exists a, e. fold s. split; [auto|]. split; [auto|]. split; [auto|].
      intros x Hx. unfold in_force in Hx. rewrite Hc in Hx. discriminate. }
    exact (succ_pair _ E). }
  assert (free s1 v = free s v /\ free s1 a = free s a /\ tx_sov (rt_tx s1) !! a = Some e /\ eb_exec (rt_eb s1) = eb_exec (rt_eb s) /\
          operates s1 v a /\ payable c s1 v a amount) as (F1 & F2 & F3 & F4 & F5 & F6).
  { assert (rt_tx s1 = rt_tx s) as Et by apply (step_same c s x1 PTx eq_refl).
    assert (b_locks (rt_bal s1) = b_locks (rt_bal s)) as Ek by apply (step_same c s x1 PLocks eq_refl).
    apply C69_bridge_calls_do_exactly_this in E1 as [((e' & He' & (l' & Hr & [H1 _]%entry_split)) & [H3 _]%entry_split & H5 & H6 & _) _].
    assert (e' = e) as -> by congruence. rewrite Hc in H3. split; [apply H6|]. split; [apply H6|]. split; [rewrite Et; auto|].
    split; [auto|]. split.
    - exists e. split; [rewrite Et; auto|]. split; [unfold operator, in_force; rewrite H3; reflexivity|].
      left. unfold signers_of, status_of. rewrite H1. cbn [default]. unfold id.
      destruct Hr as [(l1 & y & l2 & _ & _ & _ & ->)|[_ ->]]; rewrite map_app; apply in_or_app; right; left; reflexivity.
    - apply payable_view with s; [apply H6| |auto]. intros b. unfold frozen, locks_of. rewrite Ek. auto. }
  assert (run c (genesis_state g) (p ++ [x1]) = s1) as Er by (rewrite run_snoc; auto).
  assert (s' = step c s1 x2) as Es by reflexivity.
  assert (dispatch c (Signed a) (CEb (EbUnshield v a amount h)) s1 = (Success, s')) as E2.
  { assert ((dispatch c (Signed a) (CEb (EbUnshield v a amount h)) s1).1 = Success) as E.
    { rewrite <- Er. apply (C68_bridge_calls_accepted_exactly c g (p ++ [x1])). rewrite Er. exists a. split; [auto|]. split; [auto|].
      unfold confirmations. rewrite F4, Hh. split; [auto|]. cbn. unfold u64_max. lia. }
    exact (succ_pair _ E). }
  assert (free s' a = free s a + amount /\ free s' v + amount <= free s v) as [G1 G2].
  { apply C69_bridge_calls_do_exactly_this in E2 as [(a' & e' & _ & _ & _ & _ & E2) _]. rewrite F4, Hh in E2.
    destruct E2 as (_ & evs & Hpay & _). unfold pays in Hpay. rewrite (proj2 (N.eqb_neq _ _) Hz), bool_decide_false in Hpay by auto.
    cbn [orb] in Hpay. destruct Hpay as (P1 & P2 & _). rewrite !P2, F1, F2 in *.
    rewrite decide_False, decide_True, decide_True by auto. destruct (_ <? _); lia. }
  split; [auto|]. split; [auto|]. split; [intros b e' -> Hb; cbn [attests]; congruence|]. intros M1 M2 M3.
  assert (forall t k, (forall p u m, k <> CTx (TxRegister p u m)) -> (forall k', k <> CCl k') ->
    acts c (mkFoe (fun x => x = a) (fun m => m = en_mr_enclave e) (fun _ => False)) t (OCall (Signed a) k)) as Hacts.
  { intros t k K1 K2. cbn [acts]. split; [discriminate|]. split; [auto|]. split; [auto|]. split; [auto|].
    split; [intros b [= <-]; reflexivity|]. split; [intros b q u m e' _ Hk; destruct (K1 _ _ _ Hk)|].
    split; intros; exfalso; eapply K2; eauto. }
  unfold loot. cbn [history]. split; [apply Hacts; congruence|]. split; [apply Hacts; congruence|exact I].
Qed.
Print Assumptions C98_any_enclave_takes_any_account.

(** ** Stakes *)
Lemma last_step c s x : (forall a b, bond_of s a = Some b -> bd_last b <= rt_now s) ->
  forall a b, bond_of (step c s x) a = Some b -> bd_last b <= rt_now (step c s x).
Proof.
  intros Hs a b Hb. pose proof (clock_step c s x) as [Hc _].
  destruct (td_step c s x) as [(o & y & s' & -> & H & E)|[E1 _]].
  2: { unfold bond_of in Hb. rewrite E1 in Hb. specialize (Hs a b Hb). lia. }
  rewrite E in *. destruct (td_effect _ _ _ _ _ H) as (z & -> & Heff). clear H E.
  destruct y as [v|v|v|w|].
  - destruct Heff as (_ & _ & Hq & _). rewrite Hq in Hb. destruct (decide (a = z)); [|specialize (Hs a b Hb); lia].
    injection Hb as <-. cbn [bd_last]. lia.
  - destruct Heff as (b0 & _ & _ & Hq & _). rewrite Hq in Hb. destruct (decide (a = z)); [|specialize (Hs a b Hb); lia].
    injection Hb as <-. cbn [bd_last]. lia.
  - destruct Heff as (b0 & due & HbS & _ & _ & Hq & _). rewrite Hq in Hb. destruct (decide (a = z)); [|specialize (Hs a b Hb); lia].
    destruct (_ <? _); [discriminate|]. injection Hb as <-. cbn [bd_last]. lia.
  - destruct Heff as (b0 & HbS & Hq & _). rewrite Hq in Hb. destruct (decide (a = w)); [|specialize (Hs a b Hb); lia].
    injection Hb as <-. cbn [bond_update bd_last]. lia.
  - destruct Heff as (due & amt & _ & _ & Hq & _). rewrite Hq in Hb. specialize (Hs a b Hb); lia.
Qed.
Lemma accrued_twice mx b t t' : bd_last b <= t -> t <= t' ->
  accrued mx (mkBond (bd_value b) t (accrued mx b t)) t' = accrued mx b t'.
Proof.
  intros H1 H2. unfold accrued. cbn [bd_tt bd_value bd_last].
  replace (t' - bd_last b) with ((t - bd_last b) + (t' - t)) by lia. rewrite N.mul_add_distr_l. lia.
Qed.
(** What [v] has at stake: the same amounts, and the same token-time at the end as if no one had called *)
Definition stake_kept (c : cfg) (s s' : rt) (v : acct) : Prop :=
  bonded s' v = bonded s v /\ pending_of s' v = pending_of s v /\ td_lock s' v = td_lock s v /\
  match bond_of s v with
  | None => bond_of s' v = None
  | Some b => exists b', bond_of s' v = Some b' /\ bd_value b' = bd_value b /\
      forall t, rt_now s' <= t -> accrued (c_bal_max c) b' t = accrued (c_bal_max c) b t
  end.
Theorem C98_outsiders_cannot_touch_a_stake : forall c f g p l v,
  let s := run c (genesis_state g) p in
  armed f s -> history c f s l -> ~ owns f v -> stake_kept c s (run c s l) v.
Proof.
  intros c f g p l v s Ha Hl Hv.
  destruct (history_all c f g p l (fun t => stake_kept c s t v)) as [H _]; [| |exact Ha|exact Hl|exact H].
  - intros q x t (H1 & H2 & H3 & H4) Ht Hx. destruct (C08_only_the_owner_changes_a_bond c t x v) as (E1 & E2 & E3 & E4).
    { intros y ->. destruct Hx as (_ & _ & _ & _ & Ho & _). apply Hv, Ho. auto. }
    pose proof (clock_step c t x) as [Hc _].
    assert (forall a b, bond_of t a = Some b -> bd_last b <= rt_now t) as Hlast.
    { apply (run_inv' c (fun t => forall a b, bond_of t a = Some b -> bd_last b <= rt_now t)); [intros; eapply last_step; eauto|].
      intros a b Hb. unfold bond_of in Hb. cbn in Hb. rewrite lookup_empty in Hb. discriminate. }
    unfold stake_kept. rewrite E1, E2, E3. split; [auto|]. split; [auto|]. split; [auto|].
    destruct (bond_of s v) as [b|].
    + destruct H4 as (b' & Hb' & Hval & Hacc). destruct E4 as [E4|(b1 & Hb1 & E4)].
      * exists b'. rewrite E4. split; [auto|]. split; [auto|]. intros u Hu. apply Hacc. lia.
      * assert (b1 = b') as -> by congruence. eexists. split; [exact E4|]. split; [auto|]. intros u Hu.
        rewrite accrued_twice; [apply Hacc; lia|eauto|lia].
    + destruct E4 as [->|(b1 & Hb1 & _)]; [auto|congruence].
  - fold s. unfold stake_kept. split; [auto|]. split; [auto|]. split; [auto|]. destruct (bond_of s v) as [b|]; [|auto]. exists b. auto.
Qed.
Print Assumptions C98_outsiders_cannot_touch_a_stake.

(** ** Claims *)
(** The address [w] still has its claim, its vesting terms and its statement *)
Definition claim_kept (s s' : rt) (w : bytes) : Prop :=
  cl_claims (rt_cl s') !! w = cl_claims (rt_cl s) !! w /\ cl_vesting (rt_cl s') !! w = cl_vesting (rt_cl s) !! w /\
  cl_signing (rt_cl s') !! w = cl_signing (rt_cl s) !! w.
Theorem C98_outsiders_cannot_take_a_claim : forall c f g p l w,
  let s := run c (genesis_state g) p in
  armed f s -> history c f s l -> ~ holds f w -> (forall a, owns f a -> cl_preclaims (rt_cl s) !! a <> Some w) ->
  claim_kept s (run c s l) w.
Proof.
  intros c f g p l w s Ha Hl Hw Hpre.
  destruct (history_all c f g p l (fun t => claim_kept s t w /\ forall a, owns f a -> cl_preclaims (rt_cl t) !! a <> Some w)) as [[H _] _]; [| |exact Ha|exact Hl|exact H].
  2: { split; [|auto]. unfold claim_kept. auto. }
  intros q x t [(H1 & H2 & H3) H4] Ht Hx. destruct (claims_step c t x) as [(E & _)|(o & k & -> & E)].
  { unfold claim_kept. rewrite E. auto. }
  destruct Hx as (Hroot & Hmove & _ & _ & Ho & _ & Hc1 & Hc2).
  assert (dispatch c o (CCl k) t = (Success, step c t (OCall o (CCl k)))) as Ed by (apply succ_of; exact E).
  apply C69_claims_calls_do_exactly_this in Ed as [Ed _]. set (t' := step c t (OCall o (CCl k))) in *.
  assert (forall signer dest, signer <> w -> paid_out c t t' signer dest -> claim_kept s t' w) as Hp.
  { intros signer dest Hn (due & _ & _ & [_ D1]%entry_split & _ & [_ D2]%entry_split & [_ D3]%entry_split & _). unfold claim_kept. rewrite D1, D2, D3 by auto. auto. }
  destruct k as [dest sig|who v vs st|dest sig text|text|old new pre]; cbn [cl_does] in Ed.
  - destruct Ed as (signer & Hs & Hpo & ->). split; [|auto]. apply eth_recover_signed in Hs. eapply Hp; [|exact Hpo].
    intros ->. apply Hw. eapply Hc1; eauto.
  - cbn [cl_exec] in E. apply mint_ok in E as (-> & _). contradiction.
  - destruct Ed as (signer & Hs & Hpo & ->). split; [|auto]. apply eth_recover_signed in Hs. eapply Hp; [|exact Hpo].
    intros ->. apply Hw. eapply Hc2; eauto.
  - destruct Ed as (a & signer & -> & Hs & Hpo & [D1 D2]%entry_split). split.
    + eapply Hp; [|exact Hpo]. intros ->. exact (H4 a (Ho a eq_refl) Hs).
    + intros b Hb. destruct (decide (b = a)) as [->|]; [rewrite D1; discriminate|]. rewrite D2 by auto. auto.
  - cbn [cl_exec] in E. apply move_ok in E as ([Hm|Hm] & _); [congruence|contradiction].
Qed.
Print Assumptions C98_outsiders_cannot_take_a_claim.

(** ** Oracle *)
(** what is known from the source [src] and who may tell *)
Definition source_kept (s s' : rt) (src : bytes) : Prop :=
  to_wl (rt_to s') !! src = to_wl (rt_to s) !! src /\
  (forall pair, to_rates (rt_to s') !! (pair, src) = to_rates (rt_to s) !! (pair, src)) /\
  (forall name, to_data (rt_to s') !! (name, src) = to_data (rt_to s) !! (name, src)).
Theorem C98_outsiders_cannot_forge_a_source : forall c f g p l src,
  let s := run c (genesis_state g) p in
  armed f s -> history c f s l -> (forall m, In m (default [] (to_wl (rt_to s) !! src)) -> ~ attests f m) ->
  source_kept s (run c s l) src.
Proof.
  intros c f g p l src s Ha Hl Hwl.
  destruct (history_all c f g p l (fun t => source_kept s t src)) as [H _]; [| |exact Ha|exact Hl|exact H].
  2: { unfold source_kept. auto. }
  intros q x t (H1 & H2 & H3) Ht Hx.
  assert (forall t', rt_to t' = rt_to t -> source_kept s t' src) as Hsame by (intros t' E; unfold source_kept; rewrite E; auto).
  destruct (op_may_write x PTo) eqn:Hm; [|apply Hsame, (step_same c t x PTo Hm)].
  destruct x as [o k| | | | | | | | | |]; try discriminate Hm.
  destruct Hx as (Hroot & _ & _ & _ & Ho & _ & _).
  destruct (step_call c t o k) as [(t' & E & ->)| ->]; [|apply Hsame; auto]. apply succ_of in E.
  destruct k as [k|k|k|k|k|k|k|k]; try discriminate Hm.
  assert ((dispatch c o (CTo k) t).1 = Success) as HS by (rewrite E; auto). rewrite C68_teeracle_calls_accepted_exactly in HS.
  apply C69_oracle_calls_do_exactly_this in E as [E _].
  assert (forall a e, o = Signed a -> tx_sov (rt_tx t) !! a = Some e -> ~ In (en_mr_enclave e) (default [] (to_wl (rt_to t) !! src))) as Hno.
  { intros a e -> He Hin. rewrite H1 in Hin. apply (Hwl _ Hin). eapply Ht; eauto. }
  destruct k as [sr fp|sr fp|name sr blob|sr tp v]; cbn [to_does to_accepts] in *.
  - destruct HS as [-> _]. contradiction.
  - destruct HS as [-> _]. contradiction.
  - destruct HS as (a & e & -> & He & Hin & _). destruct E as ([_ E]%entry_split & E2 & E3 & _).
    assert (sr <> src) as Hn by (intros ->; eapply Hno; eauto).
    unfold source_kept. rewrite E2, E3. split; [auto|]. split; [auto|]. intros n. rewrite E by congruence. auto.
  - destruct HS as (a & e & -> & He & Hin & _). destruct E as (E2 & E3 & E).
    assert (sr <> src) as Hn by (intros ->; eapply Hno; eauto).
    unfold source_kept. rewrite E2, E3. split; [auto|]. split; [|auto]. intros pr.
    assert (forall z, entry_set (to_rates (rt_to t)) (to_rates (rt_to t')) (tp, sr) z -> to_rates (rt_to t') !! (pr, src) = to_rates (rt_to s) !! (pr, src)) as Hz.
    { intros z [_ Hz]%entry_split. rewrite Hz by congruence. auto. }
    destruct v as [[|r]|]; destruct E as [E _]; exact (Hz _ E).
Qed.
Print Assumptions C98_outsiders_cannot_forge_a_source.

(** ** Administration *)
(** flags of the registry, registered reserve assets, messages to the relay chain, new claims *)
Definition administration (s : rt) :=
  (tx_allow_skip (rt_tx s), tx_allow_debug (rt_tx s), ar_loc (rt_ar s), ar_id (rt_ar s), rt_out s).
Theorem C98_outsiders_cannot_administrate : forall c f g p l,
  let s := run c (genesis_state g) p in
  armed f s -> history c f s l ->
  administration (run c s l) = administration s /\
  cl_total (rt_cl (run c s l)) <= cl_total (rt_cl s).
Proof.
  intros c f g p l s Ha Hl.
  destruct (history_all c f g p l (fun t => administration t = administration s /\ cl_total (rt_cl t) <= cl_total (rt_cl s))) as [H _]; [| |exact Ha|exact Hl|exact H].
  2: { split; [auto|apply N.le_refl]. }
  intros q x t [H1 H2] Ht Hx. split.
  - rewrite <- H1. unfold administration.
    assert ((tx_allow_skip (rt_tx (step c t x)), tx_allow_debug (rt_tx (step c t x))) = (tx_allow_skip (rt_tx t), tx_allow_debug (rt_tx t))) as E1.
    { destruct (decide ((tx_allow_skip (rt_tx (step c t x)), tx_allow_debug (rt_tx (step c t x))) = (tx_allow_skip (rt_tx t), tx_allow_debug (rt_tx t)))) as [E|E]; [auto|].
      destruct (C30_only_root_changes_the_flags c t x E) as (sk & d & -> & _). destruct Hx as [Hx _]. contradiction. }
    injection E1 as -> ->. f_equal; [f_equal; [f_equal|]|].
    + destruct (op_may_write x PReg) eqn:Hm; [|pose proof (step_same c t x PReg Hm) as E; cbn [same] in E; injection E; auto].
      destruct x as [o k| | | | | | | | | |]; try discriminate Hm. destruct k as [k|k|k|k|k|k|k|k]; try discriminate Hm.
      destruct Hx as (_ & _ & Hor & _). destruct (step_call c t o (CAr k)) as [(t' & E & _)| ->]; [|auto]. exfalso.
      cbn [exec] in E. destruct k; cbn [ar_exec] in E; apply bind_ok in E as (u & t1 & E & _); apply ensure_ok in E as [E _]; congruence.
    + destruct (op_may_write x PReg) eqn:Hm; [|pose proof (step_same c t x PReg Hm) as E; cbn [same] in E; injection E; auto].
      destruct x as [o k| | | | | | | | | |]; try discriminate Hm. destruct k as [k|k|k|k|k|k|k|k]; try discriminate Hm.
      destruct Hx as (_ & _ & Hor & _). destruct (step_call c t o (CAr k)) as [(t' & E & _)| ->]; [|auto]. exfalso.
      cbn [exec] in E. destruct k; cbn [ar_exec] in E; apply bind_ok in E as (u & t1 & E & _); apply ensure_ok in E as [E _]; congruence.
    + destruct (op_may_write x POut) eqn:Hm; [|apply (step_same c t x POut Hm)].
      destruct x as [o k| | | | | | | | | |]; try discriminate Hm. destruct k as [k|k|k|k|k|k|k|k]; try discriminate Hm.
      destruct Hx as (_ & _ & _ & Hor & _). destruct (step_call c t o (CXt k)) as [(t' & E & _)| ->]; [|auto]. exfalso.
      cbn [exec] in E. destruct k; cbn [xt_exec] in E; apply bind_ok in E as (u & t1 & E & _); apply ensure_ok in E as [E _]; congruence.
  - destruct (claims_step c t x) as [(-> & _)|(o & k & -> & E)]; [auto|].
    destruct Hx as (Hroot & Hmove & _). destruct k; cbn [cl_exec] in E.
    + apply claim_ok in E as (_ & sg & _ & _ & E). apply process_ok in E as (due & _ & _ & _ & _ & -> & _). cbn. lia.
    + apply mint_ok in E as (-> & _). contradiction.
    + apply claim_attest_ok in E as (_ & sg & _ & _ & E). apply process_ok in E as (due & _ & _ & _ & _ & -> & _). cbn. lia.
    + apply attest_ev in E as (a & sg & due & _ & _ & _ & _ & _ & -> & _). cbn. lia.
    + apply move_ok in E as ([Hm|Hm] & _); [congruence|contradiction].
Qed.
Print Assumptions C98_outsiders_cannot_administrate.

(** ** The proviso is needed: an ordinary account is emptied by two calls of a stranger *)
Definition thief : coalition := mkFoe (fun x => x = bob) (fun m => m = acc 8) (fun _ => False).
Definition before_theft : list op := [register bob (acc 8); ONextBlock 6000].
Theorem C98_only_the_owner_spends_refuted : exists c f g p l v,
  let s := run c (genesis_state g) p in
  armed f s /\ history c f s l /\ ~ owns f v /\ Forall (fun x => exists k, x = OCall (Signed bob) k) l /\
  free s v = 1000 /\ free (run c s l) v = 0 /\ free (run c s l) bob = free s bob + 1000.
Proof.
  exists cfg0, thief, (gen0 [alice; bob]), before_theft, (loot bob alice (acc 8) 1000 (acc 77)), alice.
  assert (en_mr_enclave <$> (tx_sov (rt_tx (run cfg0 (genesis_state (gen0 [alice; bob])) before_theft)) !! bob) = Some (acc 8)) as E
    by (vm_compute; reflexivity).
  cbv zeta. split.
  { intros a e Ha He. cbn [owns attests thief] in *. subst a. rewrite He in E. change (Some (en_mr_enclave e) = Some (acc 8)) in E. congruence. }
  split.
  { unfold loot. cbn [history acts]. split; [|split; [|exact I]];
      (split; [discriminate|]; do 3 (split; [reflexivity|]); split; [intros a [= <-]; reflexivity|];
       split; [discriminate|]; split; discriminate). }
  split; [cbn; vm_compute; discriminate|]. split; [unfold loot; repeat constructor; eauto|].
  vm_compute. auto.
Qed.
Print Assumptions C98_only_the_owner_spends_refuted.

(** ** Concrete: the same stranger tries everything while alice's account is guarded *)
Definition put_guard : op := OCall Root (CEb (EbUpdateConfig alice (mkScfg (acc 200) None None false) 0)).
Definition tell : op := OCall Root (CTo (ToAdd [67; 71] (acc 9))).
Definition guarded_start : list op :=
  [put_guard; tell; call_td alice (TdBond 300); register alice (acc 9);
   OCall (Signed alice) (CTo (ToUpdateRate [67; 71] [85] (Some 5)))].
Definition attempts : list op :=
  [register bob (acc 8); ONextBlock 6000] ++ loot bob alice (acc 8) 600 (acc 77) ++
  [OCall (Signed bob) (CTo (ToUpdateRate [67; 71] [85] (Some 6)));
   OCall (Signed bob) (CTd (TdUpdateOther alice));
   OCall (Signed bob) (CEb (EbUpdateConfig (acc 50) (mkScfg (acc 8) None None false) 0));
   OCall (Signed bob) (CTo (ToAdd [67; 71] (acc 8))); OTransfer bob alice 40].
Example C98_example :
  let s := run cfg0 (genesis_state (gen0 [alice; bob])) guarded_start in let s' := run cfg0 s attempts in
  armed thief s /\ guarded thief s alice /\ history cfg0 thief s attempts /\
  (free s alice, free s' alice) = (1000, 1040) /\ (free s bob, free s' bob) = (1000, 960) /\
  bonded s' alice = 300 /\
  match bond_of s alice, bond_of s' alice with
  | Some b, Some b' => bd_tt b = 0 /\ bd_tt b' = 300 * 6000 /\ accrued (c_bal_max cfg0) b (rt_now s') = 300 * 6000
  | _, _ => False
  end /\
  to_rates (rt_to s') !! ([85], [67; 71]) = Some 5 /\
  (fun u => sc_fp (uc_active u)) <$> eb_config (rt_eb s') !! alice = Some (acc 200) /\
  (fun u => sc_fp (uc_active u)) <$> eb_config (rt_eb s') !! acc 50 = Some (acc 8) /\
  (en_mr_enclave <$> tx_sov (rt_tx s') !! bob) = Some (acc 8).
Proof.
  intros s s'.
  split.
  { intros a e Ha He. cbn [owns attests thief] in *. subst a. exfalso.
    assert (en_mr_enclave <$> tx_sov (rt_tx s) !! bob = None) as E by (vm_compute; reflexivity). rewrite He in E. discriminate. }
  split.
  { right. intros b Hb. exists (mkScfg (acc 200) None None false). split.
    - assert (eb_config (rt_eb s) !! alice = Some (mkUscfg (mkScfg (acc 200) None None false) None None)) as E by (vm_compute; reflexivity).
      exact (f_equal (fmap (M := option) (fun u => in_force_of u b)) E).
    - vm_compute. discriminate. }
  split.
  { assert (forall t k, (forall p u m, k <> CTx (TxRegister p u m)) -> (forall k', k <> CCl k') -> acts cfg0 thief t (OCall (Signed bob) k)) as Hacts.
    { intros t k K1 K2. cbn [acts]. split; [discriminate|]. do 3 (split; [reflexivity|]). split; [intros b [= <-]; reflexivity|].
      split; [intros b q u m e' _ Hk; destruct (K1 _ _ _ Hk)|]. split; intros; exfalso; eapply K2; eauto. }
    unfold attempts, loot. cbn [app history]. split.
    { cbn [acts register]. split; [discriminate|]. do 3 (split; [reflexivity|]). split; [intros b [= <-]; reflexivity|].
      split; [|split; discriminate]. intros a p u m e [= <-] _ _ He.
      assert (en_mr_enclave <$> tx_sov (rt_tx (dispatch cfg0 (Signed bob) (CTx (TxRegister (acc 8) None (MSkip false))) s).2) !! bob = Some (acc 8)) as E
        by (vm_compute; reflexivity).
      rewrite He in E. change (Some (en_mr_enclave e) = Some (acc 8)) in E. cbn [attests thief]. congruence. }
    split; [exact I|]. repeat (split; [apply Hacts; congruence|]). split; [reflexivity|exact I]. }
  vm_compute. repeat split.
Qed.
(** Someone who holds the key of the second address only collects that claim and no other *)
Definition collector : coalition := mkFoe (fun x => x = bob) (fun _ => False) (fun w => w = eth 2).
Example C98_claims_example :
  let c := cfg_cl true 5 in let g := gen_cl [(eth 1, 100, Some alice, None); (eth 2, 70, None, None)] [] in
  let s := run c (genesis_state g) [ONextBlock 6000] in
  let l := [do_claim true 5 2 bob; OCall (Signed bob) (CCl (ClAttest (to_text StRegular)))] in
  armed collector s /\ history c collector s l /\ ~ holds collector (eth 1) /\
  (forall a, owns collector a -> cl_preclaims (rt_cl s) !! a <> Some (eth 1)) /\
  cl_claims (rt_cl (run c s l)) !! eth 1 = Some 100 /\ cl_claims (rt_cl (run c s l)) !! eth 2 = None /\ free (run c s l) bob = 70.
Proof.
  intros c g s l. split.
  { intros a e _ He. exfalso. assert (tx_sov (rt_tx s) = empty) as E by (vm_compute; reflexivity).
    rewrite E, lookup_empty in He. discriminate. }
  split.
  { unfold l. cbn [history acts do_claim]. split; [|split; [|exact I]]; (split; [discriminate|]; do 3 (split; [reflexivity|])).
    - split; [discriminate|]. split; [discriminate|]. split; [|discriminate]. intros dest sig signer [= <- <-] H.
      apply eth_recover_signed in H. cbn [holds collector]. vm_compute in H. injection H as <-. reflexivity.
    - split; [intros a [= <-]; reflexivity|]. split; [discriminate|]. split; discriminate. }
  split; [cbn; vm_compute; discriminate|]. split; [intros a ->; vm_compute; discriminate|]. vm_compute. auto.
Qed.
