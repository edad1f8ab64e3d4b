(** * What accepted calls do, exactly: C69. *)
From Verif Require Import Base State Env TeerdaysModel TeerexBase SgxVerifyModel TeerexModel
  EnclaveBridgeModel SidechainModel TeeracleModel ClaimsModel AssetRegistryModel XcmTransactorModel
  Runtime Frame EnvFacts Panic Examples TeerdaysProofs BridgeProofs TeeracleProps TeerexProofs
  ClaimsProofs ClaimsProps XcmProps VestingProps AttestationProps RuntimeProps.

(** Of the map only the entry [k] changes, and becomes [v] *)
Definition entry_set {K V} `{Countable K} (m m' : gmap K V) (k : K) (v : option V) : Prop :=
  forall x, m' !! x = if decide (x = k) then v else m !! x.
(** Of all locks only the one with this id on this account changes, and becomes [v] *)
Definition lock_set (s s' : rt) (id : lock_id) (a : acct) (v : N) : Prop :=
  forall i x, locked s' i x = if decide (i = id /\ x = a) then v else locked s i x.
Definition locks_same (s s' : rt) : Prop := forall i x, locked s' i x = locked s i x.
Definition balances_same (s s' : rt) : Prop := forall x, free s' x = free s x.
(** The new events, newest first *)
Definition emits (s s' : rt) (l : list event) : Prop := rt_ev s' = l ++ rt_ev s.

Lemma entry_insert {K V} `{Countable K} (m : gmap K V) k v : entry_set m (<[k := v]> m) k (Some v).
Proof. intros x. destruct (decide (x = k)) as [->|]; [apply lookup_insert|apply lookup_insert_ne; auto]. Qed.
Lemma entry_delete {K V} `{Countable K} (m : gmap K V) k : entry_set m (delete k m) k None.
Proof. intros x. destruct (decide (x = k)) as [->|]; [apply lookup_delete|apply lookup_delete_ne; auto]. Qed.
Lemma entry_same {K V} `{Countable K} (m : gmap K V) k : entry_set m m k (m !! k).
Proof. intros x. destruct (decide (x = k)) as [->|]; auto. Qed.

(** ** TEERdays *)
(** The token time of a bond up to moment [t]: what it has plus value times the time since, capped *)
Definition token_time (mx : N) (b : bond) (t : N) : N := N.min mx (bd_tt b + bd_value b * (t - bd_last b)).
Definition td_does (c : cfg) (a : acct) (k : td_call) (s s' : rt) : Prop :=
  let bonds := td_bonds (rt_td s) in let bonds' := td_bonds (rt_td s') in
  let pend := td_pending (rt_td s) in let pend' := td_pending (rt_td s') in
  let now := rt_now s in let lk := locked s LTeerdays a in
  match k with
  | TdBond v =>
      let n := N.min v (free s a) in
      entry_set bonds bonds' a (Some (mkBond n now 0)) /\ pend' = pend /\
      lock_set s s' LTeerdays a (if n =? 0 then lk else n) /\ emits s s' [EvBonded a n]
  | TdBondExtra v => exists b, bonds !! a = Some b /\
      let add := N.min v (free s a - bd_value b) in
      let n := N.min (c_bal_max c) (bd_value b + add) in
      let tt_ := token_time (c_bal_max c) b now in
      entry_set bonds bonds' a (Some (mkBond n now tt_)) /\ pend' = pend /\
      lock_set s s' LTeerdays a (if n =? 0 then lk else n) /\
      emits s s' [EvBonded a add; EvTokenTimeUpdated a (mkBond (bd_value b) now tt_)]
  | TdUnbond v => exists b due, bonds !! a = Some b /\
      (now + c_unlock c <= u64_max -> due = now + c_unlock c) /\
      let rest := bd_value b - v in
      let out := N.min v (bd_value b) in
      let tt_ := token_time (c_bal_max c) b now in
      let left := N.min (c_bal_max c) (tt_ / bd_value b * rest) in
      entry_set bonds bonds' a (if rest <? c_ed c then None else Some (mkBond rest now left)) /\
      entry_set pend pend' a (Some (due, out)) /\ locks_same s s' /\
      emits s s' [EvUnbonded a out (tt_ - left); EvTokenTimeUpdated a (mkBond (bd_value b) now tt_)]
  | TdUpdateOther w => exists b, bonds !! w = Some b /\
      let b' := mkBond (bd_value b) now (token_time (c_bal_max c) b now) in
      entry_set bonds bonds' w (Some b') /\ pend' = pend /\ locks_same s s' /\
      emits s s' [EvTokenTimeUpdated w b']
  | TdWithdrawUnbonded => exists due amt, pend !! a = Some (due, amt) /\
      bonds' = bonds /\ entry_set pend pend' a None /\
      lock_set s s' LTeerdays a (lk - amt) /\ emits s s' [EvWithdrawn a (N.min amt lk)]
  end.

Lemma td_other_locks c o k s s' id x : td_exec c o k s = Ok tt s' -> id <> LTeerdays -> locked s' id x = locked s id x.
Proof.
  intros H Hid.
  assert (keepsP (fun t => locked t id x = locked s id x) (td_exec c o k)) as Hk.
  { assert (forall a v, keepsP (fun t => locked t id x = locked s id x) (set_lock LTeerdays a v)) as HS.
    { intros a v t u t' E Hs. rewrite (locked_set_lock_other _ _ _ _ _ _ id x Hs); auto. }
    assert (forall a, keepsP (fun t => locked t id x = locked s id x) (remove_lock LTeerdays a)) as HR.
    { intros a t u t' E Hs. rewrite (locked_remove_lock_other _ _ _ _ _ id x Hs); auto. }
    destruct k; cbn [td_exec];
    unfold td_bond, td_bond_extra, td_unbond, td_update_other, td_withdraw_unbonded,
        try_withdraw_unbonded, do_update_teerdays, deposit_event, ensure_signed;
    repeat first [ apply HS | apply HR | apply keepsP_modify; intros ? E; exact E | keepsP_step ]. }
  exact (Hk _ _ _ eq_refl H).
Qed.
Lemma lock_set_td c o k s s' a v : td_exec c o k s = Ok tt s' ->
  (forall b, td_lock s' b = if decide (b = a) then v else td_lock s b) -> lock_set s s' LTeerdays a v.
Proof.
  intros H HL i x. destruct (decide (i = LTeerdays)) as [->|Hi].
  - specialize (HL x). unfold td_lock in HL. rewrite HL. destruct (decide (x = a)), (decide (_ /\ _)); tauto.
  - rewrite (td_other_locks _ _ _ _ _ i x H Hi). destruct (decide (_ /\ _)); tauto.
Qed.
Theorem C69_teerdays_calls_do_exactly_this : forall c o k s s', dispatch c o (CTd k) s = (Success, s') ->
  exists a, o = Signed a /\ td_does c a k s s' /\
  unchanged_outside (fun p => match p with PTd | PLocks | PEvents => true | _ => false end) s s'.
Proof.
  intros c o k s s' H.
  assert (unchanged_outside (fun p => match p with PTd | PLocks | PEvents => true | _ => false end) s s') as HU.
  { replace s' with (dispatch c o (CTd k) s).2 by (rewrite H; auto). apply C58_pallets_write_only_their_parts. }
  apply dispatch_iff in H. cbn [exec] in H. pose proof H as H0.
  destruct k; cbn [td_exec] in H; unfold td_does, emits; cbv zeta.
  - apply bond_ok in H as (a & -> & _ & _ & H1 & H2 & H3 & H4). exists a. split; [auto|]. split; [|auto].
    rewrite H1, H2, H4. split; [apply entry_insert|]. split; [auto|]. split; [|auto]. eapply lock_set_td; eauto.
  - apply bond_extra_ok in H as (a & b & -> & Hb & _ & _ & H1 & H2 & H3 & H4). exists a. split; [auto|]. split; [|auto].
    exists b. split; [auto|]. rewrite H1, H2, H4. change (token_time (c_bal_max c)) with (accrued (c_bal_max c)).
    rewrite <- accrued_update. unfold sat_add in *. rewrite (N.min_comm (c_bal_max c)).
    split; [apply entry_insert|]. split; [auto|]. split; [|auto]. eapply lock_set_td; eauto.
  - apply unbond_ok in H as (a & b & due & -> & Hb & _ & _ & H1 & H2 & H3 & H4 & H5). exists a. split; [auto|]. split; [|auto].
    exists b, due. split; [auto|]. split; [intros; destruct H1 as [[_ ?]|[? _]]; lia|]. cbv zeta in *.
    assert (bd_value b - (bd_value b - value) = N.min value (bd_value b)) as Eo by lia. rewrite Eo in *.
    change (token_time (c_bal_max c)) with (accrued (c_bal_max c)). rewrite accrued_update in H5.
    assert (sat_mul (c_bal_max c) (tt_quot (bond_update c b (rt_now s))) (bd_value b - value) =
      N.min (c_bal_max c) (accrued (c_bal_max c) b (rt_now s) / bd_value b * (bd_value b - value))) as Et.
    { unfold tt_quot. rewrite accrued_update. change (bd_value (bond_update c b (rt_now s))) with (bd_value b).
      unfold sat_mul. destruct (N.eqb_spec (bd_value b) 0) as [E|E]; [|lia].
      rewrite E. cbn [N.sub]. rewrite !N.mul_0_r. lia. }
    rewrite Et in *. rewrite H2, H3, H5. split; [destruct (_ <? _); [apply entry_delete|apply entry_insert]|].
    split; [apply entry_insert|]. split; [intros i x; apply locked_view, H4|]. cbn [app]. do 2 f_equal.
    unfold bond_update. rewrite <- accrued_update. reflexivity.
  - apply update_other_ok in H as (a & b & -> & Hb & H1 & H2 & H3 & H4). exists a. split; [auto|]. split; [|auto].
    exists b. split; [auto|]. rewrite H1, H2, H4. change (token_time (c_bal_max c)) with (accrued (c_bal_max c)).
    rewrite <- accrued_update. split; [apply entry_insert|]. split; [auto|]. split; [|auto].
    intros i x; apply locked_view, H3.
  - apply withdraw_unbonded_ok in H as (a & due & amt & -> & Hp & _ & H1 & H2 & H3 & H4). exists a. split; [auto|]. split; [|auto].
    exists due, amt. split; [auto|]. rewrite H1, H2, H4. split; [auto|]. split; [apply entry_delete|]. split; [|auto].
    eapply lock_set_td; [exact H0|]. intros x. rewrite H3. destruct (decide (x = a)); [|auto]. unfold td_lock. lia.
Qed.
Print Assumptions C69_teerdays_calls_do_exactly_this.

(** ** Enclave bridge and sidechain *)
(** The shard's list of operators before and after [x] reported activity: refreshed in place (the
    first entry of this signer), or added at the end *)
Definition refreshed (x : sstat) (l l' : list sstat) : Prop :=
  (exists l1 y l2, l = l1 ++ y :: l2 /\ ss_signer y = ss_signer x /\ ~ In (ss_signer x) (map ss_signer l1) /\
   l' = l1 ++ x :: l2) \/
  (~ In (ss_signer x) (map ss_signer l) /\ l' = l ++ [x]).
Definition operator_seen (s s' : rt) (sh : bytes) (a : acct) (e : enclave) : Prop :=
  exists l', refreshed (mkSstat a (en_mr_enclave e) (rt_blk s)) (default [] (eb_status (rt_eb s) !! sh)) l' /\
  entry_set (eb_status (rt_eb s)) (eb_status (rt_eb s')) sh (Some l').
(** A configuration whose upgrade is due is replaced by that upgrade *)
Definition upgraded (u : uscfg) (b : N) : uscfg :=
  match uc_pending u, uc_at u with
  | Some p, Some t => if t <=? b then mkUscfg p None None else u
  | _, _ => u
  end.
Definition upgrade_enacted (s s' : rt) (sh : bytes) : Prop :=
  entry_set (eb_config (rt_eb s)) (eb_config (rt_eb s')) sh
    ((fun u => upgraded u (rt_blk s)) <$> eb_config (rt_eb s) !! sh).
(** [v] moved from [src] to [dst]; a rest below the existential deposit is lost as dust *)
Definition pays (c : cfg) (s s' : rt) (src dst : acct) (v : N) (evs : list event) : Prop :=
  if (v =? 0) || bool_decide (src = dst) then balances_same s s' /\ evs = []
  else
    let rest := free s src - v in
    v <= free s src /\
    (forall x, free s' x = if decide (x = src) then (if rest <? c_ed c then 0 else rest)
                           else if decide (x = dst) then free s dst + v else free s x) /\
    evs = EvTransfer src dst v :: (if (0 <? rest) && (rest <? c_ed c) then [EvDust src rest] else []).
Definition eb_does (c : cfg) (o : origin) (k : eb_call) (s s' : rt) : Prop :=
  let exec_same := eb_exec (rt_eb s') = eb_exec (rt_eb s) in
  match k with
  | EbInvoke sh _ =>
      rt_eb s' = rt_eb s /\ balances_same s s' /\ emits s s' [EvIndirectInvocationRegistered sh]
  | EbConfirm sh h n r => exists a e, o = Signed a /\ tx_sov (rt_tx s) !! a = Some e /\
      operator_seen s s' sh a e /\ upgrade_enacted s s' sh /\ exec_same /\ balances_same s s' /\
      emits s s' [EvProcessedParentchainBlock sh h r n]
  | EbShield sh b v => exists a evs, o = Signed a /\ rt_eb s' = rt_eb s /\
      pays c s s' a sh v evs /\ emits s s' (EvShieldFunds sh b v :: evs)
  | EbUnshield sh b v h => exists a e, o = Signed a /\ tx_sov (rt_tx s) !! a = Some e /\
      operator_seen s s' sh a e /\ upgrade_enacted s s' sh /\
      match eb_exec (rt_eb s) !! h with
      | None => entry_set (eb_exec (rt_eb s)) (eb_exec (rt_eb s')) h (Some 1) /\
          exists evs, pays c s s' sh b v evs /\ emits s s' (EvUnshieldedFunds sh b v :: evs)
      | Some n => exists n', (n < u64_max -> n' = n + 1) /\
          entry_set (eb_exec (rt_eb s)) (eb_exec (rt_eb s')) h (Some n') /\
          balances_same s s' /\ emits s s' []
      end
  | EbPublish h t d => exists a e, o = Signed a /\ tx_sov (rt_tx s) !! a = Some e /\
      operator_seen s s' (en_mr_enclave e) a e /\ eb_config (rt_eb s') = eb_config (rt_eb s) /\ exec_same /\
      balances_same s s' /\ emits s s' [EvPublishedHash (t ++ [en_mr_enclave e]) (en_mr_enclave e) h d]
  | EbUpdateConfig sh new delay =>
      match o with
      | Signed a => exists e, tx_sov (rt_tx s) !! a = Some e /\ operator_seen s s' sh a e
      | _ => eb_status (rt_eb s') = eb_status (rt_eb s)
      end /\
      entry_set (eb_config (rt_eb s)) (eb_config (rt_eb s')) sh
        (Some (match eb_config (rt_eb s) !! sh with
               | None => mkUscfg new None None
               | Some u => mkUscfg (uc_active (upgraded u (rt_blk s))) (Some new)
                                   (Some (N.min (rt_blk s + delay) (c_blk_max c)))
               end)) /\
      exec_same /\ balances_same s s' /\ emits s s' [EvShardConfigUpdated sh]
  | EbPurge sh a => exists l, eb_status (rt_eb s) !! sh = Some l /\
      entry_set (eb_status (rt_eb s)) (eb_status (rt_eb s')) sh (Some (List.filter (fun x => negb (bool_decide (ss_signer x = a))) l)) /\
      eb_config (rt_eb s') = eb_config (rt_eb s) /\ exec_same /\ balances_same s s' /\ emits s s' [EvPurgedEnclave sh a]
  end.

Lemma refreshed_touch x l : refreshed x l (touch_list x l).
Proof.
  unfold refreshed. destruct (touch_list_cases x l) as [(_ & l1 & y & l2 & H)|H]; [left; exists l1, y, l2; exact H|right; exact H].
Qed.
Lemma enact_config sh s : entry_set (eb_config (rt_eb s)) (eb_config (rt_eb (enact sh (rt_blk s) s))) sh
    ((fun u => upgraded u (rt_blk s)) <$> eb_config (rt_eb s) !! sh).
Proof.
  unfold enact. destruct (eb_config (rt_eb s) !! sh) as [u|] eqn:E.
  - cbn [fmap option_fmap option_map]. unfold upgraded. destruct (uc_pending u) as [p|]; [destruct (uc_at u) as [t|]|].
    1: destruct (t <=? rt_blk s); [apply entry_insert|]. all: rewrite <- E; apply entry_same.
  - cbn. rewrite <- E. apply entry_same.
Qed.
Lemma touched_seen sh a e s s' : eb_status (rt_eb s') = eb_status (rt_eb (touched sh a (fingerprint e) s)) -> operator_seen s s' sh a e.
Proof.
  intros H. exists (touch_list (mkSstat a (en_mr_enclave e) (rt_blk s)) (status_of s sh)).
  split; [apply refreshed_touch|]. rewrite H, touched_status. apply entry_insert.
Qed.
Lemma touched_enacted sh a fp s s' : eb_config (rt_eb s') = eb_config (rt_eb (touched sh a fp s)) -> upgrade_enacted s s' sh.
Proof. intros H. unfold upgrade_enacted. rewrite H. apply enact_config. Qed.
Lemma free_touched sh a fp s x : free (touched sh a fp s) x = free s x.
Proof. unfold touched, free. cbn. rewrite (enact_other _ (fun s => b_free (rt_bal s))) by auto. reflexivity. Qed.
Lemma ev_touched sh a fp s : rt_ev (touched sh a fp s) = rt_ev s.
Proof. apply touched_other. auto. Qed.
Lemma transfer_pays c src dst v s s' : transfer c src dst v s = Ok tt s' ->
  exists evs, pays c s s' src dst v evs /\ emits s s' evs /\ rt_eb s' = rt_eb s.
Proof.
  intros H. pose proof (proj1 (eb_transfer _ _ _ _ _ _ _ H)) as HE. unfold pays.
  apply transfer_ok in H as [[Ho ->]|(Hv & Hn & Hf & _ & _ & _ & H1 & H2)].
  - exists []. split; [|split; [reflexivity|auto]].
    assert ((v =? 0) || bool_decide (src = dst) = true) as ->.
    { destruct Ho as [->| ->]; [reflexivity|]. rewrite bool_decide_true by auto. apply orb_true_r. }
    split; [intros x; auto|auto].
  - exists (EvTransfer src dst v :: dust_event c src (free s src - v)). split; [|split; [exact H2|auto]].
    rewrite (proj2 (N.eqb_neq _ _) Hv), bool_decide_false by auto. cbn [orb]. split; [auto|]. split; [exact H1|].
    unfold dust_event. cbn [app]. f_equal.
    destruct (N.eqb_spec (free s src - v) 0) as [->|].
    + rewrite andb_false_r. reflexivity.
    + rewrite andb_true_r. assert (0 <? free s src - v = true) as -> by (apply N.ltb_lt; lia). rewrite andb_true_l. reflexivity.
Qed.
Lemma pays_view c s s1 s' src dst v evs : (forall x, free s1 x = free s x) -> pays c s1 s' src dst v evs -> pays c s s' src dst v evs.
Proof.
  unfold pays, balances_same. intros E H. destruct (_ || _).
  - destruct H as [H ->]. split; [|auto]. intros x. rewrite H. auto.
  - rewrite <- !E. destruct H as (H1 & H2 & H3). split; [auto|]. split; [|auto]. intros x. rewrite H2.
    destruct (decide _); [auto|]. destruct (decide _); auto.
Qed.
Lemma filter_List {A} (f : A -> bytes) (l : list A) a : filter (fun x => f x <> a) l = List.filter (fun x => negb (bool_decide (f x = a))) l.
Proof.
  induction l as [|y r IH]; [reflexivity|]. rewrite filter_cons. cbn [List.filter].
  destruct (decide (f y <> a)) as [H|H].
  - rewrite bool_decide_false by auto. cbn [negb]. rewrite IH. reflexivity.
  - destruct (decide (f y = a)) as [E|E]; [|tauto]. rewrite bool_decide_true by auto. exact IH.
Qed.
Lemma in_force_upgraded s sh : in_force s sh (rt_blk s) = (fun u => uc_active (upgraded u (rt_blk s))) <$> eb_config (rt_eb s) !! sh.
Proof.
  unfold in_force, in_force_of, upgraded. destruct (eb_config (rt_eb s) !! sh) as [[act [p|] [t|]]|]; cbn; auto.
  destruct (t <=? rt_blk s); auto.
Qed.
Theorem C69_bridge_calls_do_exactly_this : forall c o k s s', dispatch c o (CEb k) s = (Success, s') ->
  eb_does c o k s s' /\
  unchanged_outside (fun p => match p with PEb | PFree | PEvents => true | _ => false end) s s'.
Proof.
  intros c o k s s' H. split.
  2: { replace s' with (dispatch c o (CEb k) s).2 by (rewrite H; auto). apply C58_pallets_write_only_their_parts. }
  apply dispatch_iff in H. cbn [exec] in H.
  destruct k; cbn [eb_exec_call] in H; unfold eb_does; cbv zeta.
  - unfold invoke in H. inv_rt H. split; [reflexivity|]. split; [intros x; reflexivity|reflexivity].
  - apply confirm_processed_ok in H as (a & e & -> & [He _] & _ & ->). exists a, e. split; [auto|]. split; [auto|].
    split; [apply touched_seen; reflexivity|]. split; [apply (touched_enacted shard a (fingerprint e)); reflexivity|].
    split; [apply touched_exec|]. split; [intros x; apply free_touched|]. unfold emits. cbn [rt_ev add_ev]. rewrite ev_touched. reflexivity.
  - apply shield_ok in H as (a & s1 & -> & H1 & ->). apply transfer_pays in H1 as (evs & H1 & H2 & H3).
    exists a, evs. split; [auto|]. split; [exact H3|]. split; [exact H1|]. unfold emits in *. cbn [rt_ev add_ev]. rewrite H2. reflexivity.
  - apply unshield_ok in H as (a & e & -> & [He _] & _ & H). exists a, e. split; [auto|]. split; [auto|].
    destruct H as [(Hx & s1 & H1 & ->)|(n & n1 & Hx & Hn & _ & ->)]; rewrite Hx.
    + apply transfer_pays in H1 as (evs & H1 & H2 & H3).
      split; [apply touched_seen; cbn [rt_eb put_exec set_eb eb_status add_ev]; rewrite H3; reflexivity|].
      split; [eapply touched_enacted; cbn [rt_eb put_exec set_eb eb_config add_ev]; rewrite H3; reflexivity|].
      split.
      * cbn [rt_eb put_exec set_eb eb_exec add_ev]. rewrite H3, touched_exec, insert_insert. apply entry_insert.
      * exists evs. split; [|unfold emits in *; cbn [rt_ev put_exec set_eb add_ev]; rewrite H2, ev_touched; reflexivity].
        eapply pays_view in H1; [|intros x; apply free_touched]. exact H1.
    + split; [apply touched_seen; reflexivity|]. split; [apply (touched_enacted shard a (fingerprint e)); reflexivity|]. exists n1. split; [intros; apply Hn; lia|].
      split; [|split; [intros x; apply free_touched|apply ev_touched]].
      cbn [rt_eb put_exec set_eb eb_exec add_ev]. rewrite touched_exec. apply entry_insert.
  - apply publish_ok in H as (a & e & -> & He & _ & _ & _ & ->). exists a, e. split; [auto|]. split; [auto|].
    split; [|split; [reflexivity|split; [reflexivity|split; [intros x; reflexivity|reflexivity]]]].
    eexists. split; [apply refreshed_touch|]. apply entry_insert.
  - apply update_config_ok in H as [(-> & ->)|(a & e & -> & He & _ & _ & ->)].
    + split; [reflexivity|]. split; [|split; [reflexivity|split; [intros x; reflexivity|reflexivity]]].
      unfold new_config. rewrite in_force_upgraded. destruct (eb_config (rt_eb s) !! shard) as [u|]; cbn [fmap option_fmap option_map]; apply entry_insert.
    + split.
      { exists e. split; [auto|]. eexists. split; [apply refreshed_touch|]. apply entry_insert. }
      split; [|split; [reflexivity|split; [intros x; reflexivity|reflexivity]]].
      unfold new_config. rewrite in_force_upgraded. destruct (eb_config (rt_eb s) !! shard) as [u|]; cbn [fmap option_fmap option_map]; apply entry_insert.
  - apply purge_ok in H as (-> & l & Hl & ->). exists l. split; [auto|]. rewrite (filter_List ss_signer).
    split; [apply entry_insert|]. repeat (split; [first [reflexivity|intros x; reflexivity]|]). reflexivity.
Qed.
Print Assumptions C69_bridge_calls_do_exactly_this.

(** The caller is the one who may finalise: the first of the shard's list, or the list is empty *)
Definition leads (s : rt) (sh : bytes) (a : acct) : Prop :=
  match default [] (eb_status (rt_eb s) !! sh) with [] => True | x :: _ => ss_signer x = a end.
Theorem C69_sidechain_confirmation_does_exactly_this : forall c o sh anc cand s s',
  dispatch c o (CSc (ScConfirm sh anc cand)) s = (Success, s') ->
  exists a e, o = Signed a /\ tx_sov (rt_tx s) !! a = Some e /\ operator_seen s s' sh a e /\ upgrade_enacted s s' sh /\
  eb_exec (rt_eb s') = eb_exec (rt_eb s) /\
  (leads s sh a -> entry_set (rt_sc s) (rt_sc s') sh (Some cand) /\
     emits s s' [EvFinalizedSidechainBlock sh (sn_number cand) (sn_hash cand) a]) /\
  (~ leads s sh a -> rt_sc s' = rt_sc s /\ emits s s' []) /\
  unchanged_outside (fun p => match p with PSc | PEb | PEvents => true | _ => false end) s s'.
Proof.
  intros c o sh anc cand s s' H.
  assert (unchanged_outside (fun p => match p with PSc | PEb | PEvents => true | _ => false end) s s') as HU.
  { replace s' with (dispatch c o (CSc (ScConfirm sh anc cand)) s).2 by (rewrite H; auto). apply C58_pallets_write_only_their_parts. }
  apply dispatch_iff in H. cbn [exec sc_exec] in H. apply confirm_sidechain_ok in H as (a & e & first & r & -> & [He _] & Hl & _ & H).
  exists a, e. split; [auto|]. split; [auto|].
  assert (leads s sh a <-> a = ss_signer first) as HL.
  { unfold leads. fold (status_of s sh). destruct (touch_list_hd (mkSstat a (fingerprint e) (rt_blk s)) (status_of s sh)) as (y & r' & E & Hy).
    rewrite Hl in E. inversion E; subst y r'. rewrite Hy. destruct (status_of s sh); cbn [ss_signer]; split; auto. }
  destruct H as [(Hn & ->)|(Ha & _ & ->)].
  - split; [apply touched_seen; reflexivity|]. split; [apply (touched_enacted sh a (fingerprint e)); reflexivity|]. split; [apply touched_exec|].
    split; [tauto|]. split; [|exact HU]. intros _. split; [apply touched_other; auto|]. apply ev_touched.
  - split; [apply touched_seen; reflexivity|]. split; [apply (touched_enacted sh a (fingerprint e)); reflexivity|]. split; [apply touched_exec|].
    split; [|split; [tauto|exact HU]]. intros _. split; [apply entry_insert|]. unfold emits. cbn [rt_ev add_ev set_sc]. rewrite ev_touched. reflexivity.
Qed.
Print Assumptions C69_sidechain_confirmation_does_exactly_this.

(** ** Oracle *)
Definition to_does (k : to_call) (s s' : rt) : Prop :=
  let t := rt_to s in let t' := rt_to s' in
  match k with
  | ToAdd src fp =>
      entry_set (to_wl t) (to_wl t') src (Some (default [] (to_wl t !! src) ++ [fp])) /\
      to_rates t' = to_rates t /\ to_data t' = to_data t /\ emits s s' [EvAddedToWhitelist src fp]
  | ToRemove src fp =>
      entry_set (to_wl t) (to_wl t') src (Some (List.filter (fun x => negb (bool_decide (x = fp))) (default [] (to_wl t !! src)))) /\
      to_rates t' = to_rates t /\ to_data t' = to_data t /\ emits s s' [EvRemovedFromWhitelist src fp]
  | ToUpdateOracle name src blob =>
      entry_set (to_data t) (to_data t') (name, src) (Some blob) /\
      to_rates t' = to_rates t /\ to_wl t' = to_wl t /\ emits s s' [EvOracleUpdated name src]
  | ToUpdateRate src pr v =>
      to_data t' = to_data t /\ to_wl t' = to_wl t /\
      match v with
      | Some (N.pos r) => entry_set (to_rates t) (to_rates t') (pr, src) (Some (N.pos r)) /\
          emits s s' [EvExchangeRateUpdated src pr (N.pos r)]
      | _ => entry_set (to_rates t) (to_rates t') (pr, src) None /\ emits s s' [EvExchangeRateDeleted src pr]
      end
  end.
Theorem C69_oracle_calls_do_exactly_this : forall c o k s s', dispatch c o (CTo k) s = (Success, s') ->
  to_does k s s' /\
  unchanged_outside (fun p => match p with PTo | PEvents => true | _ => false end) s s'.
Proof.
  intros c o k s s' H. split.
  2: { replace s' with (dispatch c o (CTo k) s).2 by (rewrite H; auto). apply C58_pallets_write_only_their_parts. }
  apply dispatch_iff in H. cbn [exec] in H. destruct k; cbn [to_exec] in H; unfold to_does; cbv zeta.
  - apply add_wl_ok in H as (_ & _ & _ & _ & ->). split; [apply entry_insert|]. repeat (split; [reflexivity|]). reflexivity.
  - apply remove_wl_ok in H as (_ & _ & ->). split; [|repeat (split; [reflexivity|]); reflexivity].
    fold (whitelist s src). rewrite <- (filter_List (fun x => x)). apply entry_insert.
  - apply update_oracle_ok in H as (a & e & _ & _ & _ & _ & _ & _ & ->). split; [apply entry_insert|]. repeat (split; [reflexivity|]). reflexivity.
  - apply update_rate_ok in H as (a & e & _ & _ & _ & _ & ->).
    destruct v as [[|r]|]; cbn [nonzero]; (split; [reflexivity|]; split; [reflexivity|]; split; [|reflexivity]);
    first [apply entry_insert|apply entry_delete].
Qed.
Print Assumptions C69_oracle_calls_do_exactly_this.

(** ** Registry of enclaves: what the calls that are not registrations do (registrations: C67, C38) *)
Theorem C69_registry_upkeep_does_exactly_this : forall c o s s',
  (forall w, dispatch c o (CTx (TxUnregisterSovereign w)) s = (Success, s') ->
     entry_set (tx_sov (rt_tx s)) (tx_sov (rt_tx s')) w None /\
     rt_tx s' = mkTx (tx_sov (rt_tx s')) (tx_prox (rt_tx s)) (tx_qe (rt_tx s)) (tx_tcb (rt_tx s)) (tx_allow_debug (rt_tx s)) (tx_allow_skip (rt_tx s)) /\
     emits s s' [EvRemovedSovereignEnclave w]) /\
  (forall w, dispatch c o (CTx (TxUnregisterProxied w)) s = (Success, s') ->
     entry_set (tx_prox (rt_tx s)) (tx_prox (rt_tx s')) w None /\
     rt_tx s' = mkTx (tx_sov (rt_tx s)) (tx_prox (rt_tx s')) (tx_qe (rt_tx s)) (tx_tcb (rt_tx s)) (tx_allow_debug (rt_tx s)) (tx_allow_skip (rt_tx s)) /\
     emits s s' [EvRemovedProxiedEnclave w]) /\
  (forall skip debug, dispatch c o (CTx (TxSetFlags skip debug)) s = (Success, s') ->
     rt_tx s' = mkTx (tx_sov (rt_tx s)) (tx_prox (rt_tx s)) (tx_qe (rt_tx s)) (tx_tcb (rt_tx s)) debug skip /\
     emits s s' [EvUpdatedSecurityFlags skip debug]) /\
  (forall k, dispatch c o (CTx k) s = (Success, s') ->
     unchanged_outside (fun p => match p with PTx | PEvents => true | _ => false end) s s').
Proof.
  intros c o s s'. split; [|split; [|split]].
  - intros w H. apply dispatch_iff in H. cbn [exec tx_exec] in H. apply unreg_sov_ok in H as (a & e & _ & _ & _ & ->).
    split; [apply entry_delete|split; reflexivity].
  - intros w H. apply dispatch_iff in H. cbn [exec tx_exec] in H. apply unreg_prox_ok in H as (a & e & _ & _ & _ & ->).
    split; [apply entry_delete|split; reflexivity].
  - intros sk d H. apply dispatch_iff in H. cbn [exec tx_exec] in H. apply set_flags_ok in H as (_ & ->). split; reflexivity.
  - intros k H. replace s' with (dispatch c o (CTx k) s).2 by (rewrite H; auto). apply C58_pallets_write_only_their_parts.
Qed.
Print Assumptions C69_registry_upkeep_does_exactly_this.

(** ** Claims *)
(** [signer]'s claim is paid to [dest]: removed with its schedule and statement, the total lowered,
    the amount minted (nothing if it would not bring [dest] above the existential deposit or would
    overflow) and the schedule put on [dest] *)
Definition paid_out (c : cfg) (s s' : rt) (signer : bytes) (dest : acct) : Prop :=
  exists due, cl_claims (rt_cl s) !! signer = Some due /\ due <= cl_total (rt_cl s) /\
  entry_set (cl_claims (rt_cl s)) (cl_claims (rt_cl s')) signer None /\
  cl_total (rt_cl s') + due = cl_total (rt_cl s) /\
  entry_set (cl_vesting (rt_cl s)) (cl_vesting (rt_cl s')) signer None /\
  entry_set (cl_signing (rt_cl s)) (cl_signing (rt_cl s')) signer None /\
  let lost := (due =? 0) || ((free s dest =? 0) && (due <? c_ed c)) || (c_bal_max c <? free s dest + due) in
  (forall x, free s' x = if decide (x = dest) then free s dest + (if lost then 0 else due) else free s x) /\
  emits s s' (EvClaimed dest signer due :: if lost then [] else [EvDeposit dest due]) /\
  match cl_vesting (rt_cl s) !! signer with
  | None | Some (0, _, _) => rt_vest s' = rt_vest s /\ locks_same s s'
  | Some (amount, per, start) =>
      let left := amount - (rt_blk s - start) * per in
      rt_vest s !! dest = None /\
      entry_set (rt_vest s) (rt_vest s') dest (if left =? 0 then None else Some [(amount, per, start)]) /\
      lock_set s s' LVesting dest left
  end.
(** The entry under [old], if there is one, is moved to [new] *)
Definition entry_moved {A} (m m' : gmap bytes A) (old new : bytes) : Prop :=
  match m !! old with
  | None => m' = m
  | Some v => m' !! new = Some v /\ (new <> old -> m' !! old = None) /\
      (forall x, x <> old -> x <> new -> m' !! x = m !! x)
  end.
Definition cl_does (c : cfg) (o : origin) (k : cl_call) (s s' : rt) : Prop :=
  let m := rt_cl s in let m' := rt_cl s' in
  match k with
  | ClClaim dest sig => exists signer, eth_recover c sig (to_ascii_hex dest) [] = Some signer /\
      paid_out c s s' signer dest /\ cl_preclaims m' = cl_preclaims m
  | ClClaimAttest dest sig text => exists signer, eth_recover c sig (to_ascii_hex dest) text = Some signer /\
      paid_out c s s' signer dest /\ cl_preclaims m' = cl_preclaims m
  | ClAttest _ => exists a signer, o = Signed a /\ cl_preclaims m !! a = Some signer /\
      paid_out c s s' signer a /\ entry_set (cl_preclaims m) (cl_preclaims m') a None
  | ClMint who v vs st =>
      entry_set (cl_claims m) (cl_claims m') who (Some v) /\
      (cl_total m + v <= c_bal_max c -> cl_total m' = cl_total m + v) /\
      (match vs with Some x => entry_set (cl_vesting m) (cl_vesting m') who (Some x) | None => cl_vesting m' = cl_vesting m end) /\
      (match st with Some x => entry_set (cl_signing m) (cl_signing m') who (Some x) | None => cl_signing m' = cl_signing m end) /\
      cl_preclaims m' = cl_preclaims m /\
      balances_same s s' /\ locks_same s s' /\ rt_vest s' = rt_vest s /\ emits s s' []
  | ClMove old new pre =>
      entry_moved (cl_claims m) (cl_claims m') old new /\ entry_moved (cl_vesting m) (cl_vesting m') old new /\
      entry_moved (cl_signing m) (cl_signing m') old new /\ cl_total m' = cl_total m /\
      (forall x, cl_preclaims m' !! x =
         if bool_decide (pre = Some x) && bool_decide (cl_preclaims m !! x = Some old) then Some new else cl_preclaims m !! x) /\
      balances_same s s' /\ locks_same s s' /\ rt_vest s' = rt_vest s /\ emits s s' []
  end.

Lemma write_vesting_other a l s u s' : write_vesting a l s = Ok u s' ->
  forall i x, ~ (i = LVesting /\ x = a) -> locked s' i x = locked s i x.
Proof.
  unfold write_vesting. intros H i x Hn. apply bind_ok in H as (blk & s1 & H1 & H). apply gets_ok in H1 as [-> ->].
  apply bind_ok in H as (u1 & s1 & H1 & H). unfold modify in H1. injection H1 as <-.
  transitivity (locked s1 i x); [|rewrite <- H0; reflexivity].
  assert (LVesting <> i \/ a <> x) as Hd by (destruct (decide (LVesting = i)); [right; intros ->; apply Hn; auto|auto]).
  destruct (_ =? 0); [eapply locked_remove_lock_other|eapply locked_set_lock_other]; eauto.
Qed.
Lemma process_paid c signer dest s s' : process_claim c signer dest s = Ok tt s' ->
  paid_out c s s' signer dest /\ cl_preclaims (rt_cl s') = cl_preclaims (rt_cl s).
Proof.
  intros H. pose proof (process_ok _ _ _ _ _ H) as (due & H1 & H2 & H3 & H4 & H5 & H6 & H7 & _).
  split; [|rewrite H5; auto]. exists due. split; [auto|]. split; [auto|]. rewrite H5. cbn [cl_claims cl_total cl_vesting cl_signing].
  split; [apply entry_delete|]. split; [lia|]. split; [apply entry_delete|]. split; [apply entry_delete|]. cbv zeta.
  assert (paid c s dest due = if (due =? 0) || ((free s dest =? 0) && (due <? c_ed c)) || (c_bal_max c <? free s dest + due) then 0 else due) as Ep.
  { unfold paid. destruct (N.eqb_spec due 0) as [->|]; cbn [orb]; [|reflexivity]. destruct (_ || _); reflexivity. }
  split; [intros x; rewrite H6, Ep; destruct (decide _) as [->|]; lia|].
  split.
  { unfold emits. rewrite H7, Ep. destruct (due =? 0) eqn:E0; cbn [orb].
    - reflexivity.
    - destruct (_ || _); [reflexivity|]. rewrite E0. reflexivity. }
  clear H1 H5 H6 H7 Ep. unfold process_claim in H.
  apply bind_ok in H as (oc & s1 & H1 & H). apply gets_ok in H1 as [-> ->].
  apply bind_ok in H as (due' & s1 & H1 & H). apply ok_or_ok in H1 as [Hdue ->].
  apply bind_ok in H as (tot & s1 & H1 & H). apply gets_ok in H1 as [-> ->].
  apply bind_ok in H as (u1 & s1 & H1 & H). apply ensure_ok in H1 as [Hle ->].
  apply bind_ok in H as (vs & s1 & H1 & H). apply gets_ok in H1 as [-> ->].
  apply bind_ok in H as (hv & s1 & H1 & H). apply gets_ok in H1 as [-> ->].
  apply bind_ok in H as (u2 & s1 & H1 & H). apply ensure_ok in H1 as [Hv ->].
  apply bind_ok in H as (u3 & s1 & H1 & H). apply deposit_paid in H1 as (_ & _ & _ & HV & HL & HB).
  apply bind_ok in H as (u4 & s2 & H1 & H).
  apply bind_ok in H as (u5 & s3 & H5 & H). unfold modify, upd_cl in H5. injection H5; intros <-; clear H5. unfold deposit_event, modify in H. injection H as <-.
  match goal with |- context [rt_vest ?t = rt_vest s] => set (s' := t) in * end.
  assert (rt_vest s' = rt_vest s2) as Ev by reflexivity.
  assert (forall i x, locked s' i x = locked s2 i x) as El by reflexivity. clearbody s'.
  unfold lock_set, locks_same. pose proof (locked_view _ _ HL) as HL'.
  destruct (cl_vesting (rt_cl s) !! signer) as [[[l pb] st]|] eqn:E.
  - apply bind_ok in H1 as (b & s3 & H1 & H). destruct b; [|discriminate H]. inversion H; subst u4 s3; clear H.
    unfold add_vesting_schedule in H1. destruct l as [|l].
    + cbn in H1. inversion H1; subst. split; [congruence|]. intros i x. rewrite El. apply HL'.
    + change (N.pos l =? 0) with false in H1. cbv iota in H1. destruct (N.eqb_spec pb 0) as [->|Hp]; [discriminate H1|].
      assert (rt_vest s !! dest = None) as Hno.
      { specialize (H3 (ex_intro _ _ eq_refl)). unfold has_vesting in H3. destruct (rt_vest s !! dest); [discriminate|auto]. }
      split; [exact Hno|].
      apply bind_ok in H1 as (old & s4 & H6 & H1). apply gets_ok in H6 as [-> ->]. rewrite HV, Hno in H1. cbn [default app] in H1.
      apply bind_ok in H1 as (u6 & s4 & H6 & H1). inversion H1; subst s4; clear H1.
      pose proof (write_vesting_other _ _ _ _ _ H6) as HO. apply write_vesting_ok in H6 as (_ & W1 & _ & W2 & _).
      assert (locked_at (N.pos l, pb, st) (rt_blk s) = N.pos l - (rt_blk s - st) * pb) as Ea by (unfold locked_at; rewrite N.max_l by lia; auto).
      rewrite HB in W1, W2. rewrite filter_cons, filter_nil in W1, W2.
      split.
      * intros x. rewrite Ev, W1. destruct (decide (dest = x)) as [->|]; [destruct (decide (x = x)); [|congruence]|destruct (decide (x = dest)); [congruence|rewrite HV; reflexivity]].
        destruct (N.eqb_spec (N.pos l - (rt_blk s - st) * pb) 0) as [Ez|Ez].
        -- rewrite decide_False by (intros HH; apply HH; congruence). reflexivity.
        -- rewrite decide_True by (rewrite Ea; auto). reflexivity.
      * intros i x. rewrite El. destruct (decide (i = LVesting /\ x = dest)) as [[-> ->]|Hn]; [|rewrite <- HL'; apply HO, Hn]. rewrite W2.
        destruct (decide (N.pos l - (rt_blk s - st) * pb = 0)) as [Ez|Ez].
        -- rewrite decide_False by (intros HH; apply HH; congruence). cbn [foldr]. auto.
        -- rewrite decide_True by (rewrite Ea; auto). cbn [foldr]. lia.
  - inversion H1; subst. split; [congruence|]. intros i x. rewrite El. apply HL'.
Qed.
Lemma move_key_moved {A} (m : gmap bytes A) old new : entry_moved m (move_key old new m) old new.
Proof.
  unfold entry_moved, move_key. destruct (m !! old) as [v|]; [|auto].
  split; [apply lookup_insert|]. split.
  - intros Hn. rewrite lookup_insert_ne by auto. apply lookup_delete.
  - intros x H1 H2. rewrite lookup_insert_ne by auto. apply lookup_delete_ne. auto.
Qed.
Theorem C69_claims_calls_do_exactly_this : forall c o k s s', dispatch c o (CCl k) s = (Success, s') ->
  cl_does c o k s s' /\
  unchanged_outside (fun p => match p with PCl | PFree | PLocks | PVest | PEvents => true | _ => false end) s s'.
Proof.
  intros c o k s s' H. split.
  2: { replace s' with (dispatch c o (CCl k) s).2 by (rewrite H; auto). apply C58_pallets_write_only_their_parts. }
  apply dispatch_iff in H. cbn [exec] in H. destruct k; cbn [cl_exec] in H; unfold cl_does; cbv zeta.
  - apply claim_ok in H as (_ & signer & Hs & _ & H). exists signer. split; [auto|]. apply process_paid, H.
  - apply mint_ok in H as (_ & t & Ht & ->). unfold upd_cl. cbn [rt_cl set_cl cl_claims cl_total cl_vesting cl_signing cl_preclaims].
    split; [apply entry_insert|]. split; [intros; destruct Ht as [[_ ?]|[? _]]; lia|].
    split; [destruct vs; [apply entry_insert|auto]|]. split; [destruct st; [apply entry_insert|auto]|].
    repeat (split; [first [reflexivity|intros ?; reflexivity]|]). reflexivity.
  - apply claim_attest_ok in H as (_ & signer & Hs & _ & H). exists signer. split; [auto|]. apply process_paid, H.
  - apply attest_ok in H as (a & signer & s1 & -> & Hp & _ & H & ->). exists a, signer. split; [auto|]. split; [auto|].
    apply process_paid in H as [H Hq]. split; [|unfold upd_cl; cbn [rt_cl set_cl cl_preclaims]; rewrite Hq; apply entry_delete]. exact H.
  - apply move_ok in H as (_ & ->). unfold upd_cl. cbn [rt_cl set_cl cl_claims cl_total cl_vesting cl_signing cl_preclaims].
    split; [apply move_key_moved|]. split; [apply move_key_moved|]. split; [apply move_key_moved|]. split; [auto|].
    split; [|repeat (split; [first [reflexivity|intros ?; reflexivity]|]); reflexivity].
    intros x. destruct pre as [p|].
    + destruct (decide (p = x)) as [->|Hn].
      * rewrite (bool_decide_true (Some x = Some x)) by auto. cbn [andb]. destruct (cl_preclaims (rt_cl s) !! x) as [z|] eqn:E.
        -- destruct (beq z old) eqn:Eb; [apply beq_true in Eb; subst z; rewrite bool_decide_true by auto; apply lookup_insert|].
           apply beq_false in Eb. rewrite bool_decide_false by congruence. auto.
        -- rewrite bool_decide_false by congruence. auto.
      * rewrite (bool_decide_false (Some p = Some x)) by congruence. cbn [andb].
        destruct (cl_preclaims (rt_cl s) !! p) as [z|]; [|auto]. destruct (beq z old); [|auto]. apply lookup_insert_ne. auto.
    + rewrite bool_decide_false by congruence. auto.
Qed.
Print Assumptions C69_claims_calls_do_exactly_this.

(** ** Assets and relay-chain messages *)
Theorem C69_asset_registry_calls_do_exactly_this : forall c o s s',
  (forall i l, dispatch c o (CAr (ArRegister i l)) s = (Success, s') ->
     entry_set (ar_loc (rt_ar s)) (ar_loc (rt_ar s')) i (Some l) /\
     entry_set (ar_id (rt_ar s)) (ar_id (rt_ar s')) l (Some i) /\ emits s s' [EvReserveAssetRegistered i l]) /\
  (forall i, dispatch c o (CAr (ArUnregister i)) s = (Success, s') -> exists l, ar_loc (rt_ar s) !! i = Some l /\
     entry_set (ar_loc (rt_ar s)) (ar_loc (rt_ar s')) i None /\
     entry_set (ar_id (rt_ar s)) (ar_id (rt_ar s')) l None /\ emits s s' [EvReserveAssetUnregistered i l]) /\
  (forall k, dispatch c o (CAr k) s = (Success, s') ->
     unchanged_outside (fun p => match p with PReg | PEvents => true | _ => false end) s s').
Proof.
  intros c o s s'. split; [|split].
  - intros i l H. apply dispatch_iff in H. cbn [exec ar_exec] in H. apply XcmProps.register_ok in H as (_ & _ & _ & _ & ->).
    split; [apply entry_insert|]. split; [apply entry_insert|reflexivity].
  - intros i H. apply dispatch_iff in H. cbn [exec ar_exec] in H. apply unregister_ok in H as (_ & l & Hl & ->). exists l. split; [auto|].
    split; [apply entry_delete|]. split; [apply entry_delete|reflexivity].
  - intros k H. replace s' with (dispatch c o (CAr k) s).2 by (rewrite H; auto). apply C58_pallets_write_only_their_parts.
Qed.
Print Assumptions C69_asset_registry_calls_do_exactly_this.
Theorem C69_swap_does_exactly_this : forall c o self other w fee s s',
  dispatch c o (CXt (XtSwap self other w fee)) s = (Success, s') ->
  exists h, let msg := [XWithdrawAsset (mkLoc 1 []) fee; XBuyExecution (mkLoc 1 []) fee;
      XTransact w ([70; 3] ++ [self mod 256; self / 256 mod 256; self / 65536 mod 256; self / 16777216 mod 256] ++
                   [other mod 256; other / 256 mod 256; other / 65536 mod 256; other / 16777216 mod 256]);
      XRefundSurplus; XDepositAsset (mkLoc 1 [JParachain (c_own_para c)])] in
  c_router c msg = inr h /\ rt_out s' = msg :: rt_out s /\
  emits s s' [EvSwapTransactSent self other; EvSentXcm h] /\
  unchanged_outside (fun p => match p with POut | PEvents => true | _ => false end) s s'.
Proof.
  intros c o self other w fee s s' H.
  assert (unchanged_outside (fun p => match p with POut | PEvents => true | _ => false end) s s') as HU.
  { replace s' with (dispatch c o (CXt (XtSwap self other w fee)) s).2 by (rewrite H; auto). apply C58_pallets_write_only_their_parts. }
  apply dispatch_iff in H. cbn [exec xt_exec] in H. unfold send_swap_ump in H.
  apply bind_ok in H as (u1 & s1 & H1 & H). apply ensure_ok in H1 as [_ ->].
  apply bind_ok in H as (u2 & s1 & H1 & H). apply ensure_ok in H1 as [_ ->].
  apply bind_ok in H as (u3 & s1 & H1 & H). apply ensure_ok in H1 as [_ ->].
  apply bind_ok in H as (u4 & s1 & H1 & H). apply ensure_ok in H1 as [_ ->]. cbv zeta in *.
  assert (construct_xcm (c_own_para c) (swap_call self other) w fee = [XWithdrawAsset (mkLoc 1 []) fee; XBuyExecution (mkLoc 1 []) fee;
      XTransact w ([70; 3] ++ [self mod 256; self / 256 mod 256; self / 65536 mod 256; self / 16777216 mod 256] ++
                   [other mod 256; other / 256 mod 256; other / 65536 mod 256; other / 16777216 mod 256]);
      XRefundSurplus; XDepositAsset (mkLoc 1 [JParachain (c_own_para c)])]) as Em.
  { unfold construct_xcm, swap_call, le_bytes. cbn [app]. rewrite !N.div_div by discriminate. reflexivity. }
  rewrite Em in H. destruct (c_router c _) as [e|h] eqn:Er; [discriminate H|]. exists h. split; [reflexivity|].
  unfold deposit_event, modify, bind in H. injection H as <-. split; [reflexivity|]. split; [reflexivity|exact HU].
Qed.
Print Assumptions C69_swap_does_exactly_this.

(** ** Concrete calls of every pallet that succeed, and what they do *)
Example C69_example_teerdays :
  let s := run cfg0 (genesis_state (gen0 [alice])) [call_td alice (TdBond 100); ONextBlock 50] in
  let s' := (dispatch cfg0 (Signed alice) (CTd (TdUnbond 40)) s).2 in
  (dispatch cfg0 (Signed alice) (CTd (TdUnbond 40)) s).1 = Success /\
  td_bonds (rt_td s') !! alice = Some (mkBond 60 5050 3000) /\ td_pending (rt_td s') !! alice = Some (6050, 40) /\
  (dispatch cfg0 (Signed bob) (CTd (TdUpdateOther alice)) s).1 = Success /\
  td_bonds (rt_td (dispatch cfg0 (Signed bob) (CTd (TdUpdateOther alice)) s).2) !! alice = Some (mkBond 100 5050 5000) /\
  let t := run cfg0 s [OCall (Signed alice) (CTd (TdUnbond 40)); ONextBlock 1000] in
  (dispatch cfg0 (Signed alice) (CTd TdWithdrawUnbonded) t).1 = Success /\
  locked (dispatch cfg0 (Signed alice) (CTd TdWithdrawUnbonded) t).2 LTeerdays alice = 60.
Proof. vm_compute. repeat split; reflexivity. Qed.
Example C69_example_bridge :
  let sh := acc 9 in
  let s := run cfg0 (genesis_state (gen0 [alice; bob])) [register bob sh; call_eb alice (EbShield sh [1] 300)] in
  let s' := (dispatch cfg0 (Signed bob) (CEb (EbUnshield sh carol 295 [7])) s).2 in
  (dispatch cfg0 (Signed bob) (CEb (EbUnshield sh carol 295 [7])) s).1 = Success /\
  free s' sh = 0 /\ free s' carol = 295 /\ eb_exec (rt_eb s') !! [7] = Some 1 /\
  eb_status (rt_eb s') !! sh = Some [mkSstat bob sh 0] /\
  emits s s' [EvUnshieldedFunds sh carol 295; EvTransfer sh carol 295; EvDust sh 5] /\
  (dispatch cfg0 (Signed bob) (CSc (ScConfirm sh None (mkSconf 4 [5]))) s').1 = Success /\
  rt_sc (dispatch cfg0 (Signed bob) (CSc (ScConfirm sh None (mkSconf 4 [5]))) s').2 !! sh = Some (mkSconf 4 [5]).
Proof. vm_compute. repeat split; reflexivity. Qed.
Example C69_example_oracle :
  let s := run cfg0 (genesis_state (gen0 [bob])) [register bob (acc 9); OCall Root (CTo (ToAdd [1] (acc 9)))] in
  (dispatch cfg0 (Signed bob) (CTo (ToUpdateRate [1] [2] (Some 77))) s).1 = Success /\
  (dispatch cfg0 (Signed bob) (CTo (ToUpdateOracle [3] [1] [4; 5])) s).1 = Success /\
  to_data (rt_to (dispatch cfg0 (Signed bob) (CTo (ToUpdateOracle [3] [1] [4; 5])) s).2) !! ([3], [1]) = Some [4; 5] /\
  (dispatch cfg0 Root (CTo (ToRemove [1] (acc 9))) s).1 = Success.
Proof. vm_compute. repeat split; reflexivity. Qed.
Example C69_example_claims :
  let s := run cfg0 (genesis_state (gen0 [])) [OCall Root (CCl (ClMint (zeros 20) 500 (Some (400, 3, 0)) None)); ONextBlock 1; ONextBlock 1] in
  let k := CCl (ClClaim alice (zeros 65)) in
  let s' := (dispatch cfg0 NoneO k s).2 in
  (dispatch cfg0 NoneO k s).1 = Success /\ free s' alice = 500 /\ locked s' LVesting alice = 394 /\
  cl_claims (rt_cl s') !! zeros 20 = None /\ cl_total (rt_cl s') = 0 /\
  (dispatch cfg0 Root (CCl (ClMove (zeros 20) (replicate 20 1) None)) s).1 = Success.
Proof. vm_compute. repeat split; reflexivity. Qed.
Example C69_example_misc :
  let s := run cfg0 (genesis_state (gen0 [])) [OCreateAsset 5 1; OCall (Signed bob) (CTx (TxRegister (acc 9) None (MSkip false))); ONextBlock 200000000] in
  (dispatch cfg0 (Signed alice) (CTx (TxUnregisterSovereign bob)) s).1 = Success /\
  (dispatch cfg0 Root (CTx (TxSetFlags false true)) s).1 = Success /\
  (dispatch cfg0 Root (CAr (ArRegister 5 (mkLoc 1 [JParachain 7]))) s).1 = Success /\
  (dispatch cfg0 Root (CXt (XtSwap 2267 2039 (1, 2) 3)) s).1 = Success.
Proof. vm_compute. repeat split; reflexivity. Qed.
