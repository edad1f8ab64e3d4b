(** * Lemmas on the calls of pallet claims. *)
From Verif Require Import Base State Env TeerdaysModel TeerexBase SgxVerifyModel TeerexModel
  EnclaveBridgeModel SidechainModel TeeracleModel ClaimsModel AssetRegistryModel XcmTransactorModel
  Runtime Frame EnvFacts Ledger Events.

(** What arrives at [dest] when [due] is deposited there in state [s] *)
Definition paid (c : cfg) (s : rt) (dest : acct) (due : N) : N :=
  if ((free s dest =? 0) && (due <? c_ed c)) || (c_bal_max c <? free s dest + due) then 0 else due.
Lemma deposit_paid c a v s u s' : deposit_creating c a v s = Ok u s' ->
  (forall b, free s' b = free s b + if decide (b = a) then paid c s a v else 0) /\
  rt_ev s' = (if paid c s a v =? 0 then [] else [EvDeposit a v]) ++ rt_ev s /\
  rt_cl s' = rt_cl s /\ rt_vest s' = rt_vest s /\ v_locks s' = v_locks s /\ rt_blk s' = rt_blk s.
Proof.
  intros H.
  assert (rt_cl s' = rt_cl s /\ rt_vest s' = rt_vest s /\ v_locks s' = v_locks s /\ rt_blk s' = rt_blk s) as HR.
  { revert H. unfold deposit_creating, deposit_event. destruct (v =? 0); [intros H; inv_rt H; auto|].
    intros H. apply bind_ok in H as (f & s1 & H1 & H). inv_rt H1. destruct (_ && _); [inv_rt H; auto|].
    destruct (_ <? _); inv_rt H; auto. }
  apply deposit_ok in H as [(-> & Hc)|(Hv & Hc & Hm & HF & HE)].
  - assert (paid c s a v = 0) as Hp.
    { unfold paid. destruct Hc as [->|[[Hf Hl]|Ho]].
      - destruct (_ || _); auto.
      - rewrite Hf. destruct (N.ltb_spec v (c_ed c)); [auto|lia].
      - destruct (N.ltb_spec (c_bal_max c) (free s a + v)); [|lia]. rewrite orb_true_r. auto. }
    rewrite Hp. cbn [N.eqb app]. split; [|auto]. intros b. destruct (decide (b = a)); lia.
  - assert (paid c s a v = v) as Hp.
    { unfold paid. destruct (N.ltb_spec (c_bal_max c) (free s a + v)); [lia|]. rewrite orb_false_r.
      destruct (N.eqb_spec (free s a) 0), (N.ltb_spec v (c_ed c)); cbn [andb]; auto. destruct Hc; lia. }
    rewrite Hp. destruct (N.eqb_spec v 0); [contradiction|]. split; [|auto].
    intros b. rewrite HF. destruct (decide (b = a)) as [->|]; lia.
Qed.

Lemma vesting_ok a l pb st s b s' : add_vesting_schedule a l pb st s = Ok b s' ->
  b = (l =? 0) || negb (pb =? 0) /\ rt_cl s' = rt_cl s /\ rt_ev s' = rt_ev s /\ v_free s' = v_free s /\
  (b = true -> rt_vest s !! a = None -> l <> 0 ->
     locked s' LVesting a = locked_at (l, pb, st) (rt_blk s) /\
     rt_vest s' !! a = if locked_at (l, pb, st) (rt_blk s) =? 0 then None else Some [(l, pb, st)]).
Proof.
  unfold add_vesting_schedule. destruct (N.eqb_spec l 0) as [->|Hl]; cbn [orb].
  { intros H. inv_rt H. repeat split; auto; contradiction. }
  destruct (N.eqb_spec pb 0) as [->|Hp]; cbn [negb].
  { intros H. inv_rt H. repeat split; auto; discriminate. }
  intros H. apply bind_ok in H as (old & s1 & H1 & H). apply gets_ok in H1 as [-> ->].
  apply bind_ok in H as (u & s2 & H1 & H). inv_rt H.
  unfold write_vesting in H1. apply bind_ok in H1 as (blk & s3 & H2 & H1). apply gets_ok in H2 as [-> ->].
  apply bind_ok in H1 as (u' & s3 & H2 & H1).
  set (keep := filter _ _) in *. inv_rt H2.
  match type of H1 with context [if ?b then _ else _] => destruct b eqn:Ht end.
  - pose proof (locked_remove_lock _ _ _ _ _ H1) as HL. unfold remove_lock in H1. inv_rt H1.
    repeat split; auto.
    + rewrite HL. subst keep. rewrite H0 in Ht. cbn [default app] in Ht. rewrite filter_cons in Ht.
      destruct (decide (locked_at (l, pb, st) (rt_blk s) <> 0)) as [Hd|Hd].
      * rewrite filter_nil in Ht. cbn [foldr] in Ht. bools. lia.
      * destruct (N.eqb_spec (locked_at (l, pb, st) (rt_blk s)) 0); [auto|contradiction].
    + cbn [rt_vest put_locks set_bal set_vest]. subst keep. rewrite H0 in *. cbn [default app] in *. rewrite filter_cons in *.
      destruct (decide (locked_at (l, pb, st) (rt_blk s) <> 0)) as [Hd|Hd].
      * rewrite filter_nil in Ht. cbn [foldr] in Ht. bools. lia.
      * rewrite filter_nil. transitivity (None : option (list (N * N * N))); [apply (lookup_delete (rt_vest s) a)|].
        destruct (N.eqb_spec (locked_at (l, pb, st) (rt_blk s)) 0); [auto|contradiction].
  - assert (v_free s' = v_free s) as HF.
    { unfold set_lock in H1. inv_rt H1. destruct (_ =? 0); reflexivity. }
    assert (rt_cl s' = rt_cl s /\ rt_ev s' = rt_ev s) as [HC HE].
    { unfold set_lock in H1. inv_rt H1. destruct (_ =? 0); split; reflexivity. }
    repeat split; auto.
    + subst keep. rewrite H0 in *. cbn [default app] in *. rewrite filter_cons in *.
      destruct (decide (locked_at (l, pb, st) (rt_blk s) <> 0)) as [Hd|Hd].
      * rewrite filter_nil in *. cbn [foldr] in H1, Ht. apply locked_set_lock in H1; [|lia]. lia.
      * rewrite filter_nil in *. cbn [foldr] in Ht. discriminate.
    + assert (rt_vest s' = match keep with [] => delete a (rt_vest s) | _ => <[a := keep]> (rt_vest s) end) as ->.
      { unfold set_lock in H1. inv_rt H1. destruct (_ =? 0); reflexivity. }
      subst keep. rewrite H0 in *. cbn [default app] in *. rewrite filter_cons in *.
      destruct (decide (locked_at (l, pb, st) (rt_blk s) <> 0)) as [Hd|Hd].
      * rewrite filter_nil. etransitivity; [apply (lookup_insert (rt_vest s) a)|]. destruct (N.eqb_spec (locked_at (l, pb, st) (rt_blk s)) 0); [lia|reflexivity].
      * rewrite filter_nil in *. cbn [foldr] in Ht. discriminate.
Qed.

(** A successful claim *)
Lemma process_ok c signer dest s s' : process_claim c signer dest s = Ok tt s' ->
  exists due, cl_claims (rt_cl s) !! signer = Some due /\ due <= cl_total (rt_cl s) /\
  (is_Some (cl_vesting (rt_cl s) !! signer) -> has_vesting s dest = false) /\
  (forall l st, cl_vesting (rt_cl s) !! signer = Some (l, 0, st) -> l = 0) /\
  rt_cl s' = mkCl (delete signer (cl_claims (rt_cl s))) (cl_total (rt_cl s) - due) (delete signer (cl_vesting (rt_cl s)))
                  (delete signer (cl_signing (rt_cl s))) (cl_preclaims (rt_cl s)) /\
  (forall a, free s' a = free s a + if decide (a = dest) then paid c s dest due else 0) /\
  rt_ev s' = EvClaimed dest signer due :: (if paid c s dest due =? 0 then [] else [EvDeposit dest due]) ++ rt_ev s /\
  (forall l pb st, cl_vesting (rt_cl s) !! signer = Some (l, pb, st) -> l <> 0 ->
     locked s' LVesting dest = locked_at (l, pb, st) (rt_blk s) /\
     rt_vest s' !! dest = if locked_at (l, pb, st) (rt_blk s) =? 0 then None else Some [(l, pb, st)]).
Proof.
  unfold process_claim. intros H. apply bind_ok in H as (oc & s1 & H1 & H). apply gets_ok in H1 as [-> ->].
  apply bind_ok in H as (due & s1 & H1 & H). apply ok_or_ok in H1 as [Hdue ->].
  apply bind_ok in H as (tot & s1 & H1 & H). apply gets_ok in H1 as [-> ->].
  apply bind_ok in H as (u1 & s1 & H1 & H). apply ensure_ok in H1 as [Hle ->].
  apply bind_ok in H as (vs & s1 & H1 & H). apply gets_ok in H1 as [-> ->].
  apply bind_ok in H as (hv & s1 & H1 & H). apply gets_ok in H1 as [-> ->].
  apply bind_ok in H as (u2 & s1 & H1 & H). apply ensure_ok in H1 as [Hv ->].
  apply bind_ok in H as (u3 & s1 & H1 & H). apply deposit_paid in H1 as (HF & HE & HC & HV & HL & HB).
  apply bind_ok in H as (u4 & s2 & H1 & H).
  apply bind_ok in H as (u5 & s3 & H2 & H). unfold modify in H2. inv_rt H2. unfold deposit_event in H. inv_rt H.
  exists due. split; [auto|]. apply N.leb_le in Hle. split; [auto|].
  destruct (cl_vesting (rt_cl s) !! signer) as [[[l pb] st]|] eqn:Ev.
  - apply bind_ok in H1 as (b & s3 & H1 & H2). apply vesting_ok in H1 as (Hb & HC2 & HE2 & HF2 & HX).
    destruct b; [|discriminate H2]. inv_rt H2. symmetry in Hb.
    assert (has_vesting s dest = false) as Hhv by (destruct (has_vesting s dest); [discriminate Hv|auto]).
    split; [auto|]. split.
    { intros l' st' E. inversion E; subst. destruct (N.eqb_spec l' 0); [auto|discriminate Hb]. }
    split; [unfold upd_cl; cbn; rewrite HC2, HC; auto|].
    split; [intros a; change (free (add_ev ?e ?t) a) with (free t a); change (free (upd_cl ?f ?t) a) with (free t a); rewrite (free_view _ _ HF2); auto|].
    split; [cbn; rewrite HE2, HE; auto|].
    intros l' pb' st' E Hl. inversion E; subst. unfold has_vesting in Hhv.
    rewrite HV, HB in HX. apply HX; auto. destruct (rt_vest s !! dest); [discriminate|auto].
  - inv_rt H1. split; [intros [x E]; discriminate E|]. split; [discriminate|].
    split; [unfold upd_cl; cbn; rewrite HC; auto|].
    split; [intros a; change (free (add_ev ?e ?t) a) with (free t a); change (free (upd_cl ?f ?t) a) with (free t a); auto|].
    split; [cbn; rewrite HE; auto|]. discriminate.
Qed.

(** The calls *)
Lemma claim_ok c o dest sig s s' : claim c o dest sig s = Ok tt s' ->
  o = NoneO /\ exists signer, eth_recover c sig (to_ascii_hex dest) [] = Some signer /\
  cl_signing (rt_cl s) !! signer = None /\ process_claim c signer dest s = Ok tt s'.
Proof.
  unfold claim. intros H. apply bind_ok in H as (u & s1 & H1 & H). apply ensure_none_ok in H1 as [-> ->].
  apply bind_ok in H as (sg & s1 & H1 & H). apply ok_or_ok in H1 as [Hs ->].
  apply bind_ok in H as (st & s1 & H1 & H). apply gets_ok in H1 as [-> ->].
  apply bind_ok in H as (u1 & s1 & H1 & H). apply ensure_ok in H1 as [Hst ->].
  split; [auto|]. exists sg. split; [auto|]. split; [|auto]. destruct (cl_signing (rt_cl s) !! sg); [discriminate|auto].
Qed.
Definition required_text (s : rt) (signer text : bytes) : Prop :=
  forall k, cl_signing (rt_cl s) !! signer = Some k -> text = to_text k.
Lemma statement_ok_spec s signer text : statement_ok (cl_signing (rt_cl s) !! signer) text = true <-> required_text s signer text.
Proof.
  unfold statement_ok, required_text. destruct (cl_signing (rt_cl s) !! signer) as [k|].
  - rewrite beq_true. split; [intros <- k' E; inversion E; auto|intros H; symmetry; auto].
  - split; [discriminate|auto].
Qed.
Lemma claim_attest_ok c o dest sig text s s' : claim_attest c o dest sig text s = Ok tt s' ->
  o = NoneO /\ exists signer, eth_recover c sig (to_ascii_hex dest) text = Some signer /\
  required_text s signer text /\ process_claim c signer dest s = Ok tt s'.
Proof.
  unfold claim_attest. intros H. apply bind_ok in H as (u & s1 & H1 & H). apply ensure_none_ok in H1 as [-> ->].
  apply bind_ok in H as (sg & s1 & H1 & H). apply ok_or_ok in H1 as [Hs ->].
  apply bind_ok in H as (st & s1 & H1 & H). apply gets_ok in H1 as [-> ->].
  apply bind_ok in H as (u1 & s1 & H1 & H). apply ensure_ok in H1 as [Hst ->].
  split; [auto|]. exists sg. split; [auto|]. split; [apply statement_ok_spec; auto|auto].
Qed.
Lemma attest_ok c o text s s' : attest c o text s = Ok tt s' ->
  exists a signer s1, o = Signed a /\ cl_preclaims (rt_cl s) !! a = Some signer /\ required_text s signer text /\
  process_claim c signer a s = Ok tt s1 /\
  s' = upd_cl (fun k => mkCl (cl_claims k) (cl_total k) (cl_vesting k) (cl_signing k) (delete a (cl_preclaims k))) s1.
Proof.
  unfold attest. intros H. apply bind_ok in H as (a & s1 & H1 & H). apply ensure_signed_ok in H1 as [-> ->].
  apply bind_ok in H as (sg & s1 & H1 & H). apply gets_ok in H1 as [-> ->].
  apply bind_ok in H as (signer & s1 & H1 & H). apply ok_or_ok in H1 as [Hs ->].
  apply bind_ok in H as (st & s1 & H1 & H). apply gets_ok in H1 as [-> ->].
  apply bind_ok in H as (u1 & s1 & H1 & H). apply ensure_ok in H1 as [Hst ->].
  apply bind_ok in H as (u2 & s1 & H1 & H). destruct u2. unfold modify in H. inv_rt H.
  exists a, signer, s1. repeat (split; [auto; fail|]). split; [apply statement_ok_spec; auto|auto].
Qed.
Lemma mint_ok c o who v vs st s s' : mint_claim c o who v vs st s = Ok tt s' ->
  o = Root /\ exists t, (cl_total (rt_cl s) + v <= c_bal_max c /\ t = cl_total (rt_cl s) + v \/
    c_bal_max c < cl_total (rt_cl s) + v /\ c_ovf c = false) /\
  s' = upd_cl (fun k => mkCl (<[who := v]> (cl_claims k)) t
         (match vs with Some v => <[who := v]> (cl_vesting k) | None => cl_vesting k end)
         (match st with Some x => <[who := x]> (cl_signing k) | None => cl_signing k end) (cl_preclaims k)) s.
Proof.
  unfold mint_claim. intros H. apply bind_ok in H as (u & s1 & H1 & H). apply ensure_root_ok in H1 as [-> ->].
  apply bind_ok in H as (t & s1 & H1 & H). apply gets_ok in H1 as [-> ->].
  apply bind_ok in H as (t' & s1 & H1 & H). unfold modify in H. inv_rt H.
  split; [auto|]. exists t'. revert H1. unfold plain_add.
  destruct (N.leb_spec (cl_total (rt_cl s) + v) (c_bal_max c)); [|destruct (c_ovf c)]; intros H1; inv_rt H1; auto.
Qed.
Lemma move_ok c o old new pre s s' : move_claim c o old new pre s = Ok tt s' ->
  (c_move_origin c o = true \/ o = Root) /\
  s' = upd_cl (fun k => mkCl (move_key old new (cl_claims k)) (cl_total k) (move_key old new (cl_vesting k))
         (move_key old new (cl_signing k))
         (match pre with
          | Some p => match cl_preclaims k !! p with
                      | Some a => if beq a old then <[p := new]> (cl_preclaims k) else cl_preclaims k
                      | None => cl_preclaims k
                      end
          | None => cl_preclaims k
          end)) s.
Proof.
  unfold move_claim. intros H. apply bind_ok in H as (u & s1 & H1 & H). apply ensure_ok in H1 as [Ho ->].
  unfold modify in H. inv_rt H. split; [|auto]. apply orb_true_iff in Ho as [?|?]; [auto|]. destruct o; try discriminate; auto.
Qed.

(** The claims storage changes only by calls of the pallet *)
Lemma cl_step c s x : rt_cl (step c s x) = rt_cl s \/
  exists o k, x = OCall o (CCl k) /\ cl_exec c o k s = Ok tt (step c s x).
Proof.
  destruct (op_may_write x PCl) eqn:Hw; [|left; exact (step_same c s x PCl Hw)].
  destruct x as [o k| | | | | | | | | |]; try discriminate Hw.
  destruct (step_call c s o k) as [(s' & E & Es)|Es]; [|left; rewrite Es; auto].
  destruct k as [x|x|x|x|x|x|x|x]; try discriminate Hw; cbn [exec] in E. right. exists o, x. rewrite Es. auto.
Qed.

(** ** Panics of a claim *)
Lemma process_cases c signer dest s :
  (exists e, process_claim c signer dest s = Err e s /\
     (e = SignerHasNoClaim /\ cl_claims (rt_cl s) !! signer = None \/
      e = PotUnderflow /\ (exists due, cl_claims (rt_cl s) !! signer = Some due /\ cl_total (rt_cl s) < due) \/
      e = VestedBalanceExists /\ is_Some (cl_vesting (rt_cl s) !! signer) /\ has_vesting s dest = true)) \/
  (exists due, cl_claims (rt_cl s) !! signer = Some due /\ due <= cl_total (rt_cl s) /\
     (is_Some (cl_vesting (rt_cl s) !! signer) -> has_vesting s dest = false) /\
     (process_claim c signer dest s = Panic /\ (exists l st, cl_vesting (rt_cl s) !! signer = Some (l, 0, st) /\ l <> 0) \/
      exists s', process_claim c signer dest s = Ok tt s')).
Proof.
  assert (forall due, exists s1, deposit_creating c dest due s = Ok tt s1 /\ True) as Hdep.
  { intros due. unfold deposit_creating, bind, gets, ret, modify, deposit_event. destruct (due =? 0); [eauto|].
    destruct (_ && _); [eauto|]. destruct (_ <? _); eauto. }
  unfold process_claim. rewrite (bind_fw _ _ s (cl_claims (rt_cl s) !! signer) s) by reflexivity.
  destruct (cl_claims (rt_cl s) !! signer) as [due|].
  2:{ left. exists SignerHasNoClaim. split; [|auto]. reflexivity. }
  rewrite (bind_fw _ _ s due s) by reflexivity. rewrite (bind_fw _ _ s (cl_total (rt_cl s)) s) by reflexivity.
  destruct (N.leb_spec due (cl_total (rt_cl s))) as [Hle|Hle].
  2:{ left. exists PotUnderflow. split; [reflexivity|]. right. left. eauto. }
  rewrite (bind_fw _ _ s tt s) by reflexivity.
  rewrite (bind_fw _ _ s (cl_vesting (rt_cl s) !! signer) s) by reflexivity.
  rewrite (bind_fw _ _ s (has_vesting s dest) s) by reflexivity.
  destruct (Hdep due) as (s1 & Hd & _).
  destruct (cl_vesting (rt_cl s) !! signer) as [[[l pb] st]|] eqn:Ev.
  - destruct (has_vesting s dest) eqn:Hh.
    { left. exists VestedBalanceExists. split; [reflexivity|]. right. right. eauto. }
    right. exists due. split; [auto|]. split; [auto|]. split; [auto|].
    rewrite (bind_fw _ _ s tt s) by reflexivity. rewrite (bind_fw _ _ s tt s1) by exact Hd.
    unfold add_vesting_schedule. destruct (N.eqb_spec l 0) as [->|Hl].
    { right. rewrite (bind_fw _ _ s1 tt s1) by reflexivity. unfold bind, modify, deposit_event. eexists. reflexivity. }
    destruct (N.eqb_spec pb 0) as [->|Hp].
    { left. split; [|eauto]. reflexivity. }
    right. unfold bind, write_vesting, gets, set_lock, remove_lock, modify, ret, deposit_event, bind.
    match goal with |- context [if ?b then _ else _] => destruct b end; eexists; reflexivity.
  - right. exists due. split; [auto|]. split; [auto|]. split; [intros [? E]; discriminate|].
    rewrite (bind_fw _ _ s tt s) by reflexivity. rewrite (bind_fw _ _ s tt s1) by exact Hd.
    right. unfold bind, ret, modify, deposit_event. eexists. reflexivity.
Qed.

(** Failing calls *)
Lemma claim_err c o dest sig s e s' : claim c o dest sig s = Err e s' ->
  e = BadOrigin /\ o <> NoneO \/
  o = NoneO /\ (e = InvalidEthereumSignature /\ eth_recover c sig (to_ascii_hex dest) [] = None \/
  exists signer, eth_recover c sig (to_ascii_hex dest) [] = Some signer /\
    (e = InvalidStatement /\ is_Some (cl_signing (rt_cl s) !! signer) \/
     cl_signing (rt_cl s) !! signer = None /\ process_claim c signer dest s = Err e s')).
Proof.
  unfold claim. intros H. apply bind_err_inv in H as [H|(u & s1 & H1 & H)].
  { left. destruct o; inversion H; auto; split; auto; discriminate. }
  apply ensure_none_ok in H1 as [-> ->]. right. split; [auto|].
  apply bind_err_inv in H as [H|(sg & s1 & H1 & H)].
  { apply ok_or_err in H as (H1 & H2 & H3). left. auto. }
  apply ok_or_ok in H1 as [Hs ->]. right. exists sg. split; [auto|].
  apply bind_err_inv in H as [H|(st & s1 & H1 & H)]; [discriminate H|]. apply gets_ok in H1 as [-> ->].
  apply bind_err_inv in H as [H|(u1 & s1 & H1 & H)].
  { apply ensure_err in H as (H1 & H2 & H3). left. split; [auto|]. destruct (cl_signing (rt_cl s) !! sg); [eauto|discriminate]. }
  apply ensure_ok in H1 as [Hst ->]. right. split; [|auto]. destruct (cl_signing (rt_cl s) !! sg); [discriminate|auto].
Qed.
Lemma claim_attest_err c o dest sig text s e s' : claim_attest c o dest sig text s = Err e s' ->
  e = BadOrigin /\ o <> NoneO \/
  o = NoneO /\ (e = InvalidEthereumSignature /\ eth_recover c sig (to_ascii_hex dest) text = None \/
  exists signer, eth_recover c sig (to_ascii_hex dest) text = Some signer /\
    (e = InvalidStatement /\ ~ required_text s signer text \/
     required_text s signer text /\ process_claim c signer dest s = Err e s')).
Proof.
  unfold claim_attest. intros H. apply bind_err_inv in H as [H|(u & s1 & H1 & H)].
  { left. destruct o; inversion H; auto; split; auto; discriminate. }
  apply ensure_none_ok in H1 as [-> ->]. right. split; [auto|].
  apply bind_err_inv in H as [H|(sg & s1 & H1 & H)].
  { apply ok_or_err in H as (H1 & H2 & H3). left. auto. }
  apply ok_or_ok in H1 as [Hs ->]. right. exists sg. split; [auto|].
  apply bind_err_inv in H as [H|(st & s1 & H1 & H)]; [discriminate H|]. apply gets_ok in H1 as [-> ->].
  apply bind_err_inv in H as [H|(u1 & s1 & H1 & H)].
  { apply ensure_err in H as (H1 & H2 & H3). left. split; [auto|]. intros Hr. apply statement_ok_spec in Hr. congruence. }
  apply ensure_ok in H1 as [Hst ->]. right. split; [apply statement_ok_spec; auto|auto].
Qed.
Lemma attest_err c o text s e s' : attest c o text s = Err e s' ->
  e = BadOrigin /\ (forall a, o <> Signed a) \/
  exists a, o = Signed a /\ (e = SenderHasNoClaim /\ cl_preclaims (rt_cl s) !! a = None \/
  exists signer, cl_preclaims (rt_cl s) !! a = Some signer /\
    (e = InvalidStatement /\ ~ required_text s signer text \/
     required_text s signer text /\ process_claim c signer a s = Err e s')).
Proof.
  unfold attest. intros H. apply bind_err_inv in H as [H|(a & s1 & H1 & H)].
  { left. destruct o; inversion H; auto; split; auto; discriminate. }
  apply ensure_signed_ok in H1 as [-> ->]. right. exists a. split; [auto|].
  apply bind_err_inv in H as [H|(op & s1 & H1 & H)]; [discriminate H|]. apply gets_ok in H1 as [-> ->].
  apply bind_err_inv in H as [H|(sg & s1 & H1 & H)].
  { apply ok_or_err in H as (H1 & H2 & H3). left. auto. }
  apply ok_or_ok in H1 as [Hs ->]. right. exists sg. split; [auto|].
  apply bind_err_inv in H as [H|(st & s1 & H1 & H)]; [discriminate H|]. apply gets_ok in H1 as [-> ->].
  apply bind_err_inv in H as [H|(u1 & s1 & H1 & H)].
  { apply ensure_err in H as (H1 & H2 & H3). left. split; [auto|]. intros Hr. apply statement_ok_spec in Hr. congruence. }
  apply ensure_ok in H1 as [Hst ->]. right. split; [apply statement_ok_spec; auto|].
  apply bind_err_inv in H as [H|(u2 & s2 & H1 & H)]; [auto|discriminate H].
Qed.
(** Forward execution *)
Lemma claim_fw c dest sig s signer : eth_recover c sig (to_ascii_hex dest) [] = Some signer ->
  cl_signing (rt_cl s) !! signer = None -> claim c NoneO dest sig s = process_claim c signer dest s.
Proof.
  intros H1 H2. unfold claim. rewrite (bind_fw _ _ s tt s) by reflexivity. rewrite H1.
  rewrite (bind_fw _ _ s signer s) by reflexivity. rewrite (bind_fw _ _ s (cl_signing (rt_cl s) !! signer) s) by reflexivity.
  rewrite H2. rewrite (bind_fw _ _ s tt s) by reflexivity. reflexivity.
Qed.
Lemma claim_attest_fw c dest sig text s signer : eth_recover c sig (to_ascii_hex dest) text = Some signer ->
  required_text s signer text -> claim_attest c NoneO dest sig text s = process_claim c signer dest s.
Proof.
  intros H1 H2. apply statement_ok_spec in H2. unfold claim_attest. rewrite (bind_fw _ _ s tt s) by reflexivity. rewrite H1.
  rewrite (bind_fw _ _ s signer s) by reflexivity. rewrite (bind_fw _ _ s (cl_signing (rt_cl s) !! signer) s) by reflexivity.
  rewrite H2. rewrite (bind_fw _ _ s tt s) by reflexivity. reflexivity.
Qed.
Lemma attest_fw c a text s signer : cl_preclaims (rt_cl s) !! a = Some signer -> required_text s signer text ->
  attest c (Signed a) text s =
  bind (process_claim c signer a) (fun _ => modify (upd_cl (fun k => mkCl (cl_claims k) (cl_total k) (cl_vesting k) (cl_signing k)
                                (delete a (cl_preclaims k))))) s.
Proof.
  intros H1 H2. apply statement_ok_spec in H2. unfold attest. rewrite (bind_fw _ _ s a s) by reflexivity.
  rewrite (bind_fw _ _ s (cl_preclaims (rt_cl s) !! a) s) by reflexivity. rewrite H1.
  rewrite (bind_fw _ _ s signer s) by reflexivity. rewrite (bind_fw _ _ s (cl_signing (rt_cl s) !! signer) s) by reflexivity.
  rewrite H2. rewrite (bind_fw _ _ s tt s) by reflexivity. reflexivity.
Qed.
(** Panicking calls *)
Lemma claim_panic c o dest sig s : claim c o dest sig s = Panic ->
  o = NoneO /\ exists signer, eth_recover c sig (to_ascii_hex dest) [] = Some signer /\
  cl_signing (rt_cl s) !! signer = None /\ process_claim c signer dest s = Panic.
Proof.
  intros H. destruct o; try discriminate H. split; [auto|]. revert H. unfold claim.
  rewrite (bind_fw _ _ s tt s) by reflexivity. destruct (eth_recover _ _ _ _) as [sg|]; [|discriminate].
  rewrite (bind_fw _ _ s sg s) by reflexivity. rewrite (bind_fw _ _ s (cl_signing (rt_cl s) !! sg) s) by reflexivity.
  intros H. exists sg. destruct (cl_signing (rt_cl s) !! sg) eqn:E; [discriminate H|]. auto.
Qed.
Lemma claim_attest_panic c o dest sig text s : claim_attest c o dest sig text s = Panic ->
  o = NoneO /\ exists signer, eth_recover c sig (to_ascii_hex dest) text = Some signer /\
  required_text s signer text /\ process_claim c signer dest s = Panic.
Proof.
  intros H. destruct o; try discriminate H. split; [auto|]. revert H. unfold claim_attest.
  rewrite (bind_fw _ _ s tt s) by reflexivity. destruct (eth_recover _ _ _ _) as [sg|]; [|discriminate].
  rewrite (bind_fw _ _ s sg s) by reflexivity. rewrite (bind_fw _ _ s (cl_signing (rt_cl s) !! sg) s) by reflexivity.
  intros H. exists sg. split; [auto|]. rewrite <- statement_ok_spec. destruct (statement_ok _ _) eqn:E; [|discriminate H]. auto.
Qed.
Lemma attest_panic c o text s : attest c o text s = Panic ->
  exists a signer, o = Signed a /\ cl_preclaims (rt_cl s) !! a = Some signer /\
  required_text s signer text /\ process_claim c signer a s = Panic.
Proof.
  intros H. destruct o as [|a|]; try discriminate H. revert H. unfold attest.
  rewrite (bind_fw _ _ s a s) by reflexivity. rewrite (bind_fw _ _ s (cl_preclaims (rt_cl s) !! a) s) by reflexivity.
  destruct (cl_preclaims (rt_cl s) !! a) as [sg|] eqn:E; [|discriminate].
  rewrite (bind_fw _ _ s sg s) by reflexivity. rewrite (bind_fw _ _ s (cl_signing (rt_cl s) !! sg) s) by reflexivity.
  intros H. exists a, sg. split; [auto|]. split; [auto|]. rewrite <- statement_ok_spec.
  destruct (statement_ok _ _) eqn:Es; [|discriminate H]. rewrite (bind_fw _ _ s tt s) in H by reflexivity.
  apply bind_panic_inv in H as [H|(u & s1 & _ & H)]; [auto|discriminate H].
Qed.
