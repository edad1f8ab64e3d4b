(** * Fees and weights: who pays (C72), and whether the declared storage writes cover what is written (C73). *)
From Verif Require Import Base State Env TeerdaysModel TeerexBase SgxVerifyModel TeerexModel
  EnclaveBridgeModel SidechainModel TeeracleModel ClaimsModel AssetRegistryModel XcmTransactorModel
  Runtime WeightsModel Frame EnvFacts Panic Examples TeerdaysProofs BridgeProofs TeeracleProps TeerexProofs
  ClaimsProofs ClaimsProps XcmProps VestingProps AttestationProps RuntimeProps EffectProps AcceptProps ErrorProps.

(** ** C72: who pays *)
(** A signed call is free exactly in three cases: any purge, any attestation, and a successful move of
    a claim. (A call that panics is not included in a block at all.) *)
Theorem C72_free_iff : forall c a k s, (dispatch c (Signed a) k s).1 <> Panicked ->
  (fee_due c (Signed a) k s = false <->
   (exists sh sub, k = CEb (EbPurge sh sub)) \/ (exists text, k = CCl (ClAttest text)) \/
   (exists old new pre, k = CCl (ClMove old new pre) /\ (dispatch c (Signed a) k s).1 = Success)).
Proof.
  intros c a k s Hp. unfold fee_due. destruct (dispatch c (Signed a) k s).1 as [|e|] eqn:E; [| |congruence].
  - split.
    + destruct k as [x|x|x|x|x|x|x|x]; try discriminate; destruct x; try discriminate; eauto 10.
    + intros [(sh & sub & ->)|[(text & ->)|(old & new & pre & -> & _)]]; reflexivity.
  - split.
    + destruct k as [x|x|x|x|x|x|x|x]; try discriminate; destruct x; try discriminate; eauto 10.
    + intros [(sh & sub & ->)|[(text & ->)|(old & new & pre & -> & H)]]; [reflexivity|reflexivity|congruence].
Qed.
Print Assumptions C72_free_iff.
(** A signed call that is free and changes anything is the payout of the sender's own pre-claimed
    claim, or a move by the origin configured for moves. *)
Theorem C72_free_call_with_effect : forall c a k s, fee_due c (Signed a) k s = false -> (dispatch c (Signed a) k s).2 <> s ->
  (exists text signer due, k = CCl (ClAttest text) /\ cl_preclaims (rt_cl s) !! a = Some signer /\
     cl_claims (rt_cl s) !! signer = Some due) \/
  (exists old new pre, k = CCl (ClMove old new pre) /\ c_move_origin c (Signed a) = true).
Proof.
  intros c a k s Hf He.
  assert (exists s', dispatch c (Signed a) k s = (Success, s')) as (s' & H).
  { unfold dispatch, run_call in *. destruct (exec c (Signed a) k s); cbn in He; [eauto|congruence|congruence]. }
  assert ((dispatch c (Signed a) k s).1 <> Panicked) as Hp by (rewrite H; discriminate).
  apply C72_free_iff in Hf as [(sh & sub & ->)|[(text & ->)|(old & new & pre & -> & _)]]; [| | |exact Hp].
  - apply dispatch_iff in H. cbn [exec eb_exec_call] in H. apply purge_ok in H as [H _]. discriminate H.
  - left. apply C69_claims_calls_do_exactly_this in H as [(a' & signer & Ha & Hs & (due & Hd & _) & _) _]. inversion Ha; subst a'. eauto 10.
  - right. apply dispatch_iff in H. cbn [exec cl_exec] in H. apply move_ok in H as (H & _). destruct H as [H|H]; [eauto 6|discriminate H].
Qed.
Print Assumptions C72_free_call_with_effect.
(** Every account, with or without funds, can have a purge call included in blocks any number of times:
    it is admitted, fails, leaves the state alone and costs nothing. *)
Theorem C72_purge_by_anyone_is_free : forall c a sh sub s,
  let k := CEb (EbPurge sh sub) in
  admitted s a k = true /\ dispatch c (Signed a) k s = (Failed BadOrigin, s) /\ fee_due c (Signed a) k s = false.
Proof. intros. repeat split. Qed.
Print Assumptions C72_purge_by_anyone_is_free.
Lemma attest_fails c a s text signer e : cl_preclaims (rt_cl s) !! a = Some signer ->
  (forall x, cl_signing (rt_cl s) !! signer = Some x -> text = to_text x) ->
  ((dispatch c (Signed a) (CCl (ClAttest text)) s).1 = Failed e <->
   match cl_claims (rt_cl s) !! signer with
   | None => e = SignerHasNoClaim
   | Some due => (cl_total (rt_cl s) < due /\ e = PotUnderflow) \/
       (due <= cl_total (rt_cl s) /\ cl_vesting (rt_cl s) !! signer <> None /\ rt_vest s !! a <> None /\
        e = VestedBalanceExists)
   end).
Proof.
  intros Hs Hst. rewrite C70_claims_answers. cbn [cl_demands app answers or_err or_panic payout_demands].
  assert (forall x, cl_preclaims (rt_cl s) !! a = Some x -> x = signer) as Hu by (intros x Hx; congruence).
  destruct (cl_claims (rt_cl s) !! signer) as [due|] eqn:Ec.
  - assert (forall x, cl_preclaims (rt_cl s) !! a = Some x -> is_Some (cl_claims (rt_cl s) !! x)) as Hc.
    { intros x Hx. rewrite (Hu x Hx), Ec. eauto. }
    assert (forall x, cl_preclaims (rt_cl s) !! a = Some x -> statement_met s x text) as Hm.
    { intros x Hx. rewrite (Hu x Hx). exact Hst. }
    split.
    + intros [[_ H]|[H _]]; [|exfalso; eauto]. destruct H as [[_ H]|[H _]]; [|exfalso; eauto].
      destruct H as [[_ H]|[H _]]; [|tauto]. destruct H as [[_ H]|[H _]]; [|tauto].
      destruct H as [[H1 H]|[H1 H]].
      * assert (due <= cl_total (rt_cl s)) as Hle by (apply (H1 signer); auto).
        destruct H as [[H2 H]|[H2 H]].
        -- destruct H as [[_ H]|[_ H]]; discriminate.
        -- right. injection H as ->. split; [auto|].
           split; [|split]; [intros E; apply H2; intros x Hx [y Hy]; rewrite (Hu x Hx) in Hy; congruence| |auto].
           intros E. apply H2. auto.
      * left. injection H as ->. split; [|auto]. apply N.nle_gt. intros Hle. apply H1. intros x d Hx Hd.
        rewrite (Hu x Hx), Ec in Hd. congruence.
    + intros H. left. split; [eauto|]. left. split; [eauto|]. left. split; [exact Hm|]. left. split; [exact Hc|].
      destruct H as [[H1 ->]|(H1 & H2 & H3 & ->)].
      * right. split; [|auto]. intros H. specialize (H signer due Hs Ec). lia.
      * left. split; [intros x d Hx Hd; rewrite (Hu x Hx), Ec in Hd; congruence|]. right. split; [|auto].
        intros H. apply H3, (H signer Hs). destruct (cl_vesting (rt_cl s) !! signer); [eauto|congruence].
  - split.
    + intros [[_ H]|[H _]]; [|exfalso; eauto]. destruct H as [[_ H]|[H _]]; [|exfalso; eauto].
      destruct H as [[_ H]|[H _]]; [|exfalso; apply H; intros x Hx; rewrite (Hu x Hx); exact Hst].
      destruct H as [[H _]|[_ H]]; [|congruence]. destruct (H signer Hs) as [? H']. congruence.
    + intros ->. left. split; [eauto|]. left. split; [eauto|]. left. split; [intros x Hx; rewrite (Hu x Hx); exact Hst|].
      right. split; [|auto]. intros H. destruct (H signer Hs) as [? H']. congruence.
Qed.
(** These, and attestations of a pre-claim that cannot be paid out, are all the free calls that are
    admitted and fail. *)
Theorem C72_admitted_free_failures : forall c a k s e,
  (admitted s a k = true /\ fee_due c (Signed a) k s = false /\ (dispatch c (Signed a) k s).1 = Failed e <->
   (exists sh sub, k = CEb (EbPurge sh sub) /\ e = BadOrigin) \/
   (exists text signer, k = CCl (ClAttest text) /\ cl_preclaims (rt_cl s) !! a = Some signer /\
      (forall x, cl_signing (rt_cl s) !! signer = Some x -> text = to_text x) /\
      match cl_claims (rt_cl s) !! signer with
      | None => e = SignerHasNoClaim
      | Some due => (cl_total (rt_cl s) < due /\ e = PotUnderflow) \/
          (due <= cl_total (rt_cl s) /\ cl_vesting (rt_cl s) !! signer <> None /\ rt_vest s !! a <> None /\
           e = VestedBalanceExists)
      end)).
Proof.
  intros c a k s e. split.
  - intros (Ha & Hf & He).
    assert ((dispatch c (Signed a) k s).1 <> Panicked) as Hp by (rewrite He; discriminate).
    apply C72_free_iff in Hf as [(sh & sub & ->)|[(text & ->)|(old & new & pre & -> & ?)]]; [| |congruence|exact Hp].
    + left. exists sh, sub. split; [auto|]. cbn in He. congruence.
    + right. cbn [admitted prevalidate] in Ha. destruct (cl_preclaims (rt_cl s) !! a) as [signer|] eqn:E; [|discriminate].
      exists text, signer. split; [auto|]. split; [auto|].
      assert (forall x, cl_signing (rt_cl s) !! signer = Some x -> text = to_text x) as Hst.
      { intros x Hx. rewrite Hx in Ha. destruct (beq text (to_text x)) eqn:Eb; [apply beq_true, Eb|discriminate]. }
      split; [exact Hst|]. apply (attest_fails c a s text signer e E Hst), He.
  - intros [(sh & sub & -> & ->)|(text & signer & -> & Hs & Hst & H)]; [repeat split|].
    apply (attest_fails c a s text signer e Hs Hst) in H. split; [|split; [|exact H]].
    + cbn [admitted prevalidate]. rewrite Hs. destruct (cl_signing (rt_cl s) !! signer) as [x|] eqn:E; [|auto].
      rewrite (Hst x eq_refl), beq_refl. reflexivity.
    + unfold fee_due. rewrite H. reflexivity.
Qed.
Print Assumptions C72_admitted_free_failures.
(** "A call that fails costs its sender a fee" is false. *)
Theorem C72_failing_calls_cost_a_fee_refuted : exists c g a k s, reachable c g s /\ free s a = 0 /\
  admitted s a k = true /\ (dispatch c (Signed a) k s).1 = Failed BadOrigin /\ fee_due c (Signed a) k s = false.
Proof.
  exists cfg0, (gen0 []), alice, (CEb (EbPurge [] alice)), (genesis_state (gen0 [])).
  split; [exists []; reflexivity|]. vm_compute. repeat split; reflexivity.
Qed.
Print Assumptions C72_failing_calls_cost_a_fee_refuted.
Example C72_example :
  let s := run cfg0 (genesis_state (gen0 [])) [OCall Root (CCl (ClMint (zeros 20) 500 None None))] in
  fee_due cfg0 (Signed alice) (CCl (ClMove (zeros 20) (zeros 20) None)) s = true /\
  fee_due cfg0 (Signed alice) (CCl (ClAttest [])) s = false /\ admitted s alice (CCl (ClAttest [])) = false /\
  fee_due cfg0 (Signed alice) (CEb (EbInvoke (zeros 32) [])) s = true /\ fee_due cfg0 Root (CEb (EbInvoke (zeros 32) [])) s = false.
Proof. vm_compute. repeat split; reflexivity. Qed.

(** *** The price of publishing a hash *)
(** The weight of a publication was measured with [l] = length of the data and [t] = number of topics,
    but is charged with the two exchanged. *)
Lemma sat64_small n : n <= u64_max -> sat64 n = n.
Proof. unfold sat64. lia. Qed.
Lemma publish_weight d l t : db_read d <= 10 ^ 12 -> db_write d <= 10 ^ 12 -> l <= 1000 -> t <= 1000 ->
  publish_hash_weight d l t =
  (28179644 + 318271 * l + 7329090 * t + db_read d * (3 + t) + db_write d * (1 + t), 8511 + 2475 * t).
Proof.
  intros Hr Hw Hl Ht. unfold publish_hash_weight, w_add, w_mul, w_parts, reads, writes. cbn [fst snd].
  change (10 ^ 12) with 1000000000000 in *.
  assert (db_read d * t <= 1000000000000 * 1000) by (apply N.mul_le_mono; auto).
  assert (db_write d * t <= 1000000000000 * 1000) by (apply N.mul_le_mono; auto).
  rewrite !N.mul_add_distr_l, (N.mul_1_l t).
  assert (u64_max = 18446744073709551615) as Eu by reflexivity.
  rewrite (sat64_small t) by (rewrite Eu; lia).
  remember (db_read d * t) as x eqn:Ex. remember (db_write d * t) as y eqn:Ey. clear Ex Ey.
  f_equal; repeat match goal with
    | |- context [sat64 ?n] => lazymatch n with context [sat64 _] => fail | _ => rewrite (sat64_small n) by (rewrite Eu; lia) end
    end; lia.
Qed.
Theorem C72_publication_charged_with_swapped_sizes : forall d w h topics data,
  db_read d <= 10 ^ 12 -> db_write d <= 10 ^ 12 -> lenN topics <= 1000 -> lenN data <= 1000 ->
  let charged := call_weight d w (CEb (EbPublish h topics data)) in
  let measured l t := publish_hash_weight d l t in
  charged = measured (lenN topics) (lenN data) /\
  (charged.1 < (measured (lenN data) (lenN topics)).1 <-> lenN data < lenN topics) /\
  (charged.2 < (measured (lenN data) (lenN topics)).2 <-> lenN data < lenN topics) /\
  (charged = measured (lenN data) (lenN topics) <-> lenN data = lenN topics).
Proof.
  intros d w h topics data Hr Hw Ht Hd. cbv zeta.
  assert (call_weight d w (CEb (EbPublish h topics data)) = publish_hash_weight d (lenN topics) (lenN data)) as ->.
  { cbn [call_weight eb_weight]. rewrite !N.min_l by (unfold u32_max; lia). reflexivity. }
  split; [auto|]. rewrite !publish_weight by assumption. cbn [fst snd].
  generalize dependent (lenN data). generalize dependent (lenN topics). intros T HT D HD.
  assert (D < T -> db_read d * D <= db_read d * T /\ db_write d * D <= db_write d * T) by (intros; split; apply N.mul_le_mono_l; lia).
  assert (T <= D -> db_read d * T <= db_read d * D /\ db_write d * T <= db_write d * D) by (intros; split; apply N.mul_le_mono_l; lia).
  rewrite !N.mul_add_distr_l. split; [|split].
  - destruct (N.lt_ge_cases D T); split; intros; lia.
  - lia.
  - split; [|intros ->; reflexivity]. intros H'. injection H' as _ H'. lia.
Qed.
Print Assumptions C72_publication_charged_with_swapped_sizes.
(** "A publication is charged at least what was measured for it" is false: five topics and no data. *)
Theorem C72_publication_charged_as_measured_refuted : exists d w h topics data,
  lenN topics <= 5 /\ lenN data <= 100 /\
  (call_weight d w (CEb (EbPublish h topics data))).1 + 35000000 + 5 * (db_read d + db_write d) <
  (publish_hash_weight d (lenN data) (lenN topics)).1.
Proof.
  exists (mkDbw 25000000 100000000), (mkClw (0, 0) (0, 0) (0, 0) (0, 0) (0, 0)), (zeros 32), (replicate 5 (zeros 32)), [].
  vm_compute. repeat split; discriminate.
Qed.
Print Assumptions C72_publication_charged_as_measured_refuted.

(** ** C73: storage writes *)
(** One storage entry of the pallets and of the balances and vesting they change *)
Inductive item :=
| IAccount (a : acct) | ILocks (a : acct) | ISchedules (a : acct)
| IBond (a : acct) | IPending (a : acct)
| IStatus (sh : bytes) | IConfig (sh : bytes) | IExecuted (h : bytes)
| IFinalized (sh : bytes)
| IRate (k : bytes * bytes) | IBlob (k : bytes * bytes) | IWhitelist (src : bytes)
| ISovereign (a : acct) | IProxied (x : eaddr) | IQe | ITcb (f : bytes) | IDebug | ISkip
| IClaim (e : bytes) | ITotal | IVestingOf (e : bytes) | ISigning (e : bytes) | IPreclaim (a : acct)
| ILocation (i : N) | IAssetId (l : location).
Definition keeps_item (s s' : rt) (i : item) : Prop :=
  match i with
  | IAccount a => free s' a = free s a
  | ILocks a => forall id, locked s' id a = locked s id a
  | ISchedules a => rt_vest s' !! a = rt_vest s !! a
  | IBond a => td_bonds (rt_td s') !! a = td_bonds (rt_td s) !! a
  | IPending a => td_pending (rt_td s') !! a = td_pending (rt_td s) !! a
  | IStatus sh => eb_status (rt_eb s') !! sh = eb_status (rt_eb s) !! sh
  | IConfig sh => eb_config (rt_eb s') !! sh = eb_config (rt_eb s) !! sh
  | IExecuted h => eb_exec (rt_eb s') !! h = eb_exec (rt_eb s) !! h
  | IFinalized sh => rt_sc s' !! sh = rt_sc s !! sh
  | IRate k => to_rates (rt_to s') !! k = to_rates (rt_to s) !! k
  | IBlob k => to_data (rt_to s') !! k = to_data (rt_to s) !! k
  | IWhitelist src => to_wl (rt_to s') !! src = to_wl (rt_to s) !! src
  | ISovereign a => tx_sov (rt_tx s') !! a = tx_sov (rt_tx s) !! a
  | IProxied x => tx_prox (rt_tx s') !! x = tx_prox (rt_tx s) !! x
  | IQe => tx_qe (rt_tx s') = tx_qe (rt_tx s)
  | ITcb f => tx_tcb (rt_tx s') !! f = tx_tcb (rt_tx s) !! f
  | IDebug => tx_allow_debug (rt_tx s') = tx_allow_debug (rt_tx s)
  | ISkip => tx_allow_skip (rt_tx s') = tx_allow_skip (rt_tx s)
  | IClaim e => cl_claims (rt_cl s') !! e = cl_claims (rt_cl s) !! e
  | ITotal => cl_total (rt_cl s') = cl_total (rt_cl s)
  | IVestingOf e => cl_vesting (rt_cl s') !! e = cl_vesting (rt_cl s) !! e
  | ISigning e => cl_signing (rt_cl s') !! e = cl_signing (rt_cl s) !! e
  | IPreclaim a => cl_preclaims (rt_cl s') !! a = cl_preclaims (rt_cl s) !! a
  | ILocation i => ar_loc (rt_ar s') !! i = ar_loc (rt_ar s) !! i
  | IAssetId l => ar_id (rt_ar s') !! l = ar_id (rt_ar s) !! l
  end.
(** The entries a call may write, by its arguments, its sender and the state *)
Definition payout_items (signer : bytes) (dest : acct) : list item :=
  [IClaim signer; ITotal; IVestingOf signer; ISigning signer; IAccount dest; ISchedules dest; ILocks dest].
Definition due_upgrade (s : rt) (sh : bytes) : Prop :=
  exists u p t, eb_config (rt_eb s) !! sh = Some u /\ uc_pending u = Some p /\ uc_at u = Some t /\ t <= rt_blk s.
Definition config_items (s : rt) (sh : bytes) (l : list item) : Prop :=
  (due_upgrade s sh /\ l = [IConfig sh]) \/ (~ due_upgrade s sh /\ l = []).
Definition footprint (c : cfg) (o : origin) (k : call) (s : rt) (l : list item) : Prop :=
  match k with
  | CTd k => exists a, o = Signed a /\
      match k with
      | TdBond _ | TdBondExtra _ => l = [IBond a; ILocks a]
      | TdUnbond _ => l = [IBond a; IPending a]
      | TdUpdateOther w => l = [IBond w]
      | TdWithdrawUnbonded => l = [IPending a; ILocks a]
      end
  | CEb (EbInvoke _ _) => l = []
  | CEb (EbConfirm sh _ _ _) => exists l', config_items s sh l' /\ l = IStatus sh :: l'
  | CEb (EbShield sh _ _) => exists a, o = Signed a /\ l = [IAccount a; IAccount sh]
  | CEb (EbUnshield sh b _ h) => exists l', config_items s sh l' /\ l = IStatus sh :: IExecuted h :: IAccount sh :: IAccount b :: l'
  | CEb (EbPublish _ _ _) => exists a e, o = Signed a /\ tx_sov (rt_tx s) !! a = Some e /\ l = [IStatus (en_mr_enclave e)]
  | CEb (EbUpdateConfig sh _ _) => (o = Root /\ l = [IConfig sh]) \/ (o <> Root /\ l = [IStatus sh; IConfig sh])
  | CEb (EbPurge sh _) => l = [IStatus sh]
  | CSc (ScConfirm sh _ _) => exists a l', o = Signed a /\ config_items s sh l' /\
      ((leads s sh a /\ l = IFinalized sh :: IStatus sh :: l') \/ (~ leads s sh a /\ l = IStatus sh :: l'))
  | CTo (ToAdd src _) | CTo (ToRemove src _) => l = [IWhitelist src]
  | CTo (ToUpdateOracle name src _) => l = [IBlob (name, src)]
  | CTo (ToUpdateRate src pr _) => l = [IRate (pr, src)]
  | CTx (TxRegister _ _ m) => exists a, o = Signed a /\
      ((match m with MSkip p | MDcap p => p = false | MIas => True end /\ l = [ISovereign a]) \/
       (match m with MSkip p | MDcap p => p = true | MIas => False end /\ exists fp sg, l = [IProxied (fp, a, sg)]))
  | CTx (TxUnregisterSovereign w) => l = [ISovereign w]
  | CTx (TxUnregisterProxied x) => l = [IProxied x]
  | CTx (TxRegisterQe _ _ _) => l = [IQe]
  | CTx (TxRegisterTcb _ _ _) => exists f, l = [ITcb f]
  | CTx (TxSetFlags _ _) => l = [IDebug; ISkip]
  | CCl (ClClaim dest sig) => exists signer, eth_recover c sig (to_ascii_hex dest) [] = Some signer /\ l = payout_items signer dest
  | CCl (ClClaimAttest dest sig text) =>
      exists signer, eth_recover c sig (to_ascii_hex dest) text = Some signer /\ l = payout_items signer dest
  | CCl (ClAttest _) => exists a signer, o = Signed a /\ cl_preclaims (rt_cl s) !! a = Some signer /\ l = IPreclaim a :: payout_items signer a
  | CCl (ClMint who _ vs st) =>
      l = IClaim who :: ITotal :: (match vs with Some _ => [IVestingOf who] | None => [] end) ++
                                  (match st with Some _ => [ISigning who] | None => [] end)
  | CCl (ClMove old new pre) =>
      l = [IClaim old; IClaim new; IVestingOf old; IVestingOf new; ISigning old; ISigning new] ++
          match pre with Some p => [IPreclaim p] | None => [] end
  | CAr (ArRegister i l') => l = [ILocation i; IAssetId l']
  | CAr (ArUnregister i) => exists l', ar_loc (rt_ar s) !! i = Some l' /\ l = [ILocation i; IAssetId l']
  | CXt _ => l = []
  end.

Definition part_of (i : item) : part :=
  match i with
  | IAccount _ => PFree | ILocks _ => PLocks | ISchedules _ => PVest
  | IBond _ | IPending _ => PTd
  | IStatus _ | IConfig _ | IExecuted _ => PEb
  | IFinalized _ => PSc
  | IRate _ | IBlob _ | IWhitelist _ => PTo
  | ISovereign _ | IProxied _ | IQe | ITcb _ | IDebug | ISkip => PTx
  | IClaim _ | ITotal | IVestingOf _ | ISigning _ | IPreclaim _ => PCl
  | ILocation _ | IAssetId _ => PReg
  end.
Lemma frame_item f s s' i : unchanged_outside f s s' -> f (part_of i) = false -> keeps_item s s' i.
Proof.
  intros HU Hi. pose proof (HU _ Hi) as H. destruct i; cbn [part_of same keeps_item] in *; try congruence.
  - unfold free, v_free in *. congruence.
  - intros id. apply locked_view, H.
  - unfold v_reg in H. congruence.
  - unfold v_reg in H. congruence.
Qed.
Lemma entry_keep {K V} `{Countable K} (m m' : gmap K V) k v x : entry_set m m' k v -> x <> k -> m' !! x = m !! x.
Proof. intros H1 H2. rewrite H1. destruct (decide _); congruence. Qed.
Lemma lock_keep s s' i a v x : lock_set s s' i a v -> x <> a -> forall id, locked s' id x = locked s id x.
Proof. intros H1 H2 id. rewrite H1. destruct (decide _); [tauto|auto]. Qed.
Lemma moved_keep {A} (m m' : gmap bytes A) old new x : entry_moved m m' old new -> x <> old -> x <> new -> m' !! x = m !! x.
Proof. unfold entry_moved. destruct (m !! old); [intros (_ & _ & H); auto|intros ->; auto]. Qed.
Lemma pays_keep c s s' a b v evs x : pays c s s' a b v evs -> x <> a -> x <> b -> free s' x = free s x.
Proof.
  unfold pays. destruct (_ || _); [intros [H _]; auto|]. intros (_ & H & _) H1 H2. rewrite H.
  destruct (decide _); [congruence|]. destruct (decide _); [congruence|auto].
Qed.
Lemma config_keep s s' sh : upgrade_enacted s s' sh ->
  exists l, config_items s sh l /\ forall x, ~ In (IConfig x) l -> eb_config (rt_eb s') !! x = eb_config (rt_eb s) !! x.
Proof.
  intros H. destruct (eb_config (rt_eb s) !! sh) as [u|] eqn:E.
  - destruct (uc_pending u) as [p|] eqn:Ep; [destruct (uc_at u) as [t|] eqn:Et; [destruct (N.leb_spec t (rt_blk s)) as [Hle|Hlt]|]|].
    + exists [IConfig sh]. split; [left; split; [exists u, p, t; auto|auto]|]. intros x Hx. apply (entry_keep _ _ _ _ _ H). intros ->. apply Hx. cbn. auto.
    + exists []. split; [right; split; [intros (u' & p' & t' & ? & ? & ? & ?)|auto]; assert (u' = u) by congruence; subst u'; assert (t' = t) by congruence; lia|].
      intros x _. rewrite H. destruct (decide (x = sh)) as [->|]; [|auto]. rewrite E. cbn. unfold upgraded. rewrite Ep, Et.
      destruct (N.leb_spec t (rt_blk s)); [lia|auto].
    + exists []. split; [right; split; [intros (u' & p' & t' & ? & ? & ? & ?)|auto]; assert (u' = u) by congruence; subst u'; congruence|].
      intros x _. rewrite H. destruct (decide (x = sh)) as [->|]; [|auto]. rewrite E. cbn. unfold upgraded. rewrite Ep, Et. auto.
    + exists []. split; [right; split; [intros (u' & p' & t' & ? & ? & ? & ?)|auto]; assert (u' = u) by congruence; subst u'; congruence|].
      intros x _. rewrite H. destruct (decide (x = sh)) as [->|]; [|auto]. rewrite E. cbn. unfold upgraded. rewrite Ep. auto.
  - exists []. split; [right; split; [intros (u' & p' & t' & ? & ? & ? & ?)|auto]; congruence|].
    intros x _. rewrite H. destruct (decide (x = sh)) as [->|]; [|auto]. rewrite E. auto.
Qed.
Lemma seen_keep s s' sh a e x : operator_seen s s' sh a e -> x <> sh -> eb_status (rt_eb s') !! x = eb_status (rt_eb s) !! x.
Proof. intros (l & _ & H). apply (entry_keep _ _ _ _ _ H). Qed.
Lemma paid_keep c s s' signer dest : paid_out c s s' signer dest ->
  (forall x, x <> signer -> cl_claims (rt_cl s') !! x = cl_claims (rt_cl s) !! x /\
     cl_vesting (rt_cl s') !! x = cl_vesting (rt_cl s) !! x /\ cl_signing (rt_cl s') !! x = cl_signing (rt_cl s) !! x) /\
  (forall x, x <> dest -> free s' x = free s x /\ rt_vest s' !! x = rt_vest s !! x /\ forall id, locked s' id x = locked s id x).
Proof.
  intros (due & _ & _ & H1 & _ & H2 & H3 & H4 & _ & H5). split.
  - intros x Hx. split; [|split]; eapply entry_keep; eauto.
  - intros x Hx. split; [rewrite H4; destruct (decide _); [congruence|auto]|].
    destruct (cl_vesting (rt_cl s) !! signer) as [[[[|l] pb] st]|].
    + destruct H5 as [-> H5]. split; [auto|]. intros id. apply H5.
    + destruct H5 as (_ & H5 & H6). split; [eapply entry_keep; eauto|eapply lock_keep; eauto].
    + destruct H5 as [-> H5]. split; [auto|]. intros id. apply H5.
Qed.

Ltac absent Hi := let E := fresh in intros E; subst; apply Hi; cbn; auto 12.
Ltac settle HU Hi :=
  match goal with |- keeps_item _ _ ?i => destruct i end;
  try (apply (frame_item _ _ _ _ HU); reflexivity); cbn [keeps_item];
  first [ congruence
        | match goal with
          | H : entry_set _ ?m' _ _ |- ?m' !! _ = _ => apply (entry_keep _ _ _ _ _ H); absent Hi
          | H : lock_set _ _ _ _ _ |- forall id, _ => apply (lock_keep _ _ _ _ _ _ H); absent Hi
          | H : locks_same _ _ |- forall id, _ => intros id; apply H
          | H : balances_same _ _ |- free _ _ = _ => apply H
          | H : pays _ _ _ _ _ _ _ |- free _ _ = _ => apply (pays_keep _ _ _ _ _ _ _ _ H); absent Hi
          | H : operator_seen _ _ _ _ _ |- _ => apply (seen_keep _ _ _ _ _ _ H); absent Hi
          end
        | idtac ].
Theorem C73_calls_write_only_these_entries : forall c o k s s', dispatch c o k s = (Success, s') ->
  exists l, footprint c o k s l /\ forall i, ~ In i l -> keeps_item s s' i.
Proof.
  intros c o k s s' H. destruct k as [k|k|k|k|k|k|k|k].
  - apply C69_teerdays_calls_do_exactly_this in H as (a & -> & Hd & HU). destruct k; unfold td_does in Hd; cbv zeta in Hd.
    + destruct Hd as (H1 & H2 & H3 & _). eexists. split; [exists a; split; reflexivity|]. intros i Hi. settle HU Hi.
    + destruct Hd as (b & _ & H1 & H2 & H3 & _). eexists. split; [exists a; split; reflexivity|]. intros i Hi. settle HU Hi.
    + destruct Hd as (b & due & _ & _ & H1 & H2 & H3 & _). eexists. split; [exists a; split; reflexivity|]. intros i Hi. settle HU Hi.
    + destruct Hd as (b & _ & H1 & H2 & H3 & _). eexists. split; [exists a; split; reflexivity|]. intros i Hi. settle HU Hi.
    + destruct Hd as (due & amt & _ & H1 & H2 & H3 & _). eexists. split; [exists a; split; reflexivity|]. intros i Hi. settle HU Hi.
  - apply C69_bridge_calls_do_exactly_this in H as [Hd HU]. destruct k; unfold eb_does in Hd; cbv zeta in Hd.
    + destruct Hd as (H1 & H2 & _). exists []. split; [reflexivity|]. intros i Hi. settle HU Hi.
    + destruct Hd as (a & e & -> & He & H1 & H2 & H3 & H4 & _). destruct (config_keep _ _ _ H2) as (l & Hl & Hk).
      exists (IStatus shard :: l). split; [exists l; auto|]. intros i Hi. settle HU Hi. apply Hk. intros Hc. apply Hi. right. exact Hc.
    + destruct Hd as (a & evs & -> & H1 & H2 & _). eexists. split; [exists a; split; reflexivity|]. intros i Hi. settle HU Hi.
    + destruct Hd as (a & e & -> & He & H1 & H2 & H3). destruct (config_keep _ _ _ H2) as (l & Hl & Hk).
      exists (IStatus shard :: IExecuted call_hash :: IAccount shard :: IAccount benef :: l). split; [exists l; auto|].
      destruct (eb_exec (rt_eb s) !! call_hash) as [n|].
      * destruct H3 as (n' & _ & H3 & H4 & _). intros i Hi. settle HU Hi. apply Hk. intros Hc. apply Hi. cbn. auto 12.
      * destruct H3 as (H3 & evs & H4 & _). intros i Hi. settle HU Hi. apply Hk. intros Hc. apply Hi. cbn. auto 12.
    + destruct Hd as (a & e & -> & He & H1 & H2 & H3 & H4 & _). eexists. split; [exists a, e; split; [reflexivity|split; [exact He|reflexivity]]|].
      intros i Hi. settle HU Hi.
    + destruct Hd as (H1 & H2 & H3 & H4 & _). destruct o as [|a|].
      * eexists. split; [left; split; reflexivity|]. intros i Hi. settle HU Hi.
      * destruct H1 as (e & He & H1). eexists. split; [right; split; [discriminate|reflexivity]|]. intros i Hi. settle HU Hi.
      * eexists. split; [right; split; [discriminate|reflexivity]|]. intros i Hi. settle HU Hi.
    + destruct Hd as (l & _ & H1 & H2 & H3 & H4 & _). eexists. split; [reflexivity|]. intros i Hi. settle HU Hi.
  - destruct k as [sh anc cand]. apply C69_sidechain_confirmation_does_exactly_this in H as (a & e & -> & He & H1 & H2 & H3 & H4 & H5 & HU).
    destruct (config_keep _ _ _ H2) as (l & Hl & Hk).
    assert (leads s sh a \/ ~ leads s sh a) as [HL|HL].
    { unfold leads. destruct (default [] _) as [|x r]; [auto|]. destruct (decide (ss_signer x = a)); auto. }
    + destruct (H4 HL) as [H6 _]. clear H4 H5. exists (IFinalized sh :: IStatus sh :: l). split; [exists a, l; auto|].
      intros i Hi. settle HU Hi. apply Hk. intros Hc. apply Hi. cbn. auto.
    + destruct (H5 HL) as [H6 _]. clear H4 H5. exists (IStatus sh :: l). split; [exists a, l; auto|].
      intros i Hi. settle HU Hi. apply Hk. intros Hc. apply Hi. cbn. auto.
  - apply C69_oracle_calls_do_exactly_this in H as [Hd HU]. destruct k as [src fp|src fp|name src blob|src pr v]; unfold to_does in Hd; cbv zeta in Hd.
    + destruct Hd as (H1 & H2 & H3 & _). eexists. split; [reflexivity|]. intros i Hi. settle HU Hi.
    + destruct Hd as (H1 & H2 & H3 & _). eexists. split; [reflexivity|]. intros i Hi. settle HU Hi.
    + destruct Hd as (H1 & H2 & H3 & _). eexists. split; [reflexivity|]. intros i Hi. settle HU Hi.
    + destruct Hd as (H2 & H3 & H1). eexists. split; [reflexivity|].
      destruct v as [[|r]|]; destruct H1 as [H1 _]; intros i Hi; settle HU Hi.
  - destruct (C69_registry_upkeep_does_exactly_this c o s s') as (G1 & G2 & G3 & G4). pose proof (G4 _ H) as HU.
    destruct k as [p u m|w|w|i sg ch|i sg ch|sk db].
    + clear G1 G2 G3 G4. apply dispatch_iff in H. cbn [exec tx_exec] in H. apply TeerexProofs.register_ok in H as (a & e & -> & Ha & _ & _ & _ & H).
      apply attested_method in Ha. assert (en_method (with_url e u) = m) as Hm by (destruct u; auto). unfold store_enclave in H.
      destruct (is_proxied (with_url e u)) eqn:Ep; unfold is_proxied in Ep; rewrite Hm in Ep.
      * eexists. split; [exists a; split; [reflexivity|right; split; [destruct m as [[|]| |[|]]; congruence|do 2 eexists; reflexivity]]|].
        intros i Hi. settle HU Hi; rewrite H; cbn; try reflexivity. apply lookup_insert_ne. absent Hi.
      * eexists. split; [exists a; split; [reflexivity|left; split; [destruct m as [[|]| |[|]]; auto; congruence|reflexivity]]|].
        intros i Hi. settle HU Hi; rewrite H; cbn; try reflexivity. apply lookup_insert_ne. absent Hi.
    + destruct (G1 _ H) as (H1 & H2 & _). rewrite H2 in H1. cbn [tx_sov] in H1. eexists. split; [reflexivity|]. intros i Hi. settle HU Hi; rewrite H2; auto.
    + destruct (G2 _ H) as (H1 & H2 & _). eexists. split; [reflexivity|]. intros i Hi. settle HU Hi; rewrite H2; auto.
    + clear G1 G2 G3 G4. apply dispatch_iff in H. cbn [exec tx_exec] in H. apply reg_qe_ok in H as (a & d & _ & _ & _ & _ & _ & _ & H).
      cbv zeta in H. eexists. split; [reflexivity|]. intros j Hj. settle HU Hj; try (rewrite H; reflexivity). exfalso; apply Hj; cbn; auto.
    + clear G1 G2 G3 G4. apply dispatch_iff in H. cbn [exec tx_exec] in H. apply reg_tcb_ok in H as (a & d & _ & _ & _ & _ & _ & _ & H).
      cbv zeta in H. eexists. split; [eexists; reflexivity|]. intros j Hj. settle HU Hj; try (rewrite H; reflexivity).
      rewrite H. cbn. apply lookup_insert_ne. absent Hj.
    + destruct (G3 _ _ H) as (H2 & _). eexists. split; [reflexivity|]. intros i Hi. settle HU Hi; try (rewrite H2; reflexivity); exfalso; apply Hi; cbn; auto.
  - apply C69_claims_calls_do_exactly_this in H as [Hd HU]. destruct k as [dest sg|w v vs st|dest sg text|text|old new pre]; unfold cl_does in Hd; cbv zeta in Hd.
    + destruct Hd as (signer & Hs & Hp & H1). exists (payout_items signer dest). split; [exists signer; auto|]. apply paid_keep in Hp as [P1 P2].
      intros i Hi. settle HU Hi; try (exfalso; apply Hi; cbn; tauto); first [apply P1; absent Hi|apply P2; absent Hi].
    + destruct Hd as (H1 & _ & H2 & H3 & H4 & H5 & H6 & H7 & _). eexists. split; [reflexivity|].
      destruct vs, st; intros i Hi; settle HU Hi; exfalso; apply Hi; cbn; auto.
    + destruct Hd as (signer & Hs & Hp & H1). exists (payout_items signer dest). split; [exists signer; auto|]. apply paid_keep in Hp as [P1 P2].
      intros i Hi. settle HU Hi; try (exfalso; apply Hi; cbn; tauto); first [apply P1; absent Hi|apply P2; absent Hi].
    + destruct Hd as (a & signer & -> & Hs & Hp & H1). exists (IPreclaim a :: payout_items signer a). split; [exists a, signer; auto|]. apply paid_keep in Hp as [P1 P2].
      intros i Hi. settle HU Hi; try (exfalso; apply Hi; cbn; tauto); first [apply P1; absent Hi|apply P2; absent Hi].
    + destruct Hd as (H1 & H2 & H3 & H4 & H5 & H6 & H7 & H8 & _). eexists. split; [reflexivity|].
      intros i Hi. settle HU Hi; try (eapply moved_keep; [eassumption| |]; absent Hi).
      rewrite H5. destruct pre as [p|]; [|rewrite bool_decide_false by congruence; auto].
      rewrite bool_decide_false; [auto|]. intros E. injection E as ->. apply Hi. cbn. auto 12.
  - destruct (C69_asset_registry_calls_do_exactly_this c o s s') as (G1 & G2 & G3). pose proof (G3 _ H) as HU. destruct k as [i l|i].
    + destruct (G1 _ _ H) as (H1 & H2 & _). eexists. split; [reflexivity|]. intros j Hj. settle HU Hj.
    + destruct (G2 _ H) as (l & Hl & H1 & H2 & _). eexists. split; [exists l; split; [exact Hl|reflexivity]|]. intros j Hj. settle HU Hj.
  - destruct k as [self other w fee]. apply C69_swap_does_exactly_this in H as (h & _ & _ & _ & HU). exists []. split; [reflexivity|].
    intros i Hi. settle HU Hi.
Qed.
Print Assumptions C73_calls_write_only_these_entries.

(** *** Declared writes *)
Definition no_clw : cl_weights := mkClw (0, 0) (0, 0) (0, 0) (0, 0) (0, 0).
(** The number of storage writes the declared weight of a call pays for *)
Definition declared_writes (k : call) : N :=
  (call_weight (mkDbw 0 1) no_clw k).1 - (call_weight (mkDbw 0 0) no_clw k).1.
Definition declared_writes_spec (k : call) : N :=
  match k with
  | CTd (TdBond _) | CTd (TdBondExtra _) | CTd TdWithdrawUnbonded => 3
  | CTd (TdUnbond _) => 2
  | CTd (TdUpdateOther _) => 1
  | CEb (EbPublish _ _ data) => 1 + lenN data
  | CEb (EbUpdateConfig _ _ _) => 2
  | CEb (EbPurge _ _) => 1
  | CEb _ => 0
  | CSc _ => 2
  | CTo _ => 1
  | CTx (TxSetFlags _ _) => 0
  | CTx _ => 1
  | CAr _ => 2
  | CCl _ | CXt _ => 0
  end.
(** A publication is only accepted with at most 100 bytes of data (C19) and 5 topics *)
Definition small_publication (k : call) : Prop :=
  match k with CEb (EbPublish _ t d) => lenN t <= 1000 /\ lenN d <= 1000 | _ => True end.
(** That number is what a write costs in the declared weight, at all realistic prices *)
Lemma w4_time d time proof r w : time <= 10 ^ 12 -> db_read d <= 10 ^ 12 -> db_write d <= 10 ^ 12 -> r <= 100 -> w <= 100 ->
  (w4 d time proof r w).1 = time + db_read d * r + db_write d * w.
Proof.
  intros Ht Hr Hw Hr' Hw'. unfold w4, w_add, w_parts, reads, writes. cbn [fst snd]. change (10 ^ 12) with 1000000000000 in *.
  assert (db_read d * r <= 1000000000000 * 100) by (apply N.mul_le_mono; auto).
  assert (db_write d * w <= 1000000000000 * 100) by (apply N.mul_le_mono; auto).
  assert (u64_max = 18446744073709551615) as Eu by reflexivity.
  remember (db_read d * r) as x eqn:Ex. remember (db_write d * w) as y eqn:Ey. clear Ex Ey.
  repeat match goal with
    | |- context [sat64 ?n] => lazymatch n with context [sat64 _] => fail | _ => rewrite (sat64_small n) by (rewrite Eu; lia) end
    end; lia.
Qed.
Theorem C73_declared_writes_are_what_is_priced : forall r p w k, r <= 10 ^ 12 -> p <= 10 ^ 12 -> small_publication k ->
  (call_weight (mkDbw r p) w k).1 = (call_weight (mkDbw r 0) w k).1 + p * declared_writes k /\
  declared_writes k = declared_writes_spec k.
Proof.
  intros r p w k Hr Hp Hs. change (10 ^ 12) with 1000000000000 in *.
  assert (u64_max = 18446744073709551615) as Eu by reflexivity.
  assert (declared_writes k = declared_writes_spec k) as Hd.
  { destruct k as [x|x|x|x|x|x|x|x]; destruct x; try reflexivity. destruct Hs as [Ht Hd].
    unfold declared_writes. cbn [call_weight eb_weight declared_writes_spec].
    rewrite !(N.min_l _ u32_max) by (change u32_max with 4294967295; lia).
    rewrite !publish_weight by (cbn; lia). cbn [fst db_read db_write]. lia. }
  split; [|exact Hd]. rewrite Hd. clear Hd.
  destruct k as [x|x|x|x|x|x|x|x]; destruct x;
    cbn [call_weight td_weight eb_weight sc_weight to_weight tx_weight cl_weight ar_weight xt_weight declared_writes_spec];
    try (rewrite !w4_time by (cbn; lia); cbn [db_read db_write]; lia);
    try (rewrite N.mul_0_r, N.add_0_r; reflexivity).
  - destruct Hs as [Ht Hd]. rewrite !(N.min_l _ u32_max) by (change u32_max with 4294967295; lia).
    rewrite !publish_weight by (cbn; lia). cbn [fst db_read db_write]. lia.
  - unfold w_add, w_parts, reads, writes. cbn [fst snd db_read db_write].
    repeat match goal with
    | |- context [sat64 ?n] => lazymatch n with context [sat64 _] => fail | _ => rewrite (sat64_small n) by (rewrite Eu; lia) end
    end; lia.
  - unfold sc_weight, w_add, w_parts, reads, writes. cbn [fst snd db_read db_write].
    repeat match goal with
    | |- context [sat64 ?n] => lazymatch n with context [sat64 _] => fail | _ => rewrite (sat64_small n) by (rewrite Eu; lia) end
    end; lia.
Qed.
Print Assumptions C73_declared_writes_are_what_is_priced.
(** The calls whose declared writes cover every entry they change. (The weights of claims are chosen by
    the runtime, so nothing is said about them.) *)
Definition well_declared (s : rt) (k : call) : Prop :=
  match k with
  | CEb (EbConfirm _ _ _ _) | CEb (EbShield _ _ _) | CEb (EbUnshield _ _ _ _) | CTx (TxSetFlags _ _) | CCl _ => False
  | CSc (ScConfirm sh _ _) => ~ due_upgrade s sh
  | _ => True
  end.
Theorem C73_declared_writes_cover_the_changes : forall c o k s s', well_declared s k ->
  dispatch c o k s = (Success, s') ->
  exists l, (forall i, ~ In i l -> keeps_item s s' i) /\ lenN l <= declared_writes k.
Proof.
  intros c o k s s' Hw H. pose proof H as H0. apply C73_calls_write_only_these_entries in H as (l & Hf & Hk). exists l. split; [exact Hk|].
  assert (small_publication k) as Hsm.
  { destruct k as [x|x|x|x|x|x|x|x]; try exact I. destruct x; try exact I. apply dispatch_iff in H0. cbn [exec eb_exec_call] in H0.
    apply publish_ok in H0 as (a & e & _ & _ & Ht & Hd & _). unfold topics_limit, data_length_limit in *. cbn. lia. }
  destruct (C73_declared_writes_are_what_is_priced 0 0 no_clw k ltac:(lia) ltac:(lia) Hsm) as [_ ->].
  assert (forall x : list item, x = l -> lenN x <= declared_writes_spec k -> lenN l <= declared_writes_spec k) as G by (intros x -> Hx; exact Hx).
  destruct k as [x|x|x|x|x|x|x|x]; destruct x; cbn [footprint well_declared declared_writes_spec] in *; try contradiction;
    repeat match goal with
    | H : exists _, _ |- _ => destruct H as [? H]
    | H : _ /\ _ |- _ => destruct H
    | H : _ \/ _ |- _ => destruct H
    end; subst; try (unfold lenN; cbn; lia);
    match goal with H : config_items _ _ _ |- _ => destruct H as [[? ?]|[_ ?]]; [contradiction|]; subst end; unfold lenN; cbn; lia.
Qed.
Print Assumptions C73_declared_writes_cover_the_changes.
(** For the others the declared writes do not cover what a successful call in a reachable state changes. *)
Definition under_declared (k : call) : Prop :=
  exists c g o s s' l, reachable c g s /\ dispatch c o k s = (Success, s') /\ NoDup l /\
  Forall (fun i => ~ keeps_item s s' i) l /\ declared_writes k < lenN l.
Ltac distinct :=
  repeat (apply NoDup_cons_2; [let Hin := fresh in intros Hin;
    repeat (apply elem_of_cons in Hin as [Hin|Hin]; [vm_compute in Hin; discriminate Hin|]); inversion Hin|]); apply NoDup_nil_2.
Ltac under g o ops items :=
  exists cfg0, g, o, (run cfg0 (genesis_state g) ops); eexists; exists items;
  split; [exists ops; reflexivity|]; split;
  [match goal with |- ?d = _ => rewrite (surjective_pairing d); apply (f_equal2 pair); [vm_compute; reflexivity|reflexivity] end|];
  split; [distinct|]; split; [|vm_compute; reflexivity];
  repeat apply List.Forall_cons; try apply List.Forall_nil; intros Hk; vm_compute in Hk; discriminate Hk.
Theorem C73_declared_writes_cover_the_changes_refuted :
  (exists sh h n r, under_declared (CEb (EbConfirm sh h n r))) /\
  (exists sh b v, under_declared (CEb (EbShield sh b v))) /\
  (exists sh b v h, under_declared (CEb (EbUnshield sh b v h))) /\
  (exists skip debug, under_declared (CTx (TxSetFlags skip debug))) /\
  (exists sh anc cand, under_declared (CSc (ScConfirm sh anc cand))).
Proof.
  split; [|split; [|split; [|split]]].
  - exists (acc 9), [], 1, []. under (gen0 [alice]) (Signed alice) [register alice (acc 9)] [IStatus (acc 9)].
  - exists (acc 9), [], 100. under (gen0 [alice]) (Signed alice) (@nil op) [IAccount alice; IAccount (acc 9)].
  - exists (acc 9), carol, 100, [7].
    under (gen0 [alice]) (Signed alice) [register alice (acc 9); call_eb alice (EbShield (acc 9) [] 500)]
      [IStatus (acc 9); IExecuted [7]; IAccount (acc 9); IAccount carol].
  - exists true, false. under (mkGenesis 0 ∅ [] [] true false ∅) Root (@nil op) [IDebug; ISkip].
  - exists (acc 9), None, (mkSconf 1 []).
    under (gen0 [alice]) (Signed alice)
      [register alice (acc 9); OCall Root (CEb (EbUpdateConfig (acc 9) (mkScfg (acc 9) None None false) 0));
       OCall Root (CEb (EbUpdateConfig (acc 9) (mkScfg (acc 9) None None true) 1)); ONextBlock 1]
      [IFinalized (acc 9); IStatus (acc 9); IConfig (acc 9)].
Qed.
Print Assumptions C73_declared_writes_cover_the_changes_refuted.
(** A published hash is also indexed under each of its topics and the fingerprint (frame_system writes
    one [EventTopics] entry for each, outside /repo). Together with the shard's status these writes are
    covered exactly if there are more bytes of data than topics: an effect of the exchanged sizes. *)
Theorem C73_publication_index_covered_iff : forall c o h t d s s', dispatch c o (CEb (EbPublish h t d)) s = (Success, s') ->
  exists topics fp, emits s s' [EvPublishedHash topics fp h d] /\
  (1 + lenN topics <= declared_writes (CEb (EbPublish h t d)) <-> lenN t < lenN d).
Proof.
  intros c o h t d s s' H. pose proof H as H0. apply C69_bridge_calls_do_exactly_this in H as [(a & e & _ & _ & _ & _ & _ & _ & H) _].
  eexists _, _. split; [exact H|].
  apply dispatch_iff in H0. cbn [exec eb_exec_call] in H0. apply publish_ok in H0 as (a' & e' & _ & _ & Ht & Hd & _).
  destruct (C73_declared_writes_are_what_is_priced 0 0 no_clw (CEb (EbPublish h t d)) ltac:(lia) ltac:(lia)) as [_ ->].
  { unfold topics_limit, data_length_limit in *. cbn. lia. }
  cbn [declared_writes_spec]. unfold lenN. rewrite app_length. cbn [length]. lia.
Qed.
Print Assumptions C73_publication_index_covered_iff.
(** The bounds are met with every listed entry changed *)
Example C73_example :
  let s := run cfg0 (genesis_state (gen0 [alice])) [call_td alice (TdBond 100)] in
  let s' := (dispatch cfg0 (Signed alice) (CTd (TdUnbond 40)) s).2 in
  (dispatch cfg0 (Signed alice) (CTd (TdUnbond 40)) s).1 = Success /\
  declared_writes (CTd (TdUnbond 40)) = 2 /\ ~ keeps_item s s' (IBond alice) /\ ~ keeps_item s s' (IPending alice) /\
  keeps_item s s' (IBond bob) /\ keeps_item s s' (IAccount alice) /\ well_declared s (CTd (TdUnbond 40)).
Proof. split; [vm_compute; reflexivity|]. vm_compute. repeat split; discriminate. Qed.
