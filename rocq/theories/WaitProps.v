(** * C108: what waiting does to the answer to a call
    Nothing but time passes (blocks without calls). Most answers stay as they are; each of the others has at
    most one window of acceptance. *)
From Coq Require Import String.
From Verif Require Import Base State Env TeerdaysModel TeerexBase SgxVerifyModel TextModel TeerexModel
  EnclaveBridgeModel SidechainModel TeeracleModel ClaimsModel AssetRegistryModel XcmTransactorModel
  Runtime Frame EnvFacts Examples BridgeProofs SgxProofs SgxProps TeerexProofs TeerexProps PemProps AttestationProps AcceptProps EffectProps ErrorProps SgxErrorProps CollateralProps SerialProps ErrorWitnessProps.

(** Blocks without calls, each with the time it adds *)
Definition wait (c : cfg) (ds : list N) (s : rt) : rt := run c s (map ONextBlock ds).
(** The calls whose answer may depend on the clock or the block number *)
Definition timed (k : call) : bool :=
  match k with
  | CTd (TdUnbond _) | CTd TdWithdrawUnbonded
  | CEb (EbConfirm _ _ _ _) | CEb (EbUnshield _ _ _ _) | CEb (EbUpdateConfig _ _ _) | CSc _
  | CTx (TxRegister _ _ MIas) | CTx (TxRegister _ _ (MDcap _)) | CTx (TxUnregisterSovereign _) | CTx (TxUnregisterProxied _)
  | CTx (TxRegisterQe _ _ _) | CTx (TxRegisterTcb _ _ _) => true
  | _ => false
  end.

(** ** Proofs *)
Lemma wait_clock c ds : forall s, let s' := wait c ds s in
  s' = set_clock (rt_now s') (rt_blk s') s /\ rt_now s <= rt_now s' /\ rt_blk s <= rt_blk s'.
Proof.
  unfold wait. induction ds as [|d ds IH]; intros s; cbn [map]; cbv zeta.
  - split; [destruct s; reflexivity|]. cbn. lia.
  - rewrite run_cons. destruct (IH (step c s (ONextBlock d))) as (E & H1 & H2). destruct (clock_step c s (ONextBlock d)) as [H3 H4].
    split; [|lia]. rewrite E at 1. cbn [step]. unfold next_block. destruct (_ <=? _); destruct s; reflexivity.
Qed.
Lemma wait_reach c g l ds : wait c ds (run c (genesis_state g) l) = run c (genesis_state g) (l ++ map ONextBlock ds).
Proof. unfold wait. rewrite run_app. reflexivity. Qed.
Lemma same_answer (d : rt -> list demand) (st : rt -> status) s s' :
  (forall x, answers (d s) x <-> st s = x) -> (forall x, answers (d s') x <-> st s' = x) ->
  Forall2 (fun p q : demand => (p.1 <-> q.1) /\ p.2 = q.2) (d s) (d s') -> st s' = st s.
Proof. intros H1 H2 F. apply H2. apply (a_weaken _ _ _ F). apply H1. reflexivity. Qed.
Lemma same_list (l : list demand) : Forall2 (fun p q : demand => (p.1 <-> q.1) /\ p.2 = q.2) l l.
Proof. induction l; constructor; auto. Qed.
Lemma same_skip c o p u b n m s : verdict (register_sgx_enclave c o p u (MSkip b)) (set_clock n m s) = verdict (register_sgx_enclave c o p u (MSkip b)) s.
Proof.
  destruct o as [|a|]; try reflexivity. unfold verdict, register_sgx_enclave, reg_skip, bind, gets, ensure, ensure_signed, ret, add_enclave.
  destruct (lenN p <=? max_proof_len); [|reflexivity].
  destruct u as [u|]; [destruct (lenN u <=? max_url_len); [|reflexivity]|].
  all: change (tx_allow_skip (rt_tx (set_clock n m s))) with (tx_allow_skip (rt_tx s));
    destruct (tx_allow_skip (rt_tx s)); [|reflexivity]; destruct (lenN a <=? 64); [|reflexivity]; cbn;
    change (tx_allow_debug (rt_tx (set_clock n m s))) with (tx_allow_debug (rt_tx s)); destruct (tx_allow_debug (rt_tx s)); cbn; destruct b; reflexivity.
Qed.

(** ** C108 *)
(** The answer to any other call is the same at every later time *)
Theorem C108_most_answers_do_not_depend_on_time : forall c g l ds o k, timed k = false ->
  let s := run c (genesis_state g) l in (dispatch c o k (wait c ds s)).1 = (dispatch c o k s).1.
Proof.
  intros c g l ds o k Hk s. pose proof (wait_reach c g l ds) as R. fold s in R.
  pose proof (proj1 (wait_clock c ds s)) as E. cbv zeta in E.
  set (s' := wait c ds s) in *. remember (rt_now s') as n. remember (rt_blk s') as b. clear Heqn Heqb.
  destruct k as [k|k|k|k|k|k|k|k].
  - apply (same_answer (fun s => td_demands c s o k) (fun s => (dispatch c o (CTd k) s).1));
      [intros; symmetry; apply C70_teerdays_answers|intros; symmetry; apply C70_teerdays_answers|]. rewrite E.
    destruct k; try discriminate Hk; apply same_list.
  - apply (same_answer (fun s => eb_demands c s o k) (fun s => (dispatch c o (CEb k) s).1));
      [intros; symmetry; apply C70_bridge_answers|intros; rewrite R; symmetry; apply C70_bridge_answers|]. rewrite E.
    destruct k; try discriminate Hk; apply same_list.
  - discriminate Hk.
  - apply (same_answer (fun s => to_demands c s o k) (fun s => (dispatch c o (CTo k) s).1));
      [intros; symmetry; apply C70_teeracle_answers|intros; symmetry; apply C70_teeracle_answers|]. rewrite E. apply same_list.
  - rewrite !verdict_dispatch. rewrite E. clear E R. destruct k as [p u m|w|w|doc sig chain|doc sig chain|sk d]; try discriminate Hk.
    + destruct m as [px| |px]; try discriminate Hk. apply same_skip.
    + destruct o; reflexivity.
  - apply (same_answer (fun s => cl_demands c s o k) (fun s => (dispatch c o (CCl k) s).1));
      [intros; symmetry; apply C70_claims_answers|intros; symmetry; apply C70_claims_answers|]. rewrite E. apply same_list.
  - apply (same_answer (fun s => ar_demands c s o k) (fun s => (dispatch c o (CAr k) s).1));
      [intros; symmetry; apply C70_registry_answers|intros; symmetry; apply C70_registry_answers|]. rewrite E. apply same_list.
  - apply (same_answer (fun s => xt_demands c o k) (fun s => (dispatch c o (CXt k) s).1));
      [intros; symmetry; apply C70_swap_answers|intros; symmetry; apply C70_swap_answers|]. apply same_list.
Qed.
Print Assumptions C108_most_answers_do_not_depend_on_time.

(** Stakers: withdrawing opens at the due time, for good; unbonding is the same at all times, up to the
    overflow of the clock *)
Theorem C108_stakers_wait : forall c s a ds, let s' := wait c ds s in
  ((dispatch c (Signed a) (CTd TdWithdrawUnbonded) s').1 =
   match td_pending (rt_td s) !! a with
   | None => Failed NotUnlocking
   | Some (due, _) => if rt_now s' <? due then Failed PendingUnlock else Success
   end) /\
  (forall v, (dispatch c (Signed a) (CTd (TdUnbond v)) s').1 =
   match (dispatch c (Signed a) (CTd (TdUnbond v)) s).1 with
   | Failed e => Failed e
   | _ => if c_ovf c && (u64_max <? rt_now s' + c_unlock c) then Panicked else Success
   end).
Proof.
  intros c s a ds s'. pose proof (proj1 (wait_clock c ds s)) as E. cbv zeta in E. fold s' in E.
  clearbody s'.
  assert (rt_td s' = rt_td s) as Et by (rewrite E; reflexivity). clear E. split.
  - apply C70_teerdays_answers. unfold td_demands. rewrite Et. left. split; [eauto|].
    destruct (td_pending (rt_td s) !! a) as [[due amt]|]; [|right; split; [intros [? ?]; discriminate|reflexivity]].
    left. split; [eauto|]. destruct (N.ltb_spec (rt_now s') due) as [H|H].
    + right. split; [intros H'; specialize (H' _ _ eq_refl); lia|reflexivity].
    + left. split; [intros d m [= <- <-]; exact H|reflexivity].
  - intros v. apply C70_teerdays_answers. pose proof (proj1 (C70_teerdays_answers c s (Signed a) (TdUnbond v) _) eq_refl) as A.
    unfold td_demands in *. cbn [answers] in *. rewrite Et. unfold or_err, or_panic in *.
    destruct A as [[H1 A]|[H1 ->]]; [|right; auto]. left. split; [auto|].
    destruct A as [[H2 A]|[H2 ->]]; [|right; auto]. left. split; [auto|].
    destruct A as [[H3 A]|[H3 ->]]; [|right; auto]. left. split; [auto|].
    destruct A as [[H4 A]|[H4 ->]]; [|right; auto]. left. split; [auto|].
    assert (match (dispatch c (Signed a) (CTd (TdUnbond v)) s).1 with Failed _ => False | _ => True end) as NF
      by (destruct A as [[_ ->]|[_ ->]]; exact I). clear A.
    destruct (dispatch c (Signed a) (CTd (TdUnbond v)) s).1; [|destruct NF|];
    (destruct (c_ovf c); cbn [andb]; [|left; split; [discriminate|reflexivity]];
     destruct (N.ltb_spec u64_max (rt_now s' + c_unlock c)); [right; split; [intros H'; specialize (H' eq_refl); lia|reflexivity]|
       left; split; [intros _; assumption|reflexivity]]).
Qed.
Print Assumptions C108_stakers_wait.

(** Removing an enclave: refused until its registration is older than the renewal period, allowed from then on *)
Theorem C108_removals_wait : forall c s a ds, let s' := wait c ds s in
  (forall w, (dispatch c (Signed a) (CTx (TxUnregisterSovereign w)) s').1 =
   match tx_sov (rt_tx s) !! w with
   | None => Failed EnclaveIsNotRegistered
   | Some e => if rt_now s' <=? en_timestamp e + c_renewal c then Failed UnregisterActiveEnclaveIsNotAllowed else Success
   end) /\
  (forall w, (dispatch c (Signed a) (CTx (TxUnregisterProxied w)) s').1 =
   match tx_prox (rt_tx s) !! w with
   | None => Failed EnclaveIsNotRegistered
   | Some e => if rt_now s' <=? en_timestamp e + c_renewal c then Failed UnregisterActiveEnclaveIsNotAllowed else Success
   end).
Proof.
  intros c s a ds s'. pose proof (proj1 (wait_clock c ds s)) as E. cbv zeta in E. fold s' in E.
  clearbody s'. assert (rt_tx s' = rt_tx s) as Et by (rewrite E; reflexivity). clear E.
  split; intros w; rewrite verdict_dispatch; cbn [exec tx_exec]; unfold verdict, unregister_sovereign, unregister_proxied, bind, ensure_signed, ret, gets, ok_or, ensure; rewrite Et.
  - destruct (tx_sov (rt_tx s) !! w) as [e|]; [|reflexivity]. cbn [ret]. unfold ret, sat_sub. cbv beta iota.
    destruct (N.leb_spec (rt_now s') (en_timestamp e + c_renewal c)); destruct (N.ltb_spec (en_timestamp e) (rt_now s' - c_renewal c)); try lia; reflexivity.
  - destruct (tx_prox (rt_tx s) !! w) as [e|]; [|reflexivity]. cbn [ret]. unfold ret, sat_sub. cbv beta iota.
    destruct (N.leb_spec (rt_now s') (en_timestamp e + c_renewal c)); destruct (N.ltb_spec (en_timestamp e) (rt_now s' - c_renewal c)); try lia; reflexivity.
Qed.
Print Assumptions C108_removals_wait.

(** Calls on a shard: the same answer as long as the same configuration is in force, and this changes at most once *)
Definition shard_of (k : call) : option bytes :=
  match k with
  | CEb (EbConfirm sh _ _ _) | CEb (EbUnshield sh _ _ _) | CEb (EbUpdateConfig sh _ _) | CSc (ScConfirm sh _ _) => Some sh
  | _ => None
  end.
Lemma shard_same c g l l' o k sh n b : shard_of k = Some sh -> let s := run c (genesis_state g) l in let s' := run c (genesis_state g) l' in
  s' = set_clock n b s -> in_force s sh b = in_force s sh (rt_blk s) -> (dispatch c o k s').1 = (dispatch c o k s).1.
Proof.
  intros Hk s s' E F.
  assert (forall a, Forall2 (fun p q : demand => (p.1 <-> q.1) /\ p.2 = q.2) (operator_demands s sh a) (operator_demands (set_clock n b s) sh a)) as Op.
  { intros a. unfold operator_demands. change (operator (set_clock n b s) sh (rt_blk (set_clock n b s))) with (operator s sh b).
    unfold operator. rewrite F. apply (same_list (operator_demands s sh a)). }
  destruct k as [|k|[sh' anc cand]| | | | |]; try discriminate Hk.
  - apply (same_answer (fun s => eb_demands c s o k) (fun s => (dispatch c o (CEb k) s).1));
      [intros; symmetry; apply C70_bridge_answers|intros; symmetry; apply C70_bridge_answers|]. rewrite E.
    destruct k; try discriminate Hk; cbn in Hk; injection Hk as ->; unfold eb_demands.
    + constructor; [split; reflexivity|]. destruct o; try apply same_list. apply Op.
    + constructor; [split; reflexivity|]. destruct o; try apply same_list. apply Forall2_app; [apply Op|apply same_list].
    + constructor; [split; reflexivity|]. destruct o as [|a|]; try apply same_list.
      change (in_force (set_clock n b s) sh (rt_blk (set_clock n b s))) with (in_force s sh b). rewrite F.
      apply (same_list (or_err (is_Some (tx_sov (rt_tx s) !! a)) EnclaveIsNotRegistered :: _)).
  - apply (same_answer (fun s => sc_demands s o (ScConfirm sh' anc cand)) (fun s => (dispatch c o (CSc (ScConfirm sh' anc cand)) s).1));
      [intros; symmetry; apply C70_sidechain_answers|intros; symmetry; apply C70_sidechain_answers|]. rewrite E.
    cbn in Hk. injection Hk as ->. unfold sc_demands. constructor; [split; reflexivity|]. destruct o as [|a|]; try apply same_list.
    apply Forall2_app; [apply Op|]. apply same_list.
Qed.
Theorem C108_shard_calls_wait : forall c g l o k sh, shard_of k = Some sh -> let s := run c (genesis_state g) l in
  (forall ds, in_force s sh (rt_blk (wait c ds s)) = in_force s sh (rt_blk s) -> (dispatch c o k (wait c ds s)).1 = (dispatch c o k s).1) /\
  exists change, forall ds ds', (change <= rt_blk (wait c ds s) <-> change <= rt_blk (wait c ds' s)) ->
    (dispatch c o k (wait c ds s)).1 = (dispatch c o k (wait c ds' s)).1.
Proof.
  intros c g l o k sh Hk s.
  assert (forall ds ds', in_force s sh (rt_blk (wait c ds s)) = in_force s sh (rt_blk (wait c ds' s)) ->
    (dispatch c o k (wait c ds s)).1 = (dispatch c o k (wait c ds' s)).1) as Same.
  { intros ds ds' F. pose proof (proj1 (wait_clock c ds s)) as E1. pose proof (proj1 (wait_clock c ds' s)) as E2. cbv zeta in E1, E2.
    pose proof (wait_reach c g l ds) as R1. pose proof (wait_reach c g l ds') as R2. fold s in R1, R2. rewrite R1, R2.
    apply (shard_same c g _ _ o k sh (rt_now (wait c ds s)) (rt_blk (wait c ds s)) Hk); rewrite <- R2.
    - rewrite <- R1, E1, E2 at 1. reflexivity.
    - rewrite E2 at 1 2. exact F. }
  split; [intros ds F; exact (Same ds [] F)|].
  exists (match eb_config (rt_eb s) !! sh with Some u => match uc_at u with Some t => t | None => 0 end | None => 0 end).
  intros ds ds' H. apply Same. unfold in_force. destruct (eb_config (rt_eb s) !! sh) as [u|]; [|reflexivity]. cbn. f_equal. unfold in_force_of.
  destruct (uc_pending u); [|reflexivity]. destruct (uc_at u) as [t|]; [|reflexivity].
  destruct (N.leb_spec t (rt_blk (wait c ds s))); destruct (N.leb_spec t (rt_blk (wait c ds' s))); try reflexivity; lia.
Qed.
Print Assumptions C108_shard_calls_wait.

(** Registration with an IAS report: refused before the date of the report, refused from a day after it on, and always the
    same answer in between; if it is not a report at all, always the same answer *)
Theorem C108_reports_wait : forall c g l a p u, json_levels_typed (c_sgx c) -> let s := run c (genesis_state g) l in
  let k := CTx (TxRegister p u MIas) in
  (forall r, lenN p <= 5000 -> url_fits u -> genuine_ias (c_sgx c) p r ->
     let in_time := if bool_decide (takeN 32 (vr_report_data r) = a)
                    then if bool_decide (vr_build_mode r = MDebug) && negb (tx_allow_debug (rt_tx s)) then Failed SgxModeIsNotAllowed else Success
                    else Failed SenderIsNotAttestedEnclave in
     forall ds, let s' := wait c ds s in
     (dispatch c (Signed a) k s').1 =
       if rt_now s' <? vr_timestamp r then Failed TimestampUnderflow
       else if vr_timestamp r + c_day c <=? rt_now s' then Failed RemoteAttestationIsTooOld else in_time) /\
  (~ (lenN p <= 5000 /\ url_fits u /\ exists r, genuine_ias (c_sgx c) p r) ->
     forall ds, (dispatch c (Signed a) k (wait c ds s)).1 = (dispatch c (Signed a) k s).1).
Proof.
  intros c g l a p u Hj s k. split.
  - intros r Hp Hu Hr in_time ds s'. pose proof (proj1 (wait_clock c ds s)) as E. cbv zeta in E. fold s' in E.
    assert (forall x, (dispatch c (Signed a) k s').1 = x <-> answers (tx_demands c s' (Signed a) (TxRegister p u MIas)) x) as D.
    { intros x. unfold s', s. rewrite wait_reach. apply C70_teerex_answers, Hj. }
    clearbody s'. apply D. assert (rt_tx s' = rt_tx s) as Et by (rewrite E; reflexivity). clear D E.
    unfold tx_demands. left. split; [eauto|]. left. split; [exact Hp|]. left. split; [exact Hu|]. cbn [attestation_demands].
    apply (answers_app (ias_demands (c_sgx c) p)); [apply ias_proper| |].
    { assert (rverdict (verify_ias_report (c_sgx c) p) = Success) as <-; [|apply ias_answers].
      apply C66_ias_report_accepted_iff_genuine in Hr. rewrite Hr. reflexivity. }
    assert (forall (P : verified_report -> Prop), (forall r, genuine_ias (c_sgx c) p r -> P r) <-> P r) as Hone.
    { intros P. split; [intros H; apply H, Hr|]. intros H r' Hr'. apply C66_ias_report_accepted_iff_genuine in Hr, Hr'. congruence. }
    destruct (N.ltb_spec (rt_now s') (vr_timestamp r)) as [H1|H1]; [right; split; [rewrite Hone; lia|reflexivity]|]. left. split; [rewrite Hone; exact H1|].
    destruct (N.leb_spec (vr_timestamp r + c_day c) (rt_now s')) as [H2|H2]; [right; split; [rewrite Hone; lia|reflexivity]|]. left. split; [rewrite Hone; exact H2|].
    unfold in_time. destruct (bool_decide_reflect (takeN 32 (vr_report_data r) = a)) as [H3|H3]; [|right; split; [rewrite Hone; exact H3|reflexivity]].
    left. split; [rewrite Hone; exact H3|].
    destruct (bool_decide_reflect (vr_build_mode r = MDebug)) as [H4|H4]; cbn [andb].
    + destruct (tx_allow_debug (rt_tx s)) eqn:Ed; cbn [negb]; [left; split; [rewrite Hone; unfold allowed_mode; rewrite Et, Ed; auto|reflexivity]|].
      right. split; [rewrite Hone; unfold allowed_mode; rewrite Et, Ed; intros H; discriminate (H H4)|reflexivity].
    + left. split; [rewrite Hone; intros H; contradiction|reflexivity].
  - intros Hn ds. pose proof (proj1 (wait_clock c ds s)) as E. cbv zeta in E.
    assert (forall s, (exists l, s = run c (genesis_state g) l) -> forall x, (dispatch c (Signed a) k s).1 = x <->
      answers (tx_demands c s (Signed a) (TxRegister p u MIas)) x) as D by (intros t [l' ->] x; apply C70_teerex_answers, Hj).
    assert (exists l, s = run c (genesis_state g) l) as R by eauto.
    assert (exists l, wait c ds s = run c (genesis_state g) l) as R' by (eexists; apply wait_reach).
    destruct (N.le_gt_cases (lenN p) 5000) as [Hp|Hp].
    2:{ transitivity (Failed RaProofIsTooLong); [|symmetry]; (apply D; [assumption|]; left; split; [eauto|]; right; split; [lia|reflexivity]). }
    assert (url_fits u \/ ~ url_fits u) as [Hu|Hu].
    { unfold url_fits. destruct u as [x|]; [|left; discriminate]. destruct (N.le_gt_cases (lenN x) 256); [left; intros y [= <-]; assumption|].
      right. intros H'. specialize (H' x eq_refl). lia. }
    2:{ transitivity (Failed EnclaveUrlIsTooLong); [|symmetry]; (apply D; [assumption|]; left; split; [eauto|]; left; split; [exact Hp|]; right; split; [exact Hu|reflexivity]). }
    set (z := rverdict (verify_ias_report (c_sgx c) p)). assert (z <> Success) as Hz.
    { unfold z. destruct (verify_ias_report (c_sgx c) p) as [r| |] eqn:Ev; [|discriminate|discriminate]. exfalso. apply Hn. split; [exact Hp|]. split; [exact Hu|].
      exists r. apply C66_ias_report_accepted_iff_genuine, Ev. }
    transitivity z; [|symmetry]; (apply D; [assumption|]; left; split; [eauto|]; left; split; [exact Hp|]; left; split; [exact Hu|];
      apply (answers_stop (ias_demands (c_sgx c) p)); [exact Hz|apply ias_answers]).
Qed.
Print Assumptions C108_reports_wait.

(** ** Certificates *)
(** The certificates a call brings with it: in a quote they lie behind the data of the quoting enclave *)
Definition certs_of (c : cfg) (k : call) : list bytes :=
  match k with
  | CTx (TxRegister p _ (MDcap _)) =>
      let auth := at_ p 1012 2 in extract_certs (c_sgx c) (sub_ (1020 + auth) (at_ p (1016 + auth) 4) p)
  | CTx (TxRegisterQe _ _ chain) | CTx (TxRegisterTcb _ _ chain) => extract_certs (c_sgx c) chain
  | _ => []
  end.
(** Whether they are a valid chain at a time (in milliseconds) *)
Definition chain_valid (o : sgx_oracles) (certs : list bytes) (t : N) : Prop :=
  forall leaf rest, certs = leaf :: rest -> or_chain o leaf rest (t / 1000) = true.
(** They are valid during one period only *)
Definition one_period (o : sgx_oracles) (certs : list bytes) : Prop :=
  forall t1 t2 t3, t1 <= t2 -> t2 <= t3 -> chain_valid o certs t1 -> chain_valid o certs t3 -> chain_valid o certs t2.
Definition dated (t : N) (r : verified_report) : verified_report :=
  mkReport (vr_mr_enclave r) (vr_mr_signer r) (vr_report_data r) (vr_status r) t (vr_build_mode r).
Definition quote_certs (o : sgx_oracles) (raw : bytes) : list bytes :=
  extract_certs o (sub_ (1020 + at_ raw 1012 2) (at_ raw (1016 + at_ raw 1012 2) 4) raw).
Lemma quote_chain o raw t qe fm tcb r : genuine_quote o raw t qe fm tcb r -> exists leaf inter, quote_certs o raw = leaf :: inter /\
  or_chain o leaf inter (t / 1000) = true /\ forall t', or_chain o leaf inter (t' / 1000) = true -> genuine_quote o raw t' qe fm tcb (dated t' r).
Proof.
  intros (he & bo & si & is & ke & qr & qs & as_ & au & ct & cs & ce & E & L1 & L2 & L3 & L4 & L5 & L6 & L7 & L8 & L9 & L10 & L11 & L12 & H1 & H2 & H3 & H4 & H5 & (leaf & inter & sg & C1 & C2 & C3 & C4 & C5 & C6) & V1 & V2 & V3 & V4 & V5 & V6).
  exists leaf, inter. split; [|split; [exact C4|]].
  - unfold quote_certs, at_. rewrite <- C1. f_equal.
    assert (sub_ 1012 2 raw = as_) as Ea. { apply (sub_parts _ (he ++ bo ++ si ++ is ++ ke ++ qr ++ qs) _ (au ++ ct ++ cs ++ ce)); [rewrite E; rewrite <- !app_assoc; reflexivity|rewrite !lenN_app; lia|exact L8]. }
    rewrite Ea. rewrite <- L9.
    assert (sub_ (1016 + lenN au) 4 raw = cs) as Es. { apply (sub_parts _ (he ++ bo ++ si ++ is ++ ke ++ qr ++ qs ++ as_ ++ au ++ ct) _ ce); [rewrite E; rewrite <- !app_assoc; reflexivity|rewrite !lenN_app; lia|exact L11]. }
    rewrite Es. rewrite <- L12.
    apply (sub_parts _ (he ++ bo ++ si ++ is ++ ke ++ qr ++ qs ++ as_ ++ au ++ ct ++ cs) _ []); [rewrite E, app_nil_r; rewrite <- !app_assoc; reflexivity|rewrite !lenN_app; lia|reflexivity].
  - intros t' Ht. exists he, bo, si, is, ke, qr, qs, as_, au, ct, cs, ce. cbn [dated vr_mr_enclave vr_mr_signer vr_report_data vr_status vr_timestamp vr_build_mode].
    repeat (split; [first [assumption|reflexivity]|]). split; [|repeat (split; [first [assumption|reflexivity]|]); assumption].
    exists leaf, inter, sg. repeat (split; [first [assumption|reflexivity]|]). assumption.
Qed.
Lemma chain_same o certs t t' : (chain_valid o certs t <-> chain_valid o certs t') ->
  Forall2 (fun p q : demand => (p.1 <-> q.1) /\ p.2 = q.2) (chain_demands o certs t) (chain_demands o certs t').
Proof. intros H. repeat constructor; try tauto; apply H. Qed.
Lemma quote_same o raw t t' qe (P : bytes -> tcb_level -> verified_report -> Prop) :
  (chain_valid o (quote_certs o raw) t <-> chain_valid o (quote_certs o raw) t') ->
  (forall fm tcb r, P fm tcb r <-> P fm tcb (dated t' r)) -> (forall fm tcb r, P fm tcb r <-> P fm tcb (dated t r)) ->
  (forall fm tcb r, genuine_quote o raw t qe fm tcb r -> P fm tcb r) <-> (forall fm tcb r, genuine_quote o raw t' qe fm tcb r -> P fm tcb r).
Proof.
  intros V HP HP'. unfold chain_valid in V. split; intros H fm tcb r Hr.
  - destruct (quote_chain _ _ _ _ _ _ _ Hr) as (leaf & inter & E & H1 & H2). rewrite (HP' fm tcb r). apply H, H2.
    apply (proj2 V); [|exact E]. intros x y Exy. rewrite E in Exy. injection Exy as <- <-. exact H1.
  - destruct (quote_chain _ _ _ _ _ _ _ Hr) as (leaf & inter & E & H1 & H2). rewrite (HP fm tcb r). apply H, H2.
    apply (proj1 V); [|exact E]. intros x y Exy. rewrite E in Exy. injection Exy as <- <-. exact H1.
Qed.
(** Registration with a quote: the same answer whenever the certificates are valid, and the same answer whenever they
    are not *)
Theorem C108_quotes_wait : forall c g l ds o p u proxied, json_levels_typed (c_sgx c) -> let s := run c (genesis_state g) l in
  let k := CTx (TxRegister p u (MDcap proxied)) in let s' := wait c ds s in
  (chain_valid (c_sgx c) (certs_of c k) (rt_now s) <-> chain_valid (c_sgx c) (certs_of c k) (rt_now s')) ->
  (dispatch c o k s').1 = (dispatch c o k s).1.
Proof.
  intros c g l ds o p u proxied Hj s k s' V. change (certs_of c k) with (quote_certs (c_sgx c) p) in V.
  pose proof (proj1 (wait_clock c ds s)) as E. cbv zeta in E. fold s' in E.
  apply (same_answer (fun s => tx_demands c s o (TxRegister p u (MDcap proxied))) (fun s => (dispatch c o k s).1));
    [intros; symmetry; apply C70_teerex_answers, Hj|intros x; unfold s', s; rewrite wait_reach; symmetry; apply C70_teerex_answers, Hj|].
  assert (rt_tx s' = rt_tx s) as Et by (rewrite E; reflexivity). clearbody s'. clear E.
  unfold tx_demands. constructor; [split; reflexivity|]. destruct o as [|a|]; try apply same_list. cbn [app].
  constructor; [split; reflexivity|]. constructor; [split; reflexivity|]. cbn [attestation_demands]. rewrite Et. apply Forall2_app.
  - unfold dcap_demands. cbv zeta. apply Forall2_app; [apply same_list|]. apply Forall2_app; [apply chain_same, V|apply same_list].
  - assert (forall P e, (forall fm tcb r, P s fm tcb r <-> P s' fm tcb r) ->
      (forall fm tcb r t, P s fm tcb r <-> P s fm tcb (dated t r)) ->
      ((or_err (forall fm tcb r, genuine_quote (c_sgx c) p (rt_now s) (tx_qe (rt_tx s)) fm tcb r -> P s fm tcb r) e).1 <->
      (or_err (forall fm tcb r, genuine_quote (c_sgx c) p (rt_now s') (tx_qe (rt_tx s)) fm tcb r -> P s' fm tcb r) e).1) /\ Failed e = Failed e) as Q.
    { intros P e HP HP'. split; [|reflexivity]. cbn [or_err fst].
      rewrite (quote_same (c_sgx c) p (rt_now s) (rt_now s') (tx_qe (rt_tx s)) (P s) V (fun fm tcb r => HP' fm tcb r _) (fun fm tcb r => HP' fm tcb r _)).
      split; intros H fm tcb r Hr; apply HP, H, Hr. }
    constructor; [apply (Q (fun _ _ _ r => proxied = false -> takeN 32 (vr_report_data r) = a)); reflexivity|].
    constructor; [apply (Q (fun _ fm _ _ => is_Some (tx_tcb (rt_tx s) !! fm))); reflexivity|].
    constructor; [apply (Q (fun _ fm tcb _ => forall i, tx_tcb (rt_tx s) !! fm = Some i -> some_level_reached i tcb)); reflexivity|].
    constructor; [|constructor]. apply (Q (fun s _ _ r => allowed_mode s r)); intros; unfold allowed_mode; rewrite ?Et; reflexivity.
Qed.
Print Assumptions C108_quotes_wait.

Lemma success_iff l : proper l -> (answers l Success <-> Forall (fun d : demand => d.1) l).
Proof.
  induction 1 as [|[P r] l Hr Hp IH]; cbn; [split; [constructor|reflexivity]|]. cbn in Hr. rewrite Forall_cons, <- IH. cbn. intuition congruence.
Qed.
Lemma chain_met o certs t : Forall (fun d : demand => d.1) (chain_demands o certs t) <->
  2 <= lenN certs /\ (forall leaf rest, certs = leaf :: rest -> or_ee_parse o leaf = true) /\ chain_valid o certs t.
Proof. unfold chain_demands, chain_valid. rewrite !Forall_cons, Forall_nil. cbn. tauto. Qed.
(** The dates a collateral document bears *)
Definition dates_of (c : cfg) (k : tx_call) : option (Z * Z) :=
  match k with
  | TxRegisterQe doc _ _ => match or_json_identity (c_sgx c) doc with Some d => Some (ei_issue d, ei_next d) | None => None end
  | TxRegisterTcb doc _ _ => match or_json_tcb (c_sgx c) doc with Some d => Some (tj_issue d, tj_next d) | None => None end
  | _ => None
  end.
(** What is demanded of a document at time [t], and what is not about the time *)
Lemma collateral_met c s o k : match k with TxRegisterQe _ _ _ | TxRegisterTcb _ _ _ => True | _ => False end ->
  proper (tx_demands c s o k) /\ exists P : Prop, forall s', rt_tx s' = rt_tx s -> (Forall (fun d : demand => d.1) (tx_demands c s' o k) <->
    P /\ chain_valid (c_sgx c) (certs_of c (CTx k)) (rt_now s') /\ rt_now s' < 2 ^ 63 /\
    exists i e, dates_of c k = Some (i, e) /\ (0 <= i < Z.of_N (rt_now s'))%Z /\ (Z.of_N (rt_now s') < e)%Z).
Proof.
  intros Hk. destruct k as [| | |doc sig chain|doc sig chain|]; try destruct Hk; cbn [certs_of dates_of].
  - split.
    { unfold tx_demands. constructor; [discriminate|]. destruct o; [constructor|apply document_proper|constructor]. }
    destruct o as [|a|].
    1,3: exists False; intros s' _; unfold tx_demands; rewrite Forall_cons; cbn; (split; [intros [[? ?] _]; discriminate|tauto]).
    eexists (2 <= lenN (extract_certs (c_sgx c) chain) /\ (forall leaf rest, extract_certs (c_sgx c) chain = leaf :: rest -> or_ee_parse (c_sgx c) leaf = true) /\
      lenN sig = 64 /\ cert_signed (c_sgx c) (extract_certs (c_sgx c) chain) doc sig /\
      forall d, or_json_identity (c_sgx c) doc = Some d -> ei_id d = ascii "QE" /\ ei_version d = 2).
    intros s' Es. unfold tx_demands, document_demands. cbv zeta. rewrite Forall_cons, !Forall_app, chain_met, !Forall_cons, !Forall_nil.
    cbn [fst or_err or_sgx or_panic]. destruct (or_json_identity (c_sgx c) doc) as [d|].
    + split.
      * intros (_ & ((H1 & H2 & H3) & H4 & H5 & _) & H6 & H7 & H8 & H9 & _). specialize (H8 d eq_refl). specialize (H9 d eq_refl).
        destruct H8 as (E1 & E2 & E3 & E4). split; [repeat (split; [assumption|]); intros ? [= <-]; auto|]. split; [assumption|]. split; [assumption|]. exists (ei_issue d), (ei_next d). auto.
      * intros ((H1 & H2 & H4 & H5 & H6) & H3 & H7 & i & e & [= <- <-] & [E1 E2] & E3). destruct (H6 d eq_refl) as [E4 E5]. cbn.
        split; [eauto|]. split; [auto|]. split; [eauto|]. split; [auto|]. split; [intros ? [= <-]; auto|]. split; [intros ? [= <-]; auto|exact I].
    + split; [intros (_ & _ & [? ?] & _); discriminate|]. intros (_ & _ & _ & i & e & ? & _). discriminate.
  - split.
    { unfold tx_demands. constructor; [discriminate|]. destruct o; [constructor|apply document_proper|constructor]. }
    destruct o as [|a|].
    1,3: exists False; intros s' _; unfold tx_demands; rewrite Forall_cons; cbn; (split; [intros [[? ?] _]; discriminate|tauto]).
    eexists (2 <= lenN (extract_certs (c_sgx c) chain) /\ (forall leaf rest, extract_certs (c_sgx c) chain = leaf :: rest -> or_ee_parse (c_sgx c) leaf = true) /\
      lenN sig = 64 /\ cert_signed (c_sgx c) (extract_certs (c_sgx c) chain) doc sig /\
      forall d, or_json_tcb (c_sgx c) doc = Some d -> tj_id d = ascii "SGX" /\ tj_version d = 3).
    intros s' Es. unfold tx_demands, document_demands. cbv zeta. rewrite Forall_cons, !Forall_app, chain_met, !Forall_cons, !Forall_nil.
    cbn [fst or_err or_sgx or_panic]. destruct (or_json_tcb (c_sgx c) doc) as [d|].
    + split.
      * intros (_ & ((H1 & H2 & H3) & H4 & H5 & _) & H6 & H7 & H8 & H9 & _). specialize (H8 d eq_refl). specialize (H9 d eq_refl).
        destruct H8 as (E1 & E2 & E3 & E4). split; [repeat (split; [assumption|]); intros ? [= <-]; auto|]. split; [assumption|]. split; [assumption|]. exists (tj_issue d), (tj_next d). auto.
      * intros ((H1 & H2 & H4 & H5 & H6) & H3 & H7 & i & e & [= <- <-] & [E1 E2] & E3). destruct (H6 d eq_refl) as [E4 E5]. cbn.
        split; [eauto|]. split; [auto|]. split; [eauto|]. split; [auto|]. split; [intros ? [= <-]; auto|]. split; [intros ? [= <-]; auto|exact I].
    + split; [intros (_ & _ & [? ?] & _); discriminate|]. intros (_ & _ & _ & i & e & ? & _). discriminate.
Qed.
(** Collateral: accepted only inside the dates it bears; once accepted, it stays accepted exactly while its date has not passed and
    its certificates are valid (and the clock fits the type the code converts it to) *)
Theorem C108_collateral_waits : forall c g l o k, json_levels_typed (c_sgx c) -> let s := run c (genesis_state g) l in
  match k with TxRegisterQe _ _ _ | TxRegisterTcb _ _ _ => True | _ => False end ->
  (dispatch c o (CTx k) s).1 = Success -> let valid s := chain_valid (c_sgx c) (certs_of c (CTx k)) (rt_now s) in
  exists issued ends, dates_of c k = Some (issued, ends) /\ (0 <= issued < Z.of_N (rt_now s))%Z /\ (Z.of_N (rt_now s) < ends)%Z /\ valid s /\
  forall ds, let s' := wait c ds s in
    ((dispatch c o (CTx k) s').1 = Success <-> valid s' /\ (Z.of_N (rt_now s') < ends)%Z /\ rt_now s' < 2 ^ 63).
Proof.
  intros c g l o k Hj s Hk Hok valid. destruct (collateral_met c s o k Hk) as (Hp & P & HP).
  pose proof (proj1 (C70_teerex_answers c g l o k Success Hj) Hok) as A. fold s in A. apply success_iff in A; [|exact Hp].
  apply (HP s eq_refl) in A. destruct A as (HP1 & V & Hs & i & e & Hd & Hi & He). exists i, e.
  repeat (split; [assumption|]). intros ds s'. destruct (wait_clock c ds s) as (E & T & _). fold s' in E, T.
  assert ((dispatch c o (CTx k) s').1 = Success <-> answers (tx_demands c s' o k) Success) as ->.
  { unfold s', s. rewrite wait_reach. apply C70_teerex_answers, Hj. }
  assert (rt_tx s' = rt_tx s) as Et by (rewrite E; reflexivity). clearbody s'.
  rewrite success_iff by apply (collateral_met c s' o k Hk). rewrite (HP s' Et). split.
  - intros (_ & V' & Hs' & i' & e' & Hd' & Hi' & He'). rewrite Hd in Hd'. injection Hd' as <- <-. auto.
  - intros (V' & He' & Hs'). repeat (split; [assumption|]). exists i, e. repeat split; auto; lia.
Qed.
Print Assumptions C108_collateral_waits.

(** ** One window *)
Lemma wait_wait c ds ds' s : wait c ds' (wait c ds s) = wait c (ds ++ ds') s.
Proof. unfold wait. rewrite map_app, run_app. reflexivity. Qed.
Lemma timed_signed c o k s : timed k = true -> shard_of k = None -> (dispatch c o k s).1 = Success -> exists a, o = Signed a.
Proof.
  intros Ht Hs. rewrite verdict_dispatch. destruct o as [|a|]; [|eauto|].
  all: destruct k as [k|k|k| |k| | |]; try discriminate Ht; destruct k; try discriminate Ht; try discriminate Hs; intros H; try discriminate H.
  all: destruct m; discriminate.
Qed.
Lemma report_dec c p u : let P := lenN p <= 5000 /\ url_fits u /\ exists r, genuine_ias (c_sgx c) p r in P \/ ~ P.
Proof.
  cbv zeta. destruct (N.le_gt_cases (lenN p) 5000) as [Hp|Hp]; [|right; lia].
  assert (url_fits u \/ ~ url_fits u) as [Hu|Hu]; [|destruct (verify_ias_report (c_sgx c) p) as [r| |] eqn:Ev|right; tauto].
  - unfold url_fits. destruct u as [x|]; [|left; discriminate]. destruct (N.le_gt_cases (lenN x) 256); [left; intros y [= <-]; assumption|].
    right. intros H'. specialize (H' x eq_refl). lia.
  - left. split; [exact Hp|]. split; [exact Hu|]. exists r. apply C66_ias_report_accepted_iff_genuine, Ev.
  - right. intros (_ & _ & r & Hr). apply C66_ias_report_accepted_iff_genuine in Hr. congruence.
  - right. intros (_ & _ & r & Hr). apply C66_ias_report_accepted_iff_genuine in Hr. congruence.
Qed.
Lemma quote_valid c g l a p u x : json_levels_typed (c_sgx c) -> let s := run c (genesis_state g) l in
  (dispatch c (Signed a) (CTx (TxRegister p u (MDcap x))) s).1 = Success -> chain_valid (c_sgx c) (quote_certs (c_sgx c) p) (rt_now s).
Proof.
  intros Hj s A. pose proof (proj1 (C70_teerex_answers c g l _ _ Success Hj) A) as A'. fold s in A'.
  apply success_iff in A'; [|unfold tx_demands; cbn [app attestation_demands]; do 3 (constructor; [discriminate|]); apply proper_app; [apply dcap_proper|repeat constructor; discriminate]].
  unfold tx_demands in A'. cbn [app attestation_demands] in A'. rewrite !Forall_cons, Forall_app in A'. unfold dcap_demands in A'. cbv zeta in A'.
  rewrite !Forall_app, chain_met in A'. apply A'.
Qed.
(** The times at which a call is accepted, everything else being equal, form an interval: accepted now and accepted later, it
    is accepted at every time in between. Certificates must be valid during one period only *)
Theorem C108_accepted_in_one_window : forall c g l ds ds' o k, json_levels_typed (c_sgx c) -> one_period (c_sgx c) (certs_of c k) ->
  let s1 := run c (genesis_state g) l in let s2 := wait c ds s1 in let s3 := wait c ds' s2 in
  (dispatch c o k s1).1 = Success -> (dispatch c o k s3).1 = Success -> (dispatch c o k s2).1 = Success.
Proof.
  intros c g l ds ds' o k Hj H1p s1 s2 s3 A1 A3.
  destruct (timed k) eqn:Tk; [|rewrite <- A1; apply C108_most_answers_do_not_depend_on_time, Tk].
  pose proof (wait_wait c ds ds' s1) as E3. fold s2 in E3. fold s3 in E3.
  destruct (wait_clock c ds s1) as (_ & T12 & B12). fold s2 in T12, B12.
  destruct (wait_clock c ds' s2) as (_ & T23 & B23). fold s3 in T23, B23.
  destruct (shard_of k) as [sh|] eqn:Sk.
  { destruct (C108_shard_calls_wait c g l o k sh Sk) as (_ & ch & H). fold s1 in H.
    destruct (N.le_gt_cases ch (rt_blk s2)).
    - rewrite <- A3, E3. apply H. fold s2. rewrite <- E3. lia.
    - rewrite <- A1. apply (H ds []). fold s2. change (wait c [] s1) with s1. lia. }
  destruct (timed_signed c o k s1 Tk Sk A1) as [a ->].
  destruct k as [k|k|k| |k| | |]; try discriminate Tk.
  - destruct k as [v|v|v|v|]; try discriminate Tk.
    + destruct (C108_stakers_wait c s1 a ds) as [_ W2]. destruct (C108_stakers_wait c s1 a (ds ++ ds')) as [_ W3].
      specialize (W2 v). specialize (W3 v). fold s2 in W2. rewrite <- E3 in W3. rewrite A1 in W2, W3. rewrite A3 in W3.
      rewrite W2. destruct (c_ovf c); cbn [andb] in *; [|reflexivity].
      destruct (N.ltb_spec u64_max (rt_now s3 + c_unlock c)); [discriminate W3|]. destruct (N.ltb_spec u64_max (rt_now s2 + c_unlock c)); [lia|reflexivity].
    + destruct (C108_stakers_wait c s1 a ds) as [W2 _]. destruct (C108_stakers_wait c s1 a []) as [W1 _]. fold s2 in W2. change (wait c [] s1) with s1 in W1.
      rewrite W2. rewrite A1 in W1. destruct (td_pending (rt_td s1) !! a) as [[due ?]|]; [|discriminate W1].
      destruct (N.ltb_spec (rt_now s1) due); [discriminate W1|]. destruct (N.ltb_spec (rt_now s2) due); [lia|reflexivity].
  - destruct k; try discriminate Tk; discriminate Sk.
  - destruct k; discriminate Sk.
  - destruct k as [p u m|w|w|doc sig chain|doc sig chain|]; try discriminate Tk.
    + destruct m as [x| |x]; try discriminate Tk.
      * destruct (C108_reports_wait c g l a p u Hj) as [W N]. fold s1 in W, N. cbv zeta in N.
        destruct (report_dec c p u) as [(Hp & Hu & r & Hr)|Hn]; [|rewrite <- A1; exact (N Hn ds)].
        specialize (W r Hp Hu Hr). cbv zeta in W. pose proof (W ds) as W2. pose proof (W (ds ++ ds')) as W3. pose proof (W []) as W1. clear W N.
        fold s2 in W2. rewrite <- E3 in W3. change (wait c [] s1) with s1 in W1. rewrite A1 in W1. rewrite A3 in W3. rewrite W2. clear W2.
        destruct (N.ltb_spec (rt_now s1) (vr_timestamp r)); [discriminate W1|]. destruct (N.leb_spec (vr_timestamp r + c_day c) (rt_now s1)); [discriminate W1|].
        destruct (N.ltb_spec (rt_now s3) (vr_timestamp r)); [discriminate W3|]. destruct (N.leb_spec (vr_timestamp r + c_day c) (rt_now s3)); [discriminate W3|].
        destruct (N.ltb_spec (rt_now s2) (vr_timestamp r)); [lia|]. destruct (N.leb_spec (vr_timestamp r + c_day c) (rt_now s2)); [lia|]. symmetry. exact W1.
      * pose proof (quote_valid c g l a p u x Hj A1) as V1. fold s1 in V1.
        assert (chain_valid (c_sgx c) (quote_certs (c_sgx c) p) (rt_now s3)) as V3.
        { rewrite E3. unfold s1. rewrite wait_reach. apply (quote_valid c g _ a p u x Hj). rewrite <- wait_reach. fold s1. rewrite <- E3. exact A3. }
        rewrite <- A1. apply (C108_quotes_wait c g l ds (Signed a) p u x Hj). fold s1. fold s2. change (certs_of c _) with (quote_certs (c_sgx c) p) in *.
        split; intros _; [exact (H1p _ _ _ T12 T23 V1 V3)|exact V1].
    + destruct (C108_removals_wait c s1 a ds) as [W2 _]. destruct (C108_removals_wait c s1 a []) as [W1 _]. specialize (W1 w). specialize (W2 w). fold s2 in W2. change (wait c [] s1) with s1 in W1.
      rewrite W2. rewrite A1 in W1. destruct (tx_sov (rt_tx s1) !! w) as [e|]; [|discriminate W1].
      destruct (N.leb_spec (rt_now s1) (en_timestamp e + c_renewal c)); [discriminate W1|]. destruct (N.leb_spec (rt_now s2) (en_timestamp e + c_renewal c)); [lia|reflexivity].
    + destruct (C108_removals_wait c s1 a ds) as [_ W2]. destruct (C108_removals_wait c s1 a []) as [_ W1]. specialize (W1 w). specialize (W2 w). fold s2 in W2. change (wait c [] s1) with s1 in W1.
      rewrite W2. rewrite A1 in W1. destruct (tx_prox (rt_tx s1) !! w) as [e|]; [|discriminate W1].
      destruct (N.leb_spec (rt_now s1) (en_timestamp e + c_renewal c)); [discriminate W1|]. destruct (N.leb_spec (rt_now s2) (en_timestamp e + c_renewal c)); [lia|reflexivity].
    + destruct (C108_collateral_waits c g l (Signed a) (TxRegisterQe doc sig chain) Hj I A1) as (i & e & _ & _ & _ & V1 & W). fold s1 in W, V1.
      pose proof (W (ds ++ ds')) as W3. rewrite <- E3 in W3. apply W3 in A3. destruct A3 as (V3 & He & Hb). apply (W ds). fold s2.
      split; [exact (H1p _ _ _ T12 T23 V1 V3)|]. lia.
    + destruct (C108_collateral_waits c g l (Signed a) (TxRegisterTcb doc sig chain) Hj I A1) as (i & e & _ & _ & _ & V1 & W). fold s1 in W, V1.
      pose proof (W (ds ++ ds')) as W3. rewrite <- E3 in W3. apply W3 in A3. destruct A3 as (V3 & He & Hb). apply (W ds). fold s2.
      split; [exact (H1p _ _ _ T12 T23 V1 V3)|]. lia.
Qed.
Print Assumptions C108_accepted_in_one_window.

(** ** Certificates are valid during one period *)
Lemma path_between signed roots t1 t2 t3 inter : (t1 <= t2)%Z -> (t2 <= t3)%Z -> NoDup (map ce_subject inter) ->
  forall fuel ca x, path signed roots fuel t1 ca inter x = true -> path signed roots fuel t3 ca inter x = true -> path signed roots fuel t2 ca inter x = true.
Proof.
  intros T12 T23 ND. induction fuel as [|f IH]; intros ca x; cbn [path]; [discriminate|].
  rewrite !andb_true_iff, !orb_true_iff, !existsb_exists. intros ((V1 & C1) & P1) ((V3 & _) & P3). split; [split; [|exact C1]|].
  - unfold valid_at in *. destruct (der_time (ce_validity x)) as [[p r]|]; [|discriminate]. destruct (der_time r) as [[q [|]]|]; try discriminate.
    rewrite andb_true_iff, !Z.leb_le in *. lia.
  - destruct P1 as [P1|(i & I1 & P1)]; [auto|]. destruct P3 as [P3|(j & I3 & P3)]; [auto|]. right. exists i. split; [exact I1|].
    rewrite !andb_true_iff in *. destruct P1 as ((S1 & G1) & Q1). destruct P3 as ((S3 & _) & Q3). repeat split; try assumption.
    assert (i = j) as <-; [|exact (IH _ _ Q1 Q3)]. apply beq_true in S1, S3.
    apply elem_of_list_In, elem_of_list_lookup in I1 as [m Hm]. apply elem_of_list_In, elem_of_list_lookup in I3 as [n Hn].
    assert (m = n) as <-; [|congruence]. apply (proj1 (NoDup_alt _) ND m n (ce_subject i)).
    + rewrite list_lookup_fmap, Hm. reflexivity.
    + rewrite list_lookup_fmap, Hn. cbn. congruence.
Qed.
(** For the certificates themselves (X.509, Intel's trust anchor): a chain whose intermediate certificates have different
    subjects is valid during one period *)
Theorem C108_chains_are_valid_in_one_period : forall rsa ecdsa fixed certs,
  (forall cs, mapM x509 (tail certs) = Some cs -> NoDup (map ce_subject cs)) -> one_period (text_oracles rsa ecdsa fixed) certs.
Proof.
  intros rsa ecdsa fixed certs ND t1 t2 t3 T12 T23 V1 V3 leaf rest ->. specialize (V1 leaf rest eq_refl). specialize (V3 leaf rest eq_refl). cbn [tail] in ND.
  cbn [text_oracles or_chain] in *. unfold chain_ok in *. destruct (x509 leaf) as [x|]; [|discriminate]. destruct (mapM x509 rest) as [cs|]; [|discriminate].
  refine (path_between _ _ _ _ _ _ _ _ (ND cs eq_refl) _ _ _ V1 V3).
  - pose proof (N.div_le_mono t1 t2 1000 ltac:(lia) T12). lia.
  - pose proof (N.div_le_mono t2 t3 1000 ltac:(lia) T23). lia.
Qed.
Print Assumptions C108_chains_are_valid_in_one_period.
(** Put together: with the strings read as the crates read them *)
Theorem C108_accepted_in_one_window_on_real_strings : forall rsa ecdsa fixed c g l ds ds' o k, c_sgx c = text_oracles rsa ecdsa fixed ->
  (forall cs, mapM x509 (tail (certs_of c k)) = Some cs -> NoDup (map ce_subject cs)) ->
  let s1 := run c (genesis_state g) l in let s2 := wait c ds s1 in let s3 := wait c ds' s2 in
  (dispatch c o k s1).1 = Success -> (dispatch c o k s3).1 = Success -> (dispatch c o k s2).1 = Success.
Proof.
  intros rsa ecdsa fixed c g l ds ds' o k Hc ND. apply C108_accepted_in_one_window.
  - rewrite Hc. eapply C75_values_are_typed. apply (C87_pallet_reads_what_was_written rsa ecdsa fixed).
  - rewrite Hc. apply C108_chains_are_valid_in_one_period. exact ND.
Qed.
Print Assumptions C108_accepted_in_one_window_on_real_strings.
(** Which calls, once accepted, stay accepted *)
Theorem C108_accepted_for_good : forall c g l ds o k, let s := run c (genesis_state g) l in
  timed k = false \/ k = CTd TdWithdrawUnbonded \/ (exists v, k = CTd (TdUnbond v) /\ c_ovf c = false) \/
  (exists w, k = CTx (TxUnregisterSovereign w)) \/ (exists w, k = CTx (TxUnregisterProxied w)) ->
  (dispatch c o k s).1 = Success -> (dispatch c o k (wait c ds s)).1 = Success.
Proof.
  intros c g l ds o k s H A. destruct (wait_clock c ds s) as (_ & T & _).
  assert (timed k = false \/ timed k = true /\ shard_of k = None) as [F|[F F']].
  { destruct H as [H|[->|[(v & -> & _)|[(w & ->)|(w & ->)]]]]; auto. }
  { rewrite <- A. apply C108_most_answers_do_not_depend_on_time, F. }
  destruct (timed_signed c o k s F F' A) as [a ->]. destruct H as [H|[->|[(v & -> & Ho)|[(w & ->)|(w & ->)]]]]; [congruence|..].
  - destruct (C108_stakers_wait c s a ds) as [W2 _]. destruct (C108_stakers_wait c s a []) as [W1 _]. change (wait c [] s) with s in W1.
    rewrite W2. rewrite A in W1. destruct (td_pending (rt_td s) !! a) as [[due ?]|]; [|discriminate W1].
    destruct (N.ltb_spec (rt_now s) due); [discriminate W1|]. destruct (N.ltb_spec (rt_now (wait c ds s)) due); [lia|reflexivity].
  - destruct (C108_stakers_wait c s a ds) as [_ W2]. rewrite (W2 v), A, Ho. reflexivity.
  - destruct (C108_removals_wait c s a ds) as [W2 _]. destruct (C108_removals_wait c s a []) as [W1 _]. specialize (W1 w). specialize (W2 w). change (wait c [] s) with s in W1.
    rewrite W2. rewrite A in W1. destruct (tx_sov (rt_tx s) !! w) as [e|]; [|discriminate W1].
    destruct (N.leb_spec (rt_now s) (en_timestamp e + c_renewal c)); [discriminate W1|]. destruct (N.leb_spec (rt_now (wait c ds s)) (en_timestamp e + c_renewal c)); [lia|reflexivity].
  - destruct (C108_removals_wait c s a ds) as [_ W2]. destruct (C108_removals_wait c s a []) as [_ W1]. specialize (W1 w). specialize (W2 w). change (wait c [] s) with s in W1.
    rewrite W2. rewrite A in W1. destruct (tx_prox (rt_tx s) !! w) as [e|]; [|discriminate W1].
    destruct (N.leb_spec (rt_now s) (en_timestamp e + c_renewal c)); [discriminate W1|]. destruct (N.leb_spec (rt_now (wait c ds s)) (en_timestamp e + c_renewal c)); [lia|reflexivity].
Qed.
Print Assumptions C108_accepted_for_good.
(** The others do not: an upgrade that falls due makes the same confirmation fail *)
Theorem C108_waiting_never_hurts_refuted :
  ~ (forall c g l ds o k, let s := run c (genesis_state g) l in (dispatch c o k s).1 = Success -> (dispatch c o k (wait c ds s)).1 = Success).
Proof.
  intros H.
  pose proof (H c0 g0 [register alice (acc 9); call_eb alice (EbUpdateConfig (acc 9) rules 0); call_eb alice (EbUpdateConfig (acc 9) (mkScfg (acc 8) None None false) 5)] (replicate 6 6000)
    (Signed alice) (CEb (EbConfirm (acc 9) [] 1 []))) as X.
  cbv zeta in X. apply (f_equal (fun z => match z with Success => true | _ => false end)) in X; vm_compute in X; [discriminate X|reflexivity].
Qed.
Print Assumptions C108_waiting_never_hurts_refuted.

(** ** Examples *)
(** Unbonding takes 1000; the answers at 0, 999, 1000 and much later *)
Example withdrawal_opens : map (fun d => (dispatch c0 (Signed alice) (CTd TdWithdrawUnbonded)
    (wait c0 [d] (run c0 (genesis_state g0) [call_td alice (TdBond 500); call_td alice (TdUnbond 100)]))).1) [0; 999; 1000; 86400000] =
  [Failed PendingUnlock; Failed PendingUnlock; Success; Success].
Proof. vm_compute. reflexivity. Qed.
(** The report is dated 6000, the clock starts at 5000 *)
Example report_window : map (fun d => (dispatch c0 (Signed alice) (CTx (TxRegister (ias_e (report_e [6]) 7) None MIas))
    (wait c0 [d] (run c0 (genesis_state g0) [OCall Root (CTx (TxSetFlags true true))]))).1) [0; 1000; 86400000; 86400999; 86401000] =
  [Failed TimestampUnderflow; Success; Success; Success; Failed RemoteAttestationIsTooOld].
Proof. vm_compute. reflexivity. Qed.
Example collateral_window : map (fun d => (dispatch c0 (Signed alice) (CTx (TxRegisterTcb [1; 255; 11; 0] (zeros 64) (pem_e 65)))
    (wait c0 [d] (run c0 (genesis_state (mkGenesis 0 ∅ [] [] false true ∅)) []))).1) [0; 1; 2; 254; 255; 256] =
  [Failed CollateralIsInvalid; Failed CollateralIsInvalid; Success; Success; Failed CollateralIsInvalid; Failed CollateralIsInvalid].
Proof. vm_compute. reflexivity. Qed.
(** A removal opens after the renewal period of 172800000; an upgrade closes confirmations after five blocks *)
Example removal_opens : map (fun d => (dispatch c0 (Signed bob) (CTx (TxUnregisterSovereign alice))
    (wait c0 [d] (run c0 (genesis_state g0) [register alice (acc 9)]))).1) [0; 172800000; 172800001] =
  [Failed UnregisterActiveEnclaveIsNotAllowed; Failed UnregisterActiveEnclaveIsNotAllowed; Success].
Proof. vm_compute. reflexivity. Qed.
Example upgrade_closes : map (fun n => (dispatch c0 (Signed alice) (CEb (EbConfirm (acc 9) [] 1 []))
    (wait c0 (replicate n 6000) (run c0 (genesis_state g0) [register alice (acc 9); call_eb alice (EbUpdateConfig (acc 9) rules 0);
       call_eb alice (EbUpdateConfig (acc 9) (mkScfg (acc 8) None None false) 5)]))).1) [0; 4; 5; 6]%nat =
  [Success; Success; Failed WrongFingerprintForShard; Failed WrongFingerprintForShard].
Proof. vm_compute. reflexivity. Qed.
(** The hypotheses of the theorem on windows hold of the report and the collateral *)
Example window_applies : json_levels_typed (c_sgx c0) /\ one_period (c_sgx c0) (certs_of c0 (CTx (TxRegisterTcb [1; 255; 11; 0] (zeros 64) (pem_e 65)))) /\
  certs_of c0 (CTx (TxRegisterTcb [1; 255; 11; 0] (zeros 64) (pem_e 65))) <> [] /\
  one_period (c_sgx c0) (certs_of c0 (CTx (TxRegister (ias_e (report_e [6]) 7) None MIas))).
Proof.
  split; [exact sgx_e_typed|]. split; [|split; [vm_compute; discriminate|intros t1 t2 t3 _ _ _ _ leaf rest H; discriminate H]].
  intros t1 t2 t3 _ _ V _. exact V.
Qed.
