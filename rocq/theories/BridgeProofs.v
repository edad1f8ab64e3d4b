(** * Lemmas about enclave-bridge and sidechain. *)
From Verif Require Import Base State Env TeerdaysModel TeerexBase SgxVerifyModel TeerexModel
  EnclaveBridgeModel SidechainModel TeeracleModel ClaimsModel AssetRegistryModel XcmTransactorModel
  Runtime Frame EnvFacts Panic.

(** ** Observables *)
Definition status_of (s : rt) (sh : bytes) : list sstat := default [] (eb_status (rt_eb s) !! sh).
Definition signers_of (s : rt) (sh : bytes) : list acct := map ss_signer (status_of s sh).
Definition confirmations (s : rt) (h : bytes) : N := default 0 (eb_exec (rt_eb s) !! h).
(** The shard configuration in force at block [b], if there is an explicit one *)
Definition in_force_of (u : uscfg) (b : N) : scfg :=
  match uc_pending u, uc_at u with
  | Some p, Some t => if t <=? b then p else uc_active u
  | _, _ => uc_active u
  end.
Definition in_force (s : rt) (sh : bytes) (b : N) : option scfg :=
  (fun u => in_force_of u b) <$> (eb_config (rt_eb s) !! sh).
(** The fingerprint of the enclaves that may operate the shard at block [b]; without configuration
    it is the shard identifier itself *)
Definition operator (s : rt) (sh : bytes) (b : N) : bytes :=
  match in_force s sh b with Some x => sc_fp x | None => sh end.
(** [a] is registered and operates [sh] now *)
Definition authorised (s : rt) (sh : bytes) (a : acct) (e : enclave) : Prop :=
  tx_sov (rt_tx s) !! a = Some e /\ fingerprint e = operator s sh (rt_blk s).

(** ** Configuration lookup *)
Definition enact (sh : bytes) (b : N) (s : rt) : rt :=
  match eb_config (rt_eb s) !! sh with
  | Some u =>
      match uc_pending u, uc_at u with
      | Some p, Some t => if t <=? b then put_config sh (from_scfg p) s else s
      | _, _ => s
      end
  | None => s
  end.
Lemma get_config_eq sh b ap s :
  get_config sh b ap s = Ok (in_force s sh b) (if ap then enact sh b s else s).
Proof.
  unfold get_config, in_force, in_force_of, enact, bind, gets, ret, modify.
  destruct (eb_config (rt_eb s) !! sh) as [[act pen at_]|]; cbn; [|destruct ap; auto].
  destruct at_ as [t|]; [destruct (N.leb_spec t b)|]; destruct pen; destruct ap; auto.
Qed.
Lemma get_config_ok sh b ap s r s' : get_config sh b ap s = Ok r s' ->
  r = in_force s sh b /\ s' = if ap then enact sh b s else s.
Proof. rewrite get_config_eq. intros H. inversion H. auto. Qed.

(** ** Views of the writes *)
Lemma enact_status sh b s : eb_status (rt_eb (enact sh b s)) = eb_status (rt_eb s).
Proof. unfold enact. repeat case_match; reflexivity. Qed.
Lemma enact_exec sh b s : eb_exec (rt_eb (enact sh b s)) = eb_exec (rt_eb s).
Proof. unfold enact. repeat case_match; reflexivity. Qed.
Lemma enact_other (B : Type) (f : rt -> B) sh b s :
  (forall x s, f (set_eb x s) = f s) -> f (enact sh b s) = f s.
Proof. intros H. unfold enact, put_config. repeat case_match; auto. Qed.
Lemma enact_in_force sh b s sh' b' : b <= b' -> in_force (enact sh b s) sh' b' = in_force s sh' b'.
Proof.
  intros Hb. unfold enact. destruct (eb_config (rt_eb s) !! sh) as [[act pen at_]|] eqn:E; [|auto].
  cbn. destruct pen as [p|]; [|auto]. destruct at_ as [t|]; [|auto].
  destruct (N.leb_spec t b); [|auto]. unfold in_force. cbn.
  destruct (decide (sh = sh')) as [->|]; [|rewrite lookup_insert_ne by auto; auto].
  rewrite lookup_insert, E. cbn. unfold in_force_of. cbn. destruct (N.leb_spec t b'); [auto|lia].
Qed.
Lemma put_status_in_force sh l s sh' b : in_force (put_status sh l s) sh' b = in_force s sh' b.
Proof. reflexivity. Qed.
Lemma in_force_view s s' : eb_config (rt_eb s') = eb_config (rt_eb s) -> forall sh b, in_force s' sh b = in_force s sh b.
Proof. unfold in_force. intros ->. auto. Qed.

(** ** Touching *)
Lemma touch_shard_ok sh a fp b s l s' : touch_shard sh a fp b s = Ok l s' ->
  l = touch_list (mkSstat a fp b) (status_of s sh) /\ lenN l <= max_signers /\ s' = put_status sh l s.
Proof.
  unfold touch_shard, status_of. intros H. inv_rt H. bools.
  match goal with Hx : lenN _ <= _ |- _ => revert Hx end.
  match goal with |- context [eb_status ?z !! sh] => destruct (eb_status z !! sh) end; cbn; auto.
Qed.
Lemma touch_eq sh a fp b s :
  touch_shard sh a fp b s =
  let l := touch_list (mkSstat a fp b) (status_of s sh) in
  if lenN l <=? max_signers then Ok l (put_status sh l s) else Err TooManyEnclaves s.
Proof.
  unfold touch_shard, status_of, bind, gets, ensure, modify, ret, fail.
  destruct (eb_status (rt_eb s) !! sh); cbn; destruct (_ <=? _); auto.
Qed.
(** State after a successful authorisation: upgrade enacted, activity recorded *)
Definition touched (sh : bytes) (a : acct) (fp : bytes) (s : rt) : rt :=
  put_status sh (touch_list (mkSstat a fp (rt_blk s)) (status_of s sh)) (enact sh (rt_blk s) s).
Lemma get_enclave_ok a sh b s e l s' : get_enclave_and_touch a sh b s = Ok (e, l) s' -> b = rt_blk s ->
  authorised s sh a e /\ l = touch_list (mkSstat a (fingerprint e) b) (status_of s sh) /\
  lenN l <= max_signers /\ s' = touched sh a (fingerprint e) s.
Proof.
  unfold get_enclave_and_touch. intros H ->. inv_rt H.
  match goal with Hx : get_config _ _ _ _ = Ok _ _ |- _ => apply get_config_ok in Hx as [-> ->] end.
  match goal with Hx : touch_shard _ _ _ _ _ = Ok _ _ |- _ => apply touch_shard_ok in Hx as (-> & Hl & ->) end.
  bools. unfold authorised, touched, operator. unfold status_of in *. rewrite enact_status in *.
  repeat split; auto. destruct (in_force _ sh _); auto.
Qed.
Lemma get_enclave_eq a sh s e : authorised s sh a e ->
  get_enclave_and_touch a sh (rt_blk s) s =
  let l := touch_list (mkSstat a (fingerprint e) (rt_blk s)) (status_of s sh) in
  if lenN l <=? max_signers then Ok (e, l) (touched sh a (fingerprint e) s)
  else Err TooManyEnclaves (enact sh (rt_blk s) s).
Proof.
  intros [H1 H2]. unfold get_enclave_and_touch, get_sovereign_enclave, bind, gets, ok_or, ret. rewrite H1.
  rewrite get_config_eq. unfold operator in H2.
  assert (beq (fingerprint e) (sc_fp (match in_force s sh (rt_blk s) with Some x => x | None => new_scfg sh end)) = true) as Hb.
  { apply beq_true. rewrite H2. destruct (in_force s sh (rt_blk s)); auto. }
  rewrite Hb. cbn [ensure]. unfold ret. rewrite touch_eq. unfold touched, status_of. rewrite enact_status. cbv zeta.
  destruct (_ <=? _); auto.
Qed.

(** What touching does to a list of signers *)
Lemma touch_list_new x l : ~ In (ss_signer x) (map ss_signer l) -> touch_list x l = l ++ [x].
Proof.
  induction l as [|y r IH]; cbn; [auto|]. intros H. destruct (beq (ss_signer y) (ss_signer x)) eqn:E.
  - apply beq_true in E. tauto.
  - rewrite IH; auto.
Qed.
Lemma touch_list_old x l : In (ss_signer x) (map ss_signer l) ->
  exists l1 y l2, l = l1 ++ y :: l2 /\ ss_signer y = ss_signer x /\ ~ In (ss_signer x) (map ss_signer l1) /\
  touch_list x l = l1 ++ x :: l2.
Proof.
  induction l as [|y r IH]; cbn; [tauto|]. intros H. destruct (beq (ss_signer y) (ss_signer x)) eqn:E.
  - apply beq_true in E. exists [], y, r. auto.
  - apply beq_false in E. destruct H as [H|H]; [congruence|]. destruct (IH H) as (l1 & z & l2 & -> & H1 & H2 & ->).
    exists (y :: l1), z, l2. repeat split; auto. cbn. tauto.
Qed.
Lemma touch_list_cases x l :
  (In (ss_signer x) (map ss_signer l) /\ exists l1 y l2, l = l1 ++ y :: l2 /\ ss_signer y = ss_signer x /\
    ~ In (ss_signer x) (map ss_signer l1) /\ touch_list x l = l1 ++ x :: l2) \/
  (~ In (ss_signer x) (map ss_signer l) /\ touch_list x l = l ++ [x]).
Proof.
  destruct (in_dec (fun p q : acct => decide (p = q)) (ss_signer x) (map ss_signer l)) as [H|H].
  - left. split; [auto|]. apply touch_list_old, H.
  - right. split; [auto|]. apply touch_list_new, H.
Qed.
Lemma touch_signers x l :
  map ss_signer (touch_list x l) =
  map ss_signer l ++ (if in_dec (fun p q : acct => decide (p = q)) (ss_signer x) (map ss_signer l) then [] else [ss_signer x]).
Proof.
  destruct (in_dec _ _ _) as [H|H].
  - destruct (touch_list_old x l H) as (l1 & y & l2 & -> & H1 & _ & ->). rewrite app_nil_r, !map_app. cbn. congruence.
  - rewrite (touch_list_new x l H), map_app. auto.
Qed.
Lemma touch_list_len x l : lenN (touch_list x l) =
  lenN l + (if in_dec (fun p q : acct => decide (p = q)) (ss_signer x) (map ss_signer l) then 0 else 1).
Proof.
  assert (forall l : list sstat, lenN l = lenN (map ss_signer l)) as E by (intros; unfold lenN; rewrite map_length; auto).
  rewrite E, touch_signers, lenN_app, <- E. destruct (in_dec _ _ _); unfold lenN; cbn; lia.
Qed.
Lemma touch_list_NoDup x l : NoDup (map ss_signer l) -> NoDup (map ss_signer (touch_list x l)).
Proof.
  intros H. rewrite touch_signers. destruct (in_dec _ _ _) as [Hi|Hi]; [rewrite app_nil_r; auto|].
  apply NoDup_app. split; [auto|]. split; [|apply NoDup_singleton].
  intros y Hy Hy'. apply elem_of_list_singleton in Hy'. subst. apply elem_of_list_In in Hy. auto.
Qed.
Lemma touch_list_Forall (P : sstat -> Prop) x l : P x -> Forall P l -> Forall P (touch_list x l).
Proof.
  intros Hx H. destruct (touch_list_cases x l) as [(_ & l1 & y & l2 & -> & _ & _ & ->)|(_ & ->)].
  - apply Forall_app in H as [H1 H2]. inversion H2; subst. apply Forall_app. split; auto.
  - apply Forall_app. split; auto.
Qed.
Lemma touch_list_hd x l : exists y r, touch_list x l = y :: r /\
  ss_signer y = match l with [] => ss_signer x | z :: _ => ss_signer z end.
Proof.
  destruct l as [|z r]; cbn; [eauto|]. destruct (beq (ss_signer z) (ss_signer x)) eqn:E; eauto.
  apply beq_true in E. eauto.
Qed.

(** ** The calls *)
Lemma confirm_processed_ok o sh h n r s u s' : confirm_processed o sh h n r s = Ok u s' ->
  exists a e, o = Signed a /\ authorised s sh a e /\
  lenN (touch_list (mkSstat a (fingerprint e) (rt_blk s)) (status_of s sh)) <= max_signers /\
  s' = add_ev (EvProcessedParentchainBlock sh h r n) (touched sh a (fingerprint e) s).
Proof.
  unfold confirm_processed. intros H. inv_rt H.
  match goal with Hx : get_enclave_and_touch _ _ _ _ = Ok ?p _ |- _ => destruct p; apply get_enclave_ok in Hx as (H1 & -> & H2 & ->); [|reflexivity] end.
  eexists _, _. repeat split; eauto; apply H1.
Qed.
Lemma shield_ok c o sh b v s u s' : shield_funds c o sh b v s = Ok u s' ->
  exists a s1, o = Signed a /\ transfer c a (vault sh) v s = Ok tt s1 /\ s' = add_ev (EvShieldFunds sh b v) s1.
Proof.
  unfold shield_funds. intros H. inv_rt H.
  match goal with Hx : transfer _ _ _ _ _ = Ok ?u _ |- _ => destruct u end. eauto.
Qed.
Lemma unshield_ok c o sh b v h s u s' : unshield_funds c o sh b v h s = Ok u s' ->
  exists a e, o = Signed a /\ authorised s sh a e /\
  lenN (touch_list (mkSstat a (fingerprint e) (rt_blk s)) (status_of s sh)) <= max_signers /\
  ((eb_exec (rt_eb s) !! h = None /\ exists s1,
     transfer c (vault sh) b v (touched sh a (fingerprint e) s) = Ok tt s1 /\
     s' = put_exec h 1 (add_ev (EvUnshieldedFunds sh b v) (put_exec h 0 s1))) \/
   (exists n n1, eb_exec (rt_eb s) !! h = Some n /\ (n + 1 <= u64_max -> n1 = n + 1) /\
     (u64_max < n + 1 -> c_ovf c = false) /\
     s' = put_exec h n1 (touched sh a (fingerprint e) s))).
Proof.
  unfold unshield_funds. intros H. apply bind_ok in H as (a & s0 & H1 & H). inv_rt H1.
  apply bind_ok in H as (blk & s1 & H1 & H). inv_rt H1.
  apply bind_ok in H as ([e l] & s0 & H1 & H). apply get_enclave_ok in H1 as (Ha & -> & Hl & ->); [|reflexivity].
  apply bind_ok in H as (dn & s0 & H1 & H). inv_rt H1.
  assert (eb_exec (rt_eb (touched sh a (fingerprint e) s1)) = eb_exec (rt_eb s1)) as Ex.
  { unfold touched. cbn. rewrite enact_exec. auto. }
  rewrite enact_exec in H. exists a, e. split; [auto|]. split; [auto|]. split; [auto|].
  destruct (eb_exec (rt_eb s1) !! h) as [n|] eqn:E.
  - inv_rt H. right.
    match goal with Hx : plain_add _ _ _ _ _ = Ok _ _ |- _ => apply plain_add_ok in Hx as [-> Hp] end.
    cbn in Hp; rewrite enact_exec, E in Hp. cbn [default] in Hp. unfold id in Hp.
    match goal with |- context [put_exec h ?z _] => exists n, z end. repeat split; auto.
    + intros Hu. destruct Hp as [[_ ->]|[Hq _]]; [auto|lia].
    + intros Hu. destruct Hp as [[Hq _]|(_ & -> & _)]; [lia|auto].
  - left. split; [auto|]. inv_rt H.
    match goal with Hx : plain_add _ _ _ _ _ = Ok _ _ |- _ => apply plain_add_ok in Hx as [-> Hp] end.
    match goal with Hx : transfer _ _ _ _ _ = Ok ?u ?z |- _ => destruct u; exists z; split; [exact Hx|] end.
    cbn in Hp. rewrite lookup_insert in Hp. cbn in Hp.
    destruct Hp as [[_ ->]|[Hq _]]; [reflexivity|]. unfold u64_max in Hq. lia.
Qed.
Lemma publish_ok o h t d s u s' : publish_hash o h t d s = Ok u s' ->
  exists a e, o = Signed a /\ tx_sov (rt_tx s) !! a = Some e /\ lenN t <= topics_limit /\ lenN d <= data_length_limit /\
  lenN (touch_list (mkSstat a (fingerprint e) (rt_blk s)) (status_of s (fingerprint e))) <= max_signers /\
  s' = add_ev (EvPublishedHash (t ++ [fingerprint e]) (fingerprint e) h d)
         (put_status (fingerprint e) (touch_list (mkSstat a (fingerprint e) (rt_blk s)) (status_of s (fingerprint e))) s).
Proof.
  unfold publish_hash. intros H. inv_rt H. bools.
  match goal with Hx : touch_shard _ _ _ _ _ = Ok _ _ |- _ => apply touch_shard_ok in Hx as (-> & Hl & ->) end.
  eexists _, _. repeat split; eauto.
Qed.
Definition new_config (c : cfg) (s : rt) (sh : bytes) (new : scfg) (delay : N) : uscfg :=
  match in_force s sh (rt_blk s) with
  | Some old => mkUscfg old (Some new) (Some (N.min (rt_blk s + delay) (c_blk_max c)))
  | None => mkUscfg new None None
  end.
Lemma update_config_ok c o sh new d s u s' : update_shard_config c o sh new d s = Ok u s' ->
  (o = Root /\ s' = add_ev (EvShardConfigUpdated sh) (put_config sh (new_config c s sh new d) s)) \/
  (exists a e, o = Signed a /\ tx_sov (rt_tx s) !! a = Some e /\
   (in_force s sh (rt_blk s) <> None -> fingerprint e = operator s sh (rt_blk s)) /\
   lenN (touch_list (mkSstat a (fingerprint e) (rt_blk s)) (status_of s sh)) <= max_signers /\
   s' = add_ev (EvShardConfigUpdated sh) (put_config sh (new_config c s sh new d)
          (put_status sh (touch_list (mkSstat a (fingerprint e) (rt_blk s)) (status_of s sh)) s))).
Proof.
  unfold update_shard_config, new_config, operator. intros H.
  apply bind_ok in H as (ma & s0 & H1 & H). apply ensure_sor_ok in H1 as [-> Ho].
  apply bind_ok in H as (blk & s1 & H1 & H). inv_rt H1.
  apply bind_ok in H as (oc & s0 & H1 & H). apply get_config_ok in H1 as [-> ->].
  destruct (in_force s1 sh (rt_blk s1)) as [old|]; destruct ma as [a|]; subst o; inv_rt H; bools;
  try match goal with Hx : touch_shard _ _ _ _ _ = Ok _ _ |- _ => apply touch_shard_ok in Hx as (-> & Hl & ->) end.
  - right. eexists _, _. repeat split; eauto.
  - left. auto.
  - right. eexists _, _. repeat split; eauto. congruence.
  - left. auto.
Qed.
Lemma purge_ok o sh a s u s' : purge o sh a s = Ok u s' ->
  o = Root /\ exists l, eb_status (rt_eb s) !! sh = Some l /\
  s' = add_ev (EvPurgedEnclave sh a) (put_status sh (filter (fun x => ss_signer x <> a) l) s).
Proof.
  unfold purge. intros H. inv_rt H.
  match goal with Hx : (if ?b then ret tt else panic) _ = Ok _ _ |- _ => destruct b; inv_rt Hx end. eauto.
Qed.
Definition ancestor_ok (known : option sconf) (anc : option sconf) (cand : sconf) : Prop :=
  match known with
  | None => True
  | Some k => exists p, anc = Some p /\ sn_number p = sn_number k /\ sn_hash p = sn_hash k /\ sn_number k < sn_number cand
  end.
Lemma confirm_sidechain_ok o sh anc cand s u s' : confirm_sidechain o sh anc cand s = Ok u s' ->
  exists a e first r, o = Signed a /\ authorised s sh a e /\
  touch_list (mkSstat a (fingerprint e) (rt_blk s)) (status_of s sh) = first :: r /\
  lenN (touch_list (mkSstat a (fingerprint e) (rt_blk s)) (status_of s sh)) <= max_signers /\
  ((a <> ss_signer first /\ s' = touched sh a (fingerprint e) s) \/
   (a = ss_signer first /\ ancestor_ok (rt_sc s !! sh) anc cand /\
    s' = add_ev (EvFinalizedSidechainBlock sh (sn_number cand) (sn_hash cand) a)
           (set_sc (<[sh := cand]> (rt_sc s)) (touched sh a (fingerprint e) s)))).
Proof.
  unfold confirm_sidechain. intros H. apply bind_ok in H as (a & s0 & H1 & H). inv_rt H1.
  apply bind_ok in H as (blk & s1 & H1 & H). inv_rt H1.
  apply bind_ok in H as ([e l] & s0 & H1 & H). apply get_enclave_ok in H1 as (Ha & -> & Hl & ->); [|reflexivity].
  cbn [snd] in H. destruct (touch_list _ _) as [|first r] eqn:E; [inv_rt H|].
  exists a, e, first, r. split; [auto|]. split; [auto|]. split; [auto|]. split; [rewrite E; auto|].
  destruct (beq a (ss_signer first)) eqn:Eb; cbn [negb] in H.
  2: { inv_rt H. bools. auto. }
  right. apply beq_true in Eb. split; [auto|]. clear Eb.
  apply bind_ok in H as (kn & s0 & H1 & H). apply gets_ok in H1 as [-> ->].
  assert (rt_sc (touched sh a (fingerprint e) s1) = rt_sc s1) as Es.
  { unfold touched. change (rt_sc (put_status ?x ?y ?z)) with (rt_sc z). apply enact_other. auto. }
  rewrite Es in H. apply bind_ok in H as (u0 & s0 & H1 & H).
  assert (s0 = touched sh a (fingerprint e) s1 /\ ancestor_ok (rt_sc s1 !! sh) anc cand) as [-> Hanc].
  { unfold ancestor_ok. destruct (rt_sc s1 !! sh) as [k|]; [|inv_rt H1; auto]. inv_rt H1. bools. split; [auto|]. eauto. }
  split; [auto|]. unfold finalize_block, deposit_event, bind, modify in H. rewrite Es in H. cbn beta in H. congruence.
Qed.

(** ** Effects of an arbitrary call on the bridge's storage *)
(** The shard a call refreshes for its signer *)
Definition touch_target (k : call) (e : enclave) : option bytes :=
  match k with
  | CEb (EbConfirm sh _ _ _) | CEb (EbUnshield sh _ _ _) | CEb (EbUpdateConfig sh _ _) | CSc (ScConfirm sh _ _) => Some sh
  | CEb (EbPublish _ _ _) => Some (en_mr_enclave e)
  | _ => None
  end.
Lemma eb_transfer c a b v s u s' : transfer c a b v s = Ok u s' ->
  rt_eb s' = rt_eb s /\ rt_sc s' = rt_sc s /\ rt_tx s' = rt_tx s.
Proof.
  intros H.
  assert (pres (fun s => (rt_eb s, rt_sc s, rt_tx s)) (transfer c a b v)) as Hp by (unfold_env; pres_tac).
  apply Hp in H. inversion H. auto.
Qed.
Lemma touched_status sh a fp s :
  eb_status (rt_eb (touched sh a fp s)) = <[sh := touch_list (mkSstat a fp (rt_blk s)) (status_of s sh)]> (eb_status (rt_eb s)).
Proof. unfold touched. cbn. rewrite enact_status. auto. Qed.
Lemma touched_exec sh a fp s : eb_exec (rt_eb (touched sh a fp s)) = eb_exec (rt_eb s).
Proof. unfold touched. cbn. apply enact_exec. Qed.
Lemma touched_in_force sh a fp s sh' b : rt_blk s <= b -> in_force (touched sh a fp s) sh' b = in_force s sh' b.
Proof. intros Hb. unfold touched. rewrite put_status_in_force. apply enact_in_force, Hb. Qed.
Lemma touched_other (B : Type) (f : rt -> B) sh a fp s :
  (forall x s, f (set_eb x s) = f s) -> f (touched sh a fp s) = f s.
Proof. intros H. unfold touched, put_status. rewrite H. apply enact_other, H. Qed.

Lemma status_effect c o k s s' : exec c o k s = Ok tt s' ->
  (exists a e sh, o = Signed a /\ tx_sov (rt_tx s) !! a = Some e /\ touch_target k e = Some sh /\
   lenN (touch_list (mkSstat a (fingerprint e) (rt_blk s)) (status_of s sh)) <= max_signers /\
   eb_status (rt_eb s') = <[sh := touch_list (mkSstat a (fingerprint e) (rt_blk s)) (status_of s sh)]> (eb_status (rt_eb s))) \/
  (o = Root /\ exists sh a l, k = CEb (EbPurge sh a) /\ eb_status (rt_eb s) !! sh = Some l /\
   eb_status (rt_eb s') = <[sh := filter (fun x => ss_signer x <> a) l]> (eb_status (rt_eb s))) \/
  (eb_status (rt_eb s') = eb_status (rt_eb s) /\ (forall a e, o = Signed a -> touch_target k e = None) /\
   (forall sh a, k <> CEb (EbPurge sh a))).
Proof.
  intros H. destruct (may_write k PEb) eqn:Hw.
  2: { right; right. pose proof (exec_keeps c o k PEb Hw _ _ _ H) as E. cbn in E. rewrite E.
       destruct k; try discriminate Hw; repeat split; auto; congruence. }
  destruct k as [x|x|x|x|x|x|x|x]; try discriminate Hw; cbn [exec] in H; destruct x; cbn [eb_exec_call sc_exec] in H.
  - right; right. unfold invoke in H. inv_rt H. repeat split; auto; congruence.
  - apply confirm_processed_ok in H as (a & e & -> & [H1 _] & Hl & ->). left. exists a, e, shard.
    repeat split; auto. apply touched_status.
  - right; right. apply shield_ok in H as (a & s1 & -> & H1 & ->). apply eb_transfer in H1 as [E _]. cbn. rewrite E.
    repeat split; auto; congruence.
  - apply unshield_ok in H as (a & e & -> & [H1 _] & Hl & H2). left. exists a, e, shard. repeat split; auto.
    destruct H2 as [(_ & s1 & H2 & ->)|(n & n1 & _ & _ & _ & ->)].
    + apply eb_transfer in H2 as [E _]. cbn. rewrite E. apply touched_status.
    + cbn. rewrite enact_status. auto.
  - apply publish_ok in H as (a & e & -> & H1 & _ & _ & Hl & ->). left. exists a, e, (fingerprint e). auto.
  - apply update_config_ok in H as [(-> & ->)|(a & e & -> & H1 & _ & Hl & ->)].
    + right; right. repeat split; auto; congruence.
    + left. exists a, e, shard. auto.
  - apply purge_ok in H as (-> & l & H1 & ->). right; left. split; [auto|]. exists shard, subject, l. auto.
  - apply confirm_sidechain_ok in H as (a & e & first & r & -> & [H1 _] & _ & Hl & H2). left. exists a, e, shard.
    repeat split; auto. destruct H2 as [[_ ->]|(_ & _ & ->)]; [apply touched_status|]. cbn. rewrite enact_status. auto.
Qed.

Lemma config_effect c o k s s' : exec c o k s = Ok tt s' ->
  (exists sh new d, k = CEb (EbUpdateConfig sh new d) /\
   eb_config (rt_eb s') = <[sh := new_config c s sh new d]> (eb_config (rt_eb s)) /\
   (o = Root \/ exists a e, o = Signed a /\ tx_sov (rt_tx s) !! a = Some e /\
      (in_force s sh (rt_blk s) <> None -> fingerprint e = operator s sh (rt_blk s)))) \/
  ((forall sh new d, k <> CEb (EbUpdateConfig sh new d)) /\
   forall sh b, rt_blk s <= b -> in_force s' sh b = in_force s sh b).
Proof.
  intros H. destruct (may_write k PEb) eqn:Hw.
  2: { right. pose proof (exec_keeps c o k PEb Hw _ _ _ H) as E. cbn in E. unfold in_force. rewrite E.
       split; auto. destruct k; try discriminate Hw; congruence. }
  destruct k as [x|x|x|x|x|x|x|x]; try discriminate Hw; cbn [exec] in H; destruct x; cbn [eb_exec_call sc_exec] in H.
  - right. unfold invoke in H. inv_rt H. split; [congruence|]. auto.
  - apply confirm_processed_ok in H as (a & e & -> & _ & _ & ->). right. split; [congruence|].
    intros sh b Hb. change (in_force (add_ev ?x ?y) sh b) with (in_force y sh b). apply touched_in_force, Hb.
  - right. apply shield_ok in H as (a & s1 & -> & H1 & ->). apply eb_transfer in H1 as [E _]. split; [congruence|].
    intros sh b Hb. apply in_force_view. cbn. rewrite E. auto.
  - apply unshield_ok in H as (a & e & -> & _ & _ & H2). right. split; [congruence|]. intros sh b Hb.
    rewrite <- (touched_in_force shard a (fingerprint e) s sh b Hb). apply in_force_view.
    destruct H2 as [(_ & s1 & H2 & ->)|(n & n1 & _ & _ & _ & ->)].
    + apply eb_transfer in H2 as [E _]. cbn. rewrite E. auto.
    + reflexivity.
  - apply publish_ok in H as (a & e & -> & _ & _ & _ & _ & ->). right. split; [congruence|]. auto.
  - left. exists shard, new, delay. split; [auto|].
    apply update_config_ok in H as [(-> & ->)|(a & e & -> & H1 & H2 & _ & ->)]; (split; [reflexivity|]); eauto 7.
  - apply purge_ok in H as (-> & l & H1 & ->). right. split; [congruence|]. auto.
  - apply confirm_sidechain_ok in H as (a & e & first & r & -> & _ & _ & _ & H2). right. split; [congruence|].
    intros sh b Hb. rewrite <- (touched_in_force shard a (fingerprint e) s sh b Hb). apply in_force_view.
    destruct H2 as [[_ ->]|(_ & _ & ->)]; reflexivity.
Qed.

Lemma executed_effect c o k s s' : exec c o k s = Ok tt s' ->
  (exists sh b v h, k = CEb (EbUnshield sh b v h)) \/
  (eb_exec (rt_eb s') = eb_exec (rt_eb s) /\ (forall sh b v h, k <> CEb (EbUnshield sh b v h))).
Proof.
  intros H. destruct (may_write k PEb) eqn:Hw.
  2: { right. pose proof (exec_keeps c o k PEb Hw _ _ _ H) as E. cbn in E. rewrite E.
       split; auto. destruct k; try discriminate Hw; congruence. }
  destruct k as [x|x|x|x|x|x|x|x]; try discriminate Hw; cbn [exec] in H; destruct x; cbn [eb_exec_call sc_exec] in H.
  - right. unfold invoke in H. inv_rt H. split; [auto|congruence].
  - apply confirm_processed_ok in H as (a & e & -> & _ & _ & ->). right. split; [apply touched_exec|congruence].
  - right. apply shield_ok in H as (a & s1 & -> & H1 & ->). apply eb_transfer in H1 as [E _]. split; [|congruence].
    cbn. rewrite E. auto.
  - left. eauto.
  - apply publish_ok in H as (a & e & -> & _ & _ & _ & _ & ->). right. split; [auto|congruence].
  - right. apply update_config_ok in H as [(-> & ->)|(a & e & -> & H1 & H2 & _ & ->)]; (split; [auto|congruence]).
  - apply purge_ok in H as (-> & l & H1 & ->). right. split; [auto|congruence].
  - apply confirm_sidechain_ok in H as (a & e & first & r & -> & _ & _ & _ & H2). right. split; [|congruence].
    destruct H2 as [[_ ->]|(_ & _ & ->)]; [apply touched_exec|]. cbn. rewrite enact_exec. auto.
Qed.

Lemma step_eb_other c s x : (forall o k, x <> OCall o k) -> rt_eb (step c s x) = rt_eb s.
Proof. intros H. apply (step_same c s x PEb). destruct x; auto. exfalso. eapply H; eauto. Qed.

(** ** Shard status invariant (C15) *)
Definition status_ok (s : rt) : Prop := forall sh l, eb_status (rt_eb s) !! sh = Some l ->
  lenN l <= max_signers /\ NoDup (map ss_signer l) /\ Forall (fun x => ss_last x <= rt_blk s) l.
Lemma status_of_ok s sh : status_ok s ->
  lenN (status_of s sh) <= max_signers /\ NoDup (map ss_signer (status_of s sh)) /\
  Forall (fun x => ss_last x <= rt_blk s) (status_of s sh).
Proof.
  intros H. unfold status_of. destruct (eb_status (rt_eb s) !! sh) eqn:E; cbn; [exact (H _ _ E)|].
  split; [rewrite lenN_nil; unfold max_signers; lia|]. split; [apply NoDup_nil_2|auto].
Qed.
Lemma NoDup_map_filter (P : sstat -> Prop) `{forall x, Decision (P x)} l :
  NoDup (map ss_signer l) -> NoDup (map ss_signer (filter P l)).
Proof.
  induction l as [|x r IH]; [auto|]. cbn [map]. intros Hn. apply NoDup_cons in Hn as [H1 H2].
  rewrite filter_cons. destruct (decide (P x)); [|auto]. cbn [map]. apply NoDup_cons. split; [|auto].
  intros Hi. apply H1. apply elem_of_list_In, in_map_iff in Hi as (y & <- & Hy). apply elem_of_list_In, in_map.
  apply elem_of_list_In, elem_of_list_filter in Hy as [_ Hy]. apply elem_of_list_In, Hy.
Qed.
Lemma lenN_filter (P : sstat -> Prop) `{forall x, Decision (P x)} l : lenN (filter P l) <= lenN l.
Proof. pose proof (filter_length P l). unfold lenN. lia. Qed.
Lemma status_ok_step c s x : status_ok s -> status_ok (step c s x).
Proof.
  intros Hs. pose proof (clock_step c s x) as [_ Hc].
  assert (forall l, Forall (fun y => ss_last y <= rt_blk s) l -> Forall (fun y => ss_last y <= rt_blk (step c s x)) l) as Hm.
  { intros l HF. eapply Forall_impl; [exact HF|]. cbn beta. intros; lia. }
  destruct x as [o k| | | | | | | | | |].
  2-11: intros sh l E; rewrite step_eb_other in E by congruence; destruct (Hs sh l E) as (? & ? & ?); auto.
  destruct (step_call c s o k) as [(s' & H & E)|E]; [|rewrite E; exact Hs]. rewrite E in *.
  intros sh l El. destruct (status_effect c o k s s' H) as
    [(a & e & sh' & _ & _ & _ & Hl & Es)|[(_ & sh' & a & l' & _ & El' & Es)|(Es & _)]]; rewrite Es in El.
  - destruct (decide (sh' = sh)) as [->|Hn].
    + rewrite lookup_insert in El. injection El as <-. destruct (status_of_ok s sh Hs) as (H1 & H2 & H3).
      split; [auto|]. split; [apply touch_list_NoDup; auto|]. apply touch_list_Forall; [cbn; lia|]. apply Hm, H3.
    + rewrite lookup_insert_ne in El by auto. destruct (Hs sh l El) as (? & ? & ?). auto.
  - destruct (decide (sh' = sh)) as [->|Hn].
    + rewrite lookup_insert in El. injection El as <-. destruct (Hs sh l' El') as (H1 & H2 & H3).
      split; [pose proof (lenN_filter (fun x => ss_signer x <> a) l'); lia|]. split; [apply NoDup_map_filter; auto|].
      apply Hm. apply Forall_forall. intros y Hy. apply elem_of_list_filter in Hy as [_ Hy].
      exact (proj1 (Forall_forall _ _) H3 y Hy).
    + rewrite lookup_insert_ne in El by auto. destruct (Hs sh l El) as (? & ? & ?). auto.
  - destruct (Hs sh l El) as (? & ? & ?). auto.
Qed.
Lemma status_ok_genesis g : status_ok (genesis_state g).
Proof. intros sh l E. cbn in E. rewrite lookup_empty in E. discriminate. Qed.
Lemma status_ok_run c g l : status_ok (run c (genesis_state g) l).
Proof. apply run_inv'; [intros; apply status_ok_step; auto|apply status_ok_genesis]. Qed.

(** ** Configurations along histories (C13, C14) *)
Definition updates (sh : bytes) (x : op) : Prop := exists o new d, x = OCall o (CEb (EbUpdateConfig sh new d)).
Lemma in_force_step c s x sh b : ~ updates sh x -> rt_blk s <= b -> in_force (step c s x) sh b = in_force s sh b.
Proof.
  intros Hx Hb. destruct x as [o k| | | | | | | | | |].
  2-11: apply in_force_view; rewrite step_eb_other by congruence; auto.
  destruct (step_call c s o k) as [(s' & H & E)|E]; [|rewrite E; auto]. rewrite E.
  destruct (config_effect c o k s s' H) as [(sh' & new & d & -> & Ec & _)|[_ Hc]]; [|auto].
  unfold in_force. rewrite Ec. rewrite lookup_insert_ne; [auto|]. intros ->. apply Hx. unfold updates. eauto.
Qed.
Lemma in_force_run c s l sh b : Forall (fun x => ~ updates sh x) l -> rt_blk (run c s l) <= b ->
  in_force (run c s l) sh b = in_force s sh b.
Proof.
  revert s. induction l as [|x l IH]; intros s HF Hb; [auto|]. inversion HF; subst. rewrite run_cons in *.
  rewrite IH by auto. apply in_force_step; auto. pose proof (clock_step c s x). pose proof (clock_run c (step c s x) l). lia.
Qed.

(** ** Unshield counters (C09) *)
(** number of accepted unshield calls with hash [h] *)
Definition is_unshield (h : bytes) (x : op) : bool :=
  match x with OCall _ (CEb (EbUnshield _ _ _ h')) => beq h h' | _ => false end.
Definition succeeds (c : cfg) (s : rt) (x : op) : bool :=
  match x with OCall o k => match (dispatch c o k s).1 with Success => true | _ => false end | _ => true end.
Fixpoint accepted (c : cfg) (s : rt) (l : list op) (h : bytes) : N :=
  match l with
  | [] => 0
  | x :: r => (if is_unshield h x && succeeds c s x then 1 else 0) + accepted c (step c s x) r h
  end.
(** number of UnshieldedFunds events in a log *)
Fixpoint unshield_events (ev : list event) : N :=
  match ev with [] => 0 | EvUnshieldedFunds _ _ _ :: r => 1 + unshield_events r | _ :: r => unshield_events r end.
(** number of UnshieldedFunds events emitted by the calls with hash [h] *)
Fixpoint payouts (c : cfg) (s : rt) (l : list op) (h : bytes) : N :=
  match l with
  | [] => 0
  | x :: r => (if is_unshield h x then unshield_events (rt_ev (step c s x)) - unshield_events (rt_ev s) else 0)
              + payouts c (step c s x) r h
  end.
Lemma unshield_events_app a b : unshield_events (a ++ b) = unshield_events a + unshield_events b.
Proof. induction a as [|e r IH]; [reflexivity|]. cbn. destruct e; rewrite ?IH; lia. Qed.
Lemma transfer_no_unshield c a b v s u s' : transfer c a b v s = Ok u s' ->
  unshield_events (rt_ev s') = unshield_events (rt_ev s).
Proof.
  intros H. apply transfer_ok in H as [(_ & ->)|(_ & _ & _ & _ & _ & _ & _ & ->)]; [auto|].
  cbn. rewrite unshield_events_app. unfold dust_event. destruct (_ && _); cbn; lia.
Qed.
Lemma counter_step c s x h :
  let n := eb_exec (rt_eb s) !! h in
  let n' := eb_exec (rt_eb (step c s x)) !! h in
  let ev := unshield_events (rt_ev s) in
  let ev' := unshield_events (rt_ev (step c s x)) in
  if is_unshield h x && succeeds c s x
  then (n = None /\ n' = Some 1 /\ ev' = ev + 1) \/
       (exists m m', n = Some m /\ n' = Some m' /\ (m + 1 <= u64_max -> m' = m + 1) /\ ev' = ev /\
        forall a, free (step c s x) a = free s a)
  else n' = n /\ (is_unshield h x = true -> ev' = ev).
Proof.
  cbv zeta. destruct x as [o k| | | | | | | | | |].
  2-11: cbn [is_unshield andb]; rewrite step_eb_other by congruence; split; [auto|discriminate].
  cbn [step succeeds]. unfold dispatch.
  destruct (run_call_cases (exec c o k) s) as [(s' & H & ->)|[Hn E]].
  2: { rewrite E. destruct (run_call (exec c o k) s) as [[]]; cbn [fst] in *; try contradiction; rewrite andb_false_r; auto. }
  cbn [fst snd]. rewrite andb_true_r.
  destruct (executed_effect c o k s s' H) as [(sh & b & v & h' & ->)|[E Hk]].
  - cbn [is_unshield exec eb_exec_call] in *. apply unshield_ok in H as (a & e & -> & _ & _ & H).
    destruct (beq h h') eqn:Eh.
    + apply beq_true in Eh. subst h'. destruct H as [(H1 & s1 & H2 & ->)|(n & n1 & H1 & H2 & _ & ->)].
      * left. split; [auto|]. split; [cbn; apply lookup_insert|]. cbn. rewrite (transfer_no_unshield _ _ _ _ _ _ _ H2).
        rewrite (touched_other _ rt_ev); [lia|auto].
      * right. exists n, n1. split; [auto|]. split; [cbn; apply lookup_insert|]. split; [auto|].
        split; [cbn; rewrite (enact_other _ rt_ev); auto|]. intros z.
        apply free_view. change (v_free (put_exec h n1 ?t)) with (v_free t). apply (touched_other _ v_free). auto.
    + apply beq_false in Eh. split; [|discriminate].
      destruct H as [(H1 & s1 & H2 & ->)|(n & n1 & H1 & H2 & _ & ->)].
      * apply eb_transfer in H2 as [E _]. cbn. rewrite !lookup_insert_ne by auto. rewrite E. rewrite touched_exec. auto.
      * cbn. rewrite lookup_insert_ne by auto. rewrite enact_exec. auto.
  - assert (is_unshield h (OCall o k) = false) as ->.
    { destruct k as [x|x|x|x|x|x|x|x]; auto. destruct x; auto. exfalso. eapply Hk; eauto. }
    rewrite E. split; [auto|discriminate].
Qed.
