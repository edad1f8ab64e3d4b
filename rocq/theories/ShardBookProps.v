(** * C112: the book of a shard
    Who is listed for a shard, its configuration, its latest sidechain block and every answer to a call
    about it is computed here by a small book of one shard, fed with nothing but the calls about the
    shard, the measurement under which the caller was registered at that moment, the outcome of the
    payment part of each unshielding, and the number of blocks that passed. The whole chain, with all
    other shards, pallets and operations, agrees with that book in every history. *)
From Coq Require Import String.
From Verif Require Import Base State Env TeerdaysModel TeerexBase SgxVerifyModel TeerexModel
  EnclaveBridgeModel SidechainModel TeeracleModel ClaimsModel AssetRegistryModel XcmTransactorModel
  Runtime Frame EnvFacts BridgeProofs BridgeProps StorageModel Footprint FootprintProps Examples SidechainProps.

(** ** The book of one shard *)
Record sbook := mkSbook {
  k_blk : N;                      (* block number *)
  k_line : option (list sstat);   (* the listed signers, their measurement, the block of their last call *)
  k_rule : option uscfg;          (* active configuration, planned configuration, from which block *)
  k_fin : option sconf            (* latest finalised sidechain block *)
}.
Inductive act :=
| AConfirm | AUnshield (payment : status) | APublish (topics data : N)
| AUpdate (new : scfg) (delay : N) | APurge (subject : acct) | AImport (ancestor : option sconf) (cand : sconf).
(** A block; or a call with its origin and the measurement of the enclave registered for it *)
Inductive line := Tick | Act (by_ : origin) (measured : option bytes) (k : act).

Section Rules.
Context (c : cfg) (sh : bytes).
Definition listed (a : acct) (l : list sstat) : bool := bool_decide (a ∈ map ss_signer l).
(** One entry per signer: the old one is overwritten in its place, a new one goes to the end *)
Definition note (x : sstat) (l : list sstat) : list sstat :=
  if listed (ss_signer x) l then map (fun y => if bool_decide (ss_signer y = ss_signer x) then x else y) l else l ++ [x].
(** enclave-bridge/src/lib.rs:456-490, at most ten (primitives/enclave-bridge/src/lib.rs:39) *)
Definition seat (a : acct) (f : bytes) (B : sbook) : error + sbook :=
  let l := default [] (k_line B) in
  if listed a l || (lenN l <? 10)
  then inr (mkSbook (k_blk B) (Some (note (mkSstat a f (k_blk B)) l)) (k_rule B) (k_fin B))
  else inl TooManyEnclaves.
(** The configuration that counts in this block, enclave-bridge/src/lib.rs:432-453 *)
Definition due (u : uscfg) (n : N) : uscfg :=
  match u with
  | mkUscfg _ (Some new) (Some t) => if t <=? n then mkUscfg new None None else u
  | _ => u
  end.
Definition rule (B : sbook) : option uscfg := (fun u => due u (k_blk B)) <$> k_rule B.
(** enclave-bridge/src/lib.rs:414-430: the enclave must be the configured one; by default the shard is its measurement *)
Definition enter (a : acct) (m : option bytes) (B : sbook) : error + sbook :=
  match m with
  | None => inl EnclaveIsNotRegistered
  | Some f =>
      if bool_decide (f = match rule B with Some u => sc_fp (uc_active u) | None => sh end)
      then seat a f (mkSbook (k_blk B) (k_line B) (rule B) (k_fin B))
      else inl WrongFingerprintForShard
  end.
Definition with_rule (u : uscfg) (B : sbook) : sbook := mkSbook (k_blk B) (k_line B) (Some u) (k_fin B).
Definition with_fin (x : sconf) (B : sbook) : sbook := mkSbook (k_blk B) (k_line B) (k_rule B) (Some x).
(** enclave-bridge/src/lib.rs:317-374 *)
Definition update (who : option acct) (m : option bytes) (new : scfg) (delay : N) (B : sbook) : error + sbook :=
  let next := match rule B with
    | Some u => mkUscfg (uc_active u) (Some new) (Some (N.min (c_blk_max c) (k_blk B + delay)))
    | None => mkUscfg new None None
    end in
  match who with
  | None => inr (with_rule next B)
  | Some a =>
      match m with
      | None => inl EnclaveIsNotRegistered
      | Some f =>
          if match rule B with Some u => bool_decide (f = sc_fp (uc_active u)) | None => true end
          then match seat a f B with inl e => inl e | inr B' => inr (with_rule next B') end
          else inl WrongFingerprintForShard
      end
  end.
(** sidechain/src/lib.rs:93-136 *)
Definition import (a : acct) (m : option bytes) (anc : option sconf) (cand : sconf) (B : sbook) : error + sbook :=
  match enter a m B with
  | inl e => inl e
  | inr B' =>
      if bool_decide (ss_signer <$> (k_line B' ≫= head) = Some a) then
        match k_fin B with
        | None => inr (with_fin cand B')
        | Some k =>
            match anc with
            | None => inl AncestorMissing
            | Some p =>
                if sn_number cand <=? sn_number k then inl FinalizationCandidateIsOutdated
                else if negb (sn_number k =? sn_number p) then inl AncestorNumberMismatch
                else if negb (bool_decide (sn_hash k = sn_hash p)) then inl AncestorHashMismatch
                else inr (with_fin cand B')
            end
        end
      else inr B'
  end.
Definition purged (a : acct) (B : sbook) : error + sbook :=
  match k_line B with
  | None => inl ShardNotFound
  | Some l => inr (mkSbook (k_blk B) (Some (List.filter (fun y => negb (bool_decide (ss_signer y = a))) l)) (k_rule B) (k_fin B))
  end.
Definition published (a : acct) (m : option bytes) (topics data : N) (B : sbook) : error + sbook :=
  match m with
  | None => inl EnclaveIsNotRegistered
  | Some f =>
      match seat a f B with
      | inl e => inl e
      | inr B' => if 5 <? topics then inl TooManyTopics else if 100 <? data then inl DataTooLong else inr B'
      end
  end.
Definition act_on (by_ : origin) (m : option bytes) (k : act) (B : sbook) : status * sbook :=
  let say r := match r with inl e => (Failed e, B) | inr B' => (Success, B') end in
  match by_, k with
  | Signed a, AConfirm => say (enter a m B)
  | Signed a, AUnshield p =>
      match enter a m B with inl e => (Failed e, B) | inr B' => (p, match p with Success => B' | _ => B end) end
  | Signed a, APublish t d => say (published a m t d B)
  | Signed a, AUpdate new d => say (update (Some a) m new d B)
  | Root, AUpdate new d => say (update None m new d B)
  | Root, APurge a => say (purged a B)
  | Signed a, AImport anc cand => say (import a m anc cand B)
  | _, _ => (Failed BadOrigin, B)
  end.
Fixpoint keep_shard (B : sbook) (l : list line) : list status * sbook :=
  match l with
  | [] => ([], B)
  | Tick :: r => keep_shard (mkSbook (k_blk B + 1) (k_line B) (k_rule B) (k_fin B)) r
  | Act o m k :: r =>
      let '(st, B') := act_on o m k B in
      let '(rs, B'') := keep_shard B' r in (st :: rs, B'')
  end.
End Rules.

(** ** What the chain shows of that *)
Definition sbook_of (s : rt) (sh : bytes) : sbook :=
  mkSbook (rt_blk s) (eb_status (rt_eb s) !! sh) (eb_config (rt_eb s) !! sh) (rt_sc s !! sh).
Definition measured (s : rt) (o : origin) : option bytes :=
  match o with Signed a => en_mr_enclave <$> tx_sov (rt_tx s) !! a | _ => None end.
(** What becomes of the payment of an unshielding: nothing is paid under a hash seen before *)
Definition payment (c : cfg) (s : rt) (sh : bytes) (benef : acct) (v : N) (h : bytes) : status :=
  match eb_exec (rt_eb s) !! h with
  | None => ends c s (OTransfer sh benef v)
  | Some n => if c_ovf c && (u64_max <=? n) then Panicked else Success
  end.
Definition about (c : cfg) (s : rt) (sh : bytes) (x : op) : option (origin * act) :=
  let if_here sh' o k := if bool_decide (sh' = sh) then Some (o, k) else None in
  match x with
  | OCall o (CEb (EbConfirm sh' _ _ _)) => if_here sh' o AConfirm
  | OCall o (CEb (EbUnshield sh' b v h)) => if_here sh' o (AUnshield (payment c s sh' b v h))
  | OCall o (CEb (EbPublish _ t d)) => if bool_decide (measured s o = Some sh) then Some (o, APublish (lenN t) (lenN d)) else None
  | OCall o (CEb (EbUpdateConfig sh' new d)) => if_here sh' o (AUpdate new d)
  | OCall o (CEb (EbPurge sh' a)) => if_here sh' o (APurge a)
  | OCall o (CSc (ScConfirm sh' anc cand)) => if_here sh' o (AImport anc cand)
  | _ => None
  end.
Fixpoint sdiary (c : cfg) (sh : bytes) (s : rt) (l : list op) : list line :=
  match l with
  | [] => []
  | x :: r =>
      match about c s sh x with
      | Some (o, k) => [Act o (measured s o) k]
      | None => if rt_blk (step c s x) =? rt_blk s then [] else [Tick]
      end ++ sdiary c sh (step c s x) r
  end.
Fixpoint answers (c : cfg) (sh : bytes) (s : rt) (l : list op) : list status :=
  match l with
  | [] => []
  | x :: r => (match about c s sh x with Some _ => [ends c s x] | None => [] end) ++ answers c sh (step c s x) r
  end.

(** ** Proofs *)
Definition orderly (s : rt) (sh : bytes) : Prop := lenN (status_of s sh) <= 10 /\ NoDup (signers_of s sh).
Lemma note_touch x l : NoDup (map ss_signer l) -> touch_list x l = note x l.
Proof.
  intros H. unfold note, listed. case_bool_decide as Hi.
  2: { apply touch_list_new. intros Hx. apply Hi, elem_of_list_In, Hx. }
  induction l as [|y r IH]; [apply elem_of_nil in Hi; contradiction|]. cbn [touch_list map] in *. apply NoDup_cons in H as [H1 H2].
  destruct (beq (ss_signer y) (ss_signer x)) eqn:E.
  - apply beq_true in E. rewrite bool_decide_eq_true_2 by auto. f_equal. rewrite <- E in *. clear -H1.
    induction r as [|z r IH]; [reflexivity|]. cbn [map] in *. rewrite bool_decide_eq_false_2; [f_equal; apply IH|]; intros E; apply H1; [right; auto|rewrite E; left].
  - assert (ss_signer y <> ss_signer x) as Hn by (intros Ex; rewrite Ex, beq_refl in E; discriminate).
    rewrite bool_decide_eq_false_2 by auto. f_equal. apply IH; [auto|]. apply elem_of_cons in Hi as [Hi|Hi]; [congruence|auto].
Qed.
Lemma note_len x l : lenN (note x l) = if listed (ss_signer x) l then lenN l else lenN l + 1.
Proof. unfold note, lenN. destruct (listed _ l); [rewrite map_length; auto|]. rewrite app_length. cbn. lia. Qed.
Lemma due_upgraded s sh : (fun u => due u (rt_blk s)) <$> eb_config (rt_eb s) !! sh = eb_config (rt_eb (enact sh (rt_blk s) s)) !! sh.
Proof.
  unfold enact. destruct (eb_config (rt_eb s) !! sh) as [[act [p|] [t|]]|] eqn:E; cbn -[N.leb]; rewrite ?E; auto.
  destruct (t <=? rt_blk s); cbn; [rewrite lookup_insert; reflexivity|auto].
Qed.
Lemma rule_in_force s sh : in_force s sh (rt_blk s) = uc_active <$> rule (sbook_of s sh).
Proof.
  unfold rule, in_force, sbook_of, in_force_of. cbn. destruct (eb_config (rt_eb s) !! sh) as [[act [p|] [t|]]|]; cbn -[N.leb]; auto.
  destruct (t <=? rt_blk s); auto.
Qed.
Lemma operator_rule s sh : operator s sh (rt_blk s) = match rule (sbook_of s sh) with Some u => sc_fp (uc_active u) | None => sh end.
Proof. unfold operator. rewrite rule_in_force. destruct (rule (sbook_of s sh)); reflexivity. Qed.
(** Touching, as the book does it *)
Lemma touch_book s sh a f : orderly s sh ->
  match seat a f (sbook_of s sh) with
  | inl e => touch_shard sh a f (rt_blk s) s = Err e s
  | inr B' => exists l, touch_shard sh a f (rt_blk s) s = Ok l (put_status sh l s) /\ B' = sbook_of (put_status sh l s) sh
  end.
Proof.
  intros [H1 H2]. rewrite touch_eq. unfold signers_of in H2. rewrite note_touch by auto. unfold seat. cbn [sbook_of k_line k_blk].
  fold (status_of s sh). rewrite note_len. cbn [ss_signer].
  destruct (listed a (status_of s sh)) eqn:El; cbn [orb].
  - destruct (N.leb_spec (lenN (status_of s sh)) max_signers); [|unfold max_signers in *; lia]. eexists. split; [reflexivity|].
    unfold sbook_of, put_status. cbn. rewrite lookup_insert. reflexivity.
  - destruct (N.ltb_spec (lenN (status_of s sh)) 10); destruct (N.leb_spec (lenN (status_of s sh) + 1) max_signers); unfold max_signers in *; try lia; [|reflexivity].
    eexists. split; [reflexivity|]. unfold sbook_of, put_status. cbn. rewrite lookup_insert. reflexivity.
Qed.
Lemma enact_book s sh : sbook_of (enact sh (rt_blk s) s) sh =
  mkSbook (k_blk (sbook_of s sh)) (k_line (sbook_of s sh)) (rule (sbook_of s sh)) (k_fin (sbook_of s sh)).
Proof.
  unfold sbook_of, rule. cbn [k_blk k_line k_rule k_fin]. rewrite enact_status, (enact_other _ rt_blk), (enact_other _ rt_sc) by auto.
  rewrite <- due_upgraded. reflexivity.
Qed.
Lemma enter_book s sh a : orderly s sh ->
  match enter sh a (measured s (Signed a)) (sbook_of s sh) with
  | inl e => exists t, get_enclave_and_touch a sh (rt_blk s) s = Err e t
  | inr B' => exists e l, get_enclave_and_touch a sh (rt_blk s) s = Ok (e, l) (put_status sh l (enact sh (rt_blk s) s)) /\
      B' = sbook_of (put_status sh l (enact sh (rt_blk s) s)) sh
  end.
Proof.
  intros H. unfold get_enclave_and_touch, get_sovereign_enclave, enter, measured, bind, gets, ok_or, ret.
  destruct (tx_sov (rt_tx s) !! a) as [e|]; [|eexists; reflexivity]. cbn [fmap option_fmap option_map]. rewrite get_config_eq.
  rewrite <- operator_rule. change fingerprint with en_mr_enclave. unfold operator, ensure, ret, fail.
  assert (beq (en_mr_enclave e) (sc_fp match in_force s sh (rt_blk s) with Some x => x | None => new_scfg sh end) =
    bool_decide (en_mr_enclave e = match in_force s sh (rt_blk s) with Some x => sc_fp x | None => sh end)) as ->.
  { case_bool_decide as E.
    - rewrite E. apply beq_true. destruct (in_force s sh (rt_blk s)); reflexivity.
    - apply not_true_iff_false. intros Eb%beq_true. apply E. rewrite Eb. destruct (in_force s sh (rt_blk s)); reflexivity. }
  case_bool_decide; [|eexists; reflexivity].
  assert (orderly (enact sh (rt_blk s) s) sh) as Ho by (unfold orderly, signers_of, status_of in *; rewrite enact_status; exact H).
  pose proof (touch_book _ sh a (en_mr_enclave e) Ho) as T. rewrite enact_book in T.
  rewrite (enact_other _ rt_blk) in T by auto. destruct (seat _ _ _) as [er|B'].
  - rewrite T. eexists. reflexivity.
  - destruct T as (l & -> & ->). exists e, l. split; reflexivity.
Qed.
Lemma transfer_frame c a b v s t : ends c s (OTransfer a b v) = ends c t (OTransfer a b v) ->
  forall u s', transfer c a b v s = Ok u s' -> exists t', transfer c a b v t = Ok u t'.
Proof.
  unfold ends, run_call. cbn [op_act]. intros E u s' H. rewrite H in E. destruct (transfer c a b v t) as [[] t'| |]; try discriminate. destruct u. eauto.
Qed.
Lemma transfer_book c a b v s sh u t : transfer c a b v s = Ok u t -> sbook_of t sh = sbook_of s sh /\ eb_exec (rt_eb t) = eb_exec (rt_eb s).
Proof.
  intros H. assert (step c s (OTransfer a b v) = t) as E by (cbn [step]; unfold run_call; rewrite H; reflexivity).
  destruct (C86_operations_change_only_their_writes c (OTransfer a b v) s) as [F _]. rewrite E in F. cbn [op_writes] in F.
  assert (forall y, (forall d, y <> XFree d) -> same_at y s t) as F'.
  { intros y Hy. apply F. intros Hin. apply elem_of_cons in Hin as [->|Hin]; [eapply Hy; reflexivity|]. apply elem_of_list_singleton in Hin as ->. eapply Hy; reflexivity. }
  split.
  - unfold sbook_of. rewrite (F' XBlk), (F' (XE (KStatus sh))), (F' (XE (KConfig sh))), (F' (XE (KLatest sh))) by congruence. reflexivity.
  - apply map_eq. intros h. symmetry. apply (F' (XE (KExec h))). congruence.
Qed.
Lemma payment_frame c s t sh b v h : rt_bal s = rt_bal t -> eb_exec (rt_eb s) = eb_exec (rt_eb t) -> payment c s sh b v h = payment c t sh b v h.
Proof.
  intros H1 H2. unfold payment. rewrite H2. destruct (eb_exec (rt_eb t) !! h); [reflexivity|].
  apply C86_operations_depend_only_on_their_reads. intros y Hy. cbn [op_reads] in Hy.
  repeat (apply elem_of_cons in Hy as [->|Hy]; [cbn; rewrite H1; reflexivity|]). apply elem_of_nil in Hy. contradiction.
Qed.
Lemma put_exec_book h n s sh : sbook_of (put_exec h n s) sh = sbook_of s sh.
Proof. reflexivity. Qed.
Ltac here Hx s' := case_bool_decide; [subst s'|discriminate Hx]; injection Hx as <- <-.
Ltac done_ HR := subst; reflexivity.
Lemma own_op c s sh x o k : orderly s sh -> about c s sh x = Some (o, k) ->
  act_on c sh o (measured s o) k (sbook_of s sh) = (ends c s x, sbook_of (step c s x) sh).
Proof.
  intros Ho Hx. destruct x as [o' k'| | | | | | | | | |]; try discriminate Hx. unfold ends. rewrite step_act. cbn [op_act].
  destruct k' as [|[sy cy|sh' h n r|sy by_ am|sh' b v h|h t d|sh' new d|sh' a]|[sh' anc cand]| | | | |]; try discriminate Hx; cbn [about] in Hx;
    remember (run_call _ s) as R eqn:HR; cbn [exec eb_exec_call sc_exec] in HR.
  - here Hx sh'. destruct o' as [|a|]; try done_ HR. cbn [act_on].
    pose proof (enter_book s sh a Ho) as E. unfold confirm_processed, run_call, bind at 1 in HR. cbn [ensure_signed] in HR. unfold ret at 1, bind at 1, gets at 1, bind at 1 in HR.
    destruct (enter _ _ _ _) as [er|B'].
    + destruct E as [t' E]. rewrite E in HR. done_ HR.
    + destruct E as (e & l & E & ->). rewrite E in HR. done_ HR.
  - here Hx sh'. destruct o' as [|a|]; try done_ HR. cbn [act_on].
    pose proof (enter_book s sh a Ho) as E. unfold unshield_funds, run_call, bind at 1 in HR. cbn [ensure_signed] in HR. unfold ret at 1, bind at 1, gets at 1, bind at 1 in HR.
    destruct (enter _ _ _ _) as [er|B'].
    + destruct E as [t' E]. rewrite E in HR. done_ HR.
    + destruct E as (e & l & E & ->). rewrite E in HR. clear E. set (t := put_status sh l (enact sh (rt_blk s) s)) in *.
      rewrite (payment_frame c s t).
      2: { unfold t, put_status. cbn. rewrite (enact_other _ rt_bal); auto. }
      2: { unfold t, put_status. cbn. rewrite enact_exec. reflexivity. }
      unfold payment. unfold bind at 1, gets at 1 in HR. destruct (eb_exec (rt_eb t) !! h) as [n|] eqn:En.
      * unfold bind at 1, ret at 1, bind at 1, gets at 1 in HR. rewrite En in HR. unfold bind, plain_add in HR. change (default 0 (Some n)) with n in HR.
        destruct (N.leb_spec (n + 1) u64_max); destruct (N.leb_spec u64_max n); try lia.
        -- rewrite andb_false_r. done_ HR.
        -- destruct (c_ovf c); done_ HR.
      * unfold ends, run_call. cbn [op_act]. unfold bind at 1 in HR. unfold bind at 1 in HR. change (vault sh) with sh in HR.
        destruct (transfer c sh b v t) as [[] t1|er t1|] eqn:Et; [|done_ HR|done_ HR].
        apply (transfer_book _ _ _ _ _ sh) in Et as [Eb Ex]. unfold bind, modify, deposit_event, gets, plain_add in HR. cbn -[N.leb sbook_of N.add] in HR. rewrite lookup_insert in HR. cbn -[N.leb sbook_of] in HR.
        rewrite HR. cbn -[sbook_of]. rewrite <- Eb. reflexivity.
  - case_bool_decide as Hm; [|discriminate Hx]. injection Hx as <- <-. destruct o' as [|a|]; try discriminate Hm. cbn [act_on]. cbn [measured] in Hm |- *.
    destruct (tx_sov (rt_tx s) !! a) as [e|] eqn:He; [|discriminate Hm]. cbn in Hm. injection Hm as Hm. cbn [fmap option_fmap option_map]. rewrite Hm.
    unfold published. pose proof (touch_book s sh a sh Ho) as T. unfold publish_hash, run_call, bind at 1 in HR. cbn [ensure_signed] in HR. unfold ret at 1, bind at 1, get_sovereign_enclave, bind at 1, gets at 1 in HR.
    rewrite He in HR. cbn [ok_or] in HR. unfold ret at 1, bind at 1, gets at 1, bind at 1 in HR. change fingerprint with en_mr_enclave in HR. rewrite Hm in HR.
    destruct (seat _ _ _) as [er|B']; [rewrite T in HR; done_ HR|]. destruct T as (l & T & ->). rewrite T in HR. unfold bind, ensure, topics_limit, data_length_limit in HR.
    destruct (N.leb_spec (lenN t) 5); destruct (N.ltb_spec 5 (lenN t)); try lia; [|done_ HR].
    destruct (N.leb_spec (lenN d) 100); destruct (N.ltb_spec 100 (lenN d)); try lia; done_ HR.
  - here Hx sh'. destruct o' as [|a|]; [| |done_ HR]; cbn [act_on update]; unfold update_shard_config, run_call, bind at 1 in HR; cbn [ensure_signed_or_root] in HR;
      unfold ret at 1, bind at 1, gets at 1, bind at 1 in HR; rewrite get_config_eq, rule_in_force in HR; unfold bind at 1 in HR; unfold update.
    + destruct (rule (sbook_of s sh)) as [u|] eqn:Er; cbn [fmap option_fmap option_map] in HR; unfold bind, ret, modify, deposit_event in HR; rewrite HR; unfold sbook_of, put_config; cbn;
        rewrite lookup_insert; unfold with_rule; cbn; [unfold with_pending, from_scfg, sat_add; cbn; rewrite N.min_comm; reflexivity|reflexivity].
    + cbn [measured]. pose proof (touch_book s sh a) as T. unfold get_sovereign_enclave, bind, gets, ret, ok_or, ensure, fail, modify, deposit_event in HR.
      destruct (tx_sov (rt_tx s) !! a) as [e|] eqn:He.
      2: { destruct (rule (sbook_of s sh)) as [u|] eqn:Er; cbn [fmap option_fmap option_map] in HR |- *; cbv beta iota in HR; rewrite ?He in HR; cbv beta iota in HR; done_ HR. }
      specialize (T (en_mr_enclave e) Ho). change fingerprint with en_mr_enclave in HR.
      destruct (rule (sbook_of s sh)) as [u|] eqn:Er; cbn [fmap option_fmap option_map] in HR |- *; cbv beta iota in HR; rewrite ?He in HR; unfold ret in HR; cbv beta iota in HR.
      * case_bool_decide as Ef.
        -- rewrite <- Ef, beq_refl in HR. cbv beta iota in HR. destruct (seat _ _ _) as [er|B']; [rewrite T in HR; done_ HR|].
           destruct T as (l & T & ->). rewrite T in HR. rewrite HR. unfold sbook_of, put_config; cbn. rewrite !lookup_insert; unfold with_rule; cbn. unfold with_pending, from_scfg, sat_add; cbn. rewrite N.min_comm. reflexivity.
        -- destruct (beq (sc_fp (uc_active u)) (en_mr_enclave e)) eqn:Eb; [apply beq_true in Eb; congruence|]. done_ HR.
      * destruct (seat _ _ _) as [er|B']; [rewrite T in HR; done_ HR|].
        destruct T as (l & T & ->). rewrite T in HR. rewrite HR. unfold sbook_of, put_config; cbn. rewrite !lookup_insert; unfold with_rule; cbn. reflexivity.
  - here Hx sh'. destruct o' as [|a'|]; try done_ HR. cbn [act_on]. unfold purged. cbn [sbook_of k_line].
    unfold purge, run_call, bind at 1 in HR. cbn [ensure_root] in HR. unfold ret at 1, bind at 1, gets at 1, bind at 1 in HR.
    destruct Ho as [Hl _]. unfold status_of in Hl.
    destruct (eb_status (rt_eb s) !! sh) as [q|] eqn:Eq; [|done_ HR]. cbn [ok_or] in HR. unfold ret at 1 in HR. assert (lenN q <= 10) as Hq by exact Hl.
    assert (lenN (filter (fun x => ss_signer x <> a) q) <= lenN q) as Hf.
    { unfold lenN. pose proof (filter_length (fun x => ss_signer x <> a) q). lia. }
    destruct (lenN (filter (fun x => ss_signer x <> a) q) <=? max_signers) eqn:El; [|apply N.leb_gt in El; unfold max_signers in El; lia].
    unfold bind, ret, modify, deposit_event in HR. rewrite HR. unfold sbook_of, put_status. cbn. rewrite lookup_insert. do 3 f_equal.
    clear. induction q as [|y r IH]; [reflexivity|]. rewrite filter_cons. cbn [List.filter]. rewrite IH. repeat case_decide; case_bool_decide; cbn; tauto || reflexivity.
  - here Hx sh'. destruct o' as [|a|]; try done_ HR. cbn [act_on]. unfold import.
    pose proof (enter_book s sh a Ho) as E. unfold confirm_sidechain, run_call, bind at 1 in HR. cbn [ensure_signed] in HR. unfold ret at 1, bind at 1, gets at 1, bind at 1 in HR.
    destruct (enter _ _ _ _) as [er|B'].
    + destruct E as [t' E]. rewrite E in HR. done_ HR.
    + destruct E as (e & l & E & ->). rewrite E in HR. pose proof E as E'. apply get_enclave_ok in E' as (_ & El & _ & _); [|reflexivity]. cbn [snd] in HR.
      assert (k_line (sbook_of (put_status sh l (enact sh (rt_blk s) s)) sh) = Some l) as -> by (unfold sbook_of, put_status; cbn; apply lookup_insert).
      destruct l as [|y r].
      { exfalso. destruct (status_of s sh); cbn in El; [|destruct (beq _ _)]; discriminate. }
      cbn [mbind option_bind head fmap option_fmap option_map hd_error]. set (t := put_status sh (y :: r) (enact sh (rt_blk s) s)) in *.
      assert (rt_sc t = rt_sc s) as Hs by (unfold t, put_status; cbn; apply (enact_other _ rt_sc); auto).
      case_bool_decide as Ey.
      * injection Ey as Ey. rewrite Ey, beq_refl in HR. cbn [negb] in HR. unfold bind at 1, gets at 1 in HR. rewrite Hs in HR. cbn [sbook_of k_fin].
        destruct (rt_sc s !! sh) as [k|].
        -- destruct anc as [p|]; [|done_ HR]. cbn [ok_or] in HR. unfold bind, ret, ensure in HR.
           destruct (N.ltb_spec (sn_number k) (sn_number cand)); destruct (N.leb_spec (sn_number cand) (sn_number k)); try lia; [|done_ HR].
           destruct (sn_number k =? sn_number p); cbn [negb]; [|done_ HR].
           destruct (beq (sn_hash k) (sn_hash p)) eqn:Eb.
           ++ apply beq_true in Eb. rewrite bool_decide_eq_true_2 by auto. cbn [negb]. clearbody t. assert (R = (Success, add_ev (EvFinalizedSidechainBlock sh (sn_number cand) (sn_hash cand) a) (set_sc (<[sh := cand]> (rt_sc t)) t))) as -> by (rewrite HR; reflexivity). unfold with_fin, sbook_of. cbn. rewrite lookup_insert. reflexivity.
           ++ rewrite bool_decide_eq_false_2; [done_ HR|]. intros Ek. rewrite Ek, beq_refl in Eb. discriminate.
        -- clearbody t. assert (R = (Success, add_ev (EvFinalizedSidechainBlock sh (sn_number cand) (sn_hash cand) a) (set_sc (<[sh := cand]> (rt_sc t)) t))) as -> by (rewrite HR; reflexivity). unfold with_fin, sbook_of. cbn. rewrite lookup_insert. reflexivity.
      * destruct (beq a (ss_signer y)) eqn:Eb; [apply beq_true in Eb; congruence|]. done_ HR.
Qed.
(** Anything else *)
Ltac members H := repeat first
  [ apply elem_of_nil in H; contradiction | apply elem_of_cons in H as [H|H]; [try discriminate H|] | apply elem_of_app in H as [H|H] ].
Lemma other_op c s sh x : about c s sh x = None ->
  sbook_of (step c s x) sh = mkSbook (rt_blk (step c s x)) (k_line (sbook_of s sh)) (k_rule (sbook_of s sh)) (k_fin (sbook_of s sh)).
Proof.
  intros Hx. destruct (C86_operations_change_only_their_writes c x s) as [F _].
  assert (forall y, y ∈ op_writes c x s -> y <> XE (KStatus sh) /\ y <> XE (KConfig sh) /\ y <> XE (KLatest sh)) as H.
  2: { assert (forall y, ~ (y <> XE (KStatus sh) /\ y <> XE (KConfig sh) /\ y <> XE (KLatest sh)) -> same_at y s (step c s x)) as F' by (intros y Hy; apply F; auto).
       unfold sbook_of. cbn [k_line k_rule k_fin]. rewrite <- (F' (XE (KStatus sh))), <- (F' (XE (KConfig sh))), <- (F' (XE (KLatest sh))) by tauto. reflexivity. }
  intros y Hy. destruct x as [o k| | | | | | | | | |]; cbn [op_writes] in Hy; try (members Hy; subst y; repeat split; discriminate).
  unfold writes in Hy. destruct k as [[]|[]|[]|[]|[| | | | |]|[]|[]|[]]; destruct o; cbn [writes_signed writes_root writes_none writes_other] in Hy; unfold opt, shard_writes, claim_writes, plain_claim_writes in Hy;
    repeat (case_match; try discriminate); members Hy; subst y; try (repeat split; discriminate); cbn [about] in Hx.
  all: try (case_bool_decide as Hd; [discriminate Hx|]; repeat split; congruence).
  case_bool_decide as Hd; [discriminate Hx|]. cbn [measured] in Hd. repeat split; try discriminate. intros [= E]. apply Hd. rewrite H, <- E. reflexivity.
Qed.
Lemma blocks c s sh x : about c s sh x = None -> rt_blk (step c s x) = rt_blk s \/ rt_blk (step c s x) = rt_blk s + 1.
Proof.
  intros Hx. destruct x as [o k|d| | | | | | | | |].
  2: { cbn [step]. unfold next_block. destruct (_ <=? _); [right|left]; reflexivity. }
  all: left; symmetry; apply (proj1 (C86_operations_change_only_their_writes c _ s) XBlk); cbn [op_writes]; intros Hy; try (members Hy; fail).
  unfold writes in Hy. destruct k as [[]|[]|[]|[]|[| | | | |]|[]|[]|[]]; destruct o; cbn [writes_signed writes_root writes_none writes_other] in Hy; unfold opt, shard_writes, claim_writes, plain_claim_writes in Hy;
    repeat (case_match; try discriminate); members Hy; discriminate.
Qed.
Lemma run_shard c g sh l : forall p, let s := run c (genesis_state g) p in
  keep_shard c sh (sbook_of s sh) (sdiary c sh s l) = (answers c sh s l, sbook_of (run c s l) sh).
Proof.
  induction l as [|x l IH]; intros p s; [reflexivity|]. rewrite run_cons. cbn [sdiary answers].
  assert (step c s x = run c (genesis_state g) (p ++ [x])) as Es by (rewrite run_snoc; reflexivity).
  specialize (IH (p ++ [x])). cbv zeta in IH. rewrite <- Es in IH.
  destruct (about c s sh x) as [[o k]|] eqn:Ha.
  - cbn [app keep_shard]. rewrite (own_op c s sh x o k); [|split; apply C15_status_bounded_and_unique|exact Ha]. rewrite IH. reflexivity.
  - pose proof (other_op _ _ _ _ Ha) as E. cbn [app]. destruct (N.eqb_spec (rt_blk (step c s x)) (rt_blk s)) as [En|En].
    + rewrite En in E. rewrite E in IH. exact IH.
    + destruct (blocks _ _ _ _ Ha) as [Eb|Eb]; [contradiction|]. rewrite Eb in E. cbn [app keep_shard]. rewrite E in IH. exact IH.
Qed.

(** ** The theorems *)
(** From any point of any history on, the book kept from the diary gives all answers and the shard *)
Theorem C112_a_shard_keeps_its_own_book : forall c g p l sh, let s := run c (genesis_state g) p in
  keep_shard c sh (sbook_of s sh) (sdiary c sh s l) = (answers c sh s l, sbook_of (run c s l) sh).
Proof. intros c g p l sh. apply run_shard. Qed.
Print Assumptions C112_a_shard_keeps_its_own_book.
(** Hence two chains in which a shard had the same diary treat it alike, whatever else happened *)
Theorem C112_others_do_not_matter_to_a_shard : forall c g1 g2 l1 l2 sh,
  sdiary c sh (genesis_state g1) l1 = sdiary c sh (genesis_state g2) l2 ->
  answers c sh (genesis_state g1) l1 = answers c sh (genesis_state g2) l2 /\
  sbook_of (run c (genesis_state g1) l1) sh = sbook_of (run c (genesis_state g2) l2) sh.
Proof.
  intros c g1 g2 l1 l2 sh Hd. pose proof (run_shard c g1 sh l1 []) as E1. pose proof (run_shard c g2 sh l2 []) as E2. cbn [run fold_left] in E1, E2.
  change (sbook_of (genesis_state g1) sh) with (sbook_of (genesis_state g2) sh) in E1. rewrite Hd, E2 in E1.
  split; [exact (eq_sym (f_equal fst E1))|exact (eq_sym (f_equal snd E1))].
Qed.
Print Assumptions C112_others_do_not_matter_to_a_shard.
(** The payments must be in the diary: what others pay into the account of a shard decides whether
    an unshielding is accepted *)
Definition unpaid (x : line) : line := match x with Act o m (AUnshield _) => Act o m (AUnshield Success) | _ => x end.
Theorem C112_payments_do_not_matter_refuted : exists c g l1 l2 sh,
  map unpaid (sdiary c sh (genesis_state g) l1) = map unpaid (sdiary c sh (genesis_state g) l2) /\
  answers c sh (genesis_state g) l1 <> answers c sh (genesis_state g) l2.
Proof.
  exists cfg0, (gen0 [alice; bob]), [register alice shard9; call_eb alice (EbUnshield shard9 carol 100 [7])],
    [register alice shard9; OTransfer bob shard9 300; call_eb alice (EbUnshield shard9 carol 100 [7])], shard9.
  split; [vm_compute; reflexivity|vm_compute; discriminate].
Qed.
Print Assumptions C112_payments_do_not_matter_refuted.

(** ** A concrete case *)
(** Alice runs shard 9: lists themself, finalises a block, plans a configuration, which counts after a
    block, and is then refused; in the second chain Bob runs shard 8 and bonds, and Carol shields *)
Definition new112 : scfg := mkScfg (acc 8) None None false.
Definition old112 : scfg := mkScfg shard9 (Some 3) None false.
Definition quiet112 : list op :=
  [register alice shard9; call_eb alice (EbConfirm shard9 [] 1 []); call_sc alice (ScConfirm shard9 None (blk 1 [3]));
   call_eb alice (EbPublish [] [] []); call_eb alice (EbUpdateConfig shard9 old112 1);
   call_eb alice (EbUpdateConfig shard9 new112 1); ONextBlock 6; call_eb alice (EbConfirm shard9 [] 2 []);
   OCall Root (CEb (EbPurge shard9 alice))].
Definition busy112 : list op :=
  [register bob (acc 8); call_eb bob (EbConfirm (acc 8) [] 1 []); register alice shard9; call_td bob (TdBond 20);
   call_eb alice (EbConfirm shard9 [] 1 []); call_sc bob (ScConfirm (acc 8) None (blk 5 [4])); call_eb carol (EbShield shard9 [] 300);
   call_sc alice (ScConfirm shard9 None (blk 1 [3])); call_eb bob (EbPublish [] [] []);
   call_eb alice (EbPublish [] [] []); OCall Root (CEb (EbPurge (acc 8) bob)); call_eb alice (EbUpdateConfig shard9 old112 1);
   call_eb bob (EbUpdateConfig (acc 8) new112 0); call_eb alice (EbUpdateConfig shard9 new112 1); ONextBlock 7; call_eb alice (EbConfirm shard9 [] 2 []);
   OCall Root (CEb (EbPurge shard9 alice))].
Example C112_example : let s := genesis_state (gen0 [alice; bob; carol]) in
  sdiary cfg0 shard9 s quiet112 = sdiary cfg0 shard9 s busy112 /\
  answers cfg0 shard9 s quiet112 = [Success; Success; Success; Success; Success; Failed WrongFingerprintForShard; Success] /\
  sbook_of (run cfg0 s busy112) shard9 =
    mkSbook 1 (Some []) (Some (mkUscfg old112 (Some new112) (Some 1))) (Some (blk 1 [3])) /\
  sbook_of (run cfg0 s busy112) (acc 8) = mkSbook 1 (Some [mkSstat bob (acc 8) 0]) (Some (mkUscfg new112 None None)) (Some (blk 5 [4])).
Proof. vm_compute. repeat split; reflexivity. Qed.
