(** * C114: the book of a claim
    What is filed under an Ethereum address (amount, vesting terms, statement) and every answer to a
    call about it are computed here by a small book fed with nothing but these calls, whether the
    destination has a vesting at that moment, what a claim moved here consisted of, and whether the pot
    suffices - which it always does, unless the total has wrapped around. The whole chain agrees with
    that book in every history: other claims, balances, pallets and the passing of time do not matter. *)
From Coq Require Import String.
From Verif Require Import Base State Env TeerdaysModel TeerexBase SgxVerifyModel TeerexModel
  EnclaveBridgeModel SidechainModel TeeracleModel ClaimsModel AssetRegistryModel XcmTransactorModel
  Runtime Frame EnvFacts StorageModel Footprint FootprintProps Ledger Events ClaimsProofs Examples ClaimsProps.

(** ** The book *)
Record cbook := mkCbook {
  f_due : option N;
  f_terms : option (N * N * N);      (* locked, per block, starting block *)
  f_words : option statement
}.
Inductive act :=
| AGive (v : N) (vs : option (N * N * N)) (st : option statement)   (* mint_claim for it *)
| ATake (text : option bytes) (hv : bool)     (* signed by it: claim, or claim_attest with the text; does the destination have a vesting? *)
| AAttest (text : bytes) (hv : bool)          (* attest by an account preclaimed to it *)
| ALeave                                      (* moved to another address *)
| AArrive (f : cbook)                         (* moved here, with what was filed there *)
| AStay.                                      (* moved to where it is *)
Record line := Act { l_by : origin; l_pot : bool; l_act : act }.

Section Rules.
Context (c : cfg).
Definition or_else {A} (x y : option A) : option A := match x with Some _ => x | None => y end.
(** The first failing demand, if any *)
Definition demand (ok : bool) (e : status) (rest : option status) : option status := if ok then rest else Some e.
(** claims/src/lib.rs:472-502; a schedule that never ends makes the [expect] of line 489 panic *)
Definition payable (pot hv : bool) (F : cbook) : option status :=
  demand (if f_due F then true else false) (Failed SignerHasNoClaim) $
  demand pot (Failed PotUnderflow) $
  demand (negb (hv && if f_terms F then true else false)) (Failed VestedBalanceExists) $
  demand (match f_terms F with Some (l, pb, _) => (l =? 0) || negb (pb =? 0) | None => true end) Panicked None.
Definition said (text : bytes) (F : cbook) : bool :=
  match f_words F with Some k => bool_decide (to_text k = text) | None => true end.
Definition refusal (x : line) (F : cbook) : option status :=
  match l_act x, l_by x with
  | AGive _ _ _, Root => demand (l_pot x || negb (c_ovf c)) Panicked None              (* 248-266 *)
  | ATake None hv, NoneO =>                                                            (* 215-229 *)
      demand (if f_words F then false else true) (Failed InvalidStatement) (payable (l_pot x) hv F)
  | ATake (Some t) hv, NoneO => demand (said t F) (Failed InvalidStatement) (payable (l_pot x) hv F)   (* 296-312 *)
  | AAttest t hv, Signed _ => demand (said t F) (Failed InvalidStatement) (payable (l_pot x) hv F)     (* 337-346 *)
  | ALeave, o | AArrive _, o | AStay, o =>                                             (* 350-378 *)
      demand (match o with Root => true | _ => c_move_origin c o end) (Failed BadOrigin) None
  | _, _ => Some (Failed BadOrigin)
  end.
Definition enter_line (k : act) (F : cbook) : cbook :=
  match k with
  | AGive v vs st => mkCbook (Some v) (or_else vs (f_terms F)) (or_else st (f_words F))
  | ATake _ _ | AAttest _ _ | ALeave => mkCbook None None None
  | AArrive G => mkCbook (or_else (f_due G) (f_due F)) (or_else (f_terms G) (f_terms F)) (or_else (f_words G) (f_words F))
  | AStay => F
  end.
Fixpoint keep_claim (F : cbook) (l : list line) : list status * cbook :=
  match l with
  | [] => ([], F)
  | x :: r =>
      match refusal x F with
      | Some e => let '(rs, F') := keep_claim F r in (e :: rs, F')
      | None => let '(rs, F') := keep_claim (enter_line (l_act x) F) r in (Success :: rs, F')
      end
  end.
End Rules.

(** ** What the chain shows of that *)
Definition cbook_of (s : rt) (e : bytes) : cbook :=
  mkCbook (cl_claims (rt_cl s) !! e) (cl_vesting (rt_cl s) !! e) (cl_signing (rt_cl s) !! e).
(** Does the pot cover what is filed, and can it grow by [v]? *)
Definition covers (s : rt) (e : bytes) : bool :=
  match cl_claims (rt_cl s) !! e with Some d => d <=? cl_total (rt_cl s) | None => true end.
Definition fits (c : cfg) (s : rt) (v : N) : bool := cl_total (rt_cl s) + v <=? c_bal_max c.
Definition vests (s : rt) (d : acct) : bool := match rt_vest s !! d with Some _ => true | None => false end.
Definition about (c : cfg) (e : bytes) (s : rt) (x : op) : option line :=
  match x with
  | OCall o (CCl (ClMint w v vs st)) => if bool_decide (w = e) then Some (Act o (fits c s v) (AGive v vs st)) else None
  | OCall o (CCl (ClClaim d sig)) =>
      if bool_decide (claimant c d sig [] = Some e) then Some (Act o (covers s e) (ATake None (vests s d))) else None
  | OCall o (CCl (ClClaimAttest d sig t)) =>
      if bool_decide (claimant c d sig t = Some e) then Some (Act o (covers s e) (ATake (Some t) (vests s d))) else None
  | OCall (Signed a) (CCl (ClAttest t)) =>
      if bool_decide (cl_preclaims (rt_cl s) !! a = Some e) then Some (Act (Signed a) (covers s e) (AAttest t (vests s a))) else None
  | OCall o (CCl (ClMove old new _)) =>
      if bool_decide (old = e) then Some (Act o true (if bool_decide (new = e) then AStay else ALeave))
      else if bool_decide (new = e) then Some (Act o true (AArrive (cbook_of s old))) else None
  | _ => None
  end.
Fixpoint cdiary (c : cfg) (e : bytes) (s : rt) (l : list op) : list line :=
  match l with
  | [] => []
  | x :: r => (match about c e s x with Some y => [y] | None => [] end) ++ cdiary c e (step c s x) r
  end.
Fixpoint answers (c : cfg) (e : bytes) (s : rt) (l : list op) : list status :=
  match l with
  | [] => []
  | x :: r => (match about c e s x with Some _ => [ends c s x] | None => [] end) ++ answers c e (step c s x) r
  end.

(** ** Proofs *)
Lemma take_out c s e d (m : RM unit) (G : rt -> rt) : 
  (forall t, cbook_of (G t) e = cbook_of t e) ->
  m s = match process_claim c e d s with Ok _ t => Ok tt (G t) | Err x t => Err x t | Panic => Panic end ->
  ((run_call m s).1, cbook_of (run_call m s).2 e) =
  match payable (covers s e) (vests s d) (cbook_of s e) with
  | Some r => (r, cbook_of s e)
  | None => (Success, mkCbook None None None)
  end.
Proof.
  intros HG Hm. unfold run_call. rewrite Hm. unfold payable, demand, covers. cbn [f_due f_terms cbook_of].
  change (vests s d) with (has_vesting s d).
  destruct (process_cases c e d s) as [(er & E & Hc)|(due & H1 & H2 & H3 & Hc)].
  - rewrite E. cbn [fst snd]. destruct Hc as [[-> Hn]|[(-> & due & Hd & Hl)|(-> & [v Hv] & Hh)]].
    + rewrite Hn. reflexivity.
    + rewrite Hd. destruct (N.leb_spec due (cl_total (rt_cl s))); [lia|]. reflexivity.
    + rewrite Hv, Hh. destruct (cl_claims (rt_cl s) !! e) as [due|] eqn:Ed.
      * destruct (N.leb_spec due (cl_total (rt_cl s))) as [Hle|Hlt]; [reflexivity|]. exfalso.
        clear -E Ed Hlt. unfold process_claim, bind, gets, ok_or, ensure in E. rewrite Ed in E. cbn in E.
        destruct (N.leb_spec due (cl_total (rt_cl s))); [lia|]. discriminate E.
      * exfalso. clear -E Ed. unfold process_claim, bind, gets, ok_or in E. rewrite Ed in E. discriminate E.
  - rewrite H1. apply N.leb_le in H2. rewrite H2. destruct Hc as [(E & l & st & Hv & Hl)|(s' & E)].
    + rewrite E, Hv. rewrite H3 by (rewrite Hv; eauto). cbn. apply N.eqb_neq in Hl. rewrite Hl. reflexivity.
    + rewrite E. cbn [fst snd]. apply process_ok in E as (due' & _ & _ & _ & Hz & Ecl & _). rewrite HG. unfold cbook_of. rewrite Ecl. cbn [cl_claims cl_vesting cl_signing].
      rewrite !lookup_delete. destruct (cl_vesting (rt_cl s) !! e) as [[[l pb] st]|] eqn:Ev.
      * rewrite H3 by eauto. cbn. destruct pb; [|rewrite orb_true_r; reflexivity]. rewrite (Hz l st eq_refl). reflexivity.
      * rewrite andb_false_r. reflexivity.
Qed.
Lemma said_ok t s e : said t (cbook_of s e) = statement_ok (cl_signing (rt_cl s) !! e) t.
Proof. reflexivity. Qed.
Lemma said_spec t s e : said t (cbook_of s e) = true -> required_text s e t.
Proof. rewrite said_ok. apply statement_ok_spec. Qed.
Lemma own_op c s e x y : about c e s x = Some y ->
  (ends c s x, cbook_of (step c s x) e) =
  match refusal c y (cbook_of s e) with
  | Some r => (r, cbook_of s e)
  | None => (Success, enter_line (l_act y) (cbook_of s e))
  end.
Proof.
  intros Hx. destruct x as [o' k'| | | | | | | | | |]; try discriminate Hx. unfold ends. rewrite step_act. cbn [op_act].
  destruct k' as [| | | | |[d sig|w v vs st|d sig t|t|old new pre]| |]; try (destruct o'; discriminate Hx); cbn [about] in Hx; cbn [exec cl_exec].
  - assert (claimant c d sig [] = Some e /\ y = Act o' (covers s e) (ATake None (vests s d))) as [Hc ->].
    { destruct o'; (case_bool_decide; [|discriminate Hx]); injection Hx as <-; auto. }
    destruct o' as [|a|]; try reflexivity. unfold refusal. cbn [l_act l_by l_pot]. unfold demand at 1. cbn [f_words cbook_of].
    destruct (cl_signing (rt_cl s) !! e) as [k|] eqn:Es.
    + unfold run_call, claim, bind, ensure_none, ret, ok_or. change (eth_recover c sig (to_ascii_hex d) []) with (claimant c d sig []). rewrite Hc. unfold gets, ret. cbv beta iota. rewrite Es. reflexivity.
    + rewrite (take_out c s e d _ (fun t => t)); [reflexivity|reflexivity|].
      rewrite (claim_fw c d sig s e Hc Es). destruct (process_claim c e d s) as [[] ?|? ?|]; reflexivity.
  - assert (w = e /\ y = Act o' (fits c s v) (AGive v vs st)) as [-> ->].
    { destruct o'; (case_bool_decide; [|discriminate Hx]); injection Hx as <-; auto. }
    destruct o' as [|a|]; try reflexivity. unfold refusal. cbn [l_act l_by l_pot]. unfold demand, fits.
    unfold run_call, mint_claim, bind, ensure_root, ret, gets, plain_add, modify.
    assert (forall t, cbook_of (upd_cl (fun k => mkCl (<[e:=v]> (cl_claims k)) t
              match vs with Some v0 => <[e:=v0]> (cl_vesting k) | None => cl_vesting k end
              match st with Some x => <[e:=x]> (cl_signing k) | None => cl_signing k end (cl_preclaims k)) s) e =
            enter_line (AGive v vs st) (cbook_of s e)) as Hb.
    { intros t. unfold cbook_of, enter_line, or_else. cbn. rewrite lookup_insert. destruct vs, st; cbn; rewrite ?lookup_insert; reflexivity. }
    destruct (_ <=? c_bal_max c); [exact (f_equal2 pair eq_refl (Hb _))|]. destruct (c_ovf c); [reflexivity|exact (f_equal2 pair eq_refl (Hb _))].
  - assert (claimant c d sig t = Some e /\ y = Act o' (covers s e) (ATake (Some t) (vests s d))) as [Hc ->].
    { destruct o'; (case_bool_decide; [|discriminate Hx]); injection Hx as <-; auto. }
    destruct o' as [|a|]; try reflexivity. unfold refusal. cbn [l_act l_by l_pot]. unfold demand at 1.
    destruct (said t (cbook_of s e)) eqn:Es.
    + rewrite (take_out c s e d _ (fun t => t)); [reflexivity|reflexivity|].
      rewrite (claim_attest_fw c d sig t s e Hc) by (apply said_spec, Es). destruct (process_claim c e d s) as [[] ?|? ?|]; reflexivity.
    + rewrite said_ok in Es.
      unfold run_call, claim_attest, bind, ensure_none, ret, ok_or. change (eth_recover c sig (to_ascii_hex d) t) with (claimant c d sig t). rewrite Hc. unfold gets, ret. cbv beta iota. rewrite Es. reflexivity.
  - destruct o' as [|a|]; try discriminate Hx. case_bool_decide as Hc; [|discriminate Hx]. injection Hx as <-.
    unfold refusal. cbn [l_act l_by l_pot]. unfold demand at 1.
    destruct (said t (cbook_of s e)) eqn:Es.
    + rewrite (take_out c s e a _ (upd_cl (fun k => mkCl (cl_claims k) (cl_total k) (cl_vesting k) (cl_signing k) (delete a (cl_preclaims k))))); [reflexivity|reflexivity|].
      rewrite (attest_fw c a t s e Hc) by (apply said_spec, Es). unfold bind, modify. destruct (process_claim c e a s) as [[] ?|? ?|]; reflexivity.
    + rewrite said_ok in Es.
      unfold run_call, attest, bind, ensure_signed, ret, ok_or, gets. cbv beta iota. rewrite Hc. unfold ret. cbv beta iota. rewrite Es. reflexivity.
  - assert (y = Act o' true (if bool_decide (old = e) then if bool_decide (new = e) then AStay else ALeave else AArrive (cbook_of s old)) /\ (old <> e -> new = e)) as [-> Hn].
    { destruct o'; (case_bool_decide; [injection Hx as <-; tauto|]); (case_bool_decide; [|discriminate Hx]); injection Hx as <-; tauto. }
    assert (forall A (m : gmap bytes A), move_key old new m !! e =
      if bool_decide (old = e) then if bool_decide (new = e) then m !! e else None else or_else (m !! old) (m !! e)) as Hm.
    { intros A m. case_bool_decide as H1.
      - subst old. case_bool_decide as H2; [subst; rewrite move_key_id; auto|]. apply move_key_spec. auto.
      - rewrite Hn by auto. destruct (move_key_spec old e m H1) as (_ & -> & _). destruct (m !! old); reflexivity. }
    unfold run_call, move_claim, bind, ensure, refusal. cbn [l_act l_by].
    assert (c_move_origin c o' || match o' with Root => true | _ => false end = match o' with Root => true | _ => c_move_origin c o' end) as -> by (destruct o'; rewrite ?orb_true_r, ?orb_false_r; reflexivity).
    assert (forall pc, cbook_of (upd_cl (fun k => mkCl (move_key old new (cl_claims k)) (cl_total k) (move_key old new (cl_vesting k)) (move_key old new (cl_signing k)) (pc k)) s) e =
      enter_line (if bool_decide (old = e) then if bool_decide (new = e) then AStay else ALeave else AArrive (cbook_of s old)) (cbook_of s e)) as Hb.
    { intros pc. unfold cbook_of at 1. cbn. rewrite !Hm. repeat case_bool_decide; reflexivity. }
    unfold demand. destruct (match o' with Root => true | _ => _ end) eqn:Eo.
    + transitivity (Success, enter_line (if bool_decide (old = e) then if bool_decide (new = e) then AStay else ALeave else AArrive (cbook_of s old)) (cbook_of s e)); [exact (f_equal2 pair eq_refl (Hb _))|]. repeat case_bool_decide; reflexivity.
    + cbn [fst snd fail]. repeat case_bool_decide; reflexivity.
Qed.
Ltac members H := repeat first
  [ apply elem_of_nil in H; contradiction | apply elem_of_cons in H as [H|H]; [try discriminate H|] | apply elem_of_app in H as [H|H] ].
(** Anything else *)
Lemma other_op c s e x : about c e s x = None -> cbook_of (step c s x) e = cbook_of s e.
Proof.
  intros Hx. destruct (C86_operations_change_only_their_writes c x s) as [F _].
  assert (forall y, y ∈ op_writes c x s -> y <> XE (KClaims e) /\ y <> XE (KVesting e) /\ y <> XE (KSigning e)) as H.
  2: { assert (forall y, ~ (y <> XE (KClaims e) /\ y <> XE (KVesting e) /\ y <> XE (KSigning e)) -> same_at y s (step c s x)) as F' by (intros y Hy; apply F; auto).
       unfold cbook_of. rewrite <- (F' (XE (KClaims e))), <- (F' (XE (KVesting e))), <- (F' (XE (KSigning e))) by tauto. reflexivity. }
  intros y Hy. destruct x as [o k| | | | | | | | | |]; cbn [op_writes] in Hy; try (members Hy; subst y; repeat split; discriminate).
  unfold writes in Hy. destruct k as [[]|[]|[]|[]|[| | | | |]|[]|[]|[]]; destruct o; cbn [writes_signed writes_root writes_none writes_other] in Hy; unfold opt, shard_writes, claim_writes, plain_claim_writes in Hy;
    cbn [about] in Hx; repeat (case_match; try discriminate); members Hy; subst y; try (repeat split; discriminate).
  all: try (repeat match goal with H : bool_decide _ = false |- _ => apply bool_decide_eq_false in H end; repeat split; intros [=]; subst; congruence).
Qed.
Lemma run_claim c e l : forall s,
  keep_claim c (cbook_of s e) (cdiary c e s l) = (answers c e s l, cbook_of (run c s l) e).
Proof.
  induction l as [|x l IH]; intros s; [reflexivity|]. rewrite run_cons. cbn [cdiary answers]. specialize (IH (step c s x)).
  destruct (about c e s x) as [y|] eqn:Ha.
  - pose proof (own_op c s e x y Ha) as E. cbn [app keep_claim].
    destruct (refusal _ _ _) as [r|]; pose proof (f_equal fst E) as E1; pose proof (f_equal snd E) as E2; cbn [fst snd] in E1, E2; rewrite E2 in IH; rewrite IH, E1; reflexivity.
  - rewrite (other_op _ _ _ _ Ha) in IH. exact IH.
Qed.
(** *** Payments *)
Definition claimed_by (e : bytes) (ev : event) : N := match ev with EvClaimed _ e' v => if bool_decide (e' = e) then v else 0 | _ => 0 end.
Definition pays (k : act) (F : cbook) : N := match k with ATake _ _ | AAttest _ _ => default 0 (f_due F) | _ => 0 end.
Lemma total_claimed_by e evs : total claimed_ev evs = 0 -> total (claimed_by e) evs = 0.
Proof.
  induction evs as [|x r IH]; [reflexivity|]. rewrite !total_cons. intros H. rewrite IH by lia.
  destruct x; cbn [claimed_ev claimed_by] in *; try lia. case_bool_decide; lia.
Qed.
Lemma paid_gone c s e x y due : about c e s x = Some y -> cl_claims (rt_cl s) !! e = Some due ->
  cl_claims (rt_cl (step c s x)) !! e = None -> refusal c y (cbook_of s e) = None.
Proof.
  intros Ha H1 H2. pose proof (f_equal snd (own_op c s e x y Ha)) as E. destruct (refusal _ _ _); [|reflexivity].
  apply (f_equal f_due) in E. cbn in E. congruence.
Qed.
Lemma step_paid c s e x :
  total (claimed_by e) (rt_ev (step c s x)) = total (claimed_by e) (rt_ev s) +
  match about c e s x with
  | Some y => match refusal c y (cbook_of s e) with None => pays (l_act y) (cbook_of s e) | Some _ => 0 end
  | None => 0
  end.
Proof.
  assert (forall dest sg due r, total (claimed_by e) (EvClaimed dest sg due :: (if paid c s dest due =? 0 then [] else [EvDeposit dest due]) ++ r) =
            total (claimed_by e) r + if bool_decide (sg = e) then due else 0) as Hpay.
  { intros dest sg due r. rewrite total_cons, total_app. cbn [claimed_by]. destruct (_ =? 0); cbn; case_bool_decide; lia. }
  destruct (claims_step c s x) as [(H1 & H2 & _)|(o & k & -> & E)].
  - assert (total (claimed_by e) (rt_ev (step c s x)) = total (claimed_by e) (rt_ev s)) as ->.
    { destruct (step_emits c s x) as (evs & Ee & _). rewrite Ee in H2 |- *. rewrite total_app in H2 |- *. rewrite (total_claimed_by e evs) by lia. lia. }
    destruct (about c e s x) as [y|] eqn:Ha; [|lia]. pose proof (f_equal snd (own_op c s e x y Ha)) as Eo. cbn [snd] in Eo.
    destruct (refusal _ _ _) as [r|]; [lia|]. cbn [snd] in Eo. apply (f_equal f_due) in Eo. unfold cbook_of at 1 in Eo. rewrite H1 in Eo.
    destruct (l_act y); cbn in Eo |- *; try lia; rewrite Eo; cbn; lia.
  - remember (step c s (OCall o (CCl k))) as s' eqn:Es. destruct k as [d sig|w v vs st|d sig t|t|old new pre]; cbn [cl_exec] in E.
    + apply claim_ok in E as (-> & sg & Hs & _ & E). apply process_ok in E as (due & P1 & _ & _ & _ & P5 & _ & P7 & _).
      rewrite P7, Hpay. cbn [about]. change (eth_recover c sig (to_ascii_hex d) []) with (claimant c d sig []) in Hs. rewrite Hs.
      case_bool_decide as Hd; [subst sg; rewrite bool_decide_eq_true_2 by auto|rewrite bool_decide_eq_false_2 by congruence; lia].
      rewrite (paid_gone c s e (OCall NoneO (CCl (ClClaim d sig))) _ due); [cbn; rewrite P1; reflexivity|cbn [about]; rewrite Hs, bool_decide_eq_true_2 by auto; reflexivity|auto|].
      rewrite <- Es, P5. apply lookup_delete.
    + apply mint_ok in E as (_ & t & _ & ->). cbn [about]. change (rt_ev (upd_cl ?f s)) with (rt_ev s). repeat case_match; try discriminate; simplify_eq; cbn; lia.
    + apply claim_attest_ok in E as (-> & sg & Hs & _ & E). apply process_ok in E as (due & P1 & _ & _ & _ & P5 & _ & P7 & _).
      rewrite P7, Hpay. cbn [about]. change (eth_recover c sig (to_ascii_hex d) t) with (claimant c d sig t) in Hs. rewrite Hs.
      case_bool_decide as Hd; [subst sg; rewrite bool_decide_eq_true_2 by auto|rewrite bool_decide_eq_false_2 by congruence; lia].
      rewrite (paid_gone c s e (OCall NoneO (CCl (ClClaimAttest d sig t))) _ due); [cbn; rewrite P1; reflexivity|cbn [about]; rewrite Hs, bool_decide_eq_true_2 by auto; reflexivity|auto|].
      rewrite <- Es, P5. apply lookup_delete.
    + apply attest_ev in E as (a & sg & due & -> & Hs & _ & P1 & _ & P5 & _ & P7).
      rewrite P7, Hpay. cbn [about]. rewrite Hs.
      case_bool_decide as Hd; [subst sg; rewrite bool_decide_eq_true_2 by auto|rewrite bool_decide_eq_false_2 by congruence; lia].
      rewrite (paid_gone c s e (OCall (Signed a) (CCl (ClAttest t))) _ due); [cbn; rewrite P1; reflexivity|cbn [about]; rewrite Hs, bool_decide_eq_true_2 by auto; reflexivity|auto|].
      rewrite <- Es, P5. apply lookup_delete.
    + apply move_ok in E as (_ & ->). cbn [about]. change (rt_ev (upd_cl ?f s)) with (rt_ev s). repeat case_match; try discriminate; simplify_eq; cbn; lia.
Qed.

(** ** The theorems *)
(** From any state on, the book kept from the diary gives all answers and what is filed *)
Theorem C114_a_claim_keeps_its_own_book : forall c s l e,
  keep_claim c (cbook_of s e) (cdiary c e s l) = (answers c e s l, cbook_of (run c s l) e).
Proof. intros c s l e. apply run_claim. Qed.
Print Assumptions C114_a_claim_keeps_its_own_book.
(** The pot is never what a claim fails on *)
Definition takes (x : line) : Prop := match l_act x with ATake _ _ | AAttest _ _ => True | _ => False end.
Theorem C114_the_pot_is_never_short : forall c g l e, no_wrap c g l ->
  Forall (fun x => takes x -> l_pot x = true) (cdiary c e (genesis_state g) l).
Proof.
  intros c g l e Hw.
  assert (forall l1 l0, no_wrap c g (l0 ++ l1) -> Forall (fun x => takes x -> l_pot x = true) (cdiary c e (run c (genesis_state g) l0) l1)) as H.
  { induction l1 as [|x l1 IH]; intros l0 Hl; [constructor|]. cbn [cdiary]. apply Forall_app. split.
    - assert (covers (run c (genesis_state g) l0) e = true) as Hc.
      { unfold covers. destruct (_ !! e) as [d|] eqn:Ed; [|reflexivity]. apply N.leb_le. apply (pot_suffices c g l0 e d); [|exact Ed].
        destruct Hl as [Hl|Hl]; [left; exact Hl|right]. rewrite minted_app in Hl. lia. }
      destruct (about _ _ _ _) as [y|] eqn:Ha; [|constructor]. constructor; [|constructor].
      unfold about in Ha. repeat (case_match; try discriminate); simplify_eq; cbn; tauto || auto.
    - specialize (IH (l0 ++ [x])). rewrite run_app in IH. apply IH. rewrite <- app_assoc. exact Hl. }
  apply (H l []). exact Hw.
Qed.
Print Assumptions C114_the_pot_is_never_short.
(** Hence chains in which it had the same diary treat it alike, whatever else happened *)
Theorem C114_others_do_not_matter_to_a_claim : forall c g1 g2 l1 l2 e,
  cbook_of (genesis_state g1) e = cbook_of (genesis_state g2) e ->
  cdiary c e (genesis_state g1) l1 = cdiary c e (genesis_state g2) l2 ->
  answers c e (genesis_state g1) l1 = answers c e (genesis_state g2) l2 /\
  cbook_of (run c (genesis_state g1) l1) e = cbook_of (run c (genesis_state g2) l2) e.
Proof.
  intros c g1 g2 l1 l2 e Hg Hd. pose proof (run_claim c e l1 (genesis_state g1)) as E1. pose proof (run_claim c e l2 (genesis_state g2)) as E2.
  rewrite Hg, Hd, E2 in E1. split; [exact (eq_sym (f_equal fst E1))|exact (eq_sym (f_equal snd E1))].
Qed.
Print Assumptions C114_others_do_not_matter_to_a_claim.
(** What it was ever paid for is what was filed whenever it was taken *)
Fixpoint payments (c : cfg) (F : cbook) (l : list line) : N :=
  match l with
  | [] => 0
  | x :: r =>
      match refusal c x F with
      | Some _ => payments c F r
      | None => (match l_act x with ATake _ _ | AAttest _ _ => default 0 (f_due F) | _ => 0 end) + payments c (enter_line (l_act x) F) r
      end
  end.
Theorem C114_paid_is_what_was_filed : forall c s l e,
  total (fun ev => match ev with EvClaimed _ e' v => if bool_decide (e' = e) then v else 0 | _ => 0 end) (rt_ev (run c s l)) =
  total (fun ev => match ev with EvClaimed _ e' v => if bool_decide (e' = e) then v else 0 | _ => 0 end) (rt_ev s) +
  payments c (cbook_of s e) (cdiary c e s l).
Proof.
  intros c s l e. change (fun ev => match ev with EvClaimed _ e' v => if bool_decide (e' = e) then v else 0 | _ => 0 end) with (claimed_by e).
  revert s. induction l as [|x l IH]; intros s; [cbn; lia|]. rewrite run_cons, IH, step_paid. cbn [cdiary].
  destruct (about c e s x) as [y|] eqn:Ha.
  - pose proof (f_equal snd (own_op c s e x y Ha)) as E. cbn [app payments]. fold (pays (l_act y) (cbook_of s e)).
    destruct (refusal _ _ _) as [r|]; cbn [snd] in E; rewrite E; lia.
  - rewrite (other_op _ _ _ _ Ha). cbn [app]. lia.
Qed.
Print Assumptions C114_paid_is_what_was_filed.

(** ** A concrete case *)
(** A claim of 100 is minted, half of it vesting. Alice has a vesting by then and is refused; Bob is
    refused without a statement once one is asked for, and paid after giving it. In the second chain other
    claims are minted, moved and paid meanwhile *)
(** A signature is the address, whatever was signed *)
Definition cc : cfg :=
  mkCfg true 5 1000 u32_max 1000 86400000 172800000 3 64 [] (fun _ => false) (fun _ => false) (fun _ => false) 2267 2039 2039
        (fun b => b) (fun sig _ => Some (zeros 12 ++ sig)) (fun _ => inr []) sgx_permissive.
Definition claim114 (n : N) (d : acct) : op := OCall NoneO (CCl (ClClaim d (eth n))).
Definition attest114 (n : N) (d : acct) (t : bytes) : op := OCall NoneO (CCl (ClClaimAttest d (eth n) t)).
Definition mint114 (n v : N) (vs : option (N * N * N)) (st : option statement) : op := OCall Root (CCl (ClMint (eth n) v vs st)).
Definition quiet114 : list op :=
  [mint114 7 60 (Some (60, 1, 0)) None; claim114 7 alice; mint114 1 100 (Some (50, 1, 0)) None; claim114 1 alice;
   mint114 1 90 None (Some StSaft); claim114 1 bob; attest114 1 bob (to_text StRegular); attest114 1 bob (to_text StSaft); claim114 1 bob].
Definition busy114 : list op :=
  [mint114 7 60 (Some (60, 1, 0)) None; claim114 7 alice; mint114 2 30 None None; ONextBlock 6; mint114 1 100 (Some (50, 1, 0)) None; claim114 1 alice;
   mint114 1 90 None (Some StSaft); claim114 2 carol; claim114 1 bob; mint114 3 8 None None; OCall Root (CCl (ClMove (eth 3) (eth 4) None));
   attest114 1 bob (to_text StRegular); claim114 4 bob; attest114 1 bob (to_text StSaft); call_td bob (TdBond 20); claim114 1 bob].
Example C114_example : let s := genesis_state (gen_cl [] []) in
  cdiary cc (eth 1) s quiet114 = cdiary cc (eth 1) s busy114 /\
  answers cc (eth 1) s busy114 =
    [Success; Failed VestedBalanceExists; Success; Failed InvalidStatement; Failed InvalidStatement; Success; Failed SignerHasNoClaim] /\
  cbook_of (run cc s (take 9 busy114)) (eth 1) = mkCbook (Some 90) (Some (50, 1, 0)) (Some StSaft) /\
  cbook_of (run cc s busy114) (eth 1) = mkCbook None None None /\
  payments cc (cbook_of s (eth 1)) (cdiary cc (eth 1) s busy114) = 90 /\
  answers cc (eth 4) s busy114 = [Success; Success] /\ no_wrap cc (gen_cl [] []) busy114.
Proof.
  cbn zeta. do 6 (split; [vm_compute; reflexivity|]). left. reflexivity.
Qed.
