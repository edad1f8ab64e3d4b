(** * C100: the account book of a staker
    What a staker has bonded, their token-time, what they are unbonding, their lock and every answer
    they get is computed here by a small book of one account, fed with nothing but their own calls, the
    time that passed and their free balance at their own calls. The whole chain, with all other
    accounts, pallets and operations, agrees with that book in every history. So nothing else matters
    to a staker: neither what others do nor how often anyone calls update_other for them. *)
From Coq Require Import String.
From Verif Require Import Base State Env TeerdaysModel TeerexBase SgxVerifyModel TeerexModel
  EnclaveBridgeModel SidechainModel TeeracleModel ClaimsModel AssetRegistryModel XcmTransactorModel
  Runtime Frame EnvFacts TeerdaysProofs Examples TeerdaysProps AttestationProps AcceptProps EffectProps ErrorProps OutsiderProps.

(** ** The book of one account *)
Record book := mkBook {
  k_now : N;                  (* milliseconds *)
  k_bond : option (N * N);    (* amount, token-time up to now *)
  k_due : option (N * N);     (* when, how much *)
  k_lock : N
}.
Inductive act := ABond (v : N) | AExtra (v : N) | AUnbond (v : N) | AWithdraw.
Inductive line := Wait (ms : N) | Act (k : act) (balance : N).

Section Rules.
Context (c : cfg) (me : acct).
Definition told (q v : N) (now : N) : event := EvTokenTimeUpdated me (mkBond v now q).
Definition set_to (old v : N) : N := if v =? 0 then old else v.
(** teerdays/src/lib.rs:174-193, 199-220, 229-269, 285-293 and the reading of [Bond::update], primitives/teerdays/src/lib.rs:19-24 *)
Definition act_on (k : act) (balance : N) (B : book) : status * list event * book :=
  let refuse e := (Failed e, [], B) in
  match k with
  | ABond v =>
      if k_bond B then refuse AlreadyBonded else
      if v <? c_ed c then refuse InsufficientBond else
      let n := N.min v balance in
      (Success, [EvBonded me n], mkBook (k_now B) (Some (n, 0)) (k_due B) (set_to (k_lock B) n))
  | AExtra v =>
      if k_due B then refuse PendingUnlock else
      if v <? c_ed c then refuse InsufficientBond else
      match k_bond B with
      | None => refuse NoBond
      | Some (b, q) =>
          let more := N.min v (balance - b) in
          let n := N.min (c_bal_max c) (b + more) in
          (Success, [EvBonded me more; told q b (k_now B)],
           mkBook (k_now B) (Some (n, q)) (k_due B) (set_to (k_lock B) n))
      end
  | AUnbond v =>
      if k_due B then refuse PendingUnlock else
      if v <? c_ed c then refuse InsufficientUnbond else
      match k_bond B with
      | None => refuse NoBond
      | Some (b, q) =>
          let rest := b - v in
          let left := N.min (c_bal_max c) ((if b =? 0 then 0 else q / b) * rest) in
          let until := k_now B + c_unlock c in
          let go due :=
            (Success, [EvUnbonded me (b - rest) (q - left); told q b (k_now B)],
             mkBook (k_now B) (if rest <? c_ed c then None else Some (rest, left)) (Some (due, b - rest)) (k_lock B)) in
          if until <=? u64_max then go until
          else if c_ovf c then (Panicked, [], B) else go (until mod (u64_max + 1))
      end
  | AWithdraw =>
      match k_due B with
      | None => refuse NotUnlocking
      | Some (due, amount) =>
          if k_now B <? due then refuse PendingUnlock else
          let n := N.min amount (k_lock B) in
          (Success, [EvWithdrawn me n], mkBook (k_now B) (k_bond B) None (k_lock B - n))
      end
  end.
Definition wait (ms : N) (B : book) : book :=
  mkBook (k_now B + ms) (match k_bond B with Some (b, q) => Some (b, N.min (c_bal_max c) (q + b * ms)) | None => None end)
    (k_due B) (k_lock B).
Fixpoint keep_book (B : book) (l : list line) : list (status * list event) * book :=
  match l with
  | [] => ([], B)
  | Wait ms :: r => keep_book (wait ms B) r
  | Act k balance :: r =>
      let '(st, evs, B') := act_on k balance B in
      let '(rs, B'') := keep_book B' r in ((st, evs) :: rs, B'')
  end.
End Rules.

(** ** What the chain shows of that *)
Definition book_of (c : cfg) (s : rt) (me : acct) : book :=
  mkBook (rt_now s)
    (match bond_of s me with Some b => Some (bd_value b, accrued (c_bal_max c) b (rt_now s)) | None => None end)
    (pending_of s me) (td_lock s me).
Definition act_of (k : td_call) : option act :=
  match k with
  | TdBond v => Some (ABond v) | TdBondExtra v => Some (AExtra v) | TdUnbond v => Some (AUnbond v)
  | TdWithdrawUnbonded => Some AWithdraw | TdUpdateOther _ => None
  end.
Definition own (me : acct) (x : op) : option (td_call * act) :=
  match x with
  | OCall (Signed a) (CTd k) => if bool_decide (a = me) then (fun y => (k, y)) <$> act_of k else None
  | _ => None
  end.
(** The time that passed, the own calls and the free balance at each of them *)
Fixpoint diary (c : cfg) (me : acct) (s : rt) (l : list op) : list line :=
  match l with
  | [] => []
  | x :: r =>
      let s' := step c s x in
      match own me x with
      | Some (_, y) => [Act y (free s me)]
      | None => if rt_now s' =? rt_now s then [] else [Wait (rt_now s' - rt_now s)]
      end ++ diary c me s' r
  end.
(** In how many blocks the time passed does not count *)
Fixpoint tidy (l : list line) : list line :=
  match l with
  | [] => []
  | Act k balance :: r => Act k balance :: tidy r
  | Wait a :: r => match tidy r with Wait b :: r' => Wait (a + b) :: r' | r' => Wait a :: r' end
  end.
(** The answers to the own calls and the events that came with them, newest first *)
Definition news (s s' : rt) : list event := take (List.length (rt_ev s') - List.length (rt_ev s)) (rt_ev s').
Fixpoint replies (c : cfg) (me : acct) (s : rt) (l : list op) : list (status * list event) :=
  match l with
  | [] => []
  | x :: r =>
      match own me x with
      | Some (k, _) => [((dispatch c (Signed me) (CTd k) s).1, news s (step c s x))]
      | None => []
      end ++ replies c me (step c s x) r
  end.

(** ** Proofs *)
Lemma news_of s s' l : rt_ev s' = l ++ rt_ev s -> news s s' = l.
Proof. intros H. unfold news. rewrite H, app_length. replace (_ + _ - _)%nat with (List.length l) by lia. apply take_app. Qed.
Lemma news_none s : news s s = [].
Proof. apply news_of. reflexivity. Qed.
Lemma own_inv me x k y : own me x = Some (k, y) -> x = OCall (Signed me) (CTd k) /\ act_of k = Some y.
Proof.
  destruct x as [o k1| | | | | | | | | |]; try discriminate. destruct o as [|a|]; try discriminate. destruct k1 as [k0| | | | | | |]; try discriminate. cbn. case_bool_decide; [subst a|discriminate].
  destruct (act_of k0) as [y0|] eqn:E; cbn; [|discriminate]. intros [= <- <-]. auto.
Qed.
Definition timely (s : rt) : Prop := forall a b, bond_of s a = Some b -> bd_last b <= rt_now s.
Lemma accrued_now mx b : accrued mx b (bd_last b) = N.min mx (bd_tt b).
Proof. unfold accrued. rewrite N.sub_diag, N.mul_0_r, N.add_0_r. reflexivity. Qed.
Lemma accrued_at mx v t x : accrued mx (mkBond v t x) t = N.min mx x.
Proof. apply (accrued_now mx (mkBond v t x)). Qed.
Lemma min_min mx x : N.min mx (N.min mx x) = N.min mx x. Proof. lia. Qed.
Lemma min_accrued mx b t : N.min mx (accrued mx b t) = accrued mx b t. Proof. unfold accrued. lia. Qed.
Lemma told_update c me b now : EvTokenTimeUpdated me (bond_update c b now) = told me (accrued (c_bal_max c) b now) (bd_value b) now.
Proof. unfold told. rewrite <- accrued_update. reflexivity. Qed.
Lemma is_none_if {A B} (o : option A) (x y : B) : o = None -> (if o then x else y) = y.
Proof. intros ->. reflexivity. Qed.
Lemma refused c me k y s e : (forall st, answers (td_demands c s (Signed me) k) st -> st = Failed e) ->
  act_of k = Some y -> dispatch c (Signed me) (CTd k) s = (Failed e, s).
Proof.
  intros H _. assert ((dispatch c (Signed me) (CTd k) s).1 = Failed e) as E by (apply H, C70_teerdays_answers; reflexivity).
  unfold dispatch in *. destruct (run_call_cases (exec c (Signed me) (CTd k)) s) as [(s' & _ & E')|[_ E']].
  - rewrite E' in E. discriminate.
  - destruct (run_call _ s) as [st t]. cbn in *. congruence.
Qed.
(** One own call *)
Lemma own_call c me k y s : act_of k = Some y ->
  let s' := (dispatch c (Signed me) (CTd k) s).2 in
  ((dispatch c (Signed me) (CTd k) s).1, news s s', book_of c s' me) = act_on c me y (free s me) (book_of c s me).
Proof.
  intros Hy s'. unfold s'.
  pose proof (proj1 (C70_teerdays_answers c s (Signed me) k _) eq_refl) as Hans.
  destruct (run_call_cases (exec c (Signed me) (CTd k)) s) as [(s1 & E & E')|[Hst Hsame]].
  - unfold dispatch. rewrite E'. cbn [fst snd]. cbn [exec] in E.
    pose proof (td_clock _ _ _ _ _ E) as Hnow.
    destruct k as [v|v|v|w|]; inversion Hy; subst y; cbn [td_exec act_on] in *.
    + apply bond_ok in E as (a & [= <-] & Hb & Hv & Hb' & Hp & HL & Hev). unfold book_of. cbn [k_bond k_now k_due k_lock].
      rewrite Hb. destruct (N.ltb_spec v (c_ed c)); [lia|]. rewrite (news_of _ _ [EvBonded me (N.min v (free s me))]) by exact Hev.
      unfold bond_of, pending_of in *. rewrite Hb', Hp, lookup_insert, HL, Hnow. destruct (decide (me = me)); [|contradiction].
      cbn [bd_value]. rewrite accrued_at, N.min_0_r. reflexivity.
    + apply bond_extra_ok in E as (a & b & [= <-] & Hb & Hpn & Hv & Hb' & Hp & HL & Hev). cbv zeta in *. unfold book_of. cbn [k_bond k_now k_due k_lock].
      rewrite Hb, Hpn. destruct (N.ltb_spec v (c_ed c)); [lia|]. rewrite told_update in Hev. rewrite (news_of _ _ [_; _] Hev).
      unfold bond_of, pending_of in *. rewrite Hb', Hp, lookup_insert, HL, Hnow, Hpn. destruct (decide (me = me)); [|contradiction].
      cbn [bd_value]. rewrite accrued_at, accrued_update, min_accrued. unfold sat_add.
      replace (N.min (bd_value b + N.min v (free s me - bd_value b)) (c_bal_max c)) with (N.min (c_bal_max c) (bd_value b + N.min v (free s me - bd_value b))) by lia.
      reflexivity.
    + apply unbond_ok in E as (a & b & due & [= <-] & Hb & Hpn & Hv & Hdue & Hb' & Hp & HL & Hev). cbv zeta in *.
      rewrite told_update, accrued_update in Hev. unfold tt_quot in *. rewrite accrued_update in *. cbn [bd_value bond_update] in *.
      assert (td_lock s1 me = td_lock s me) as HL' by (unfold td_lock, locked, locks_of; unfold v_locks in HL; rewrite HL; reflexivity).
      unfold book_of. cbn [k_bond k_now k_due k_lock].
      rewrite Hb, Hpn. destruct (N.ltb_spec v (c_ed c)); [lia|]. rewrite (news_of _ _ [_; _] Hev).
      unfold bond_of, pending_of in *. rewrite Hb', Hp, lookup_insert, HL', Hnow.
      set (q := accrued (c_bal_max c) b (rt_now s)) in *.
      set (left := sat_mul (c_bal_max c) (if bd_value b =? 0 then 0 else q / bd_value b) (bd_value b - v)) in *.
      assert (left = N.min (c_bal_max c) ((if bd_value b =? 0 then 0 else q / bd_value b) * (bd_value b - v))) as El by (unfold left, sat_mul; lia).
      rewrite <- El.
      assert (match (if bd_value b - v <? c_ed c then delete me (td_bonds (rt_td s)) else <[me:=mkBond (bd_value b - v) (rt_now s) left]> (td_bonds (rt_td s))) !! me with
              | Some b0 => Some (bd_value b0, accrued (c_bal_max c) b0 (rt_now s)) | None => None end =
              if bd_value b - v <? c_ed c then None else Some (bd_value b - v, left)) as Eb.
      { destruct (_ <? _); [rewrite lookup_delete; reflexivity|]. rewrite lookup_insert. cbn [bd_value]. rewrite accrued_at.
        rewrite El, min_min. reflexivity. }
      rewrite Eb. destruct Hdue as [[Hd ->]|(Hd & Ho & ->)].
      * destruct (N.leb_spec (rt_now s + c_unlock c) u64_max); [reflexivity|lia].
      * destruct (N.leb_spec (rt_now s + c_unlock c) u64_max); [lia|]. rewrite Ho. reflexivity.
    + apply withdraw_unbonded_ok in E as (a & due & amt & [= <-] & Hpn & Hdue & Hb' & Hp & HL & Hev). cbv zeta in *. unfold book_of. cbn [k_bond k_now k_due k_lock].
      rewrite Hpn. rewrite Hnow. destruct (N.ltb_spec (rt_now s) due); [lia|]. rewrite (news_of _ _ [_] Hev).
      unfold bond_of, pending_of in *. rewrite Hb', Hp, lookup_delete, HL. destruct (decide (me = me)); [|contradiction]. reflexivity.
  - unfold dispatch in *. destruct (run_call _ s) as [st t]. cbn [fst snd] in *. subst t. rewrite news_none.
    destruct k as [v|v|v|w|]; inversion Hy; subst y; cbn [act_on]; unfold td_demands in Hans; cbn [answers or_err or_panic] in Hans;
      unfold book_of; cbn [k_bond k_now k_due k_lock]; change (td_bonds (rt_td s) !! me) with (bond_of s me) in Hans;
      try change (td_pending (rt_td s) !! me) with (pending_of s me) in Hans;
      destruct Hans as [[_ Hans]|[Hno _]]; try (exfalso; apply Hno; eauto; fail).
    + destruct Hans as [[H1 Hans]|[H1 ->]].
      * rewrite H1. destruct Hans as [[_ Hans]|[H2 ->]]; [contradiction|]. destruct (N.ltb_spec v (c_ed c)); [reflexivity|lia].
      * destruct (bond_of s me); [reflexivity|contradiction].
    + destruct Hans as [[H1 Hans]|[H1 ->]].
      2: { destruct (pending_of s me); [reflexivity|contradiction]. }
      rewrite H1. destruct Hans as [[H2 Hans]|[H2 ->]]; [|destruct (N.ltb_spec v (c_ed c)); [reflexivity|lia]].
      destruct (N.ltb_spec v (c_ed c)); [lia|].
      destruct Hans as [[_ Hans]|[H3 ->]]; [contradiction|]. destruct (bond_of s me); [exfalso; apply H3; eauto|reflexivity].
    + destruct Hans as [[H1 Hans]|[H1 ->]].
      2: { destruct (pending_of s me); [reflexivity|contradiction]. }
      rewrite H1. destruct Hans as [[H2 Hans]|[H2 ->]]; [|destruct (N.ltb_spec v (c_ed c)); [reflexivity|lia]].
      destruct (N.ltb_spec v (c_ed c)); [lia|].
      destruct Hans as [[H3 Hans]|[H3 ->]]; [|destruct (bond_of s me); [exfalso; apply H3; eauto|reflexivity]].
      destruct Hans as [[_ Hans]|[H4 ->]]; [contradiction|]. destruct H3 as [b Hb]. rewrite Hb.
      destruct (N.leb_spec (rt_now s + c_unlock c) u64_max); [exfalso; apply H4; auto|].
      destruct (c_ovf c); [reflexivity|exfalso; apply H4; discriminate].
    + destruct Hans as [[[p H1] Hans]|[H1 ->]].
      2: { destruct (pending_of s me); [exfalso; apply H1; eauto|reflexivity]. }
      rewrite H1. destruct p as [due amt]. rewrite H1 in Hans. destruct Hans as [[_ Hans]|[H2 ->]]; [contradiction|].
      destruct (N.ltb_spec (rt_now s) due); [reflexivity|]. exfalso. apply H2. intros d m [= <- <-]. lia.
Qed.
(** Anything else *)
Lemma other_op c me x s : timely s -> own me x = None ->
  book_of c (step c s x) me = wait c (rt_now (step c s x) - rt_now s) (book_of c s me).
Proof.
  intros Ht Hx. pose proof (clock_step c s x) as [Hc _].
  assert (pending_of (step c s x) me = pending_of s me /\ td_lock (step c s x) me = td_lock s me /\
    (bond_of (step c s x) me = bond_of s me \/
     exists b, bond_of s me = Some b /\ rt_now (step c s x) = rt_now s /\
     bond_of (step c s x) me = Some (mkBond (bd_value b) (rt_now s) (accrued (c_bal_max c) b (rt_now s))))) as (E1 & E2 & E3).
  { destruct (td_step c s x) as [(o & y & s1 & -> & H & E)|[Et El]].
    2: { unfold pending_of, bond_of. rewrite Et, El. auto. }
    rewrite E. pose proof (td_clock _ _ _ _ _ H) as Hnow. destruct (td_effect _ _ _ _ _ H) as (z & -> & Heff). cbn in Hx.
    destruct (decide (z = me)) as [->|Hz].
    - rewrite bool_decide_eq_true_2 in Hx by auto. destruct y as [v|v|v|w|]; try discriminate Hx.
      destruct Heff as (b & HbS & Hb & Hp & HL). rewrite Hb, Hp, HL. split; [auto|]. split; [auto|].
      destruct (decide (me = w)) as [->|]; [|auto]. right. exists b. rewrite <- accrued_update. auto.
    - destruct (C08_only_the_owner_changes_a_bond c s (OCall (Signed z) (CTd y)) me) as (_ & A1 & A2 & A3).
      { intros y' [= ? _]. contradiction. }
      rewrite E in A1, A2, A3. split; [auto|]. split; [auto|]. destruct A3 as [A3|(b & B1 & B2)]; [auto|]. right. exists b. auto. }
  unfold book_of, wait. cbn [k_now k_bond k_due k_lock]. rewrite E1, E2. f_equal; [lia|].
  destruct E3 as [->|(b & Hb & Hn & ->)].
  - destruct (bond_of s me) as [b|] eqn:Hb; [|reflexivity]. do 2 f_equal. specialize (Ht _ _ Hb). unfold accrued.
    replace (rt_now (step c s x) - bd_last b) with ((rt_now s - bd_last b) + (rt_now (step c s x) - rt_now s)) by lia.
    rewrite N.mul_add_distr_l. lia.
  - rewrite Hb, Hn, accrued_at. cbn [bd_value]. rewrite N.sub_diag, N.mul_0_r, N.add_0_r. unfold accrued. rewrite !min_min. reflexivity.
Qed.
Lemma wait_0 c s me : wait c 0 (book_of c s me) = book_of c s me.
Proof.
  unfold wait, book_of. cbn [k_now k_bond k_due k_lock]. rewrite N.add_0_r. f_equal. destruct (bond_of s me); [|reflexivity].
  rewrite N.mul_0_r, N.add_0_r. unfold accrued. rewrite min_min. reflexivity.
Qed.
Lemma timely_genesis g : timely (genesis_state g).
Proof. intros a b Hb. unfold bond_of in Hb. cbn in Hb. rewrite lookup_empty in Hb. discriminate. Qed.

Lemma run_book c me l : forall s, timely s ->
  keep_book c me (book_of c s me) (diary c me s l) = (replies c me s l, book_of c (run c s l) me).
Proof.
  induction l as [|x l IH]; intros s Hs; [reflexivity|]. rewrite run_cons. cbn [diary replies].
  assert (timely (step c s x)) as Hs' by (intros a b; apply last_step; auto).
  destruct (own me x) as [[k y]|] eqn:Ho.
  - destruct (own_inv _ _ _ _ Ho) as [-> Hy]. cbn [app keep_book].
    pose proof (own_call c me k y s Hy) as E. cbv zeta in E. change ((dispatch c (Signed me) (CTd k) s).2) with (step c s (OCall (Signed me) (CTd k))) in E.
    rewrite <- E, (IH _ Hs'). reflexivity.
  - pose proof (other_op c me x s Hs Ho) as E. cbn [app]. destruct (N.eqb_spec (rt_now (step c s x)) (rt_now s)) as [En|En].
    + rewrite En, N.sub_diag, wait_0 in E. cbn [app]. rewrite <- E. apply IH, Hs'.
    + cbn [app keep_book]. rewrite <- E. apply IH, Hs'.
Qed.

Lemma wait_wait c a b B : wait c b (wait c a B) = wait c (a + b) B.
Proof.
  unfold wait. cbn [k_now k_bond k_due k_lock]. rewrite N.add_assoc. f_equal. destruct (k_bond B) as [[v q]|]; [|reflexivity].
  do 2 f_equal. rewrite N.mul_add_distr_l. lia.
Qed.
Lemma keep_tidy c me l : forall B, keep_book c me B (tidy l) = keep_book c me B l.
Proof.
  induction l as [|[a|k w] l IH]; intros B; [reflexivity| |].
  - cbn [tidy keep_book]. rewrite <- IH. destruct (tidy l) as [|[b|k w] r]; try reflexivity. cbn [keep_book]. rewrite wait_wait. reflexivity.
  - cbn [tidy keep_book]. destruct (act_on c me k w B) as [[st evs] B']. rewrite IH. reflexivity.
Qed.

(** ** The theorems *)
(** From any point of any history on, the book kept from the diary gives all answers and the account *)
Theorem C100_a_staker_keeps_their_own_book : forall c g p l me,
  let s := run c (genesis_state g) p in
  keep_book c me (book_of c s me) (diary c me s l) = (replies c me s l, book_of c (run c s l) me).
Proof.
  intros c g p l me s. apply run_book. apply (run_inv' c timely); [|apply timely_genesis].
  intros t x Ht a b. apply last_step, Ht.
Qed.
Print Assumptions C100_a_staker_keeps_their_own_book.
(** Hence two chains in which a staker had the same diary treat them alike, whatever else happened *)
Theorem C100_others_do_not_matter_to_a_staker : forall c g1 g2 l1 l2 me,
  rt_now (genesis_state g1) = rt_now (genesis_state g2) ->
  td_lock (genesis_state g1) me = td_lock (genesis_state g2) me ->
  tidy (diary c me (genesis_state g1) l1) = tidy (diary c me (genesis_state g2) l2) ->
  replies c me (genesis_state g1) l1 = replies c me (genesis_state g2) l2 /\
  book_of c (run c (genesis_state g1) l1) me = book_of c (run c (genesis_state g2) l2) me.
Proof.
  intros c g1 g2 l1 l2 me Hn Hl Hd.
  pose proof (run_book c me l1 _ (timely_genesis g1)) as E1. pose proof (run_book c me l2 _ (timely_genesis g2)) as E2.
  assert (book_of c (genesis_state g1) me = book_of c (genesis_state g2) me) as Eb.
  { unfold book_of. rewrite Hn, Hl. unfold bond_of, pending_of. cbn. rewrite !lookup_empty. reflexivity. }
  rewrite <- keep_tidy in E1, E2. rewrite Eb, Hd, E2 in E1. split; [exact (eq_sym (f_equal fst E1))|exact (eq_sym (f_equal snd E1))].
Qed.
Print Assumptions C100_others_do_not_matter_to_a_staker.


(** Alice bonds 300, waits, tops up to what they have, and unbonds; in the second chain Bob updates
    Alice's token-time in between and bonds too, and time passes in smaller steps *)
Definition quiet_chain : list op :=
  [call_td alice (TdBond 300); ONextBlock 777; call_td alice (TdBondExtra 200); ONextBlock 1000; call_td alice (TdUnbond 100);
   call_td alice TdWithdrawUnbonded; ONextBlock 2000; call_td alice TdWithdrawUnbonded].
Definition busy_chain : list op :=
  [call_td bob (TdBond 20); call_td alice (TdBond 300); ONextBlock 777; call_td bob (TdUpdateOther alice);
   call_td alice (TdUpdateOther bob); call_td alice (TdBondExtra 200); ONextBlock 400; call_td bob (TdUpdateOther alice); ONextBlock 600;
   call_td alice (TdUnbond 100); call_td bob (TdUnbond 20); call_td alice TdWithdrawUnbonded; ONextBlock 2000;
   call_td bob (TdUpdateOther alice); call_td alice TdWithdrawUnbonded].
Example C100_example :
  let s := genesis_state (gen0 [alice; bob]) in
  tidy (diary cfg0 alice s quiet_chain) = tidy (diary cfg0 alice s busy_chain) /\
  replies cfg0 alice s quiet_chain =
    [(Success, [EvBonded alice 300]);
     (Success, [EvBonded alice 200; EvTokenTimeUpdated alice (mkBond 300 5777 233100)]);
     (Success, [EvUnbonded alice 100 146700; EvTokenTimeUpdated alice (mkBond 500 6777 733100)]);
     (Failed PendingUnlock, []); (Success, [EvWithdrawn alice 100])] /\
  replies cfg0 alice s busy_chain = replies cfg0 alice s quiet_chain /\
  bond_of (run cfg0 s quiet_chain) alice <> bond_of (run cfg0 s busy_chain) alice /\
  book_of cfg0 (run cfg0 s busy_chain) alice = mkBook 8777 (Some (400, 1386400)) None 400.
Proof. vm_compute. repeat split; try reflexivity. discriminate. Qed.
