(** * C107: what pro rata burning does to the age of a stake
    teerdays/src/lib.rs:229-269 keeps one average age per account: a partial unbond burns token-time pro
    rata, whichever tokens the owner means. Here the same stake is kept as a list of tranches, each with
    the time since when it is bonded. If the youngest tranches leave first, the ages of those
    that stay add up to a bound that token-time never exceeds; if the oldest leave first, to one it falls short of
    by no more than a millisecond per bonded token and unbond. *)
From Coq Require Import String Sorting.Sorted.
From Verif Require Import Base State Env TeerdaysModel TeerexBase SgxVerifyModel TeerexModel
  EnclaveBridgeModel SidechainModel TeeracleModel ClaimsModel AssetRegistryModel XcmTransactorModel
  Runtime Frame EnvFacts TeerdaysProofs Examples TeerdaysProps AttestationProps AcceptProps EffectProps ErrorProps OutsiderProps LedgerProps.

(** ** Tranches *)
(** amount and time of bonding, youngest first *)
Definition tranche : Type := N * N.
Fixpoint drop_first (out : N) (st : list tranche) : list tranche :=
  match st with
  | [] => []
  | (n, t) :: r => if n <=? out then drop_first (out - n) r else (n - out, t) :: r
  end.
Definition youngest_leave (out : N) (st : list tranche) : list tranche := drop_first out st.
Definition oldest_leave (out : N) (st : list tranche) : list tranche := rev (drop_first out (rev st)).
Fixpoint amount (st : list tranche) : N := match st with [] => 0 | (n, _) :: r => n + amount r end.
(** the ages at time [now], per token *)
Fixpoint ages (now : N) (st : list tranche) : N := match st with [] => 0 | (n, t) :: r => n * (now - t) + ages now r end.
(** The tranches of an account along a history, seen from nothing but its bonded amount and the clock *)
Fixpoint tranches (leave : N -> list tranche -> list tranche) (c : cfg) (a : acct) (s : rt) (l : list op) (st : list tranche) : list tranche :=
  match l with
  | [] => st
  | x :: r =>
      let s' := step c s x in
      let st' := if bonded s a <? bonded s' a then (bonded s' a - bonded s a, rt_now s') :: st
                 else if bonded s' a <? bonded s a then leave (bonded s a - bonded s' a) st
                 else st in
      tranches leave c a s' r st'
  end.
(** How many unbonds an account sends *)
Fixpoint unbonds (a : acct) (l : list op) : N :=
  match l with
  | [] => 0
  | OCall (Signed b) (CTd (TdUnbond _)) :: r => (if bool_decide (b = a) then 1 else 0) + unbonds a r
  | _ :: r => unbonds a r
  end.
(** Token-time as an update at this moment would store it *)
Definition token_time_now (c : cfg) (s : rt) (a : acct) : N :=
  match bond_of s a with Some b => accrued (c_bal_max c) b (rt_now s) | None => 0 end.

(** ** Proofs *)
Lemma amount_app x y : amount (x ++ y) = amount x + amount y.
Proof. induction x as [|[n t] x IH]; cbn; [reflexivity|]. rewrite IH. lia. Qed.
Lemma ages_app now x y : ages now (x ++ y) = ages now x + ages now y.
Proof. induction x as [|[n t] x IH]; cbn; [reflexivity|]. rewrite IH. lia. Qed.
Lemma amount_rev x : amount (rev x) = amount x.
Proof. induction x as [|[n t] x IH]; cbn; [reflexivity|]. rewrite amount_app, IH. cbn. lia. Qed.
Lemma ages_rev now x : ages now (rev x) = ages now x.
Proof. induction x as [|[n t] x IH]; cbn; [reflexivity|]. rewrite ages_app, IH. cbn. lia. Qed.
Lemma ages_later now ms st : Forall (fun x => x.2 <= now) st -> ages (now + ms) st = ages now st + amount st * ms.
Proof.
  induction st as [|[n t] st IH]; intros F; cbn; [lia|]. inversion F as [|? ? H F']; subst. cbn in H. rewrite IH by auto.
  replace (now + ms - t) with ((now - t) + ms) by lia. lia.
Qed.
Lemma ages_ge now h st : Forall (fun x => h <= now - x.2) st -> h * amount st <= ages now st.
Proof. induction st as [|[n t] st IH]; intros F; cbn; [lia|]. inversion F as [|? ? H F']; subst. cbn in H. specialize (IH F'). nia. Qed.
Lemma ages_le now h st : Forall (fun x => now - x.2 <= h) st -> ages now st <= h * amount st.
Proof. induction st as [|[n t] st IH]; intros F; cbn; [lia|]. inversion F as [|? ? H F']; subst. cbn in H. specialize (IH F'). nia. Qed.
Lemma none_ages now st : amount st = 0 -> ages now st = 0.
Proof. induction st as [|[n t] st IH]; cbn; [reflexivity|]. intros H. rewrite IH by lia. assert (n = 0) as -> by lia. lia. Qed.
Lemma drop_amount st : forall out, out <= amount st -> amount (drop_first out st) = amount st - out.
Proof.
  induction st as [|[n t] st IH]; intros out H; cbn in *; [lia|]. destruct (N.leb_spec n out); cbn; [rewrite IH by lia; lia|lia].
Qed.
Lemma drop_incl (P : tranche -> Prop) st : (forall n n' t, P (n, t) -> P (n', t)) -> forall out, Forall P st -> Forall P (drop_first out st).
Proof.
  intros Hp. induction st as [|[n t] st IH]; intros out F; cbn; [constructor|]. inversion F; subst. destruct (_ <=? _); [auto|]. constructor; eauto.
Qed.
(** the younger ones leave: what stays is older than what leaves *)
Lemma drop_young now st : forall out h, StronglySorted (fun x y => y.2 <= x.2) st -> out <= amount st ->
  Forall (fun x => h <= now - x.2) st ->
  exists th, h <= th /\ ages now st <= ages now (drop_first out st) + th * out /\ th * (amount st - out) <= ages now (drop_first out st).
Proof.
  induction st as [|[n t] st IH]; intros out h S Ho F; cbn in *.
  - exists h. split; [lia|]. split; [lia|]. replace (0 - out) with 0 by lia. lia.
  - inversion S as [|? ? S' Hs]; subst. inversion F as [|? ? Hh F']; subst. cbn in *.
    assert (Forall (fun x => now - t <= now - x.2) st) as Fs.
    { eapply Forall_impl; [exact Hs|]. intros x Hx. cbn in Hx. lia. }
    destruct (N.leb_spec n out).
    + destruct (IH (out - n) (now - t) S' ltac:(lia) Fs) as (th & H1 & H2 & H3). exists th. split; [lia|].
      replace (n + amount st - out) with (amount st - (out - n)) by lia. split; [|exact H3].
      assert (th * out = th * n + th * (out - n)) as E by nia. nia.
    + exists (now - t). cbn. pose proof (ages_ge now (now - t) st Fs). split; [lia|]. split; [|nia]. nia.
Qed.
(** the older ones leave *)
Lemma drop_old now st : forall out h, StronglySorted (fun x y => x.2 <= y.2) st -> out <= amount st ->
  Forall (fun x => now - x.2 <= h) st ->
  exists th, th <= h /\ ages now (drop_first out st) + th * out <= ages now st /\ ages now (drop_first out st) <= th * (amount st - out).
Proof.
  induction st as [|[n t] st IH]; intros out h S Ho F; cbn in *.
  - exists h. assert (out = 0) as -> by lia. split; [lia|]. split; lia.
  - inversion S as [|? ? S' Hs]; subst. inversion F as [|? ? Hh F']; subst. cbn in *.
    assert (Forall (fun x => now - x.2 <= now - t) st) as Fs.
    { eapply Forall_impl; [exact Hs|]. intros x Hx. cbn in Hx. lia. }
    destruct (N.leb_spec n out).
    + destruct (IH (out - n) (now - t) S' ltac:(lia) Fs) as (th & H1 & H2 & H3). exists th. split; [lia|].
      replace (n + amount st - out) with (amount st - (out - n)) by lia. split; [|exact H3].
      assert (th * out = th * n + th * (out - n)) as E by nia. nia.
    + exists (now - t). cbn. pose proof (ages_le now (now - t) st Fs). split; [lia|]. split; [|nia]. nia.
Qed.
Definition in_order (now : N) (st : list tranche) : Prop := StronglySorted (fun x y => y.2 <= x.2) st /\ Forall (fun x => x.2 <= now) st.
Lemma young_share now st out : in_order now st -> out <= amount st ->
  ages now st * (amount st - out) <= ages now (youngest_leave out st) * amount st.
Proof.
  intros [S F] Ho. destruct (drop_young now st out 0 S Ho) as (th & _ & H1 & H2); [eapply Forall_impl; [exact F|]; intros; lia|].
  unfold youngest_leave. set (k := ages now (drop_first out st)) in *. set (r := amount st - out) in *.
  assert (amount st = r + out) as -> by (subst r; lia). nia.
Qed.
Lemma sorted_rev (R : tranche -> tranche -> Prop) st : StronglySorted R st -> StronglySorted (fun x y => R y x) (rev st).
Proof.
  induction st as [|x st IH]; intros S; cbn; [constructor|]. inversion S as [|? ? S' H]; subst. specialize (IH S').
  clear S S'. rewrite List.Forall_forall in H. assert (forall y, In y (rev st) -> R x y) as H' by (intros y Hy; apply H, in_rev, Hy).
  clear H. induction (rev st) as [|z r IHr]; cbn; [repeat constructor|]. inversion IH as [|? ? S' Hz]; subst. constructor.
  - apply IHr; [exact S'|]. intros y Hy. apply H'. right. exact Hy.
  - rewrite List.Forall_forall in *. intros y Hy. apply in_app_or in Hy as [Hy|[<-|[]]]; [auto|]. apply H'. left. reflexivity.
Qed.
Lemma old_share now st out : in_order now st -> out <= amount st ->
  ages now (oldest_leave out st) * amount st <= ages now st * (amount st - out).
Proof.
  intros [S F] Ho. assert (StronglySorted (fun x y => x.2 <= y.2) (rev st)) as S' by (apply sorted_rev in S; exact S).
  destruct (drop_old now (rev st) out now S') as (th & _ & H1 & H2); [rewrite amount_rev; exact Ho|rewrite List.Forall_forall; intros; lia|].
  unfold oldest_leave. rewrite ages_rev. rewrite ages_rev, amount_rev in *. set (k := ages now (drop_first out (rev st))) in *. set (r := amount st - out) in *.
  assert (amount st = r + out) as -> by (subst r; lia). nia.
Qed.
Lemma drop_sorted (R : tranche -> tranche -> Prop) st : (forall n n' t y, R (n, t) y -> R (n', t) y) ->
  forall out, StronglySorted R st -> StronglySorted R (drop_first out st).
Proof.
  intros Hr. induction st as [|[n t] st IH]; intros out S; cbn; [constructor|]. inversion S as [|? ? S' H]; subst. destruct (_ <=? _); [auto|].
  constructor; [auto|]. eapply Forall_impl; [exact H|]. intros y. apply Hr.
Qed.
Lemma order_young now st out : in_order now st -> in_order now (youngest_leave out st).
Proof. intros [S F]. split; [apply drop_sorted; [intros ? ? ? ?; cbn; auto|exact S]|apply drop_incl; [intros ? ? ?; cbn; auto|exact F]]. Qed.
Lemma order_old now st out : in_order now st -> in_order now (oldest_leave out st).
Proof.
  intros [S F]. split.
  - unfold oldest_leave. apply sorted_rev in S. eapply (drop_sorted _ _ _ out) in S. apply sorted_rev in S. exact S. Unshelve. intros ? ? ? ?; cbn; auto.
  - unfold oldest_leave. apply Forall_rev. apply drop_incl; [intros ? ? ?; cbn; auto|]. apply Forall_rev. exact F.
Qed.
Lemma order_later now now' st : now <= now' -> in_order now st -> in_order now' st.
Proof. intros H [S F]. split; [exact S|]. eapply Forall_impl; [exact F|]. cbn. intros; lia. Qed.
Lemma order_push now n st : in_order now st -> in_order now ((n, now) :: st).
Proof. intros [S F]. split; [constructor; [exact S|exact F]|constructor; [cbn; lia|exact F]]. Qed.

(** One step, for the stake of one account: time passes, tokens are added, or some leave *)
Lemma stake_step c s a x : timely s -> let s' := step c s x in
  (forall v, x = OCall (Signed a) (CTd (TdBond v)) -> v <= c_bal_max c) -> bonded s a <= c_bal_max c ->
  bonded s' a <= c_bal_max c /\
  ((bonded s' a = bonded s a /\ rt_now s <= rt_now s' /\
    token_time_now c s' a = N.min (c_bal_max c) (token_time_now c s a + bonded s a * (rt_now s' - rt_now s))) \/
   (rt_now s' = rt_now s /\ bonded s a <= bonded s' a /\ token_time_now c s' a = token_time_now c s a) \/
   ((exists v, x = OCall (Signed a) (CTd (TdUnbond v))) /\ rt_now s' = rt_now s /\ bonded s' a <= bonded s a /\
    token_time_now c s' a = token_time_now c s a / bonded s a * bonded s' a)).
Proof.
  intros Tm s' Hx Hb. pose proof (proj1 (clock_step c s x)) as Hn. fold s' in Hn.
  assert (forall t, bonded t a = match k_bond (book_of c t a) with Some (v, _) => v | None => 0 end) as Ev.
  { intros t. unfold bonded, book_of. cbn. destruct (bond_of t a); reflexivity. }
  assert (forall t, token_time_now c t a = match k_bond (book_of c t a) with Some (_, q) => q | None => 0 end) as Et.
  { intros t. unfold token_time_now, book_of. cbn. destruct (bond_of t a); reflexivity. }
  assert (forall t, rt_now t = k_now (book_of c t a)) as En by reflexivity.
  assert (token_time_now c s a <= c_bal_max c) as Ht by (unfold token_time_now, accrued; destruct (bond_of s a); lia).
  rewrite !Ev, !Et, !En in *. destruct (own a x) as [[k y]|] eqn:Ho.
  - destruct (own_inv _ _ _ _ Ho) as [-> Hy]. pose proof (own_call c a k y s Hy) as K. cbv zeta in K.
    change ((dispatch c (Signed a) (CTd k) s).2) with s' in K. set (B := book_of c s a) in *. set (B' := book_of c s' a) in *.
    assert (B' = (act_on c a y (free s a) B).2) as EB by (rewrite <- K; reflexivity). rewrite EB. clear K EB Ev Et En B' Hn. clearbody B. clear s' Tm.
    assert (forall (P Q : Prop) (q b n : N), q <= c_bal_max c -> (b = b /\ n <= n /\ q = N.min (c_bal_max c) (q + b * (n - n))) \/ P \/ Q) as Same.
    { intros P Q q b n Hq. left. split; [reflexivity|]. split; [lia|]. rewrite N.sub_diag, N.mul_0_r. lia. }
    destruct k; try discriminate Hy; cbn in Hy; injection Hy as <-; cbn [act_on].
    + destruct (k_bond B) as [[b q]|] eqn:Eb; [cbn; rewrite Eb; auto|]. destruct (_ <? _); [cbn; rewrite Eb; auto|]. cbn [snd k_bond k_now].
      split; [specialize (Hx _ eq_refl); lia|]. right. left. split; [reflexivity|]. split; [lia|reflexivity].
    + destruct (k_due B); [cbn; auto|]. destruct (_ <? _); [cbn; auto|]. destruct (k_bond B) as [[b q]|] eqn:Eb; [|cbn; rewrite Eb; auto].
      cbn [snd k_bond k_now]. split; [lia|]. right. left. split; [reflexivity|]. split; [lia|reflexivity].
    + destruct (k_due B); [cbn; auto|]. destruct (_ <? _); [cbn; auto|]. destruct (k_bond B) as [[b q]|] eqn:Eb; [|cbn; rewrite Eb; auto].
      assert (forall due, let B' := mkBook (k_now B) (if b - value <? c_ed c then None else Some (b - value, N.min (c_bal_max c) ((if b =? 0 then 0 else q / b) * (b - value))))
                (Some (due, b - (b - value))) (k_lock B) in
              match k_bond B' with Some (v, _) => v | None => 0 end <= c_bal_max c /\
              (k_now B' = k_now B /\ match k_bond B' with Some (v, _) => v | None => 0 end <= b /\
               match k_bond B' with Some (_, q') => q' | None => 0 end = q / b * match k_bond B' with Some (v, _) => v | None => 0 end)) as Un.
      { intros due. cbn. destruct (_ <? _); [split; [lia|]; split; [reflexivity|]; lia|]. split; [lia|]. split; [reflexivity|]. split; [lia|].
        destruct (N.eqb_spec b 0) as [->|Hb0]; [rewrite N.min_r by lia; lia|].
        assert (q / b * b <= q) as Hq by (rewrite N.mul_comm; apply N.mul_div_le; auto). rewrite N.min_r; [reflexivity|].
        transitivity (q / b * b); [apply N.mul_le_mono_l; lia|lia]. }
      destruct (_ <=? _); [|destruct (c_ovf c)]; cbn [snd].
      1,3: destruct (Un (k_now B + c_unlock c)) as (U1 & U2); cbn [k_bond k_now] in *; split; [exact U1|right; right; split; [eauto|exact U2]].
      cbn. rewrite Eb. auto.
    + destruct (k_due B) as [[due amt]|]; [|cbn; auto]. destruct (_ <? _); cbn; auto.
  - pose proof (other_op c a x s Tm Ho) as K. fold s' in K. rewrite K. set (B := book_of c s a) in *. cbn [wait k_bond k_now].
    replace (k_now B + (rt_now s' - rt_now s) - k_now B) with (rt_now s' - rt_now s) by lia.
    destruct (k_bond B) as [[b q]|]; [split; [exact Hb|]; left; split; [reflexivity|]; split; [lia|reflexivity]|].
    split; [lia|]. left. split; [reflexivity|]. split; [lia|]. lia.
Qed.

Section Bounds.
Context (c : cfg) (a : acct).
Definition typed_bonds (l : list op) : Prop := forall v, In (OCall (Signed a) (CTd (TdBond v))) l -> v <= c_bal_max c.
Definition fits (now v : N) (st : list tranche) : Prop := amount st = v /\ in_order now st.
Lemma next_fits leave s x st :
  (forall now st out, in_order now st -> in_order now (leave out st)) ->
  (forall st out, out <= amount st -> amount (leave out st) = amount st - out) ->
  rt_now s <= rt_now (step c s x) -> fits (rt_now s) (bonded s a) st ->
  fits (rt_now (step c s x)) (bonded (step c s x) a)
    (if bonded s a <? bonded (step c s x) a then (bonded (step c s x) a - bonded s a, rt_now (step c s x)) :: st
     else if bonded (step c s x) a <? bonded s a then leave (bonded s a - bonded (step c s x) a) st else st).
Proof.
  intros H1 H2 Hn [Ha Ho]. apply (order_later _ _ _ Hn) in Ho. destruct (N.ltb_spec (bonded s a) (bonded (step c s x) a)).
  - split; [cbn; lia|]. apply order_push, Ho.
  - destruct (N.ltb_spec (bonded (step c s x) a) (bonded s a)); [split; [rewrite H2; lia|apply H1, Ho]|split; [lia|exact Ho]].
Qed.
Lemma young_amount st out : out <= amount st -> amount (youngest_leave out st) = amount st - out.
Proof. apply drop_amount. Qed.
Lemma old_amount st out : out <= amount st -> amount (oldest_leave out st) = amount st - out.
Proof. intros H. unfold oldest_leave. rewrite amount_rev, drop_amount; rewrite amount_rev; auto. Qed.

Lemma upper_run l : forall s st, timely s -> typed_bonds l -> bonded s a <= c_bal_max c -> fits (rt_now s) (bonded s a) st ->
  token_time_now c s a <= ages (rt_now s) st ->
  let s' := run c s l in token_time_now c s' a <= ages (rt_now s') (tranches youngest_leave c a s l st).
Proof.
  induction l as [|x l IH]; intros s st Tm Hl Hb Hf Hu; [exact Hu|]. rewrite run_cons. cbn [tranches]. cbv zeta.
  destruct (stake_step c s a x Tm) as [Hb' Hstep]; [intros v ->; apply Hl; left; reflexivity|exact Hb|]. set (s' := step c s x) in *.
  pose proof (proj1 (clock_step c s x)) as Hn. fold s' in Hn.
  pose proof (next_fits youngest_leave s x st order_young young_amount Hn Hf) as Hf'. fold s' in Hf'.
  apply IH; [intros ? ?; apply last_step; auto|intros v Hv; apply Hl; right; exact Hv|exact Hb'|exact Hf'|]. clear IH Hf' Hl.
  destruct Hf as [Ha Ho]. destruct Hstep as [(E1 & _ & E2)|[(E1 & E2 & E3)|((w & Ew) & E1 & E2 & E3)]].
  - rewrite E1, N.ltb_irrefl, E2. replace (rt_now s') with (rt_now s + (rt_now s' - rt_now s)) at 2 by lia.
    rewrite ages_later by apply Ho. rewrite Ha. lia.
  - rewrite E1, E3. destruct (N.ltb_spec (bonded s a) (bonded s' a)); [cbn [ages]; lia|].
    destruct (N.ltb_spec (bonded s' a) (bonded s a)); [lia|exact Hu].
  - rewrite E1, E3. destruct (N.ltb_spec (bonded s a) (bonded s' a)); [lia|]. destruct (N.ltb_spec (bonded s' a) (bonded s a)) as [Hlt|].
    + pose proof (young_share (rt_now s) st (bonded s a - bonded s' a) Ho ltac:(lia)) as Sh. rewrite Ha in Sh.
      replace (bonded s a - (bonded s a - bonded s' a)) with (bonded s' a) in Sh by lia.
      set (k := ages (rt_now s) (youngest_leave _ st)) in *. set (T := token_time_now c s a) in *. set (v := bonded s a) in *. set (r := bonded s' a) in *.
      assert (T / v * v <= T) as Hq by (rewrite N.mul_comm; apply N.mul_div_le; lia).
      assert (T / v * r * v <= k * v) as Hm by nia. apply N.mul_le_mono_pos_r in Hm; [exact Hm|lia].
    + assert (bonded s' a = bonded s a) as -> by lia.
      transitivity (token_time_now c s a); [|exact Hu]. destruct (N.eq_dec (bonded s a) 0) as [->|]; [lia|]. rewrite N.mul_comm. apply N.mul_div_le. auto.
Qed.
Lemma lower_run l : forall s st sy k, timely s -> typed_bonds l -> bonded s a <= c_bal_max c ->
  fits (rt_now s) (bonded s a) st -> fits (rt_now s) (bonded s a) sy ->
  token_time_now c s a <= ages (rt_now s) sy ->
  (forall l1 l2, l = l1 ++ l2 -> ages (rt_now (run c s l1)) (tranches youngest_leave c a s l1 sy) <= c_bal_max c) ->
  ages (rt_now s) st <= token_time_now c s a + k * bonded s a ->
  let s' := run c s l in
  ages (rt_now s') (tranches oldest_leave c a s l st) <= token_time_now c s' a + (k + unbonds a l) * bonded s' a.
Proof.
  induction l as [|x l IH]; intros s st sy k Tm Hl Hb Hf Hy Hu Hc Hk; [cbn; rewrite N.add_0_r; exact Hk|]. rewrite run_cons. cbn [tranches]. cbv zeta.
  destruct (stake_step c s a x Tm) as [Hb' Hstep]; [intros v ->; apply Hl; left; reflexivity|exact Hb|].
  pose proof (upper_run [x] s sy Tm) as Up. cbn [run fold_left tranches] in Up. cbv zeta in Up.
  specialize (Up ltac:(intros v [->|[]]; apply Hl; left; reflexivity) Hb Hy Hu).
  set (s' := step c s x) in *. change (run c s [x]) with s' in Up.
  pose proof (Hc [x] l eq_refl) as Cap. cbn [tranches] in Cap. cbv zeta in Cap. change (run c s [x]) with s' in Cap. fold s' in Cap.
  pose proof (proj1 (clock_step c s x)) as Hn. fold s' in Hn.
  pose proof (next_fits oldest_leave s x st order_old old_amount Hn Hf) as Hf'. fold s' in Hf'.
  pose proof (next_fits youngest_leave s x sy order_young young_amount Hn Hy) as Hy'. fold s' in Hy'.
  assert (exists j, unbonds a (x :: l) = j + unbonds a l /\ ((exists w, x = OCall (Signed a) (CTd (TdUnbond w))) -> j = 1)) as (j & -> & Hj).
  { destruct x as [[|b|] [[]| | | | | | |]| | | | | | | | | |]; cbn [unbonds];
      try (exists 0; split; [reflexivity|]; intros [w H]; discriminate H).
    eexists. split; [reflexivity|]. intros [w H]. injection H as -> _. rewrite bool_decide_eq_true_2; reflexivity. }
  rewrite N.add_assoc.
  eapply IH; [intros ? ?; apply last_step; auto|intros v Hv; apply Hl; right; exact Hv|exact Hb'|exact Hf'|exact Hy'|exact Up| |].
  { intros l1 l2 ->. specialize (Hc (x :: l1) l2 eq_refl). rewrite run_cons in Hc. cbn [tranches] in Hc. exact Hc. }
  clear IH Hl Hf' Hy' Hc. destruct Hf as [Ha Ho]. destruct Hy as [Ha' Ho']. destruct Hstep as [(E1 & _ & E2)|[(E1 & E2 & E3)|((w & Ew) & E1 & E2 & E3)]].
  - rewrite E1, !N.ltb_irrefl in *.
    assert (rt_now s' = rt_now s + (rt_now s' - rt_now s)) as En by lia. rewrite En in Cap. rewrite (ages_later _ _ sy) in Cap by apply Ho'.
    rewrite Ha' in Cap. rewrite E2, N.min_r by lia. rewrite En at 1. rewrite ages_later by apply Ho. rewrite Ha. nia.
  - rewrite E1, E3 in *. destruct (N.ltb_spec (bonded s a) (bonded s' a)); cbn [ages].
    + rewrite N.sub_diag. nia.
    + destruct (N.ltb_spec (bonded s' a) (bonded s a)); [lia|]. replace (bonded s' a) with (bonded s a) by lia. nia.
  - rewrite E1, E3 in *. rewrite Hj by eauto. destruct (N.ltb_spec (bonded s a) (bonded s' a)); [lia|]. set (T := token_time_now c s a) in *.
    destruct (N.eq_dec (bonded s a) 0) as [Z|Z].
    { assert (bonded s' a = 0) as -> by lia. rewrite Z in *. rewrite N.ltb_irrefl. rewrite none_ages by exact Ha. lia. }
    assert (T < bonded s a * (T / bonded s a + 1)) as Hq by (pose proof (N.mul_succ_div_gt T (bonded s a)); lia).
    destruct (N.ltb_spec (bonded s' a) (bonded s a)) as [Hlt|].
    + pose proof (old_share (rt_now s) st (bonded s a - bonded s' a) Ho ltac:(lia)) as Sh. rewrite Ha in Sh.
      replace (bonded s a - (bonded s a - bonded s' a)) with (bonded s' a) in Sh by lia.
      set (f := ages (rt_now s) (oldest_leave _ st)) in *. set (v := bonded s a) in *. set (r := bonded s' a) in *.
      assert (f * v <= (T / v * r + (k + 1) * r) * v) as Hm by nia. apply N.mul_le_mono_pos_r in Hm; [exact Hm|lia].
    + assert (bonded s' a = bonded s a) as E by lia. rewrite E. nia.
Qed.
End Bounds.

Lemma nothing_bonded g a : bonded (genesis_state g) a = 0 /\ bond_of (genesis_state g) a = None.
Proof. split; reflexivity. Qed.
Lemma starts_low c g a : bonded (genesis_state g) a <= c_bal_max c /\ token_time_now c (genesis_state g) a = 0.
Proof. split; [rewrite (proj1 (nothing_bonded g a)); apply N.le_0_l|reflexivity]. Qed.
Lemma fits_none now : fits now 0 [].
Proof. split; [reflexivity|]. split; constructor. Qed.

(** ** C107 *)
(** Token-time is never more than the ages of the tokens that stay when the youngest leave first *)
Theorem C107_never_older_than_its_oldest_tokens c g l a :
  (forall v, In (OCall (Signed a) (CTd (TdBond v))) l -> v <= c_bal_max c) ->
  let s := run c (genesis_state g) l in let st := tranches youngest_leave c a (genesis_state g) l [] in
  amount st = bonded s a /\ token_time_now c s a <= ages (rt_now s) st.
Proof.
  intros Hl. cbv zeta. split.
  - assert (forall s st, fits (rt_now s) (bonded s a) st -> amount (tranches youngest_leave c a s l st) = bonded (run c s l) a) as H.
    { clear Hl. induction l as [|x l IH]; intros s st F; [apply F|]. rewrite run_cons. cbn [tranches]. apply IH.
      apply next_fits; [exact order_young|exact young_amount|apply clock_step|exact F]. }
    apply H, fits_none.
  - apply upper_run; [apply timely_genesis|exact Hl|apply starts_low|apply fits_none|apply N.le_0_l].
Qed.
Print Assumptions C107_never_older_than_its_oldest_tokens.

(** and, while nothing saturates, it is short of the ages of those that stay when the oldest leave first by no more
    than one unit per token still bonded and unbond sent *)
Theorem C107_hardly_younger_than_its_youngest_tokens c g l a :
  (forall v, In (OCall (Signed a) (CTd (TdBond v))) l -> v <= c_bal_max c) ->
  (forall l1 l2, l = l1 ++ l2 -> ages (rt_now (run c (genesis_state g) l1)) (tranches youngest_leave c a (genesis_state g) l1 []) <= c_bal_max c) ->
  let s := run c (genesis_state g) l in let st := tranches oldest_leave c a (genesis_state g) l [] in
  amount st = bonded s a /\ ages (rt_now s) st <= token_time_now c s a + unbonds a l * bonded s a.
Proof.
  intros Hl Hc. cbv zeta. split.
  - assert (forall s st, fits (rt_now s) (bonded s a) st -> amount (tranches oldest_leave c a s l st) = bonded (run c s l) a) as H.
    { clear Hl Hc. induction l as [|x l IH]; intros s st F; [apply F|]. rewrite run_cons. cbn [tranches]. apply IH.
      apply next_fits; [exact order_old|exact old_amount|apply clock_step|exact F]. }
    apply H, fits_none.
  - apply (lower_run c a l (genesis_state g) [] [] 0); [apply timely_genesis|exact Hl|apply starts_low|apply fits_none|apply fits_none|apply N.le_0_l|exact Hc|apply N.le_0_l].
Qed.
Print Assumptions C107_hardly_younger_than_its_youngest_tokens.

Lemma no_unbond a x l : unbonds a (x :: l) = 0 -> unbonds a l = 0 /\ forall v, x <> OCall (Signed a) (CTd (TdUnbond v)).
Proof.
  destruct x as [[|b|] [[]| | | | | | |]| | | | | | | | | |]; cbn [unbonds]; intros H; (split; [lia|]); intros w E; try discriminate E.
  injection E as -> ->. rewrite bool_decide_eq_true_2 in H by reflexivity. lia.
Qed.
(** Without unbonds it is exactly the sum of the ages *)
Theorem C107_exact_without_unbonds c g l a :
  (forall v, In (OCall (Signed a) (CTd (TdBond v))) l -> v <= c_bal_max c) -> unbonds a l = 0 ->
  (forall l1 l2, l = l1 ++ l2 -> ages (rt_now (run c (genesis_state g) l1)) (tranches youngest_leave c a (genesis_state g) l1 []) <= c_bal_max c) ->
  forall leave, let s := run c (genesis_state g) l in
  token_time_now c s a = ages (rt_now s) (tranches leave c a (genesis_state g) l []).
Proof.
  intros Hl Hu Hc leave. cbv zeta.
  assert (forall lv1 lv2 s st, timely s -> bonded s a <= c_bal_max c -> tranches lv1 c a s l st = tranches lv2 c a s l st) as Same.
  { intros lv1 lv2. clear Hc. revert Hl Hu. induction l as [|x r IH]; intros Hl Hu s st Tm Hb; [reflexivity|]. destruct (no_unbond _ _ _ Hu) as [Hr Hx].
    cbn [tranches]. destruct (stake_step c s a x Tm) as [Hb' Hs]; [intros v ->; apply Hl; left; reflexivity|exact Hb|].
    destruct (N.ltb_spec (bonded (step c s x) a) (bonded s a)) as [Hlt|].
    { exfalso. destruct Hs as [(E & _)|[(_ & E & _)|((v & E) & _)]]; [lia|lia|exact (Hx _ E)]. }
    apply IH; [intros v Hv; apply Hl; right; exact Hv|exact Hr|intros ? ?; apply last_step; auto|exact Hb']. }
  pose proof (proj2 (C107_never_older_than_its_oldest_tokens c g l a Hl)) as U. pose proof (proj2 (C107_hardly_younger_than_its_youngest_tokens c g l a Hl Hc)) as L.
  cbv zeta in U, L. rewrite (Same youngest_leave leave) in U by (first [apply timely_genesis|apply starts_low]).
  rewrite (Same oldest_leave leave) in L by (first [apply timely_genesis|apply starts_low]). rewrite Hu in L. lia.
Qed.
Print Assumptions C107_exact_without_unbonds.

(** and nobody gains or loses by spreading a stake over two accounts *)
Theorem C107_splitting_without_unbonds c g l a b1 b2 :
  (forall x v, In x [a; b1; b2] -> In (OCall (Signed x) (CTd (TdBond v))) l -> v <= c_bal_max c) ->
  (forall x, In x [a; b1; b2] -> unbonds x l = 0) ->
  (forall l1 x l2, l = l1 ++ x :: l2 -> let s := run c (genesis_state g) l1 in
     rt_now s < rt_now (step c s x) -> bonded s a = bonded s b1 + bonded s b2) ->
  let s := run c (genesis_state g) l in
  token_time_now c s a = N.min (c_bal_max c) (token_time_now c s b1 + token_time_now c s b2).
Proof.
  intros Hl Hu Hs. cbv zeta.
  assert (forall s, timely s -> (forall x, In x [a; b1; b2] -> bonded s x <= c_bal_max c) ->
    (forall l1 x l2, l = l1 ++ x :: l2 -> let s := run c s l1 in rt_now s < rt_now (step c s x) -> bonded s a = bonded s b1 + bonded s b2) ->
    token_time_now c s a = N.min (c_bal_max c) (token_time_now c s b1 + token_time_now c s b2) ->
    token_time_now c (run c s l) a = N.min (c_bal_max c) (token_time_now c (run c s l) b1 + token_time_now c (run c s l) b2)) as H.
  { clear Hs. induction l as [|x r IH]; intros s Tm Hb Hs E; [exact E|]. rewrite run_cons.
    assert (forall y, In y [a; b1; b2] -> bonded (step c s x) y <= c_bal_max c /\
       token_time_now c (step c s x) y = N.min (c_bal_max c) (token_time_now c s y + bonded s y * (rt_now (step c s x) - rt_now s))) as Each.
    { intros y Hy. destruct (stake_step c s y x Tm) as [Hb' Hst]; [intros v ->; apply (Hl y); [exact Hy|left; reflexivity]|auto|].
      split; [exact Hb'|]. destruct Hst as [(_ & _ & E')|[(E1 & _ & E2)|((v & E1) & _)]]; [exact E'| |exfalso; exact (proj2 (no_unbond _ _ _ (Hu y Hy)) _ E1)].
      rewrite E1, E2, N.sub_diag, N.mul_0_r. assert (token_time_now c s y <= c_bal_max c) by (unfold token_time_now, accrued; destruct (bond_of s y); lia). lia. }
    apply IH; [intros y v Hy Hv; apply (Hl y v Hy); right; exact Hv|intros y Hy; apply (no_unbond _ _ _ (Hu y Hy))|intros ? ?; apply last_step; auto|
               intros y Hy; apply Each, Hy| |].
    { intros l1 z l2 ->. exact (Hs (x :: l1) z l2 eq_refl). }
    destruct (Each a ltac:(cbn; auto)) as [_ ->]. destruct (Each b1 ltac:(cbn; auto)) as [_ ->]. destruct (Each b2 ltac:(cbn; auto)) as [_ ->].
    specialize (Hs [] x r eq_refl). cbn in Hs. rewrite E. destruct (N.eq_dec (rt_now (step c s x) - rt_now s) 0) as [->|Hd]; [lia|].
    rewrite Hs by lia. rewrite N.mul_add_distr_r. lia. }
  apply H; [apply timely_genesis|intros; apply starts_low|exact Hs|]. rewrite !(fun a => proj2 (starts_low c g a)). lia.
Qed.
Print Assumptions C107_splitting_without_unbonds.

(** With unbonds they can: two accounts let the owner choose which tokens leave. Alice holds what Bob and Carol hold together
    whenever time passes; the tokens that leave are Carol's, the younger ones *)
Definition same_stake : list op :=
  [OCall (Signed alice) (CTd (TdBond 100)); OCall (Signed bob) (CTd (TdBond 100)); ONextBlock 1000;
   OCall (Signed alice) (CTd (TdBondExtra 100)); OCall (Signed carol) (CTd (TdBond 100)); ONextBlock 1000;
   OCall (Signed alice) (CTd (TdUnbond 100)); OCall (Signed carol) (CTd (TdUnbond 100))].
Theorem C107_splitting_does_not_matter_refuted :
  ~ (forall c g l a b1 b2,
      (forall x v, In x [a; b1; b2] -> In (OCall (Signed x) (CTd (TdBond v))) l -> v <= c_bal_max c) ->
      (forall l1 x l2, l = l1 ++ x :: l2 -> let s := run c (genesis_state g) l1 in
         rt_now s < rt_now (step c s x) -> bonded s a = bonded s b1 + bonded s b2) ->
      let s := run c (genesis_state g) l in
      token_time_now c s a = N.min (c_bal_max c) (token_time_now c s b1 + token_time_now c s b2)).
Proof.
  intros H. specialize (H cfg0 (gen0 [alice; bob; carol]) same_stake alice bob carol).
  assert (forall P : Prop, (P -> False) -> P -> False) as Nx by auto.
  refine (Nx _ _ (H _ _)); clear H Nx.
  - intros E. vm_compute in E. discriminate E.
  - intros x v _ I. assert (v = 100) as ->; [|vm_compute; discriminate]. cbn in I. intuition congruence.
  - intros l1 x l2 E. cbv zeta.
    do 9 (destruct l1 as [|? l1]; [cbn in E; try discriminate E; injection E as <- <-; vm_compute; intros Hn; first [discriminate Hn|reflexivity]|
      cbn in E; try discriminate E; injection E as <- E]).
Qed.
Print Assumptions C107_splitting_does_not_matter_refuted.
Example C107_split : let s := run cfg0 (genesis_state (gen0 [alice; bob; carol])) same_stake in
  (token_time_now cfg0 s alice, token_time_now cfg0 s bob, token_time_now cfg0 s carol) = (150000, 200000, 0).
Proof. vm_compute. reflexivity. Qed.
(** between the two bounds, 100000 if the oldest leave and 200000 if the youngest do *)
Example C107_between : let s := genesis_state (gen0 [alice; bob; carol]) in
  (ages (rt_now (run cfg0 s same_stake)) (tranches youngest_leave cfg0 alice s same_stake []),
   ages (rt_now (run cfg0 s same_stake)) (tranches oldest_leave cfg0 alice s same_stake []), unbonds alice same_stake) = (200000, 100000, 1).
Proof. vm_compute. reflexivity. Qed.

(** Rounding can take it below the ages of the youngest tokens: 900 tokens of age 2 and 10 of age 1 average to 1 *)
Definition rounding : list op :=
  [OCall (Signed alice) (CTd (TdBond 900)); ONextBlock 1; OCall (Signed alice) (CTd (TdBondExtra 10)); ONextBlock 1; OCall (Signed alice) (CTd (TdUnbond 10))].
Example C107_rounding : let s := genesis_state (gen0 [alice; bob; carol]) in
  (token_time_now cfg0 (run cfg0 s rounding) alice, bonded (run cfg0 s rounding) alice,
   ages (rt_now (run cfg0 s rounding)) (tranches oldest_leave cfg0 alice s rounding [])) = (900, 900, 1790).
Proof. vm_compute. reflexivity. Qed.
(** The hypotheses of the exact case, met before the unbonds *)
Example C107_exact : let s := genesis_state (gen0 [alice; bob; carol]) in let l := firstn 6 same_stake in
  unbonds alice l = 0 /\ tranches oldest_leave cfg0 alice s l [] = [(100, rt_now s + 1000); (100, rt_now s)] /\
  token_time_now cfg0 (run cfg0 s l) alice = 300000 /\
  token_time_now cfg0 (run cfg0 s l) bob + token_time_now cfg0 (run cfg0 s l) carol = 300000.
Proof. vm_compute. repeat split; reflexivity. Qed.
