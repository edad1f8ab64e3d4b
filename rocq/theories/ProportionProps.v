(** * C111: token-time is proportional to the stake
    Two stakers, on one chain or on two, do the same things at the same times, one of them with [k] times the amounts. Everything they have is
    then [k] times as much, including what unbonding leaves: there is no economy of scale. Comparing other stakers, more stake means
    more token-time up to rounding at unbonding. *)
From Coq Require Import String.
From Verif Require Import Base State Env TeerdaysModel TeerexBase SgxVerifyModel TeerexModel
  EnclaveBridgeModel SidechainModel TeeracleModel ClaimsModel AssetRegistryModel XcmTransactorModel
  Runtime Frame EnvFacts TeerdaysProofs Examples TeerdaysProps LedgerProps.

(** ** The comparison *)
Definition times_act (k : N) (y : act) : act :=
  match y with ABond v => ABond (k * v) | AExtra v => AExtra (k * v) | AUnbond v => AUnbond (k * v) | AWithdraw => AWithdraw end.
Definition times (k : N) (B : book) : book :=
  mkBook (k_now B) ((fun x => (k * x.1, k * x.2)) <$> k_bond B) ((fun x => (x.1, k * x.2)) <$> k_due B) (k * k_lock B).
Section Rules.
Context (c : cfg) (me : acct) (k : N).
(** [k] times the bond and its token-time are representable *)
Definition fits (B : book) : Prop := match k_bond B with Some (b, q) => k * b <= c_bal_max c /\ k * q <= c_bal_max c | None => True end.
(** The amount exceeds the existential deposit, the balances do not limit it or are in the same proportion, and no dust is left *)
Definition in_proportion (y : act) (bal bal' : N) (B : book) : Prop :=
  match y with
  | ABond v => c_ed c <= v /\ (bal' = k * bal \/ v <= bal /\ k * v <= bal')
  | AExtra v => c_ed c <= v /\ (bal' = k * bal \/ forall b q, k_bond B = Some (b, q) -> b + v <= bal /\ k * (b + v) <= bal')
  | AUnbond v => c_ed c <= v /\ forall b q, k_bond B = Some (b, q) -> b <= v \/ c_ed c <= b - v
  | AWithdraw => True
  end.
Fixpoint same_but_larger (B : book) (l l' : list line) : Prop :=
  match l, l' with
  | [], [] => True
  | Wait ms :: r, Wait ms' :: r' => ms' = ms /\ fits (wait c ms B) /\ same_but_larger (wait c ms B) r r'
  | Act y bal :: r, Act y' bal' :: r' =>
      let B' := (act_on c me y bal B).2 in y' = times_act k y /\ in_proportion y bal bal' B /\ fits B' /\ same_but_larger B' r r'
  | _, _ => False
  end.
End Rules.

(** ** Proofs *)
Lemma k_le k a b : 1 <= k -> a <= b -> a <= k * b.
Proof. intros Hk H. nia. Qed.
Lemma k_min k a b : k * N.min a b = N.min (k * a) (k * b).
Proof. apply eq_sym, N.mul_min_distr_l. Qed.
Lemma k_cap k m x : k * N.min m x <= m -> k * N.min m x = N.min m (k * x).
Proof.
  intros H. destruct (N.le_gt_cases x m) as [Hx|Hx].
  - rewrite (N.min_r m x) in * by exact Hx. lia.
  - rewrite (N.min_l m x) in * by lia. destruct (N.eq_dec m 0) as [->|Hm]; [lia|]. assert (k <= 1) as Hk by nia.
    assert (k = 0 \/ k = 1) as [->| ->] by lia; lia.
Qed.
Lemma wait_times c k ms B : fits c k (wait c ms B) -> wait c ms (times k B) = times k (wait c ms B).
Proof.
  unfold fits, wait, times. cbn. destruct (k_bond B) as [[b q]|]; cbn; [|reflexivity]. intros [_ H]. rewrite (k_cap _ _ _ H). do 3 f_equal. lia.
Qed.
Lemma act_times c me me' k y bal bal' B : 1 <= k -> in_proportion c k y bal bal' B -> fits c k B -> fits c k (act_on c me y bal B).2 ->
  (act_on c me' (times_act k y) bal' (times k B)).1.1 = (act_on c me y bal B).1.1 /\
  (act_on c me' (times_act k y) bal' (times k B)).2 = times k (act_on c me y bal B).2.
Proof.
  intros Hk HP F0 F. destruct B as [now bd du lk]. unfold times in *. cbn [k_now k_bond k_due k_lock] in *.
  assert (forall x y, set_to (k * x) (k * y) = k * set_to x y) as St.
  { intros x z. unfold set_to. destruct (N.eqb_spec z 0) as [->|Hz]; [rewrite N.mul_0_r; reflexivity|]. destruct (N.eqb_spec (k * z) 0) as [E0|E0]; [apply N.eq_mul_0 in E0; lia|reflexivity]. }
  destruct y as [v|v|v|]; cbn [times_act act_on in_proportion k_now k_bond k_due k_lock] in *.
  - destruct bd as [[b q]|]; cbn; [split; reflexivity|]. destruct HP as [Hv Hb].
    assert ((v <? c_ed c) = false) as E1 by (apply N.ltb_ge; exact Hv). assert ((k * v <? c_ed c) = false) as E2 by (apply N.ltb_ge, k_le; assumption).
    rewrite E1, E2. cbn. split; [reflexivity|]. assert (N.min (k * v) bal' = k * N.min v bal) as ->.
    { destruct Hb as [->|[H1 H2]]; [rewrite k_min; reflexivity|]. rewrite !N.min_l by assumption. reflexivity. }
    rewrite St, N.mul_0_r. reflexivity.
  - destruct du as [[d w]|]; cbn; [split; reflexivity|]. destruct HP as [Hv Hb].
    assert ((v <? c_ed c) = false) as E1 by (apply N.ltb_ge; exact Hv). assert ((k * v <? c_ed c) = false) as E2 by (apply N.ltb_ge, k_le; assumption).
    cbn in F. rewrite E1 in F. rewrite E1, E2. destruct bd as [[b q]|]; cbn; [|split; reflexivity]. cbn in F.
    split; [reflexivity|]. unfold fits in F. cbn in F. destruct F as [F1 F2].
    assert (N.min (k * v) (bal' - k * b) = k * N.min v (bal - b)) as ->.
    { destruct Hb as [->|Hb]; [rewrite k_min, N.mul_sub_distr_l; reflexivity|]. destruct (Hb b q eq_refl) as [H1 H2]. rewrite !N.min_l by lia. reflexivity. }
    rewrite <- N.mul_add_distr_l, <- (k_cap _ _ _ F1), St. reflexivity.
  - destruct du as [[d w]|]; cbn; [split; reflexivity|]. destruct HP as [Hv Hb].
    assert ((v <? c_ed c) = false) as E1 by (apply N.ltb_ge; exact Hv). assert ((k * v <? c_ed c) = false) as E2 by (apply N.ltb_ge, k_le; assumption).
    cbn in F. rewrite E1 in F. rewrite E1, E2. destruct bd as [[b q]|]; cbn; [|split; reflexivity]. cbn in F. specialize (Hb b q eq_refl).
    assert (k * b - k * v = k * (b - v)) as Er by (symmetry; apply N.mul_sub_distr_l). rewrite Er.
    assert ((if k * b =? 0 then 0 else k * q / (k * b)) = (if b =? 0 then 0 else q / b)) as ->.
    { destruct (N.eqb_spec b 0) as [->|Hb0]; [rewrite N.mul_0_r; reflexivity|]. destruct (N.eqb_spec (k * b) 0) as [E0|E0]; [apply N.eq_mul_0 in E0; clear -E0 Hk Hb0; lia|]. apply N.div_mul_cancel_l; clear -Hk Hb0; lia. }
    assert (k * b - k * (b - v) = k * (b - (b - v))) as -> by (symmetry; apply N.mul_sub_distr_l).
    set (u := if b =? 0 then 0 else q / b) in *. 
    assert ((k * (b - v) <? c_ed c) = (b - v <? c_ed c) /\ (b - v <? c_ed c = false -> k * N.min (c_bal_max c) (u * (b - v)) = N.min (c_bal_max c) (u * (k * (b - v))))) as [E3 E4].
    { split.
      - destruct (N.ltb_spec (b - v) (c_ed c)); [|apply N.ltb_ge, k_le; assumption]. apply N.ltb_lt. destruct Hb as [Hb|Hb]; [|lia]. replace (b - v) with 0 in * by lia. lia.
      - intros E. rewrite E in F. destruct (now + c_unlock c <=? u64_max); [|destruct (c_ovf c)]; unfold fits in F; cbn in F.
        1,3: rewrite (k_cap _ _ _ (proj2 F)); f_equal; lia.
        unfold fits in F0. cbn in F0. replace (u * (k * (b - v))) with (k * (u * (b - v))) by lia. apply k_cap.
        assert (u * (b - v) <= q); [|nia]. unfold u. destruct (N.eqb_spec b 0); [lia|]. pose proof (N.mul_div_le q b). nia. }
    rewrite E3. destruct (now + c_unlock c <=? u64_max); [|destruct (c_ovf c)]; cbn; (split; [reflexivity|]); try reflexivity;
    (destruct (b - v <? c_ed c); cbn; [reflexivity|]; rewrite E4 by reflexivity; reflexivity).
  - destruct du as [[d w]|]; cbn; [|split; reflexivity]. destruct (now <? d); cbn; [split; reflexivity|]. split; [reflexivity|]. rewrite <- k_min, <- N.mul_sub_distr_l. reflexivity.
Qed.
Lemma keep_times c me me' k l : 1 <= k -> forall l' B, fits c k B -> same_but_larger c me k B l l' ->
  map fst (keep_book c me' (times k B) l').1 = map fst (keep_book c me B l).1 /\ (keep_book c me' (times k B) l').2 = times k (keep_book c me B l).2.
Proof.
  intros Hk. induction l as [|[ms|y bal] l IH]; intros [|[ms'|y' bal'] l'] B F H; try destruct H; [split; reflexivity| |].
  - subst ms'. destruct H0 as [F' H]. cbn [keep_book]. rewrite (wait_times _ _ _ _ F'). apply IH; assumption.
  - subst y'. destruct H0 as (P & F' & H). cbn [keep_book]. destruct (act_times c me me' k y bal bal' B Hk P F F') as [A1 A2].
    destruct (act_on c me y bal B) as [[st ev] B1]. destruct (act_on c me' (times_act k y) bal' (times k B)) as [[st' ev'] B1']. cbn in A1, A2, F', H. subst st' B1'.
    destruct (IH l' B1 F' H) as [H1 H2]. destruct (keep_book c me' (times k B1) l') as [r' B2']. destruct (keep_book c me B1 l) as [r B2]. cbn in *. rewrite H1, H2. split; reflexivity.
Qed.

(** ** C111 *)
(** [b] does on the second chain (which may be the first) what [a] does on the first, with [k] times the amounts *)
Theorem C111_token_time_is_proportional_to_the_stake : forall c g1 g2 p1 p2 l1 l2 a b k,
  let s1 := run c (genesis_state g1) p1 in let s2 := run c (genesis_state g2) p2 in
  1 <= k -> book_of c s2 b = times k (book_of c s1 a) -> fits c k (book_of c s1 a) ->
  same_but_larger c a k (book_of c s1 a) (tidy (diary c a s1 l1)) (tidy (diary c b s2 l2)) ->
  book_of c (run c s2 l2) b = times k (book_of c (run c s1 l1) a) /\ map fst (replies c b s2 l2) = map fst (replies c a s1 l1).
Proof.
  intros c g1 g2 p1 p2 l1 l2 a b k s1 s2 Hk E F H.
  pose proof (C100_a_staker_keeps_their_own_book c g1 p1 l1 a) as K1. pose proof (C100_a_staker_keeps_their_own_book c g2 p2 l2 b) as K2.
  cbv zeta in K1, K2. fold s1 in K1. fold s2 in K2. rewrite <- keep_tidy in K1, K2. rewrite E in K2.
  destruct (keep_times c a b k _ Hk _ _ F H) as [H1 H2]. rewrite K1, K2 in H1, H2. auto.
Qed.
Print Assumptions C111_token_time_is_proportional_to_the_stake.

(** ** More stake, more token-time, up to rounding *)
(** The same kinds of calls at the same times; the same amounts are unbonded; the second staker never has less bonded *)
Definition same_kind (y y' : act) : Prop :=
  match y, y' with AExtra _, AExtra _ | AWithdraw, AWithdraw => True | AUnbond v, AUnbond v' => v = v' | _, _ => False end.
Definition not_less (B B' : book) : Prop := match k_bond B, k_bond B' with Some (b, _), Some (b', _) => b <= b' | _, _ => False end.
Section More.
Context (c : cfg) (me me' : acct).
Fixpoint never_less (B B' : book) (l l' : list line) : Prop :=
  match l, l' with
  | [], [] => True
  | Wait ms :: r, Wait ms' :: r' => ms' = ms /\ never_less (wait c ms B) (wait c ms B') r r'
  | Act y bal :: r, Act y' bal' :: r' =>
      let B1 := (act_on c me y bal B).2 in let B1' := (act_on c me' y' bal' B').2 in
      same_kind y y' /\ not_less B1 B1' /\ never_less B1 B1' r r'
  | _, _ => False
  end.
(** What is left bonded by each unbonding of the second staker, in sum *)
Fixpoint left_bonded (B' : book) (l' : list line) : N :=
  match l' with
  | [] => 0
  | Wait ms :: r => left_bonded (wait c ms B') r
  | Act y bal :: r => let B1 := (act_on c me' y bal B').2 in
      (match y, k_bond B1 with AUnbond _, Some (b, _) => b | _, _ => 0 end) + left_bonded B1 r
  end.
End More.
Definition token_time (B : book) : N := match k_bond B with Some (_, q) => q | None => 0 end.
Definition due_time (B : book) : option N := fst <$> k_due B.
Lemma unbond_rounding b b' q q' e v : b <= b' -> q <= q' + e -> v <= b ->
  (if b =? 0 then 0 else q / b) * (b - v) <= (if b' =? 0 then 0 else q' / b') * (b' - v) + (b' - v) + e.
Proof.
  intros Hb Hq Hv. destruct (N.eqb_spec b 0) as [->|H0]; [lia|]. destruct (N.eqb_spec b' 0) as [->|H0']; [lia|].
  pose proof (N.mul_div_le q b H0) as M. pose proof (N.mul_succ_div_gt q' b' H0') as M'. set (m := q / b) in *. set (m' := q' / b') in *.
  remember (b - v) as r. remember (b' - v) as r'. assert (r * b' <= b * r') as R by nia.
  assert (m * r * b' <= (m * b) * r') as A1 by nia. assert (m * b <= b' * (m' + 1) + e) as A2 by lia.
  assert (m * r * b' <= (b' * (m' + 1) + e) * r') as A3 by nia.
  assert (e * r' <= e * b') as A4 by nia.
  assert (m * r * b' <= (m' * r' + r' + e) * b') as A5 by nia. apply (N.mul_le_mono_pos_r _ _ b'); [lia|exact A5].
Qed.
Lemma act_more c me me' y y' bal bal' B B' e : same_kind y y' -> k_now B' = k_now B -> due_time B' = due_time B -> not_less B B' ->
  let B1 := (act_on c me y bal B).2 in let B1' := (act_on c me' y' bal' B').2 in not_less B1 B1' ->
  token_time B <= token_time B' + e ->
  k_now B1' = k_now B1 /\ due_time B1' = due_time B1 /\
  token_time B1 <= token_time B1' + (e + match y', k_bond B1' with AUnbond _, Some (b, _) => b | _, _ => 0 end).
Proof.
  intros K En Ed NL. destruct B as [now bd du lk], B' as [now' bd' du' lk']. unfold not_less, token_time, due_time in *. cbn in *. subst now'.
  destruct bd as [[b q]|]; [|destruct NL]. destruct bd' as [[b' q']|]; [|destruct NL].
  destruct y as [v|v|v|], y' as [v'|v'|v'|]; try destruct K; cbn.
  - intros _ Hq. destruct du as [[d w]|], du' as [[d' w']|]; try discriminate Ed; cbn; [injection Ed as ->; repeat split; lia|].
    destruct (v <? c_ed c), (v' <? c_ed c); cbn; repeat split; lia.
  - destruct du as [[d w]|], du' as [[d' w']|]; try discriminate Ed; cbn; [injection Ed as ->; intros _ Hq; repeat split; lia|].
    destruct (v <? c_ed c); cbn; [intros _ Hq; repeat split; lia|].
    assert (forall due, (if b - v <? c_ed c then None else Some (b - v, c_bal_max c `min` ((if b =? 0 then 0 else q / b) * (b - v)))) = due ->
      match due with Some (b0, _) => match (if b' - v <? c_ed c then None else Some (b' - v, c_bal_max c `min` ((if b' =? 0 then 0 else q' / b') * (b' - v)))) with
        | Some (b'0, _) => b0 <= b'0 | None => False end | None => False end -> q <= q' + e ->
      match due with Some (_, q0) => q0 | None => 0 end <=
      match (if b' - v <? c_ed c then None else Some (b' - v, c_bal_max c `min` ((if b' =? 0 then 0 else q' / b') * (b' - v)))) with Some (_, q0) => q0 | None => 0 end
      + (e + match (if b' - v <? c_ed c then None else Some (b' - v, c_bal_max c `min` ((if b' =? 0 then 0 else q' / b') * (b' - v)))) with Some (b0, _) => b0 | None => 0 end)) as A.
    { intros due <- H Hq. destruct (b - v <? c_ed c) eqn:E1; [destruct H|]. destruct (b' - v <? c_ed c) eqn:E2; [destruct H|].
      destruct (N.le_gt_cases v b) as [Hv|Hv].
      - pose proof (unbond_rounding b b' q q' e v NL Hq Hv). lia.
      - replace (b - v) with 0 by lia. rewrite N.mul_0_r, N.min_0_r. apply N.le_0_l. }
    specialize (A _ eq_refl). destruct (now + c_unlock c <=? u64_max); [|destruct (c_ovf c)]; cbn; intros H Hq; (split; [reflexivity|]; split; [reflexivity|]); try (apply A; assumption). lia.
  - destruct du as [[d w]|], du' as [[d' w']|]; try discriminate Ed; cbn; [injection Ed as ->|intros _ Hq; repeat split; lia].
    destruct (now <? d); cbn; intros _ Hq; repeat split; lia.
Qed.
Lemma keep_more c me me' l : forall l' B B' e, k_now B' = k_now B -> due_time B' = due_time B -> not_less B B' -> never_less c me me' B B' l l' ->
  token_time B <= token_time B' + e ->
  token_time (keep_book c me B l).2 <= token_time (keep_book c me' B' l').2 + (e + left_bonded c me' B' l').
Proof.
  induction l as [|[ms|y bal] l IH]; intros [|[ms'|y' bal'] l'] B B' e En Ed NL H Hq; try destruct H; [cbn; lia| |].
  - subst ms'. cbn [keep_book left_bonded]. apply IH; [unfold wait; cbn; lia|exact Ed| |assumption|].
    + unfold not_less, wait in *. cbn. destruct (k_bond B) as [[b q]|]; [|destruct NL]. destruct (k_bond B') as [[b' q']|]; [|destruct NL]. exact NL.
    + unfold not_less, token_time, wait in *. cbn. destruct (k_bond B) as [[b q]|]; [|destruct NL]. destruct (k_bond B') as [[b' q']|]; [|destruct NL].
      assert (b * ms <= b' * ms) as Hm by (apply N.mul_le_mono_r, NL). clear -Hm Hq. remember (b * ms) as x. remember (b' * ms) as x'. lia.
  - destruct H0 as [NL1 H0]. cbn [keep_book left_bonded]. destruct (act_more c me me' y y' bal bal' B B' e H En Ed NL NL1 Hq) as (E1 & E2 & Q).
    destruct (act_on c me y bal B) as [[st ev] B1]. destruct (act_on c me' y' bal' B') as [[st' ev'] B1']. cbn in *.
    specialize (IH l' B1 B1' _ E1 E2 NL1 H0 Q). destruct (keep_book c me B1 l) as [r B2]. destruct (keep_book c me' B1' l') as [r' B2']. cbn in *. lia.
Qed.
Theorem C111_more_stake_means_more_token_time_up_to_rounding : forall c g1 g2 p1 p2 l1 l2 a b,
  let s1 := run c (genesis_state g1) p1 in let s2 := run c (genesis_state g2) p2 in
  let B1 := book_of c s1 a in let B2 := book_of c s2 b in let d := tidy (diary c b s2 l2) in
  k_now B2 = k_now B1 -> due_time B2 = due_time B1 -> not_less B1 B2 -> token_time B1 <= token_time B2 ->
  never_less c a b B1 B2 (tidy (diary c a s1 l1)) d ->
  token_time (book_of c (run c s1 l1) a) <= token_time (book_of c (run c s2 l2) b) + left_bonded c b B2 d.
Proof.
  intros c g1 g2 p1 p2 l1 l2 a b s1 s2 B1 B2 d En Ed NL Hq H.
  pose proof (C100_a_staker_keeps_their_own_book c g1 p1 l1 a) as K1. pose proof (C100_a_staker_keeps_their_own_book c g2 p2 l2 b) as K2.
  cbv zeta in K1, K2. fold s1 in K1. fold s2 in K2. fold B1 in K1. fold B2 in K2. rewrite <- keep_tidy in K1, K2. fold d in K2.
  pose proof (keep_more c a b _ _ B1 B2 0 En Ed NL H) as M. rewrite K1, K2 in M. cbn [snd] in M. rewrite N.add_0_l in M. apply M. lia.
Qed.
Print Assumptions C111_more_stake_means_more_token_time_up_to_rounding.

(** ** Concrete cases *)
(** Bob does what Alice does, three times as much of it *)
Definition twins111 : list op :=
  [call_td alice (TdBond 100); call_td bob (TdBond 300); ONextBlock 777; call_td bob (TdBondExtra 150); call_td alice (TdBondExtra 50); ONextBlock 1000;
   call_td alice (TdUnbond 40); call_td bob (TdUnbond 120); call_td alice (TdUpdateOther bob); ONextBlock 2000; call_td bob TdWithdrawUnbonded; call_td alice TdWithdrawUnbonded].
Example C111_example : let s := genesis_state (gen0 [alice; bob]) in
  same_but_larger cfg0 alice 3 (book_of cfg0 s alice) (tidy (diary cfg0 alice s twins111)) (tidy (diary cfg0 bob s twins111)) /\
  book_of cfg0 s bob = times 3 (book_of cfg0 s alice) /\
  book_of cfg0 (run cfg0 s twins111) alice = mkBook 8777 (Some (110, 386980)) None 110 /\
  book_of cfg0 (run cfg0 s twins111) bob = mkBook 8777 (Some (330, 1160940)) None 330.
Proof.
  intros s. split; [|vm_compute; repeat split; reflexivity]. unfold s. clear s.
  assert (tidy (diary cfg0 alice (genesis_state (gen0 [alice; bob])) twins111) =
    [Act (ABond 100) 1000; Wait 777; Act (AExtra 50) 1000; Wait 1000; Act (AUnbond 40) 1000; Wait 2000; Act AWithdraw 1000]) as -> by (vm_compute; reflexivity).
  assert (tidy (diary cfg0 bob (genesis_state (gen0 [alice; bob])) twins111) =
    [Act (ABond 300) 1000; Wait 777; Act (AExtra 150) 1000; Wait 1000; Act (AUnbond 120) 1000; Wait 2000; Act AWithdraw 1000]) as -> by (vm_compute; reflexivity).
  assert (book_of cfg0 (genesis_state (gen0 [alice; bob])) alice = mkBook 5000 None None 0) as -> by (vm_compute; reflexivity).
  assert (c_ed cfg0 = 10) as Ed by reflexivity.
  cbn [same_but_larger in_proportion]. rewrite Ed.
  split; [reflexivity|]. split; [split; [lia|right; lia]|]. split; [vm_compute; split; discriminate|].
  split; [reflexivity|]. split; [vm_compute; split; discriminate|].
  split; [reflexivity|]. split; [split; [lia|right; intros b q H; vm_compute in H; injection H as <- <-; lia]|]. split; [vm_compute; split; discriminate|].
  split; [reflexivity|]. split; [vm_compute; split; discriminate|].
  split; [reflexivity|]. split; [split; [lia|intros b q H; vm_compute in H; injection H as <- <-; right; lia]|]. split; [vm_compute; split; discriminate|].
  split; [reflexivity|]. split; [vm_compute; split; discriminate|].
  split; [reflexivity|]. split; [exact I|]. split; [vm_compute; split; discriminate|exact I].
Qed.
(** Both have bonded 100 for 33 ms. Bob adds one more than Alice; both unbond 50, and Bob is left with less token-time *)
Definition eve111 : list op := [call_td alice (TdBond 100); call_td bob (TdBond 100); ONextBlock 33].
Definition rest111 : list op := [call_td alice (TdBondExtra 10); call_td bob (TdBondExtra 11); call_td alice (TdUnbond 50); call_td bob (TdUnbond 50)].
Example C111_example_less : let s := run cfg0 (genesis_state (gen0 [alice; bob])) eve111 in
  never_less cfg0 alice bob (book_of cfg0 s alice) (book_of cfg0 s bob) (tidy (diary cfg0 alice s rest111)) (tidy (diary cfg0 bob s rest111)) /\
  book_of cfg0 (run cfg0 s rest111) alice = mkBook 5033 (Some (60, 1800)) (Some (6033, 50)) 110 /\
  book_of cfg0 (run cfg0 s rest111) bob = mkBook 5033 (Some (61, 1769)) (Some (6033, 50)) 111 /\
  left_bonded cfg0 bob (book_of cfg0 s bob) (tidy (diary cfg0 bob s rest111)) = 61.
Proof.
  vm_compute. repeat match goal with |- _ /\ _ => split | |- True => exact I | |- _ = _ => reflexivity | |- _ = _ -> False => discriminate end.
Qed.
(** So rounding cannot be left out *)
Theorem C111_more_stake_never_means_less_refuted :
  ~ (forall c g1 g2 p1 p2 l1 l2 a b,
    let s1 := run c (genesis_state g1) p1 in let s2 := run c (genesis_state g2) p2 in let B1 := book_of c s1 a in let B2 := book_of c s2 b in
    k_now B2 = k_now B1 -> due_time B2 = due_time B1 -> not_less B1 B2 -> token_time B1 <= token_time B2 ->
    never_less c a b B1 B2 (tidy (diary c a s1 l1)) (tidy (diary c b s2 l2)) ->
    token_time (book_of c (run c s1 l1) a) <= token_time (book_of c (run c s2 l2) b)).
Proof.
  intros H. specialize (H cfg0 (gen0 [alice; bob]) (gen0 [alice; bob]) eve111 eve111 rest111 rest111 alice bob). cbv zeta in H.
  destruct C111_example_less as (H1 & H2 & H3 & _). cbv zeta in H1, H2, H3. rewrite H2, H3 in H.
  assert (1800 <= 1769); [|lia]. apply H; [vm_compute; reflexivity|vm_compute; reflexivity|vm_compute; discriminate|vm_compute; discriminate|exact H1].
Qed.
Print Assumptions C111_more_stake_never_means_less_refuted.
