(** * Laws of the encodings of ScaleModel.v *)
From Verif Require Import Base State TeerdaysModel TeerexBase SgxVerifyModel TeerexModel
  EnclaveBridgeModel SidechainModel TeeracleModel ClaimsModel AssetRegistryModel XcmTransactorModel ScaleModel.

(** Decoding inverts encoding whatever follows, and it accepts nothing but encodings. *)
Record lawful {A} (k : codec A) : Prop := mkLawful {
  law_wf : forall x, wt k x -> wf_bytes (enc k x);
  law_rt : forall x r, wt k x -> dec k (enc k x ++ r) = Some (x, r);
  law_canon : forall l x r, wf_bytes l -> dec k l = Some (x, r) -> wt k x /\ l = enc k x ++ r }.

Lemma le_bytes_length k n : length (le_bytes k n) = k.
Proof. revert n. induction k; intros; cbn; auto. Qed.
Lemma le_bytes_wf k n : wf_bytes (le_bytes k n).
Proof. revert n. induction k as [|k IH]; intros; cbn; constructor; [apply N.mod_lt; lia|apply IH]. Qed.
Lemma le_bytes_val k : forall n, n < 256 ^ N.of_nat k -> le_val (le_bytes k n) = n.
Proof.
  induction k as [|k IH]; intros n H; cbn [le_bytes le_val].
  - change (256 ^ N.of_nat 0) with 1 in H. lia.
  - rewrite IH.
    + pose proof (N.div_mod n 256 ltac:(lia)). lia.
    + apply N.div_lt_upper_bound; [lia|]. rewrite Nat2N.inj_succ, N.pow_succ_r' in H. lia.
Qed.
Lemma le_val_bound l : wf_bytes l -> le_val l < 256 ^ N.of_nat (length l).
Proof.
  induction 1 as [|b l Hb Hl IH]; cbn [le_val length].
  - change (256 ^ N.of_nat 0) with 1. lia.
  - rewrite Nat2N.inj_succ, N.pow_succ_r'. lia.
Qed.
Lemma le_val_bytes l : wf_bytes l -> le_bytes (length l) (le_val l) = l.
Proof.
  induction 1 as [|b l Hb Hl IH]; cbn [le_val length le_bytes]; auto.
  f_equal.
  - rewrite N.mul_comm, N.mod_add by lia. apply N.mod_small. lia.
  - rewrite N.mul_comm, N.div_add by lia. rewrite N.div_small by lia. rewrite N.add_0_l. exact IH.
Qed.
Lemma wf_app l l' : wf_bytes (l ++ l') <-> wf_bytes l /\ wf_bytes l'.
Proof. unfold wf_bytes. apply Forall_app. Qed.
Lemma wf_take k l : wf_bytes l -> wf_bytes (take k l).
Proof. unfold wf_bytes. apply Forall_take. Qed.
Lemma wf_drop k l : wf_bytes l -> wf_bytes (drop k l).
Proof. unfold wf_bytes. apply Forall_drop. Qed.

Lemma lawful_le k : lawful (c_le k).
Proof.
  split; cbn.
  - intros x _. apply le_bytes_wf.
  - intros x r H. unfold lenN. rewrite app_length, le_bytes_length.
    destruct (N.ltb_spec (N.of_nat (k + length r)) (N.of_nat k)); [lia|].
    rewrite <- (le_bytes_length k x) at 1 3. rewrite take_app, drop_app, le_bytes_val; auto.
  - intros l x r W H. unfold lenN in H. destruct (N.ltb_spec (N.of_nat (length l)) (N.of_nat k)); [discriminate|].
    inversion H; subst; clear H.
    assert (L : length (take k l) = k) by (rewrite take_length; lia).
    split.
    + rewrite <- L at 2. apply le_val_bound, wf_take, W.
    + rewrite <- L at 1. rewrite le_val_bytes by (apply wf_take, W). symmetry; apply take_drop.
Qed.
Lemma lawful_arr k : lawful (c_arr k).
Proof.
  split; cbn.
  - intros x [W _]. exact W.
  - intros x r [W L]. unfold lenN. rewrite app_length, L.
    destruct (N.ltb_spec (N.of_nat (k + length r)) (N.of_nat k)); [lia|].
    rewrite <- L. rewrite take_app, drop_app. reflexivity.
  - intros l x r W H. unfold lenN in H. destruct (N.ltb_spec (N.of_nat (length l)) (N.of_nat k)); [discriminate|].
    inversion H; subst; clear H. repeat split.
    + apply wf_take, W.
    + rewrite take_length. lia.
    + symmetry; apply take_drop.
Qed.
Lemma lawful_bool : lawful c_bool.
Proof.
  split; cbn.
  - intros [] _; repeat constructor; lia.
  - intros [] r _; reflexivity.
  - intros l x r W H. split; [exact I|].
    destruct l as [|[|[p|p|]] l]; inversion H; reflexivity.
Qed.
Lemma lawful_unit : lawful c_unit.
Proof.
  split; cbn.
  - intros; constructor.
  - intros [] r _; reflexivity.
  - intros l x r _ H. inversion H; auto.
Qed.
Lemma lawful_pair {A B} (a : codec A) (b : codec B) : lawful a -> lawful b -> lawful (c_pair a b).
Proof.
  intros [aw ar ac] [bw br bc]. split; cbn.
  - intros x [H1 H2]. apply wf_app; auto.
  - intros [x y] r [H1 H2]. cbn in *. rewrite <- app_assoc, ar, br; auto.
  - intros l x r W H. destruct (dec a l) as [[y l1]|] eqn:E1; [|discriminate].
    destruct (ac _ _ _ W E1) as [T1 ->]. apply wf_app in W as [_ W].
    destruct (dec b l1) as [[z l2]|] eqn:E2; [|discriminate].
    destruct (bc _ _ _ W E2) as [T2 ->]. inversion H; subst; cbn. rewrite <- app_assoc. auto.
Qed.
Lemma lawful_iso {A B} (f : B -> A) (g : A -> B) (a : codec A) :
  lawful a -> (forall x, g (f x) = x) -> (forall y, f (g y) = y) -> lawful (c_iso f g a).
Proof.
  intros [aw ar ac] G F. split; cbn.
  - intros x H. auto.
  - intros x r H. rewrite ar by auto. rewrite G. reflexivity.
  - intros l x r W H. destruct (dec a l) as [[y l1]|] eqn:E1; [|discriminate].
    destruct (ac _ _ _ W E1) as [T1 E]. inversion H; subst. rewrite F. auto.
Qed.
Lemma lawful_opt {A} (a : codec A) : lawful a -> lawful (c_opt a).
Proof.
  intros [aw ar ac]. split; cbn.
  - intros [x|] H; [constructor; [lia|]; apply aw, H|repeat constructor; lia].
  - intros [x|] r H; cbn; [rewrite ar by auto|]; reflexivity.
  - intros l x r W H. destruct l as [|[|[p|p|]] l]; try discriminate.
    + inversion H; subst; cbn. auto.
    + inversion W; subst. destruct (dec a l) as [[y l1]|] eqn:E1; [|discriminate].
      destruct (ac _ _ _ H3 E1) as [T1 ->]. inversion H; subst. auto.
Qed.
Lemma lawful_void {B} : lawful (@c_void B).
Proof. split; cbn; intros; [contradiction..|discriminate]. Qed.
Lemma lawful_case {A B} t (a : codec A) inj prj (rest : codec B) :
  lawful a -> lawful rest -> t < 256 ->
  (forall y, prj (inj y) = Some y) -> (forall x y, prj x = Some y -> inj y = x) ->
  (forall x, wt rest x -> prj x = None /\ exists b r, enc rest x = b :: r /\ b <> t) ->
  lawful (c_case t a inj prj rest).
Proof.
  intros [aw ar ac] [rw rr rc] T PI IP D. split; cbn.
  - intros x H. destruct (prj x) as [y|]; auto. constructor; auto. apply aw, H.
  - intros x r H. destruct (prj x) as [y|] eqn:E.
    + cbn. rewrite N.eqb_refl, ar by auto. rewrite (IP _ _ E). reflexivity.
    + specialize (D x H) as (_ & b & q & E1 & NE). specialize (rr x r H). rewrite E1 in *. cbn in *.
      destruct (N.eqb_spec b t); [contradiction|]. exact rr.
  - intros l x r W H. destruct l as [|b l]; [discriminate|]. destruct (N.eqb_spec b t).
    + subst b. inversion W; subst. destruct (dec a l) as [[y l1]|] eqn:E1; [|discriminate].
      destruct (ac _ _ _ H3 E1) as [T1 ->]. inversion H; subst. rewrite PI. auto.
    + destruct (rc _ _ _ W H) as [T1 E]. destruct (D x T1) as [-> _]. auto.
Qed.

(** *** Compact integers *)
Lemma n_bytes_spec fuel : forall k n,
  n < 256 ^ N.of_nat (k + fuel) -> (1 <= k)%nat -> 256 ^ N.of_nat (k - 1) <= n \/ k = 4%nat ->
  let b := n_bytes fuel k n in
  (k <= b <= k + fuel)%nat /\ n < 256 ^ N.of_nat b /\ (256 ^ N.of_nat (b - 1) <= n \/ (b = 4%nat /\ k = 4%nat)).
Proof.
  induction fuel as [|f IH]; intros k n H K Lo; cbn [n_bytes].
  - rewrite Nat.add_0_r in H. repeat split; try lia; auto; destruct Lo; auto.
  - destruct (N.ltb_spec n (256 ^ N.of_nat k)) as [Hlt|Hge].
    + repeat split; try lia; auto; destruct Lo; auto.
    + destruct (IH (S k) n) as (R & U & L); [now rewrite <- Nat.add_succ_comm in H|lia| |].
      { left. replace (S k - 1)%nat with k by lia. exact Hge. }
      split; [lia|]. split; [exact U|]. destruct L as [L|[B1 B2]]; [auto|].
      left. rewrite B1. replace (4 - 1)%nat with k by lia. exact Hge.
Qed.

Lemma lawful_compact mx : (4 <= mx <= 67)%nat -> lawful (c_compact mx).
Proof.
  intros M. split; cbn [enc dec wt c_compact].
  - intros n H. unfold enc_compact.
    destruct (N.ltb_spec n 64); [repeat constructor; lia|].
    destruct (N.ltb_spec n 16384); [apply le_bytes_wf|].
    destruct (N.ltb_spec n 1073741824); [apply le_bytes_wf|].
    cbv zeta. constructor; [|apply le_bytes_wf].
    destruct (n_bytes_spec (mx - 4) 4 n) as (R & _); [|lia|auto|].
    + replace (4 + (mx - 4))%nat with mx by lia. exact H.
    + cbv zeta in R. lia.
  - intros n r H. unfold enc_compact.
    destruct (N.ltb_spec n 64).
    { cbn [app]. unfold dec_compact. rewrite N.mul_comm, N.mod_mul, N.div_mul by lia. reflexivity. }
    destruct (N.ltb_spec n 16384).
    { unfold dec_compact. destruct (le_bytes 2 (4 * n + 1) ++ r) as [|b l] eqn:E; [discriminate|].
      assert (B : b = (4 * n + 1) mod 256) by (cbn in E; inversion E; auto).
      assert (B4 : b mod 4 = 1).
      { rewrite B. pose proof (N.div_mod (4 * n + 1) 256 ltac:(lia)). set (q := (4 * n + 1) / 256) in *.
        replace ((4 * n + 1) mod 256) with (1 + (n - 64 * q) * 4) by lia. rewrite N.mod_add by lia. reflexivity. }
      rewrite B4. change (1 =? 0) with false. change (1 =? 1) with true. cbv iota. rewrite <- E.
      pose proof (law_rt _ (lawful_le 2) (4 * n + 1) r) as L. cbn [enc dec c_le] in L. cbn [dec c_le].
      rewrite L by (cbn [wt c_le]; change (256 ^ N.of_nat 2) with 65536; lia).
      replace ((4 * n + 1) / 4) with n by (rewrite N.mul_comm, N.div_add_l by lia; change (1 / 4) with 0; lia).
      destruct (N.ltb_spec 63 n); [reflexivity|lia]. }
    destruct (N.ltb_spec n 1073741824).
    { unfold dec_compact. destruct (le_bytes 4 (4 * n + 2) ++ r) as [|b l] eqn:E; [discriminate|].
      assert (B : b = (4 * n + 2) mod 256) by (cbn in E; inversion E; auto).
      assert (B4 : b mod 4 = 2).
      { rewrite B. pose proof (N.div_mod (4 * n + 2) 256 ltac:(lia)). set (q := (4 * n + 2) / 256) in *.
        assert ((4 * n + 2) mod 256 < 256) by (apply N.mod_lt; lia).
        replace ((4 * n + 2) mod 256) with (2 + (n - 64 * q) * 4) by lia. rewrite N.mod_add by lia. reflexivity. }
      rewrite B4. change (2 =? 0) with false. change (2 =? 1) with false. change (2 =? 2) with true. cbv iota. rewrite <- E.
      pose proof (law_rt _ (lawful_le 4) (4 * n + 2) r) as L. cbn [enc dec c_le] in L. cbn [dec c_le].
      rewrite L by (cbn [wt c_le]; change (256 ^ N.of_nat 4) with 4294967296; lia).
      replace ((4 * n + 2) / 4) with n by (rewrite N.mul_comm, N.div_add_l by lia; change (2 / 4) with 0; lia).
      destruct (N.ltb_spec 16383 n); [reflexivity|lia]. }
    cbv zeta. destruct (n_bytes_spec (mx - 4) 4 n) as (R & U & Lo); [|lia|auto|].
    { replace (4 + (mx - 4))%nat with mx by lia. exact H. }
    cbv zeta in R, U, Lo. set (k := n_bytes (mx - 4) 4 n) in *.
    cbn [app]. unfold dec_compact.
    assert (B4 : (3 + 4 * (N.of_nat k - 4)) mod 4 = 3).
    { rewrite (N.mul_comm 4), N.mod_add by lia. reflexivity. }
    rewrite B4. change (3 =? 0) with false. change (3 =? 1) with false. change (3 =? 2) with false. cbv iota.
    assert (Bk : (3 + 4 * (N.of_nat k - 4)) / 4 + 4 = N.of_nat k).
    { rewrite (N.mul_comm 4), N.div_add by lia. change (3 / 4) with 0. lia. }
    rewrite Bk. destruct (N.ltb_spec (N.of_nat mx) (N.of_nat k)); [lia|]. rewrite Nat2N.id.
    pose proof (law_rt _ (lawful_le k) n r U) as L. cbn [enc dec c_le] in L. cbn [dec c_le]. rewrite L.
    destruct (N.eqb_spec (N.of_nat k) 4).
    + destruct (N.ltb_spec 1073741823 n); [reflexivity|lia].
    + destruct Lo as [Lo|[? _]]; [|lia].
      replace (N.of_nat k - 1) with (N.of_nat (k - 1)) by lia.
      assert (256 ^ N.of_nat (k - 1) <> 0) by (apply N.pow_nonzero; lia).
      destruct (N.ltb_spec (256 ^ N.of_nat (k - 1) - 1) n); [reflexivity|lia].
  - intros l x r W H. unfold dec_compact in H. destruct l as [|b l]; [discriminate|].
    assert (MX : 256 ^ 4 <= 256 ^ N.of_nat mx) by (apply N.pow_le_mono_r; lia).
    change (256 ^ 4) with 4294967296 in MX.
    pose proof (N.div_mod b 4 ltac:(lia)) as DM.
    assert (Hb : b < 256) by (inversion W; auto).
    destruct (N.eqb_spec (b mod 4) 0) as [E0|E0].
    { inversion H; subst. split; [lia|]. unfold enc_compact.
      destruct (N.ltb_spec (b / 4) 64); [|lia]. cbn. f_equal. lia. }
    destruct (N.eqb_spec (b mod 4) 1) as [E1|E1].
    { destruct (dec (c_le 2) (b :: l)) as [[y l1]|] eqn:E; [|discriminate].
      assert (Yb : y mod 4 = 1).
      { cbn [dec c_le] in E. destruct (lenN (b :: l) <? N.of_nat 2); [discriminate|]. inversion E; subst.
        cbn [take le_val]. set (z := le_val (take 1 l)).
        replace (b + 256 * z) with (b + (64 * z) * 4) by lia. rewrite N.mod_add by lia. auto. }
      destruct (law_canon _ (lawful_le 2) _ _ _ W E) as [T1 EQ]. cbn [wt c_le enc] in T1, EQ.
      change (256 ^ N.of_nat 2) with 65536 in T1.
      destruct (N.ltb_spec 63 (y / 4)); [|discriminate]. inversion H; subst x r; clear H.
      pose proof (N.div_mod y 4 ltac:(lia)) as DY. rewrite Yb in DY.
      split; [lia|]. unfold enc_compact.
      destruct (N.ltb_spec (y / 4) 64); [lia|]. destruct (N.ltb_spec (y / 4) 16384); [|lia].
      rewrite <- DY. exact EQ. }
    destruct (N.eqb_spec (b mod 4) 2) as [E2|E2].
    { destruct (dec (c_le 4) (b :: l)) as [[y l1]|] eqn:E; [|discriminate].
      assert (Yb : y mod 4 = 2).
      { cbn [dec c_le] in E. destruct (lenN (b :: l) <? N.of_nat 4); [discriminate|]. inversion E; subst.
        cbn [take le_val]. set (z := le_val (take 3 l)). 
        replace (b + 256 * z) with (b + (64 * z) * 4) by lia. rewrite N.mod_add by lia. auto. }
      destruct (law_canon _ (lawful_le 4) _ _ _ W E) as [T1 EQ]. cbn [wt c_le enc] in T1, EQ.
      change (256 ^ N.of_nat 4) with 4294967296 in T1.
      destruct (N.ltb_spec 16383 (y / 4)); [|discriminate]. inversion H; subst x r; clear H.
      pose proof (N.div_mod y 4 ltac:(lia)) as DY. rewrite Yb in DY.
      split; [lia|]. unfold enc_compact.
      destruct (N.ltb_spec (y / 4) 64); [lia|]. destruct (N.ltb_spec (y / 4) 16384); [lia|].
      destruct (N.ltb_spec (y / 4) 1073741824); [|lia].
      rewrite <- DY. exact EQ. }
    cbv zeta in H. set (k := b / 4 + 4) in *.
    assert (B3 : b mod 4 = 3) by (pose proof (N.mod_lt b 4 ltac:(lia)); lia).
    destruct (N.ltb_spec (N.of_nat mx) k); [discriminate|].
    destruct (dec (c_le (N.to_nat k)) l) as [[y l1]|] eqn:E; [|discriminate].
    assert (W' : wf_bytes l) by (inversion W; auto).
    destruct (law_canon _ (lawful_le (N.to_nat k)) _ _ _ W' E) as [T1 EQ]. cbn [wt c_le enc] in T1, EQ.
    rewrite N2Nat.id in T1.
    destruct (N.ltb_spec (if k =? 4 then 1073741823 else 256 ^ (k - 1) - 1) y) as [Hy|]; [|discriminate].
    inversion H; subst y l1; clear H.
    assert (TM : x < 256 ^ N.of_nat mx).
    { eapply N.lt_le_trans; [exact T1|]. apply N.pow_le_mono_r; lia. }
    split; [exact TM|].
    assert (X30 : 1073741824 <= x).
    { destruct (N.eqb_spec k 4); [lia|]. assert (256 ^ 4 <= 256 ^ (k - 1)) by (apply N.pow_le_mono_r; lia).
      change (256 ^ 4) with 4294967296 in *. lia. }
    unfold enc_compact.
    destruct (N.ltb_spec x 64); [lia|]. destruct (N.ltb_spec x 16384); [lia|].
    destruct (N.ltb_spec x 1073741824); [lia|]. cbv zeta.
    destruct (n_bytes_spec (mx - 4) 4 x) as (R & U & Lo); [|lia|auto|].
    { replace (4 + (mx - 4))%nat with mx by lia. exact TM. }
    cbv zeta in R, U, Lo. set (k' := n_bytes (mx - 4) 4 x) in *.
    assert (KK : N.of_nat k' = k).
    { destruct (N.lt_trichotomy (N.of_nat k') k) as [C|[C|C]]; auto; exfalso.
      - destruct (N.eqb_spec k 4); [lia|].
        assert (256 ^ N.of_nat k' <= 256 ^ (k - 1)) by (apply N.pow_le_mono_r; lia). lia.
      - destruct Lo as [Lo|[? _]]; [|lia].
        assert (256 ^ k <= 256 ^ N.of_nat (k' - 1)) by (apply N.pow_le_mono_r; lia). lia. }
    rewrite KK. cbn [app]. f_equal; [lia|]. rewrite EQ at 1.
    replace (N.to_nat k) with k' by lia. reflexivity.
Qed.

(** *** Sequences *)
Lemma dec_seq_rt {A} (a : codec A) : lawful a -> (forall x, wt a x -> enc a x <> []) ->
  forall xs r fuel, Forall (wt a) xs -> (length (enc_seq a xs) <= fuel)%nat ->
  dec_seq a fuel (lenN xs) (enc_seq a xs ++ r) = Some (xs, r).
Proof.
  intros [aw ar ac] NE. induction xs as [|x xs IH]; intros r fuel H F.
  - destruct fuel; reflexivity.
  - inversion H; subst. specialize (NE x H2). unfold enc_seq in *. cbn [map concat] in *.
    rewrite app_length in F. destruct (enc a x) as [|b q] eqn:E; [contradiction|]. cbn [length] in F.
    destruct fuel as [|fuel]; [lia|].
    cbn [dec_seq]. unfold lenN in *. cbn [length].
    destruct (N.eqb_spec (N.of_nat (S (length xs))) 0); [lia|].
    rewrite <- app_assoc, <- E, ar by auto.
    replace (N.of_nat (S (length xs)) - 1) with (N.of_nat (length xs)) by lia.
    rewrite IH by (auto; lia). reflexivity.
Qed.
Lemma dec_seq_canon {A} (a : codec A) : lawful a ->
  forall fuel n l xs r, wf_bytes l -> dec_seq a fuel n l = Some (xs, r) ->
  Forall (wt a) xs /\ lenN xs = n /\ l = enc_seq a xs ++ r.
Proof.
  intros [aw ar ac]. induction fuel as [|fuel IH]; intros n l xs r W H; cbn [dec_seq] in H;
    destruct (N.eqb_spec n 0) as [->|N0].
  - inversion H; subst. repeat split; auto.
  - discriminate.
  - inversion H; subst. repeat split; auto.
  - destruct (dec a l) as [[x l1]|] eqn:E; [|discriminate].
    destruct (ac _ _ _ W E) as [T ->]. apply wf_app in W as [_ W].
    destruct (dec_seq a fuel (n - 1) l1) as [[ys l2]|] eqn:E2; [|discriminate].
    inversion H; subst. destruct (IH _ _ _ _ W E2) as (F & L & ->).
    unfold lenN in *. cbn [length]. repeat split; auto; [lia|].
    unfold enc_seq. cbn [map concat]. rewrite <- app_assoc. reflexivity.
Qed.
Lemma enc_seq_wf {A} (a : codec A) xs : lawful a -> Forall (wt a) xs -> wf_bytes (enc_seq a xs).
Proof.
  intros [aw _ _]. unfold enc_seq. induction 1; cbn [map concat]; [constructor|]. apply wf_app; auto.
Qed.
Lemma lawful_vec {A} (a : codec A) : lawful a -> (forall x, wt a x -> enc a x <> []) -> lawful (c_vec a).
Proof.
  intros L NE. pose proof (lawful_compact 4 ltac:(lia)) as LC.
  assert (U : 256 ^ N.of_nat 4 = u32_max + 1) by reflexivity.
  split; cbn [enc dec wt c_vec].
  - intros xs [F Len]. apply wf_app. split; [|apply enc_seq_wf; auto].
    apply (law_wf _ LC). cbn [wt c_compact]. rewrite U. lia.
  - intros xs r [F Len]. rewrite <- app_assoc.
    pose proof (law_rt _ LC (lenN xs) (enc_seq a xs ++ r)) as R. cbn [enc dec wt c_compact] in R.
    rewrite R by (rewrite U; lia). apply dec_seq_rt; auto. rewrite app_length. lia.
  - intros l xs r W H. destruct (dec_compact 4 l) as [[n l1]|] eqn:E; [|discriminate].
    destruct (law_canon _ LC _ _ _ W E) as [T ->]. cbn [enc wt c_compact] in *. rewrite U in T.
    apply wf_app in W as [_ W]. destruct (dec_seq_canon _ L _ _ _ _ _ W H) as (F & Len & ->).
    split; [split; [auto|lia]|]. rewrite Len, <- app_assoc. reflexivity.
Qed.
Lemma lawful_bvec {A} mx (a : codec A) : lawful a -> (forall x, wt a x -> enc a x <> []) -> lawful (c_bvec mx a).
Proof.
  intros L NE. pose proof (lawful_vec a L NE) as LV. split; cbn [enc dec wt c_bvec].
  - intros xs [T _]. apply (law_wf _ LV), T.
  - intros xs r [T B]. rewrite (law_rt _ LV) by auto. destruct (N.leb_spec (lenN xs) mx); [reflexivity|lia].
  - intros l xs r W H. destruct (dec (c_vec a) l) as [[ys l1]|] eqn:E; [|discriminate].
    destruct (law_canon _ LV _ _ _ W E) as [T ->]. destruct (N.leb_spec (lenN ys) mx); [|discriminate].
    inversion H; subst. auto.
Qed.
Lemma lawful_count {A} mx (a : codec A) :
  mx < 256 -> lawful a -> (forall x, wt a x -> enc a x <> []) -> lawful (c_count mx a).
Proof.
  intros M L NE. split; cbn [enc dec wt c_count].
  - intros xs [F Len]. constructor; [lia|]. apply enc_seq_wf; auto.
  - intros xs r [F Len]. cbn [app]. destruct (N.ltb_spec mx (lenN xs)); [lia|].
    apply dec_seq_rt; auto. rewrite app_length. lia.
  - intros l xs r W H. destruct l as [|n l]; [discriminate|]. destruct (N.ltb_spec mx n); [discriminate|].
    assert (W' : wf_bytes l) by (inversion W; auto).
    destruct (dec_seq_canon _ L _ _ _ _ _ W' H) as (F & Len & ->).
    split; [split; [auto|lia]|]. rewrite Len. reflexivity.
Qed.

(** *** Consequences *)
Lemma lawful_inj {A} (k : codec A) x y r r' :
  lawful k -> wt k x -> wt k y -> enc k x ++ r = enc k y ++ r' -> x = y /\ r = r'.
Proof.
  intros L X Y E. pose proof (law_rt _ L x r X) as R. rewrite E, (law_rt _ L y r' Y) in R. inversion R; auto.
Qed.
Lemma le_nonempty k x : (0 < k)%nat -> enc (c_le k) x <> [].
Proof. destruct k; [lia|]. discriminate. Qed.
Lemma arr_nonempty k x : (0 < k)%nat -> wt (c_arr k) x -> enc (c_arr k) x <> [].
Proof. intros K [_ L] E. cbn in E. subst x. cbn in L. lia. Qed.
Lemma bytes_u8 b : wt c_bytes b <-> wf_bytes b /\ lenN b <= u32_max.
Proof. cbn [wt c_bytes c_vec c_le]. change (256 ^ N.of_nat 1) with 256. reflexivity. Qed.

(** *** The codecs of the repository *)
Ltac law :=
  lazymatch goal with
  | |- lawful (c_le _) => apply lawful_le
  | |- lawful (c_arr _) => apply lawful_arr
  | |- lawful c_bool => apply lawful_bool
  | |- lawful c_unit => apply lawful_unit
  | |- lawful c_void => apply lawful_void
  | |- lawful (c_compact _) => apply lawful_compact; lia
  | |- lawful (c_pair _ _) => apply lawful_pair; law
  | |- lawful (c_opt _) => apply lawful_opt; law
  | |- lawful (c_vec _) => apply lawful_vec; [law|nonempty]
  | |- lawful (c_bvec _ _) => apply lawful_bvec; [law|nonempty]
  | |- lawful (c_count _ _) => apply lawful_count; [lia|law|nonempty]
  | |- lawful (c_iso _ _ _) =>
      apply lawful_iso;
      [ law
      | let x := fresh in intros x; destruct x; reflexivity
      | let y := fresh in intros y; repeat match goal with p : (_ * _)%type |- _ => destruct p end; reflexivity ]
  | |- lawful (c_case _ _ _ _ _) =>
      apply lawful_case;
      [ law | law | lia
      | let y := fresh in intros y; repeat match goal with p : (_ * _)%type |- _ => destruct p | p : unit |- _ => destruct p end; reflexivity
      | let x := fresh in let y := fresh in let H := fresh in
        intros x y H;
        first [ inversion H; subst; reflexivity | destruct x; inversion H; subst; reflexivity ]
      | let x := fresh in let H := fresh in
        intros x H;
        first [ contradiction
              | destruct x; cbn in H |- *; try contradiction;
                (split; [reflexivity|eexists; eexists; split; [reflexivity|lia]]) ] ]
  | |- lawful _ => solve [auto with scale]
  end
with nonempty :=
  let x := fresh in let H := fresh in let E := fresh in
  intros x H E;
  first [ solve [auto with scale]
        | apply le_nonempty in E; [contradiction|lia]
        | apply arr_nonempty in E; [contradiction|lia|assumption] 
        | solve [eapply (@arr_nonempty); [| exact H | exact E]; lia]
        | solve [eauto with scale] ].

Create HintDb scale.
Lemma lawful_bytes : lawful c_bytes. Proof. unfold c_bytes. law. Qed.
Global Hint Resolve lawful_bytes : scale.
Lemma lawful_acct : lawful c_acct. Proof. unfold c_acct. law. Qed.
Lemma lawful_hash : lawful c_hash. Proof. unfold c_hash. law. Qed.
Global Hint Resolve lawful_acct lawful_hash : scale.
Lemma lawful_build_mode : lawful c_build_mode. Proof. unfold c_build_mode. law. Qed.
Lemma lawful_att_method : lawful c_att_method. Proof. unfold c_att_method. law. Qed.
Lemma lawful_sgx_status : lawful c_sgx_status. Proof. unfold c_sgx_status. law. Qed.
Lemma lawful_tcb_status : lawful c_tcb_status. Proof. unfold c_tcb_status. law. Qed.
Global Hint Resolve lawful_build_mode lawful_att_method lawful_sgx_status lawful_tcb_status : scale.
Lemma lawful_sgx_enclave : lawful c_sgx_enclave. Proof. unfold c_sgx_enclave. law. Qed.
Global Hint Resolve lawful_sgx_enclave : scale.
Lemma lawful_enclave : lawful c_enclave. Proof. unfold c_enclave. law. Qed.
Lemma lawful_any_signer : lawful c_any_signer. Proof. unfold c_any_signer. law. Qed.
Global Hint Resolve lawful_enclave lawful_any_signer : scale.
Lemma lawful_eaddr : lawful c_eaddr. Proof. unfold c_eaddr. law. Qed.
Lemma lawful_qenclave : lawful c_qenclave. Proof. unfold c_qenclave. law. Qed.
Lemma lawful_tcb_level : lawful c_tcb_level. Proof. unfold c_tcb_level. law. Qed.
Global Hint Resolve lawful_eaddr lawful_qenclave lawful_tcb_level : scale.
Lemma tcb_level_nonempty x : wt c_tcb_level x -> enc c_tcb_level x = [] -> False.
Proof.
  intros [H _] E. cbn in E. apply app_eq_nil in E as [E _]. exact (arr_nonempty 16 _ ltac:(lia) H E).
Qed.
Global Hint Resolve tcb_level_nonempty : scale.
Lemma lawful_tcb_info : lawful c_tcb_info. Proof. unfold c_tcb_info. law. Qed.
Lemma lawful_bond w : lawful (c_bond w). Proof. unfold c_bond. law. Qed.
Lemma lawful_pending w : lawful (c_pending w). Proof. unfold c_pending. law. Qed.
Lemma lawful_sstat w : lawful (c_sstat w). Proof. unfold c_sstat. law. Qed.
Global Hint Resolve lawful_tcb_info lawful_bond lawful_pending lawful_sstat : scale.
Lemma acct_nonempty x : wt c_acct x -> enc c_acct x = [] -> False.
Proof. intros H E. exact (arr_nonempty 32 _ ltac:(lia) H E). Qed.
Lemma hash_nonempty x : wt c_hash x -> enc c_hash x = [] -> False.
Proof. intros H E. exact (arr_nonempty 32 _ ltac:(lia) H E). Qed.
Lemma sstat_nonempty w x : wt (c_sstat w) x -> enc (c_sstat w) x = [] -> False.
Proof. intros [H _] E. cbn in E. apply app_eq_nil in E as [E _]. exact (arr_nonempty 32 _ ltac:(lia) H E). Qed.
Global Hint Resolve acct_nonempty hash_nonempty sstat_nonempty : scale.
Lemma lawful_scfg : lawful c_scfg. Proof. unfold c_scfg. law. Qed.
Global Hint Resolve lawful_scfg : scale.
Lemma lawful_uscfg w : lawful (c_uscfg w). Proof. unfold c_uscfg. law. Qed.
Lemma lawful_sconf : lawful c_sconf. Proof. unfold c_sconf. law. Qed.
Lemma lawful_statement : lawful c_statement. Proof. unfold c_statement. law. Qed.
Lemma lawful_vesting w : lawful (c_vesting w). Proof. unfold c_vesting. law. Qed.
Lemma lawful_request : lawful c_request. Proof. unfold c_request. law. Qed.
Global Hint Resolve lawful_uscfg lawful_sconf lawful_statement lawful_vesting lawful_request : scale.

Definition lawful_xcm (x : xcm_codecs) : Prop := lawful (x_net x) /\ lawful (x_body x) /\ lawful (x_part x).
Lemma lawful_net x : lawful_xcm x -> lawful (x_net x). Proof. intros H; apply H. Qed.
Lemma lawful_body x : lawful_xcm x -> lawful (x_body x). Proof. intros H; apply H. Qed.
Lemma lawful_part x : lawful_xcm x -> lawful (x_part x). Proof. intros H; apply H. Qed.
Global Hint Resolve lawful_net lawful_body lawful_part : scale.
Lemma lawful_junction x : lawful_xcm x -> lawful (c_junction x).
Proof. intros X. unfold c_junction. law. Qed.
Lemma junction_nonempty x j : wt (c_junction x) j -> enc (c_junction x) j = [] -> False.
Proof. destruct j; cbn; discriminate. Qed.
Global Hint Resolve lawful_junction junction_nonempty : scale.
Lemma lawful_location x : lawful_xcm x -> lawful (c_location x).
Proof. intros X. unfold c_location. law. Qed.
Global Hint Resolve lawful_location : scale.

(** a number type that compact encoding supports *)
Definition compactable (w : widths) : Prop := (4 <= w_bal w <= 67)%nat.
Lemma lawful_td_call w : compactable w -> lawful (c_td_call w).
Proof. unfold compactable. intros W. unfold c_td_call. law. Qed.
Lemma lawful_eb_call w : lawful (c_eb_call w). Proof. unfold c_eb_call. law. Qed.
Lemma lawful_sc_call : lawful c_sc_call. Proof. unfold c_sc_call. law. Qed.
Lemma lawful_to_call mx : lawful (c_to_call mx). Proof. unfold c_to_call. law. Qed.
Lemma lawful_tx_call : lawful c_tx_call. Proof. unfold c_tx_call. law. Qed.
Lemma lawful_cl_call w : lawful (c_cl_call w). Proof. unfold c_cl_call. law. Qed.
Lemma lawful_ar_call w x : lawful_xcm x -> lawful (c_ar_call w x). Proof. intros X. unfold c_ar_call. law. Qed.
Lemma lawful_xt_call : lawful c_xt_call. Proof. unfold c_xt_call. law. Qed.
Lemma lawful_relay_call : lawful c_relay_call. Proof. unfold c_relay_call. law. Qed.
