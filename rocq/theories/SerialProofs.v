(** * Proofs about the text formats: writing and reading back *)
From Coq Require Import String.
From Verif Require Import Base State SgxVerifyModel CollateralModel TextModel SerialModel.
From Verif Require Import EnvFacts.

(** ** base64 *)
Lemma all_below k (f : N -> bool) :
  forallb f (map N.of_nat (seq 0 k)) = true -> forall n, n < N.of_nat k -> f n = true.
Proof.
  intros H n Hn. rewrite forallb_forall in H. apply H. apply in_map_iff. exists (N.to_nat n).
  split; [lia|]. apply in_seq. lia.
Qed.
Lemma b64_value_char n : n < 64 -> b64_value (b64_char n) = Some n.
Proof.
  intros H.
  pose proof (all_below 64 (fun n => match b64_value (b64_char n) with Some m => m =? n | None => false end)
                ltac:(vm_compute; reflexivity) n H) as E.
  cbv beta in E. destruct (b64_value (b64_char n)) as [m|]; [|discriminate]. apply N.eqb_eq in E. congruence.
Qed.
Lemma b64_char_not_pad n : (b64_char n =? b64_pad) = false.
Proof.
  unfold b64_char, b64_pad. apply N.eqb_neq.
  repeat match goal with |- context [if ?b then _ else _] => destruct b eqn:? end; bools; lia.
Qed.

Lemma div_lt a b c : c <> 0 -> a < b * c -> a / c < b.
Proof. intros. apply N.div_lt_upper_bound; lia. Qed.

Lemma b64_four_char a b c : a < 256 -> b < 256 -> c < 256 ->
  b64_four (b64_char (a / 4)) (b64_char (16 * (a mod 4) + b / 16)) (b64_char (4 * (b mod 16) + c / 64))
           (b64_char (c mod 64)) = Some [a; b; c].
Proof.
  intros Ha Hb Hc. unfold b64_four.
  rewrite !b64_value_char; cycle 1.
  1-4: try (pose proof (N.mod_upper_bound a 4); pose proof (N.mod_upper_bound b 16);
            pose proof (N.mod_upper_bound c 64)).
  1,2,3,4: try (pose proof (div_lt a 64 4); pose proof (div_lt b 16 16); pose proof (div_lt c 4 64); lia).
  pose proof (N.div_mod a 4 ltac:(lia)). pose proof (N.div_mod b 16 ltac:(lia)).
  pose proof (N.div_mod c 64 ltac:(lia)).
  pose proof (N.mod_upper_bound a 4 ltac:(lia)). pose proof (N.mod_upper_bound b 16 ltac:(lia)).
  pose proof (N.mod_upper_bound c 64 ltac:(lia)).
  pose proof (div_lt b 16 16 ltac:(lia) ltac:(lia)). pose proof (div_lt c 4 64 ltac:(lia) ltac:(lia)).
  assert (E1 : (16 * (a mod 4) + b / 16) / 16 = a mod 4).
  { rewrite N.mul_comm, N.div_add_l by lia. rewrite (N.div_small (b / 16)) by lia. lia. }
  assert (E2 : (16 * (a mod 4) + b / 16) mod 16 = b / 16).
  { rewrite N.add_comm, N.mul_comm, N.mod_add by lia. apply N.mod_small. lia. }
  assert (E3 : (4 * (b mod 16) + c / 64) / 4 = b mod 16).
  { rewrite N.mul_comm, N.div_add_l by lia. rewrite (N.div_small (c / 64)) by lia. lia. }
  assert (E4 : (4 * (b mod 16) + c / 64) mod 4 = c / 64).
  { rewrite N.add_comm, N.mul_comm, N.mod_add by lia. apply N.mod_small. lia. }
  rewrite E1, E2, E3, E4. repeat f_equal; lia.
Qed.

Lemma list_ind3 (P : list N -> Prop) :
  P [] -> (forall a, P [a]) -> (forall a b, P [a; b]) -> (forall a b c l, P l -> P (a :: b :: c :: l)) -> forall l, P l.
Proof.
  intros H0 H1 H2 H3. fix IH 1. intros [|a [|b [|c l]]]; [apply H0|apply H1|apply H2|apply H3, IH].
Qed.

Lemma b64_roundtrip (l : list N) : Forall (fun b => b < 256) l -> b64_decode (b64_encode l) = Some l.
Proof.
  induction l as [|a|a b|a b c l IH] using list_ind3; intros H.
  - reflexivity.
  - apply Forall_cons_1 in H as [Ha _]. cbn [b64_encode b64_decode].
    rewrite !N.eqb_refl. unfold b64_two.
    rewrite !b64_value_char; [|pose proof (N.mod_upper_bound a 4 ltac:(lia)); lia|apply div_lt; lia].
    replace ((16 * (a mod 4)) mod 16) with 0 by (rewrite N.mul_comm, N.mod_mul; lia).
    rewrite N.eqb_refl. rewrite N.mul_comm with (n := 16), N.div_mul by lia.
    pose proof (N.div_mod a 4 ltac:(lia)). repeat f_equal. lia.
  - apply Forall_cons_1 in H as [Ha H]. apply Forall_cons_1 in H as [Hb _].
    cbn [b64_encode b64_decode]. rewrite N.eqb_refl, b64_char_not_pad. unfold b64_three.
    pose proof (N.mod_upper_bound a 4 ltac:(lia)). pose proof (N.mod_upper_bound b 16 ltac:(lia)).
    pose proof (div_lt b 16 16 ltac:(lia) ltac:(lia)).
    rewrite !b64_value_char; [|lia|lia|apply div_lt; lia].
    replace ((4 * (b mod 16)) mod 4) with 0 by (rewrite N.mul_comm, N.mod_mul; lia).
    rewrite N.eqb_refl. rewrite N.mul_comm with (n := 4) (m := b mod 16), N.div_mul by lia.
    assert (E1 : (16 * (a mod 4) + b / 16) / 16 = a mod 4).
    { rewrite N.mul_comm, N.div_add_l by lia. rewrite (N.div_small (b / 16)) by lia. lia. }
    assert (E2 : (16 * (a mod 4) + b / 16) mod 16 = b / 16).
    { rewrite N.add_comm, N.mul_comm, N.mod_add by lia. apply N.mod_small. lia. }
    rewrite E1, E2. pose proof (N.div_mod a 4 ltac:(lia)). pose proof (N.div_mod b 16 ltac:(lia)).
    repeat f_equal; lia.
  - apply Forall_cons_1 in H as [Ha H]. apply Forall_cons_1 in H as [Hb H]. apply Forall_cons_1 in H as [Hc H].
    cbn [b64_encode]. specialize (IH H).
    destruct (b64_encode l) as [|e r] eqn:E.
    + cbn [b64_decode]. rewrite b64_char_not_pad, b64_four_char by auto.
      cbn in IH. congruence.
    + cbn [b64_decode]. cbn [b64_decode] in IH. rewrite b64_four_char by auto. rewrite IH. reflexivity.
Qed.

(** ** Decimal digits *)
Lemma digits_spec d rest : Forall (fun c => is_digit c = true) d ->
  match rest with c :: _ => is_digit c = false | [] => True end -> digits (d ++ rest) = (d, rest).
Proof.
  induction d as [|c d IH]; intros H Hr; cbn.
  - destruct rest as [|c r]; cbn; auto. rewrite Hr. auto.
  - apply Forall_cons_1 in H as [Hc H]. rewrite Hc, IH; auto.
Qed.
Lemma dec_val_snoc l c : dec_val (l ++ [c]) = 10 * dec_val l + (c - 48).
Proof. unfold dec_val. rewrite fold_left_app. reflexivity. Qed.

Lemma digit_char n : n < 10 -> is_digit (48 + n) = true.
Proof. intros. unfold is_digit, in_rng. apply andb_true_iff. split; apply N.leb_le; lia. Qed.

Lemma log2_div10 n : 10 <= n -> N.log2 (n / 10) < N.log2 n.
Proof.
  intros H. assert (n / 10 <= n / 2) by (apply N.div_le_compat_l; lia).
  assert (E : N.log2 (n / 2) = N.pred (N.log2 n)).
  { change (n / 2) with (n / 2 ^ 1). rewrite <- N.shiftr_div_pow2, N.log2_shiftr. lia. }
  pose proof (N.log2_le_mono _ _ H0). pose proof (N.log2_pos n ltac:(lia)). lia.
Qed.

Lemma dec_go_spec f n : (N.to_nat (N.log2 n) < f)%nat ->
  Forall (fun c => is_digit c = true) (dec_go f n) /\ dec_val (dec_go f n) = n /\
  exists c r, dec_go f n = c :: r /\ (c = 48 -> n = 0 /\ r = []).
Proof.
  revert n. induction f as [|f IH]; intros n Hf; [lia|]. cbn [dec_go].
  destruct (N.ltb_spec n 10).
  - repeat split.
    + repeat constructor. apply digit_char. lia.
    + cbn. lia.
    + exists (48 + n), []. split; auto. intros. split; auto. lia.
  - pose proof (log2_div10 n ltac:(lia)).
    destruct (IH (n / 10) ltac:(lia)) as (H1 & H2 & c & r & E & Hc).
    pose proof (N.mod_upper_bound n 10 ltac:(lia)).
    repeat split.
    + apply Forall_app. split; auto. repeat constructor. apply digit_char. auto.
    + rewrite dec_val_snoc, H2. pose proof (N.div_mod n 10 ltac:(lia)). lia.
    + rewrite E. exists c, (r ++ [48 + n mod 10]). split; auto. intros E0.
      destruct (Hc E0) as [Hz _]. apply N.div_small_iff in Hz; lia.
Qed.

Lemma dec_spec n :
  Forall (fun c => is_digit c = true) (dec n) /\ dec_val (dec n) = n /\
  exists c r, dec n = c :: r /\ (c = 48 -> n = 0 /\ r = []).
Proof. unfold dec. apply dec_go_spec. lia. Qed.

Definition ends_number (rest : bytes) : Prop :=
  match rest with
  | c :: _ => is_digit c = false /\ c <> 46 /\ c <> 101 /\ c <> 69
  | [] => True
  end.
Lemma number_dec neg n rest : ends_number rest ->
  number neg (dec n ++ rest) =
  Some (if neg then if (n =? 0) || (2 ^ 63 <? n) then JFloat else JInt (- Z.of_N n)
        else if n <? 2 ^ 64 then JInt (Z.of_N n) else JFloat, rest).
Proof.
  intros He. destruct (dec_spec n) as (Hd & Hv & c & r & E & Hc).
  unfold number. rewrite digits_spec; auto.
  2:{ destruct rest; auto. destruct He; auto. }
  rewrite E. cbn [andb].
  assert (F : (c =? 48) && negb (List.length r =? 0)%nat = false).
  { destruct (N.eqb_spec c 48); auto. destruct (Hc e) as [_ ->]. reflexivity. }
  rewrite F.
  assert (Hf : frac_part rest = Some ([], rest)).
  { destruct rest as [|x l]; auto. cbn in He. unfold frac_part. destruct (N.eqb_spec x 46); tauto. }
  rewrite Hf.
  assert (Hx : exp_part rest = Some (None, rest)).
  { destruct rest as [|x l]; auto. cbn in He. unfold exp_part.
    destruct (N.eqb_spec x 101); [tauto|]. destruct (N.eqb_spec x 69); [tauto|]. reflexivity. }
  rewrite Hx. rewrite <- E, Hv. destruct neg; reflexivity.
Qed.

(** ** JSON strings *)
Lemma hex_value_lower n : n < 16 -> hex_value (hex_lower n) = Some n.
Proof.
  intros H.
  pose proof (all_below 16 (fun n => match hex_value (hex_lower n) with Some m => m =? n | None => false end)
                ltac:(vm_compute; reflexivity) n H) as E.
  cbv beta in E. destruct (hex_value (hex_lower n)) as [m|]; [|discriminate]. apply N.eqb_eq in E. congruence.
Qed.
Lemma str_tail_print s rest :
  str_tail (flat_map escape1 s ++ 34 :: rest) = Some (s, escapes s, rest).
Proof.
  induction s as [|c s IH]; [reflexivity|].
  cbn [flat_map]. rewrite <- app_assoc. unfold escape1 at 1.
  cbn [escapes existsb] in *. fold (escapes s).
  destruct (N.eqb_spec c 34) as [->|H34].
  { cbn. rewrite IH. reflexivity. }
  destruct (N.eqb_spec c 92) as [->|H92].
  { cbn. rewrite IH. reflexivity. }
  destruct (N.eqb_spec c 8) as [->|]. { cbn. rewrite IH. reflexivity. }
  destruct (N.eqb_spec c 12) as [->|]. { cbn. rewrite IH. reflexivity. }
  destruct (N.eqb_spec c 10) as [->|]. { cbn. rewrite IH. reflexivity. }
  destruct (N.eqb_spec c 13) as [->|]. { cbn. rewrite IH. reflexivity. }
  destruct (N.eqb_spec c 9) as [->|]. { cbn. rewrite IH. reflexivity. }
  destruct (N.ltb_spec c 32).
  - cbn [app]. cbn [str_tail]. change (92 =? 34) with false. change (92 =? 92) with true.
    change (117 =? 117) with true. cbv iota.
    pose proof (N.mod_upper_bound c 16 ltac:(lia)). pose proof (div_lt c 16 16 ltac:(lia) ltac:(lia)).
    unfold hex4. change (hex_value 48) with (Some 0). rewrite !hex_value_lower by lia.
    replace (4096 * 0 + 256 * 0 + 16 * (c / 16) + c mod 16) with c
      by (pose proof (N.div_mod c 16 ltac:(lia)); lia).
    assert (F1 : in_rng 56320 57343 c = false) by (unfold in_rng; apply andb_false_iff; left; apply N.leb_gt; lia).
    assert (F2 : in_rng 55296 56319 c = false) by (unfold in_rng; apply andb_false_iff; left; apply N.leb_gt; lia).
    rewrite F1, F2, IH. unfold utf8_enc1.
    replace (c <? 128) with true by (symmetry; apply N.ltb_lt; lia). reflexivity.
  - cbn [app]. cbn [str_tail].
    rewrite (proj2 (N.eqb_neq c 34) H34), (proj2 (N.eqb_neq c 92) H92).
    rewrite (proj2 (N.ltb_ge c 32) H), IH. reflexivity.
Qed.
Lemma json_str_print s rest : utf8_valid s = true ->
  json_str (flat_map escape1 s ++ 34 :: rest) = Some (s, escapes s, rest).
Proof. intros H. unfold json_str. rewrite str_tail_print, H. reflexivity. Qed.

(** ** JSON values *)
Section JsonInd.
Variable P : json -> Prop.
Hypothesis H_null : P JNull.
Hypothesis H_bool : forall b, P (JBool b).
Hypothesis H_int : forall z, P (JInt z).
Hypothesis H_float : P JFloat.
Hypothesis H_str : forall s e, P (JStr s e).
Hypothesis H_arr : forall l, Forall P l -> P (JArr l).
Hypothesis H_obj : forall l, Forall (fun x => P x.2) l -> P (JObj l).
Fixpoint json_ind2 (j : json) : P j :=
  match j with
  | JNull => H_null | JBool b => H_bool b | JInt z => H_int z | JFloat => H_float | JStr s e => H_str s e
  | JArr l => H_arr l ((fix go l := match l return Forall P l with
                                    | [] => List.Forall_nil _
                                    | x :: r => List.Forall_cons _ x r (json_ind2 x) (go r)
                                    end) l)
  | JObj l => H_obj l ((fix go l := match l return Forall (fun x => P x.2) l with
                                    | [] => List.Forall_nil _
                                    | x :: r => List.Forall_cons _ x r (json_ind2 x.2) (go r)
                                    end) l)
  end.
End JsonInd.

(** What can be written and read back unchanged: no fractions, integers of 64 bits, valid strings,
    and the flag of a string tells whether it has characters to escape *)
Fixpoint printable (j : json) : Prop :=
  match j with
  | JNull | JBool _ => True
  | JInt z => (- 2 ^ 63 <= z < 2 ^ 64)%Z
  | JFloat => False
  | JStr s e => utf8_valid s = true /\ e = escapes s
  | JArr l => (fix go l := match l with [] => True | x :: r => printable x /\ go r end) l
  | JObj l => (fix go l := match l with
                           | [] => True
                           | x :: r => utf8_valid x.1 = true /\ printable x.2 /\ go r
                           end) l
  end.
Lemma printable_arr l : printable (JArr l) <-> Forall printable l.
Proof.
  induction l as [|x r IH]; [split; [constructor|exact (fun _ => I)]|].
  change (printable (JArr (x :: r))) with (printable x /\ printable (JArr r)).
  rewrite Forall_cons, IH. reflexivity.
Qed.
Lemma printable_obj l : printable (JObj l) <-> Forall (fun x => utf8_valid x.1 = true /\ printable x.2) l.
Proof.
  induction l as [|x r IH]; [split; [constructor|exact (fun _ => I)]|].
  change (printable (JObj (x :: r))) with (utf8_valid x.1 = true /\ printable x.2 /\ printable (JObj r)).
  rewrite Forall_cons, IH. tauto.
Qed.
(** nesting *)
Fixpoint nesting (j : json) : N :=
  match j with
  | JArr l => 1 + (fix go l := match l with [] => 0 | x :: r => N.max (nesting x) (go r) end) l
  | JObj l => 1 + (fix go l := match l with [] => 0 | x :: r => N.max (nesting x.2) (go r) end) l
  | _ => 0
  end.
Lemma nesting_arr x r : nesting (JArr (x :: r)) = 1 + N.max (nesting x) (nesting (JArr r) - 1).
Proof. cbn. set (a := _ : N). match goal with |- context [(1 + ?x) - 1] => replace (1 + x - 1) with x by lia end. reflexivity. Qed.
Lemma nesting_obj x r : nesting (JObj (x :: r)) = 1 + N.max (nesting x.2) (nesting (JObj r) - 1).
Proof. cbn. match goal with |- context [(1 + ?x) - 1] => replace (1 + x - 1) with x by lia end. reflexivity. Qed.
Lemma nesting_arr_lt l d : nesting (JArr l) < d -> Forall (fun x => nesting x < d - 1) l.
Proof.
  induction l as [|x r IH]; intros H; [constructor|]. rewrite nesting_arr in H.
  constructor; [lia|]. apply IH. pose proof (N.le_refl (nesting (JArr r))).
  assert (1 <= nesting (JArr r)) by (cbn; lia). lia.
Qed.
Lemma nesting_obj_lt l d : nesting (JObj l) < d -> Forall (fun x => nesting x.2 < d - 1) l.
Proof.
  induction l as [|x r IH]; intros H; [constructor|]. rewrite nesting_obj in H.
  constructor; [lia|]. apply IH. assert (1 <= nesting (JObj r)) by (cbn; lia). lia.
Qed.

Definition stops (j : json) (rest : bytes) : Prop := match j with JInt _ => ends_number rest | _ => True end.
Lemma stops_comma j r : stops j (44 :: r).
Proof. destruct j; cbn; auto; repeat split; try reflexivity; lia. Qed.
Lemma stops_sq j r : stops j (93 :: r).
Proof. destruct j; cbn; auto; repeat split; try reflexivity; lia. Qed.
Lemma stops_cu j r : stops j (125 :: r).
Proof. destruct j; cbn; auto; repeat split; try reflexivity; lia. Qed.

Definition reads_back (j : json) : Prop :=
  forall d f rest, (2 * List.length (json_print j) <= f)%nat -> nesting j < d -> stops j rest ->
  json_value f d (json_print j ++ rest) = Some (j, rest).

Lemma elems_print l : forall x d f rest,
  Forall (fun y => printable y /\ reads_back y /\ nesting y < d) (x :: l) ->
  (2 * List.length (json_print x ++ flat_map (fun y => 44%N :: json_print y) l) < f)%nat ->
  json_elems f d (json_print x ++ flat_map (fun y => 44 :: json_print y) l ++ 93 :: rest) = Some (x :: l, rest).
Proof.
  induction l as [|y l IH]; intros x d f rest H Hf; (destruct f as [|f]; [lia|]).
  - apply Forall_cons_1 in H as [(Hp & Hx & Hn) _]. cbn [flat_map app] in *. rewrite app_nil_r in Hf.
    cbn [json_elems]. rewrite Hx; [|lia|auto|apply stops_sq]. reflexivity.
  - apply Forall_cons_1 in H as [(Hp & Hx & Hn) H]. cbn [flat_map app json_elems] in *.
    rewrite !app_length in Hf. cbn [List.length] in Hf. rewrite app_length in Hf.
    rewrite Hx; [|lia|auto|apply stops_comma].
    cbn [skip_ws]. change (is_ws 44) with false. cbv iota. change (44 =? 93) with false. change (44 =? 44) with true.
    cbv iota. rewrite <- app_assoc. rewrite IH; auto. rewrite app_length. lia.
Qed.
Lemma members_print l : forall x d f rest,
  Forall (fun y => (utf8_valid y.1 = true /\ printable y.2) /\ reads_back y.2 /\ nesting y.2 < d) (x :: l) ->
  (2 * List.length (json_string x.1 ++ 58%N :: json_print x.2
                    ++ flat_map (fun y => 44%N :: json_string y.1 ++ 58%N :: json_print y.2) l) < f)%nat ->
  json_members f d (json_string x.1 ++ 58 :: json_print x.2
                    ++ flat_map (fun y => 44 :: json_string y.1 ++ 58 :: json_print y.2) l ++ 125 :: rest)
  = Some (x :: l, rest).
Proof.
  induction l as [|y l IH]; intros x d f rest H Hf; (destruct f as [|f]; [lia|]);
    apply Forall_cons_1 in H as [((Hu & Hp) & Hx & Hn) H]; destruct x as [k v];
    cbn [fst snd] in *; cbn [flat_map] in *; cbn [json_members].
  - unfold json_string at 1. cbn [app skip_ws]. change (is_ws 34) with false. cbv iota. rewrite N.eqb_refl.
    rewrite <- app_assoc. cbn [app]. rewrite json_str_print by auto.
    cbn [skip_ws]. change (is_ws 58) with false. cbv iota. rewrite N.eqb_refl.
    rewrite app_nil_r, app_length in Hf. cbn [List.length] in Hf.
    rewrite Hx; [|lia|auto|apply stops_cu]. reflexivity.
  - unfold json_string at 1. cbn [app skip_ws]. change (is_ws 34) with false. cbv iota. rewrite N.eqb_refl.
    rewrite <- app_assoc. cbn [app]. rewrite json_str_print by auto.
    cbn [skip_ws]. change (is_ws 58) with false. cbv iota. rewrite N.eqb_refl.
    rewrite !app_length in Hf. cbn [List.length] in Hf. rewrite !app_length in Hf. cbn [List.length] in Hf.
    rewrite !app_length in Hf. cbn [List.length] in Hf. 
    rewrite Hx; [|lia|auto|apply stops_comma].
    cbn [skip_ws]. change (is_ws 44) with false. cbv iota. change (44 =? 125) with false. change (44 =? 44) with true.
    cbv iota. rewrite <- app_assoc. cbn [app]. rewrite <- app_assoc. cbn [app]. rewrite IH; auto.
    rewrite !app_length. cbn [List.length]. rewrite !app_length. lia.
Qed.

Lemma skip_ws_digit c l : is_digit c = true -> skip_ws (c :: l) = c :: l.
Proof.
  intros H. cbn. unfold is_ws. unfold is_digit, in_rng in H. apply andb_true_iff in H as [H1 H2].
  apply N.leb_le in H1, H2.
  repeat match goal with |- context [c =? ?k] => replace (c =? k) with false by (symmetry; apply N.eqb_neq; lia) end.
  reflexivity.
Qed.

Lemma print_reads_back j : printable j -> reads_back j.
Proof.
  induction j as [|b|z| |s e|l IH|l IH] using json_ind2; intros Hp d f rest Hf Hd Hs.
  - destruct f as [|f]; [cbn in Hf; lia|]. reflexivity.
  - destruct f as [|f]; [destruct b; cbn in Hf; lia|]. destruct b; reflexivity.
  - cbn [json_print] in *. cbn in Hp.
    destruct (Z.ltb_spec z 0).
    + destruct f as [|f]; [cbn in Hf; lia|]. cbn [app json_value skip_ws].
      change (is_ws 45) with false. cbv iota.
      change (45 =? 34) with false. change (45 =? 91) with false. change (45 =? 123) with false.
      change (45 =? 110) with false. change (45 =? 116) with false. change (45 =? 102) with false.
      change (45 =? 45) with true. cbv iota. rewrite number_dec by exact Hs. cbv iota.
      replace ((Z.to_N (- z) =? 0) || (2 ^ 63 <? Z.to_N (- z))) with false.
      * replace (- Z.of_N (Z.to_N (- z)))%Z with z by lia. reflexivity.
      * symmetry. apply orb_false_iff. split; [apply N.eqb_neq; lia|apply N.ltb_ge].
        change (2 ^ 63) with (Z.to_N (2 ^ 63)). lia.
    + pose proof (number_dec false (Z.to_N z) rest Hs) as Hn.
      destruct (dec_spec (Z.to_N z)) as (Hdg & _ & c & r & E & _). rewrite E in *.
      apply Forall_cons_1 in Hdg as [Hc _].
      destruct f as [|f]; [cbn in Hf; lia|]. cbn [app] in *. cbn [json_value].
      rewrite skip_ws_digit by auto.
      assert (48 <= c <= 57).
      { unfold is_digit, in_rng in Hc. apply andb_true_iff in Hc as [A B]. apply N.leb_le in A, B. lia. }
      repeat match goal with |- context [c =? ?k] => replace (c =? k) with false by (symmetry; apply N.eqb_neq; lia) end.
      rewrite Hc, Hn. cbv iota.
      replace (Z.to_N z <? 2 ^ 64) with true.
      * rewrite Z2N.id by lia. reflexivity.
      * symmetry. apply N.ltb_lt. change (2 ^ 64) with (Z.to_N (2 ^ 64)). lia.
  - destruct Hp.
  - destruct Hp as [Hu ->]. destruct f as [|f]; [cbn in Hf; lia|].
    cbn [json_print]. unfold json_string. cbn [app json_value skip_ws]. change (is_ws 34) with false. cbv iota.
    rewrite N.eqb_refl. rewrite <- app_assoc. cbn [app]. rewrite json_str_print by auto. reflexivity.
  - apply printable_arr in Hp. pose proof (nesting_arr_lt _ _ Hd) as Hl.
    assert (1 < d) by (destruct l; [cbn in Hd; lia|rewrite nesting_arr in Hd; lia]).
    destruct l as [|x r].
    + destruct f as [|f]; [cbn in Hf; lia|]. cbn. replace (d <=? 1) with false by (symmetry; apply N.leb_gt; lia). reflexivity.
    + cbn [json_print] in *. destruct f as [|f]; [cbn in Hf; lia|].
      cbn [List.length] in Hf. rewrite !app_length in Hf. cbn [List.length] in Hf.
      cbn [app json_value skip_ws]. change (is_ws 91) with false. cbv iota. change (91 =? 34) with false.
      change (91 =? 91) with true. cbv iota. replace (d <=? 1) with false by (symmetry; apply N.leb_gt; lia).
      assert (Hh : exists c t, skip_ws ((json_print x ++ flat_map (fun y => 44 :: json_print y) r ++ [93]) ++ rest) = c :: t
                               /\ (c =? 93) = false).
      { apply Forall_cons_1 in Hp as [Hpx _]. revert Hpx. clear.
        destruct x as [|[]|z| |s e|[|]|[|]]; cbn [json_print]; intros Hpx;
          try (eexists _, _; split; [cbn; reflexivity|reflexivity]); [|destruct Hpx].
        destruct (z <? 0)%Z; [eexists _, _; split; [cbn; reflexivity|reflexivity]|].
        destruct (dec_spec (Z.to_N z)) as (Hdg & _ & c & t & E & _). rewrite E in *.
        apply Forall_cons_1 in Hdg as [Hc _]. cbn [app]. rewrite skip_ws_digit by auto.
        eexists _, _; split; [reflexivity|]. apply N.eqb_neq. intros ->. discriminate Hc. }
      destruct Hh as (c & t & -> & ->).
      rewrite <- !app_assoc. cbn [app]. rewrite elems_print; auto.
      * rewrite List.Forall_forall in *. intros y Hy. repeat split; auto.
      * rewrite app_length. lia.
  - apply printable_obj in Hp. pose proof (nesting_obj_lt _ _ Hd) as Hl.
    assert (1 < d) by (destruct l; [cbn in Hd; lia|rewrite nesting_obj in Hd; lia]).
    destruct l as [|x r].
    + destruct f as [|f]; [cbn in Hf; lia|]. cbn. replace (d <=? 1) with false by (symmetry; apply N.leb_gt; lia). reflexivity.
    + cbn [json_print] in *. destruct f as [|f]; [cbn in Hf; lia|].
      cbn [List.length] in Hf. rewrite !app_length in Hf. cbn [List.length] in Hf. rewrite !app_length in Hf.
      cbn [List.length] in Hf.
      cbn [app json_value skip_ws]. change (is_ws 123) with false. cbv iota. change (123 =? 34) with false.
      change (123 =? 91) with false. change (123 =? 123) with true. cbv iota.
      replace (d <=? 1) with false by (symmetry; apply N.leb_gt; lia).
      assert (Hh : exists t, skip_ws ((json_string x.1 ++ 58 :: json_print x.2 ++
                flat_map (fun y => 44 :: json_string y.1 ++ 58 :: json_print y.2) r ++ [125]) ++ rest) = 34 :: t)
        by (eexists; unfold json_string at 1; cbn; reflexivity).
      destruct Hh as [t ->]. change (34 =? 125) with false. cbv iota.
      rewrite <- !app_assoc. cbn [app]. rewrite <- !app_assoc. cbn [app].
      rewrite members_print; auto.
      * rewrite List.Forall_forall in *. intros y Hy. repeat split; try apply Hp; auto. apply IH; auto. apply Hp. auto.
      * rewrite !app_length. cbn [List.length]. rewrite !app_length. lia.
Qed.

Lemma json_roundtrip j : printable j -> nesting j < 128 -> json_parse (json_print j) = Some j.
Proof.
  intros Hp Hn. unfold json_parse.
  rewrite <- (app_nil_r (json_print j)) at 2.
  rewrite print_reads_back; auto.
  destruct j; cbn; auto.
Qed.

(** ** The reader of JSON texts never lacks fuel *)
Lemma skip_ws_len l : (List.length (skip_ws l) <= List.length l)%nat.
Proof. induction l as [|c l IH]; cbn; [lia|]. destruct (is_ws c); cbn; lia. Qed.
Lemma str_tail_len l : forall s e t, str_tail l = Some (s, e, t) -> (List.length t < List.length l)%nat.
Proof.
  remember (List.length l) as n eqn:E. revert l E.
  induction n as [n IH] using (well_founded_induction lt_wf). intros l -> s e t H.
  destruct l as [|c r]; [discriminate|]. cbn [str_tail] in H.
  destruct (c =? 34). { injection H as <- <- <-. cbn. lia. }
  destruct (c =? 92).
  - destruct r as [|x r1]; [discriminate|]. destruct (x =? 117).
    + destruct r1 as [|h1 [|h2 [|h3 [|h4 r2]]]]; try discriminate.
      destruct (hex4 h1 h2 h3 h4) as [n|]; [|discriminate]. destruct (in_rng 56320 57343 n); [discriminate|].
      destruct (in_rng 55296 56319 n).
      * destruct r2 as [|b [|u [|g1 [|g2 [|g3 [|g4 r3]]]]]]; try discriminate.
        destruct (hex4 g1 g2 g3 g4) as [m|]; [|discriminate].
        destruct ((b =? 92) && (u =? 117) && in_rng 56320 57343 m); [|discriminate].
        destruct (str_tail r3) as [[[s' e'] t']|] eqn:F; [|discriminate]. injection H as <- <- <-.
        apply (IH (List.length r3)) in F; cbn in *; lia.
      * destruct (str_tail r2) as [[[s' e'] t']|] eqn:F; [|discriminate]. injection H as <- <- <-.
        apply (IH (List.length r2)) in F; cbn in *; lia.
    + destruct (simple_escape x); [|discriminate].
      destruct (str_tail r1) as [[[s' e'] t']|] eqn:F; [|discriminate]. injection H as <- <- <-.
      apply (IH (List.length r1)) in F; cbn in *; lia.
  - destruct (c <? 32); [discriminate|].
    destruct (str_tail r) as [[[s' e'] t']|] eqn:F; [|discriminate]. injection H as <- <- <-.
    apply (IH (List.length r)) in F; cbn in *; lia.
Qed.
Lemma json_str_len l s e t : json_str l = Some (s, e, t) -> (List.length t < List.length l)%nat.
Proof.
  unfold json_str. destruct (str_tail l) as [[[s' e'] t']|] eqn:F; [|discriminate].
  destruct (utf8_valid s'); [|discriminate]. intros H. injection H as <- <- <-. eapply str_tail_len; eauto.
Qed.
Lemma digits_len l : forall d t, digits l = (d, t) -> (List.length l = List.length d + List.length t)%nat.
Proof.
  induction l as [|c l IH]; intros d t H; cbn in H; [injection H as <- <-; reflexivity|].
  destruct (is_digit c); [|injection H as <- <-; reflexivity].
  destruct (digits l) as [d' t'] eqn:F. injection H as <- <-. cbn. rewrite (IH _ _ eq_refl). lia.
Qed.
Lemma frac_len l d t : frac_part l = Some (d, t) -> (List.length t <= List.length l)%nat.
Proof.
  destruct l as [|c l]; cbn; intros H; [injection H as <- <-; auto|]. destruct (c =? 46).
  - destruct (digits l) as [[|x y] t'] eqn:F; [discriminate|]. injection H as <- <-. apply digits_len in F. cbn in F. lia.
  - injection H as <- <-. cbn. lia.
Qed.
Lemma exp_len l d t : exp_part l = Some (d, t) -> (List.length t <= List.length l)%nat.
Proof.
  destruct l as [|c l]; cbn [exp_part]; intros H; [injection H as <- <-; auto|]. destruct ((c =? 101) || (c =? 69)).
  - assert (G : forall b m, (List.length m <= List.length l)%nat ->
                match digits m with
                | ([], _) => None
                | (d, t) => Some (Some (if b : bool then - Z.of_N (dec_val d) else Z.of_N (dec_val d))%Z, t)
                end = Some (d, t) -> (List.length t <= List.length (c :: l))%nat).
    { intros b m Hm G. destruct (digits m) as [[|x y] t'] eqn:F; [discriminate|]. injection G as <- <-.
      apply digits_len in F. cbn in *. lia. }
    destruct l as [|s r']; [eapply (G false []); eauto|].
    destruct (s =? 45); [eapply (G true r'); eauto; cbn; lia|].
    destruct (s =? 43); [eapply (G false r'); eauto; cbn; lia|]. eapply (G false); eauto.
  - injection H as <- <-. auto.
Qed.
Lemma number_len neg l v t : number neg l = Some (v, t) -> (List.length t < List.length l)%nat.
Proof.
  unfold number. destruct (digits l) as [[|c more] t0] eqn:F; [discriminate|].
  destruct ((c =? 48) && negb (List.length more =? 0)%nat); [discriminate|].
  destruct (frac_part t0) as [[f t1]|] eqn:F1; [|discriminate].
  destruct (exp_part t1) as [[x t2]|] eqn:F2; [|discriminate].
  apply digits_len in F. apply frac_len in F1. apply exp_len in F2. cbn in F.
  intros H. assert (t = t2); [|subst; lia].
  destruct f, x; try (destruct (too_big _ _); [discriminate|]); try (injection H as <- <-; reflexivity).
  destruct neg; injection H as <- <-; reflexivity.
Qed.
Lemma literal_len w j l v t : (0 < List.length w)%nat -> (0 < List.length l)%nat -> literal w j l = Some (v, t) -> (List.length t < List.length l)%nat.
Proof.
  unfold literal. intros Hw Hl H. destruct (is_prefix w l); [|discriminate]. injection H as <- <-.
  rewrite skipn_length. lia.
Qed.

Lemma json_len f :
  (forall d l v t, json_value f d l = Some (v, t) -> (List.length t < List.length l)%nat) /\
  (forall d l v t, json_elems f d l = Some (v, t) -> (List.length t < List.length l)%nat) /\
  (forall d l v t, json_members f d l = Some (v, t) -> (List.length t < List.length l)%nat).
Proof.
  induction f as [|f (IHv & IHe & IHm)]; [repeat split; discriminate|]. repeat split; intros d l v t H.
  - cbn [json_value] in H. pose proof (skip_ws_len l) as Hs. destruct (skip_ws l) as [|c r]; [discriminate|]. cbn in Hs.
    destruct (c =? 34).
    { destruct (json_str r) as [[[s e] t']|] eqn:F; [|discriminate]. injection H as <- <-. apply json_str_len in F. lia. }
    destruct (c =? 91).
    { destruct (d <=? 1); [discriminate|]. pose proof (skip_ws_len r) as Hr.
      destruct (skip_ws r) as [|c2 r2]; [discriminate|]. cbn in Hr.
      destruct (c2 =? 93); [injection H as <- <-; lia|].
      destruct (json_elems f (d - 1) r) as [[v' t']|] eqn:F; [|discriminate]. injection H as <- <-. apply IHe in F. lia. }
    destruct (c =? 123).
    { destruct (d <=? 1); [discriminate|]. pose proof (skip_ws_len r) as Hr.
      destruct (skip_ws r) as [|c2 r2]; [discriminate|]. cbn in Hr.
      destruct (c2 =? 125); [injection H as <- <-; lia|].
      destruct (json_members f (d - 1) r) as [[v' t']|] eqn:F; [|discriminate]. injection H as <- <-. apply IHm in F. lia. }
    destruct (c =? 110); [apply literal_len in H; cbn in *; lia|].
    destruct (c =? 116); [apply literal_len in H; cbn in *; lia|].
    destruct (c =? 102); [apply literal_len in H; cbn in *; lia|].
    destruct (c =? 45); [apply number_len in H; lia|].
    destruct (is_digit c); [apply number_len in H; cbn in H; lia|discriminate].
  - cbn [json_elems] in H. destruct (json_value f d l) as [[x t1]|] eqn:F; [|discriminate]. apply IHv in F.
    pose proof (skip_ws_len t1) as Hs. destruct (skip_ws t1) as [|c r]; [discriminate|]. cbn in Hs.
    destruct (c =? 93); [injection H as <- <-; lia|]. destruct (c =? 44); [|discriminate].
    destruct (json_elems f d r) as [[vs u]|] eqn:G; [|discriminate]. injection H as <- <-. apply IHe in G. lia.
  - cbn [json_members] in H. pose proof (skip_ws_len l) as Hs. destruct (skip_ws l) as [|q r]; [discriminate|]. cbn in Hs.
    destruct (q =? 34); [|discriminate]. destruct (json_str r) as [[[k e] t1]|] eqn:F; [|discriminate]. apply json_str_len in F.
    pose proof (skip_ws_len t1) as Hs1. destruct (skip_ws t1) as [|c r1]; [discriminate|]. cbn in Hs1.
    destruct (c =? 58); [|discriminate]. destruct (json_value f d r1) as [[x t2]|] eqn:G; [|discriminate]. apply IHv in G.
    pose proof (skip_ws_len t2) as Hs2. destruct (skip_ws t2) as [|c2 r2]; [discriminate|]. cbn in Hs2.
    destruct (c2 =? 125); [injection H as <- <-; lia|]. destruct (c2 =? 44); [|discriminate].
    destruct (json_members f d r2) as [[vs u]|] eqn:K; [|discriminate]. injection H as <- <-. apply IHm in K. lia.
Qed.
Lemma json_value_S f depth l : json_value (S f) depth l =
    match skip_ws l with
    | [] => None
    | c :: r =>
        if c =? 34 then
          match json_str r with Some (s, e, t) => Some (JStr s e, t) | None => None end
        else if c =? 91 then
          if depth <=? 1 then None else
          match skip_ws r with
          | [] => None
          | c2 :: r2 =>
              if c2 =? 93 then Some (JArr [], r2)
              else match json_elems f (depth - 1) r with Some (v, t) => Some (JArr v, t) | None => None end
          end
        else if c =? 123 then
          if depth <=? 1 then None else
          match skip_ws r with
          | [] => None
          | c2 :: r2 =>
              if c2 =? 125 then Some (JObj [], r2)
              else match json_members f (depth - 1) r with Some (v, t) => Some (JObj v, t) | None => None end
          end
        else if c =? 110 then literal s_null JNull (c :: r)
        else if c =? 116 then literal s_true (JBool true) (c :: r)
        else if c =? 102 then literal s_false (JBool false) (c :: r)
        else if c =? 45 then number true r
        else if is_digit c then number false (c :: r)
        else None
    end.
Proof. reflexivity. Qed.
Lemma json_elems_S f depth l : json_elems (S f) depth l =
    match json_value f depth l with
    | None => None
    | Some (v, t) =>
        match skip_ws t with
        | c :: r =>
            if c =? 93 then Some ([v], r)
            else if c =? 44 then
              match json_elems f depth r with Some (vs, u) => Some (v :: vs, u) | None => None end
            else None
        | [] => None
        end
    end.
Proof. reflexivity. Qed.
Lemma json_members_S f depth l : json_members (S f) depth l =
    match skip_ws l with
    | q :: r =>
        if q =? 34 then
          match json_str r with
          | None => None
          | Some (k, _, t) =>
              match skip_ws t with
              | c :: r1 =>
                  if c =? 58 then
                    match json_value f depth r1 with
                    | None => None
                    | Some (v, t1) =>
                        match skip_ws t1 with
                        | c2 :: r2 =>
                            if c2 =? 125 then Some ([(k, v)], r2)
                            else if c2 =? 44 then
                              match json_members f depth r2 with
                              | Some (vs, u) => Some ((k, v) :: vs, u)
                              | None => None
                              end
                            else None
                        | [] => None
                        end
                    end
                  else None
              | [] => None
              end
          end
        else None
    | [] => None
    end.
Proof. reflexivity. Qed.
Lemma json_more_fuel f :
  (forall d l, (2 * List.length l < f)%nat -> json_value (S f) d l = json_value f d l) /\
  (forall d l, (2 * List.length l + 1 < f)%nat -> json_elems (S f) d l = json_elems f d l) /\
  (forall d l, (2 * List.length l + 1 < f)%nat -> json_members (S f) d l = json_members f d l).
Proof.
  induction f as [|f (IHv & IHe & IHm)]; [repeat split; lia|].
  pose proof (json_len f) as (Lv & Le & Lm). repeat split; intros d l Hl.
  - rewrite (json_value_S (S f)), (json_value_S f).
    pose proof (skip_ws_len l) as Hs. destruct (skip_ws l) as [|c r]; [reflexivity|]. cbn in Hs.
    rewrite IHe, IHm by lia. reflexivity.
  - rewrite (json_elems_S (S f)), (json_elems_S f). rewrite IHv by lia.
    destruct (json_value f d l) as [[x t1]|] eqn:F; [|reflexivity]. apply Lv in F.
    pose proof (skip_ws_len t1) as Hs. destruct (skip_ws t1) as [|c r]; [reflexivity|]. cbn in Hs.
    rewrite IHe by lia. reflexivity.
  - rewrite (json_members_S (S f)), (json_members_S f).
    pose proof (skip_ws_len l) as Hs. destruct (skip_ws l) as [|q r]; [reflexivity|]. cbn in Hs.
    destruct (q =? 34); [|reflexivity]. destruct (json_str r) as [[[k e] t1]|] eqn:F; [|reflexivity]. apply json_str_len in F.
    pose proof (skip_ws_len t1) as Hs1. destruct (skip_ws t1) as [|c r1]; [reflexivity|]. cbn in Hs1.
    destruct (c =? 58); [|reflexivity]. rewrite IHv by lia.
    destruct (json_value f d r1) as [[x t2]|] eqn:G; [|reflexivity]. apply Lv in G.
    pose proof (skip_ws_len t2) as Hs2. destruct (skip_ws t2) as [|c2 r2]; [reflexivity|]. cbn in Hs2.
    rewrite IHm by lia. reflexivity.
Qed.
Lemma json_enough_fuel f d l : (2 * List.length l < f)%nat -> json_value f d l = json_value (S (2 * List.length l)) d l.
Proof.
  intros H. induction f as [|f IH]; [lia|].
  destruct (Nat.eq_dec f (2 * List.length l)%nat) as [->|Hn]; [reflexivity|].
  rewrite <- IH by lia. apply json_more_fuel. lia.
Qed.

(** ** Dates *)
Lemma days_civil n y m d : civil_of_days n = (y, m, d) ->
  days_of_civil y m d = n /\ (1 <= m <= 12 /\ 1 <= d <= 31)%Z /\
  (-719528 <= n < 2932897 -> 0 <= y <= 9999)%Z.
Proof.
  unfold civil_of_days, days_of_civil.
  set (k := (n + 719468)%Z).
  pose proof (Z.div_mod k 146097 ltac:(lia)) as Hk. pose proof (Z.mod_pos_bound k 146097 ltac:(lia)) as Hkb.
  set (e := (k / 146097)%Z) in *. set (doe := (k mod 146097)%Z) in *.
  assert (Hc : exists c, Z.min (doe / 36524) 3 = c /\ (0 <= c <= 3 /\ 0 <= doe - c * 36524 /\ (doe - c * 36524 < 36524 \/ c = 3))%Z).
  { eexists; split; [reflexivity|]. clearbody doe. Z.to_euclidean_division_equations. lia. }
  destruct Hc as (c & -> & Hc). set (doc := (doe - c * 36524)%Z) in *.
  assert (Hdoc : (0 <= doc <= 36524)%Z) by lia.
  pose proof (Z.div_mod doc 1461 ltac:(lia)) as Hq. pose proof (Z.mod_pos_bound doc 1461 ltac:(lia)) as Hqb.
  set (q := (doc / 1461)%Z) in *.
  assert (Hq2 : (0 <= q <= 24)%Z) by lia.
  assert (Hy : exists yq, Z.min ((doc - q * 1461) / 365) 3 = yq /\ (0 <= yq <= 3 /\ 0 <= doc - q * 1461 - yq * 365 <= 365)%Z).
  { eexists; split; [reflexivity|]. set (doq := (doc - q * 1461)%Z) in *. assert (0 <= doq < 1461)%Z by lia. clearbody doq.
    Z.to_euclidean_division_equations. lia. }
  destruct Hy as (yq & -> & Hy). set (doy := (doc - q * 1461 - yq * 365)%Z) in *.
  assert (Hmp : (0 <= (5 * doy + 2) / 153 <= 11 /\ 0 <= doy - (153 * ((5 * doy + 2) / 153) + 2) / 5 <= 30)%Z).
  { assert (0 <= doy <= 365)%Z by lia. clearbody doy. Z.to_euclidean_division_equations. lia. }
  assert (Hjan : (306 <= doy <-> 10 <= (5 * doy + 2) / 153)%Z).
  { clearbody doy. Z.to_euclidean_division_equations. lia. }
  set (mp := ((5 * doy + 2) / 153)%Z) in *.
  intros H. injection H as Hy' Hm' Hd'.
  assert (Hy2 : (if (m <=? 2)%Z then y - 1 else y)%Z = (e * 400 + (100 * c + 4 * q + yq))%Z).
  { rewrite <- Hm', <- Hy'. destruct (_ <=? 2)%Z; lia. }
  rewrite Hy2.
  assert (Hmm : ((m + 9) mod 12 = mp)%Z).
  { rewrite <- Hm'. destruct (Z.ltb_spec mp 10).
    - replace (mp + 3 + 9)%Z with (mp + 1 * 12)%Z by lia. rewrite Z.mod_add by lia. apply Z.mod_small. lia.
    - replace (mp - 9 + 9)%Z with mp by lia. apply Z.mod_small. lia. }
  rewrite Hmm.
  assert (Hr : (0 <= 100 * c + 4 * q + yq < 400)%Z) by lia.
  assert (E1 : ((e * 400 + (100 * c + 4 * q + yq)) mod 400 = 100 * c + 4 * q + yq)%Z).
  { rewrite Z.add_comm, Z.mod_add by lia. apply Z.mod_small. lia. }
  assert (E2 : ((e * 400 + (100 * c + 4 * q + yq)) / 400 = e)%Z).
  { rewrite Z.div_add_l by lia. rewrite (Z.div_small (100 * c + 4 * q + yq)) by lia. lia. }
  rewrite E1, E2.
  assert (E3 : ((100 * c + 4 * q + yq) / 4 = 25 * c + q)%Z).
  { replace (100 * c + 4 * q + yq)%Z with ((25 * c + q) * 4 + yq)%Z by lia.
    rewrite Z.div_add_l by lia. rewrite (Z.div_small yq) by lia. lia. }
  assert (E4 : ((100 * c + 4 * q + yq) / 100 = c)%Z).
  { replace (100 * c + 4 * q + yq)%Z with (c * 100 + (4 * q + yq))%Z by lia.
    rewrite Z.div_add_l by lia. rewrite (Z.div_small (4 * q + yq)) by lia. lia. }
  rewrite E3, E4.
  assert (Edoc : doc = (doe - c * 36524)%Z) by reflexivity.
  assert (Edoy : doy = (doc - q * 1461 - yq * 365)%Z) by reflexivity.
  assert (Ek : k = (n + 719468)%Z) by reflexivity.
  repeat split.
  - subst d. fold mp. lia.
  - rewrite <- Hm'. destruct (Z.ltb_spec mp 10); lia.
  - rewrite <- Hm'. destruct (Z.ltb_spec mp 10); lia.
  - subst d. lia.
  - subst d. lia.
  - rewrite <- Hy'. clearbody e doe doc q doy mp k.
    destruct (Z.ltb_spec mp 10); [destruct (Z.leb_spec (mp + 3) 2)|destruct (Z.leb_spec (mp - 9) 2)]; try lia.
  - rewrite <- Hy'. clearbody e doe doc q doy mp k.
    destruct (Z.ltb_spec mp 10); [destruct (Z.leb_spec (mp + 3) 2)|destruct (Z.leb_spec (mp - 9) 2)]; try lia.
Qed.

Lemma pad_digits w : forall n, Forall (fun c => is_digit c = true) (pad w n).
Proof.
  induction w as [|w IH]; intros n; cbn; [constructor|]. apply Forall_app. split; [apply IH|].
  repeat constructor. apply digit_char. apply N.mod_upper_bound. lia.
Qed.
Lemma pad_len w : forall n, List.length (pad w n) = w.
Proof. induction w as [|w IH]; intros n; cbn; [reflexivity|]. rewrite app_length, IH. cbn. lia. Qed.
Lemma pow10_S w : 10 ^ N.of_nat (S w) = 10 * 10 ^ N.of_nat w.
Proof. rewrite Nat2N.inj_succ, N.pow_succ_r'. reflexivity. Qed.
Lemma fixed_pad w : forall n acc rest k, n < 10 ^ N.of_nat w ->
  fixed_digits (w + k) acc (pad w n ++ rest) = fixed_digits k (acc * 10 ^ N.of_nat w + n) rest.
Proof.
  induction w as [|w IH]; intros n acc rest k H.
  - change (10 ^ N.of_nat 0) with 1 in *. cbn [pad app Nat.add]. f_equal. lia.
  - rewrite pow10_S in *. cbn [pad]. rewrite <- app_assoc. cbn [app].
    replace (S w + k)%nat with (w + S k)%nat by lia.
    rewrite IH by (apply N.div_lt_upper_bound; lia). cbn [fixed_digits].
    rewrite digit_char by (apply N.mod_upper_bound; lia). f_equal.
    pose proof (N.div_mod n 10 ltac:(lia)). nia.
Qed.
Lemma nanos_pad w : forall n rest k, n < 10 ^ N.of_nat w ->
  nanos_of (w + k) (pad w n ++ rest) = n * 10 ^ N.of_nat k + nanos_of k rest.
Proof.
  induction w as [|w IH]; intros n rest k H.
  - change (10 ^ N.of_nat 0) with 1 in *. cbn [pad app Nat.add]. replace n with 0 by lia. lia.
  - rewrite pow10_S in *. cbn [pad]. rewrite <- app_assoc. cbn [app].
    replace (S w + k)%nat with (w + S k)%nat by lia.
    rewrite IH by (apply N.div_lt_upper_bound; lia). cbn [nanos_of]. rewrite pow10_S.
    pose proof (N.div_mod n 10 ltac:(lia)). replace (48 + n mod 10 - 48) with (n mod 10) by lia. nia.
Qed.
Lemma digits_pad w n c rest : is_digit c = false -> digits (pad w n ++ c :: rest) = (pad w n, c :: rest).
Proof. intros. apply digits_spec; [apply pad_digits|auto]. Qed.
Lemma fraction_nanos n c rest : n < 1000000000 -> is_digit c = false -> c <> 46 ->
  fraction (write_nanos n ++ c :: rest) = Some (n, c :: rest).
Proof.
  intros Hn Hc Hd.
  assert (G : forall w m, (w <= 9)%nat -> (0 < w)%nat -> m < 10 ^ N.of_nat w ->
             fraction (46 :: pad w m ++ c :: rest) = Some (m * 10 ^ N.of_nat (9 - w), c :: rest)).
  { intros w m Hw Hw0 Hm. unfold fraction. change (46 =? 46) with true. cbv iota. rewrite digits_pad by auto.
    destruct (pad w m) eqn:E; [pose proof (pad_len w m) as L; rewrite E in L; cbn in L; lia|]. rewrite <- E.
    f_equal. f_equal. pose proof (nanos_pad w m [] (9 - w) Hm) as P.
    replace (w + (9 - w))%nat with 9%nat in P by lia. rewrite app_nil_r in P. rewrite P.
    assert (Z0 : forall k, nanos_of k [] = 0) by (intros [|k]; reflexivity). rewrite Z0. lia. }
  unfold write_nanos. destruct (N.eqb_spec n 0) as [->|Hn0].
  { cbn [app fraction]. rewrite (proj2 (N.eqb_neq c 46) Hd). reflexivity. }
  destruct (N.eqb_spec (n mod 1000000) 0) as [E|_].
  { cbn [app]. rewrite (G 3%nat) by (cbn; try lia; apply N.div_lt_upper_bound; lia). 
    f_equal. f_equal. change (10 ^ N.of_nat (9 - 3)) with 1000000. pose proof (N.div_mod n 1000000 ltac:(lia)). lia. }
  destruct (N.eqb_spec (n mod 1000) 0) as [E|_].
  { cbn [app]. rewrite (G 6%nat) by (cbn; try lia; apply N.div_lt_upper_bound; lia).
    f_equal. f_equal. change (10 ^ N.of_nat (9 - 6)) with 1000. pose proof (N.div_mod n 1000 ltac:(lia)). lia. }
  cbn [app]. rewrite (G 9%nat) by (cbn; lia). f_equal. f_equal. change (10 ^ N.of_nat (9 - 9)) with 1. lia.
Qed.

(** An instant that RFC 3339 can express: years 0 to 9999, nanoseconds below 10^9, or below 2*10^9 in
    the last second of a minute *)
Definition instant_ok (t : instant) : Prop :=
  (-62167219200 <= i_secs t < 253402300800)%Z /\
  (i_nanos t < 1000000000 \/ (i_nanos t < 2000000000 /\ (i_secs t mod 60 = 59)%Z)).

Lemma fixed_pad2 w n rest : n < 10 ^ N.of_nat w -> fixed_digits w 0 (pad w n ++ rest) = Some (n, rest).
Proof.
  intros H. pose proof (fixed_pad w n 0 rest 0 H) as P. rewrite Nat.add_0_r in P. rewrite P. cbn. f_equal.
Qed.
Lemma rfc3339_write t : instant_ok t -> rfc3339 (write_date t) = Some t.
Proof.
  destruct t as [secs nanos]. intros [Hs Hn]. cbn [i_secs i_nanos] in *.
  unfold write_date. cbn [i_secs i_nanos].
  destruct (civil_of_days (secs / 86400)) as [[y m] d] eqn:Ec.
  destruct (days_civil _ _ _ _ Ec) as (Hd & (Hm & Hdd) & Hy).
  pose proof (Z.div_mod secs 86400 ltac:(lia)) as Hdm. pose proof (Z.mod_pos_bound secs 86400 ltac:(lia)) as Hb.
  assert (Hday : (-719528 <= secs / 86400 < 2932897)%Z) by lia. specialize (Hy Hday).
  assert (H60 : (secs mod 60 = secs mod 86400 mod 60)%Z).
  { rewrite Hdm at 1. replace (86400 * (secs / 86400) + secs mod 86400)%Z with (secs mod 86400 + (1440 * (secs / 86400)) * 60)%Z by lia.
    apply Z.mod_add. lia. }
  rewrite H60 in Hn.
  set (day := (secs / 86400)%Z) in *. set (r := (secs mod 86400)%Z) in *.
  set (s := Z.to_N r).
  assert (Hsr : Z.of_N s = r) by (unfold s; lia). assert (Hs2 : s < 86400) by lia.
  assert (Hrm : (r mod 60 = Z.of_N (s mod 60))%Z) by (rewrite N2Z.inj_mod; rewrite Hsr; reflexivity).
  rewrite Hrm in Hn.
  pose proof (N.mod_upper_bound s 60 ltac:(lia)) as Hs60. pose proof (N.div_mod s 60 ltac:(lia)) as Hds.
  pose proof (N.div_mod (s / 60) 60 ltac:(lia)) as Hdm2. rewrite N.div_div in Hdm2 by lia. change (60 * 60) with 3600 in Hdm2.
  pose proof (N.mod_upper_bound (s / 60) 60 ltac:(lia)) as Hm60.
  assert (Hh : s / 3600 < 24) by (apply N.div_lt_upper_bound; lia).
  set (leap := 1000000000 <=? nanos).
  assert (Hleap : leap = true -> s mod 60 = 59).
  { unfold leap. intros L. apply N.leb_le in L. lia. }
  unfold rfc3339, naive_datetime.
  rewrite fixed_pad2 by (cbn; lia). cbn [expect]. change (45 =? 45) with true. cbv iota.
  rewrite fixed_pad2 by (cbn; lia). cbn [expect]. change (45 =? 45) with true. cbv iota.
  rewrite fixed_pad2 by (cbn; lia). cbn [expect]. change (84 =? 84) with true. cbn [orb]. cbv iota.
  rewrite fixed_pad2 by (cbn; lia). cbn [expect]. change (58 =? 58) with true. cbv iota.
  rewrite fixed_pad2 by (cbn; lia). cbn [expect]. change (58 =? 58) with true. cbv iota.
  rewrite fixed_pad2 by (cbn; destruct leap; lia).
  rewrite fraction_nanos; [|unfold leap; destruct (N.leb_spec 1000000000 nanos); lia|reflexivity|lia].
  rewrite !Z2N.id by lia. rewrite Hd, Ec.
  rewrite bool_decide_eq_true_2 by reflexivity.
  rewrite (proj2 (N.ltb_lt (s / 3600) 24)) by lia. rewrite (proj2 (N.ltb_lt (s / 60 mod 60) 60)) by lia.
  rewrite (proj2 (N.leb_le (if leap then s mod 60 + 1 else s mod 60) 60)) by (destruct leap; lia).
  cbn [andb]. cbv iota zeta. cbn [offset]. change (90 =? 90) with true. cbn [orb]. cbv iota. cbn [i_secs i_nanos].
  destruct leap eqn:L.
  - rewrite (Hleap eq_refl) in *. cbn [N.add N.eqb Pos.add Pos.eqb]. change (59 + 1 =? 60) with true. cbv iota.
    unfold leap in L. apply N.leb_le in L. f_equal. f_equal; lia.
  - rewrite (proj2 (N.eqb_neq (s mod 60) 60)) by lia. f_equal. f_equal. lia.
Qed.

(** ** The documents *)
Lemma ascii_utf8 s : Forall (fun c => c < 128) s -> utf8_valid s = true.
Proof. induction 1 as [|c s Hc _ IH]; [reflexivity|]. cbn. rewrite (proj2 (N.ltb_lt c 128) Hc). exact IH. Qed.
Lemma digit_ascii c : is_digit c = true -> c < 128.
Proof. unfold is_digit, in_rng. intros H. apply andb_true_iff in H as [_ H]. apply N.leb_le in H. lia. Qed.
Lemma pad_ascii w n : Forall (fun c => c < 128) (pad w n).
Proof. eapply Forall_impl; [apply pad_digits|]. intros. apply digit_ascii. auto. Qed.
Lemma date_ascii t : Forall (fun c => c < 128) (write_date t).
Proof.
  unfold write_date, write_nanos. destruct (civil_of_days _) as [[y m] d].
  repeat first [apply Forall_app; split | apply pad_ascii | constructor; [lia|] | constructor];
  match goal with |- context [if ?b then [] else _] => destruct b; [constructor|] end.
  all: repeat match goal with |- context [if ?b then 46 :: _ else _] => destruct b end; constructor; try lia; apply pad_ascii.
Qed.
Lemma hex_upper_range n : n < 16 -> 48 <= hex_upper n <= 70 /\ hex_value (hex_upper n) = Some n.
Proof.
  intros H.
  pose proof (all_below 16 (fun n => (48 <=? hex_upper n) && (hex_upper n <=? 70) &&
                match hex_value (hex_upper n) with Some m => m =? n | None => false end)
                ltac:(vm_compute; reflexivity) n H) as E.
  cbv beta in E. apply andb_true_iff in E as [E E3]. apply andb_true_iff in E as [E1 E2].
  apply N.leb_le in E1, E2. split; [lia|].
  destruct (hex_value (hex_upper n)) as [m|]; [|discriminate]. apply N.eqb_eq in E3. congruence.
Qed.
Lemma hex_text l : Forall (fun b => b < 256) l ->
  Forall (fun c => 48 <= c <= 70) (serialize_to_hex l) /\ hex_decode (serialize_to_hex l) = Some l.
Proof.
  induction 1 as [|b l Hb _ [IH1 IH2]]; [split; [constructor|reflexivity]|]. cbn [serialize_to_hex].
  destruct (hex_upper_range (b / 16) ltac:(apply N.div_lt_upper_bound; lia)) as [R1 V1].
  destruct (hex_upper_range (b mod 16) ltac:(apply N.mod_upper_bound; lia)) as [R2 V2].
  split; [repeat constructor; auto; lia|]. cbn [hex_decode]. rewrite V1, V2, IH2.
  pose proof (N.div_mod b 16 ltac:(lia)). f_equal. f_equal. lia.
Qed.
Lemma hex_no_escape s : Forall (fun c => 48 <= c <= 70) s -> escapes s = false.
Proof.
  induction 1 as [|c s Hc _ IH]; [reflexivity|]. cbn. fold (escapes s). rewrite IH.
  rewrite (proj2 (N.eqb_neq c 34)), (proj2 (N.eqb_neq c 92)), (proj2 (N.ltb_ge c 32)) by lia. reflexivity.
Qed.

Lemma d_uint_num bound n : n < bound -> d_uint bound (w_num n) = Some n.
Proof.
  intros H. unfold d_uint, w_num. rewrite (proj2 (Z.leb_le 0 (Z.of_N n))) by lia.
  rewrite (proj2 (Z.ltb_lt (Z.of_N n) (Z.of_N bound))) by lia. cbn [andb]. rewrite N2Z.id. reflexivity.
Qed.
Lemma r_date_w t : instant_ok t -> r_date (w_date t) = Some t.
Proof. intros H. unfold r_date, w_date, w_str, d_str. apply rfc3339_write. exact H. Qed.
Lemma d_hex_w n b : lenN b = n -> Forall (fun b => b < 256) b -> d_hex n (w_hex b) = Some b.
Proof.
  intros <- H. destruct (hex_text b H) as [Hr Hd]. unfold d_hex, w_hex, w_str. rewrite hex_no_escape by auto.
  cbn [d_borrowed]. rewrite Hd, N.eqb_refl. reflexivity.
Qed.
Lemma d_status_w st : d_status (w_status st) = Some st.
Proof. destruct st; vm_compute; reflexivity. Qed.
Lemma d_list_w {A} (f : json -> option A) (w : A -> json) l :
  Forall (fun x => f (w x) = Some x) l -> d_list f (JArr (map w l)) = Some l.
Proof. cbn [d_list]. induction 1 as [|x l Hx _ IH]; [reflexivity|]. cbn. rewrite Hx. cbn. cbn in IH. rewrite IH. reflexivity. Qed.

(** The values the types can hold and the format can express *)
Definition text_ok (s : bytes) : Prop := utf8_valid s = true.
Definition bytes_ok (n : N) (b : bytes) : Prop := lenN b = n /\ Forall (fun x => x < 256) b.
Definition opt_ok {A} (P : A -> Prop) (o : option A) : Prop := match o with Some a => P a | None => True end.
Record level_ok (v : level_v) : Prop := {
  lo_svn : lv_svn v < 65536; lo_date : instant_ok (lv_date v); lo_adv : opt_ok (Forall text_ok) (lv_adv v) }.
Record component_ok (v : component_v) : Prop := {
  co_svn : cv_svn v < 256; co_cat : opt_ok text_ok (cv_category v); co_type : opt_ok text_ok (cv_type v) }.
Record full_ok (v : full_v) : Prop := {
  fo_len : lenN (fv_components v) = 16; fo_components : Forall component_ok (fv_components v);
  fo_pcesvn : fv_pcesvn v < 65536; fo_date : instant_ok (fv_date v); fo_adv : opt_ok (Forall text_ok) (fv_adv v) }.
Record identity_ok (v : identity_v) : Prop := {
  io_id : text_ok (iv_id v); io_version : iv_version v < 65536; io_issue : instant_ok (iv_issue v);
  io_next : instant_ok (iv_next v); io_eval : iv_eval v < 65536; io_misc : bytes_ok 4 (iv_misc v);
  io_misc_mask : bytes_ok 4 (iv_misc_mask v); io_attr : bytes_ok 16 (iv_attr v);
  io_attr_mask : bytes_ok 16 (iv_attr_mask v); io_mrsigner : bytes_ok 32 (iv_mrsigner v);
  io_prodid : iv_prodid v < 65536; io_levels : Forall level_ok (iv_levels v) }.
Record tcb_ok (v : tcb_v) : Prop := {
  to_id : text_ok (tv_id v); to_version : tv_version v < 256; to_issue : instant_ok (tv_issue v);
  to_next : instant_ok (tv_next v); to_fmspc : bytes_ok 6 (tv_fmspc v); to_pce : text_ok (tv_pce v);
  to_type : tv_type v < 65536; to_eval : tv_eval v < 65536; to_levels : Forall full_ok (tv_levels v) }.

Lemma d_adv_w (o : option (list bytes)) :
  d_option (d_list d_str) (option_map (fun l => JArr (map w_str l)) o) = Some o.
Proof.
  destruct o as [l|]; [|reflexivity]. cbn [option_map d_option]. rewrite d_list_w; [reflexivity|].
  induction l; constructor; auto.
Qed.
Lemma struct_level t d s (o : option json) :
  struct_ [asc "tcb"; asc "tcbDate"; asc "tcbStatus"; asc "advisoryIDs"]
    (JObj ([(asc "tcb", t); (asc "tcbDate", d); (asc "tcbStatus", s)] ++ w_skip (asc "advisoryIDs") o))
  = Some [Some t; Some d; Some s; o].
Proof. destruct o; reflexivity. Qed.
Lemma r_level_w v : level_ok v -> r_level (w_level v) = Some v.
Proof.
  intros [Hs Hd Ha]. unfold r_level, w_level, w_adv. rewrite struct_level.
  assert (E : d_tcb (JObj [(asc "isvsvn", w_num (lv_svn v))]) = Some (lv_svn v)).
  { unfold d_tcb. change (struct_ _ _) with (Some [Some (w_num (lv_svn v))]). apply d_uint_num. exact Hs. }
  rewrite E, r_date_w, d_status_w, d_adv_w by exact Hd. destruct v; reflexivity.
Qed.
Lemma struct_component a (o o' : option json) :
  struct_ [asc "svn"; asc "category"; asc "type"]
    (JObj ((asc "svn", a) :: w_skip (asc "category") o ++ w_skip (asc "type") o'))
  = Some [Some a; o; o'].
Proof. destruct o, o'; reflexivity. Qed.
Lemma r_component_w v : component_ok v -> r_component (w_component v) = Some v.
Proof.
  intros [Hs Hc Ht]. unfold r_component, w_component. rewrite struct_component.
  rewrite d_uint_num by exact Hs. destruct v as [svn [c|] [t|]]; reflexivity.
Qed.
Lemma r_full_w v : full_ok v -> r_full (w_full v) = Some v.
Proof.
  intros [Hl Hc Hp Hd Ha]. unfold r_full, w_full, w_adv. rewrite struct_level.
  assert (E : r_tcb_full (JObj [(asc "sgxtcbcomponents", JArr (map w_component (fv_components v)));
                                (asc "pcesvn", w_num (fv_pcesvn v))]) = Some (fv_components v, fv_pcesvn v)).
  { unfold r_tcb_full.
    change (struct_ _ _) with (Some [Some (JArr (map w_component (fv_components v))); Some (w_num (fv_pcesvn v))]).
    cbv iota. rewrite d_list_w, d_uint_num, Hl by first [solve [auto] | eapply Forall_impl; [exact Hc|]; apply r_component_w].
    reflexivity. }
  rewrite E, r_date_w, d_status_w, d_adv_w by exact Hd. destruct v; reflexivity.
Qed.
Lemma r_identity_w v : identity_ok v -> r_identity (w_identity v) = Some v.
Proof.
  intros [H1 H2 H3 H4 H5 [H6 H6'] [H7 H7'] [H8 H8'] [H9 H9'] [H10 H10'] H11 H12]. unfold r_identity, w_identity.
  change (struct_ _ _) with
    (Some [Some (w_str (iv_id v)); Some (w_num (iv_version v)); Some (w_date (iv_issue v)); Some (w_date (iv_next v));
           Some (w_num (iv_eval v)); Some (w_hex (iv_misc v)); Some (w_hex (iv_misc_mask v)); Some (w_hex (iv_attr v));
           Some (w_hex (iv_attr_mask v)); Some (w_hex (iv_mrsigner v)); Some (w_num (iv_prodid v));
           Some (JArr (map w_level (iv_levels v)))]).
  cbv iota. cbn [w_str d_str].
  rewrite !d_uint_num, !r_date_w, !d_hex_w, d_list_w by first [solve [auto] | eapply Forall_impl; [exact H12|]; apply r_level_w].
  destruct v; reflexivity.
Qed.
Lemma r_tcb_w v : tcb_ok v -> r_tcb (w_tcb v) = Some v.
Proof.
  intros [H1 H2 H3 H4 [H5 H5'] H6 H7 H8 H9]. unfold r_tcb, w_tcb.
  change (struct_ _ _) with
    (Some [Some (w_str (tv_id v)); Some (w_num (tv_version v)); Some (w_date (tv_issue v)); Some (w_date (tv_next v));
           Some (w_hex (tv_fmspc v)); Some (w_str (tv_pce v)); Some (w_num (tv_type v)); Some (w_num (tv_eval v));
           Some (JArr (map w_full (tv_levels v)))]).
  cbv iota. cbn [w_str d_str].
  rewrite !d_uint_num, !r_date_w, !d_hex_w, d_list_w by first [solve [auto] | eapply Forall_impl; [exact H9|]; apply r_full_w].
  destruct v; reflexivity.
Qed.

(** What is written is within the limits of the format *)
Definition jok (k : N) (j : json) : Prop := printable j /\ nesting j <= k.
Lemma jok_str s : text_ok s -> jok 0 (w_str s).
Proof. intros H. split; [split; [exact H|reflexivity]|cbn; lia]. Qed.
Lemma jok_num n b : n < b -> b <= 2 ^ 64 -> jok 0 (w_num n).
Proof.
  intros H Hb. split; [|cbn; lia]. unfold w_num, printable.
  assert (Z.of_N n < Z.of_N (2 ^ 64))%Z by lia. change (Z.of_N (2 ^ 64)) with (2 ^ 64)%Z in *. lia.
Qed.
Lemma jok_mono k k' j : jok k j -> k <= k' -> jok k' j.
Proof. intros [? ?] ?. split; [auto|lia]. Qed.
Lemma jok_arr k l : Forall (jok k) l -> jok (1 + k) (JArr l).
Proof.
  intros H. split.
  - apply printable_arr. eapply Forall_impl; [exact H|]. intros ? [? _]; auto.
  - induction H as [|x r [_ Hx] _ IH]; [cbn; lia|]. rewrite nesting_arr. lia.
Qed.
Lemma jok_obj k l : Forall (fun x => utf8_valid x.1 = true /\ jok k x.2) l -> jok (1 + k) (JObj l).
Proof.
  intros H. split.
  - apply printable_obj. eapply Forall_impl; [exact H|]. intros ? [? [? _]]; auto.
  - induction H as [|x r [_ [_ Hx]] _ IH]; [cbn; lia|]. rewrite nesting_obj. lia.
Qed.
Lemma jok_date t : jok 0 (w_date t).
Proof. apply jok_str, ascii_utf8, date_ascii. Qed.
Lemma jok_hex b : Forall (fun x => x < 256) b -> jok 0 (w_hex b).
Proof.
  intros H. apply jok_str, ascii_utf8. destruct (hex_text b H) as [Hr _].
  eapply Forall_impl; [exact Hr|]. cbn. lia.
Qed.
Lemma jok_status st : jok 0 (w_status st).
Proof. apply jok_str. destruct st; vm_compute; reflexivity. Qed.
Lemma jok_skip k n o : utf8_valid n = true -> opt_ok (jok k) o ->
  Forall (fun x => utf8_valid x.1 = true /\ jok k x.2) (w_skip n o).
Proof. destruct o; cbn; intros; [apply List.Forall_cons; [auto|]|]; apply List.Forall_nil. Qed.
Lemma jok_adv (o : option (list bytes)) : opt_ok (Forall text_ok) o ->
  Forall (fun x => utf8_valid x.1 = true /\ jok 3 x.2) (w_adv o).
Proof.
  intros H. apply jok_skip; [reflexivity|]. destruct o as [l|]; [|exact I]. cbn in *.
  apply (jok_mono 1); [|lia]. apply (jok_arr 0). apply Forall_map. eapply Forall_impl; [exact H|]. apply jok_str.
Qed.
Lemma jok0 k j : jok 0 j -> jok k j.
Proof. intros H. eapply jok_mono; [exact H|lia]. Qed.
Ltac jcons := repeat first [apply List.Forall_cons; [cbn [fst snd]; split; [reflexivity|]|] | apply List.Forall_nil].
Lemma jok_level v : level_ok v -> jok 4 (w_level v).
Proof.
  intros [Hs Hd Ha]. apply (jok_obj 3). apply Forall_app. split; [|apply jok_adv; exact Ha]. jcons.
  - apply (jok_mono 1); [|lia]. apply (jok_obj 0). jcons. eapply jok_num; [exact Hs|]. vm_compute; discriminate.
  - apply jok0, jok_date.
  - apply jok0, jok_status.
Qed.
Lemma jok_component v : component_ok v -> jok 1 (w_component v).
Proof.
  intros [Hs Hc Ht]. apply (jok_obj 0). apply List.Forall_cons.
  - split; [reflexivity|]. eapply jok_num; [exact Hs|]. vm_compute; discriminate.
  - apply Forall_app. split; apply jok_skip; try reflexivity.
    + destruct (cv_category v); [apply jok_str; exact Hc|exact I].
    + destruct (cv_type v); [apply jok_str; exact Ht|exact I].
Qed.
Lemma jok_full v : full_ok v -> jok 4 (w_full v).
Proof.
  intros [Hl Hc Hp Hd Ha]. apply (jok_obj 3). apply Forall_app. split; [|apply jok_adv; exact Ha]. jcons.
  - apply (jok_obj 2). jcons.
    + apply (jok_arr 1). apply Forall_map. eapply Forall_impl; [exact Hc|]. apply jok_component.
    + apply jok0. eapply jok_num; [exact Hp|]. vm_compute; discriminate.
  - apply jok0, jok_date.
  - apply jok0, jok_status.
Qed.
Lemma jok_identity v : identity_ok v -> jok 6 (w_identity v).
Proof.
  intros [H1 H2 H3 H4 H5 [H6 H6'] [H7 H7'] [H8 H8'] [H9 H9'] [H10 H10'] H11 H12]. apply (jok_obj 5). jcons.
  12: { apply (jok_arr 4). apply Forall_map. eapply Forall_impl; [exact H12|]. apply jok_level. }
  all: apply jok0; first [ apply jok_date | apply jok_hex; assumption | apply jok_str; assumption
                         | eapply jok_num; [eassumption|vm_compute; discriminate] ].
Qed.
Lemma jok_tcb v : tcb_ok v -> jok 6 (w_tcb v).
Proof.
  intros [H1 H2 H3 H4 [H5 H5'] H6 H7 H8 H9]. apply (jok_obj 5). jcons.
  9: { apply (jok_arr 4). apply Forall_map. eapply Forall_impl; [exact H9|]. apply jok_full. }
  all: apply jok0; first [ apply jok_date | apply jok_hex; assumption | apply jok_str; assumption
                         | eapply jok_num; [eassumption|vm_compute; discriminate] ].
Qed.
Lemma identity_roundtrip v : identity_ok v -> identity_of_text (identity_text v) = Some v.
Proof.
  intros H. unfold identity_of_text, identity_text. destruct (jok_identity v H) as [Hp Hn].
  rewrite json_roundtrip by (auto; lia). apply r_identity_w. exact H.
Qed.
Lemma tcb_roundtrip v : tcb_ok v -> tcb_of_text (tcb_text v) = Some v.
Proof.
  intros H. unfold tcb_of_text, tcb_text. destruct (jok_tcb v H) as [Hp Hn].
  rewrite json_roundtrip by (auto; lia). apply r_tcb_w. exact H.
Qed.
Lemma struct_signed k a s : k = s_tcb_info \/ k = s_enclave_identity ->
  struct_ [k; asc "signature"] (JObj [(k, a); (asc "signature", s)]) = Some [Some a; Some s].
Proof. intros [-> | ->]; reflexivity. Qed.
Lemma signed_roundtrip {A} k (f : json -> option A) j v sig : k = s_tcb_info \/ k = s_enclave_identity ->
  jok 6 j -> f j = Some v -> text_ok sig ->
  match json_parse (json_print (w_signed k j sig)) with Some x => r_signed k f x | None => None end = Some (v, sig).
Proof.
  intros Hk Hj Hf Hs.
  assert (H : jok 7 (w_signed k j sig)).
  { apply (jok_obj 6). apply List.Forall_cons; [|apply List.Forall_cons; [|apply List.Forall_nil]]; cbn [fst snd].
    - split; [destruct Hk as [-> | ->]; reflexivity|exact Hj].
    - split; [reflexivity|apply jok0, jok_str; exact Hs]. }
  destruct H as [Hp Hn]. rewrite json_roundtrip by (auto; lia).
  unfold r_signed, w_signed. rewrite struct_signed by exact Hk. rewrite Hf. reflexivity.
Qed.

(** ** What the readers return is within these limits *)
Lemma digits_all l : Forall (fun c => is_digit c = true) (digits l).1.
Proof.
  induction l as [|c l IH]; cbn; [constructor|]. destruct (is_digit c) eqn:E; [|constructor].
  destruct (digits l) as [d t]. cbn in *. constructor; auto.
Qed.
Lemma nanos_lt p : forall d, Forall (fun c => is_digit c = true) d -> nanos_of p d < 10 ^ N.of_nat p.
Proof.
  induction p as [|p IH]; intros d H; [cbn; lia|]. rewrite pow10_S.
  destruct d as [|c d]; cbn [nanos_of]; [assert (10 ^ N.of_nat p <> 0) by (apply N.pow_nonzero; lia); lia|].
  apply Forall_cons_1 in H as [Hc H]. specialize (IH d H).
  assert (c - 48 <= 9). { unfold is_digit, in_rng in Hc. apply andb_true_iff in Hc as [_ Hc]. apply N.leb_le in Hc. lia. }
  nia.
Qed.
Definition nanos_fit (t : instant) : Prop :=
  i_nanos t < 1000000000 \/ (i_nanos t < 2000000000 /\ (i_secs t mod 60 = 59)%Z).
Lemma fraction_lt l f t : fraction l = Some (f, t) -> f < 1000000000.
Proof.
  destruct l as [|c l]; cbn [fraction]; intros H; [injection H as <- <-; lia|].
  destruct (c =? 46); [|injection H as <- <-; lia].
  pose proof (digits_all l) as D. destruct (digits l) as [d t'] eqn:F. destruct d as [|x y]; [discriminate|].
  injection H as <- <-. apply (nanos_lt 9 (x :: y)). exact D.
Qed.
Lemma naive_fit sep l t r : naive_datetime sep l = Some (t, r) -> nanos_fit t.
Proof.
  unfold naive_datetime. intros H.
  repeat match type of H with
         | (match ?m with Some _ => _ | None => None end) = Some _ => destruct m as [?|] eqn:?; [|discriminate]
         | (let '(_, _) := ?p in _) = Some _ => destruct p
         end.
  destruct (_ && _) eqn:E in H; [|discriminate]. injection H as <- <-.
  match goal with F : fraction _ = Some _ |- _ => apply fraction_lt in F end.
  unfold nanos_fit. cbn [i_nanos i_secs].
  match goal with |- context [?s =? 60] => destruct (N.eqb_spec s 60) end; [right|left; lia].
  split; [lia|].
  match goal with |- context [days_of_civil ?y ?m ?d] => generalize (days_of_civil y m d); intros z end.
  match goal with |- ((_ + Z.of_N (?h * 3600 + ?mi * 60 + 59)) mod 60 = _)%Z =>
    replace (z * 86400 + Z.of_N (h * 3600 + mi * 60 + 59))%Z with (59 + (z * 1440 + Z.of_N h * 60 + Z.of_N mi) * 60)%Z by lia end.
  rewrite Z.mod_add by lia. reflexivity.
Qed.
Lemma offset_60 l z r : offset l = Some (z, r) -> exists k, z = (k * 60)%Z.
Proof.
  destruct l as [|c l]; cbn [offset]; [discriminate|]. destruct (_ || _).
  { intros H. injection H as <- <-. exists 0%Z. reflexivity. }
  destruct (_ || _); [|discriminate]. intros H.
  repeat match type of H with
         | (match ?m with Some _ => _ | None => None end) = Some _ => destruct m as [?|] eqn:?; [|discriminate]
         | (let '(_, _) := ?p in _) = Some _ => destruct p
         end.
  destruct (_ && _) in H; [|discriminate]. injection H as <- <-.
  match goal with |- context [Z.of_N (?h * 3600 + ?m * 60)] =>
    destruct (c =? 45); [exists (- (Z.of_N h * 60 + Z.of_N m))%Z|exists (Z.of_N h * 60 + Z.of_N m)%Z]; lia end.
Qed.
Lemma rfc3339_fit l t : rfc3339 l = Some t -> nanos_fit t.
Proof.
  unfold rfc3339. destruct (naive_datetime _ l) as [[x r]|] eqn:F; [|discriminate].
  destruct (offset r) as [[z r']|] eqn:G; [|discriminate]. destruct r'; [|discriminate].
  intros H. injection H as <-. apply naive_fit in F. apply offset_60 in G as [k ->].
  unfold nanos_fit in *. cbn [i_nanos i_secs]. destruct F as [F|[F E]]; [left; exact F|right; split; [exact F|]].
  replace (i_secs x - k * 60)%Z with (i_secs x + (- k) * 60)%Z by lia. rewrite Z.mod_add by lia. exact E.
Qed.

(** every string of a JSON text is valid UTF-8 *)
Fixpoint texts_ok (j : json) : Prop :=
  match j with
  | JStr s _ => utf8_valid s = true
  | JArr l => (fix go l := match l with [] => True | x :: r => texts_ok x /\ go r end) l
  | JObj l => (fix go l := match l with [] => True | x :: r => texts_ok x.2 /\ go r end) l
  | _ => True
  end.
Lemma texts_arr l : texts_ok (JArr l) <-> Forall texts_ok l.
Proof.
  induction l as [|x r IH]; [split; [constructor|exact (fun _ => I)]|].
  change (texts_ok (JArr (x :: r))) with (texts_ok x /\ texts_ok (JArr r)). rewrite Forall_cons, IH. reflexivity.
Qed.
Lemma texts_obj l : texts_ok (JObj l) <-> Forall (fun x => texts_ok x.2) l.
Proof.
  induction l as [|x r IH]; [split; [constructor|exact (fun _ => I)]|].
  change (texts_ok (JObj (x :: r))) with (texts_ok x.2 /\ texts_ok (JObj r)). rewrite Forall_cons, IH. reflexivity.
Qed.
Lemma number_texts neg l v t : number neg l = Some (v, t) -> texts_ok v.
Proof.
  unfold number. destruct (digits l) as [[|c more] t0]; [discriminate|].
  destruct (_ && _); [discriminate|]. destruct (frac_part t0) as [[f t1]|]; [|discriminate].
  destruct (exp_part t1) as [[x t2]|]; [|discriminate]. intros H.
  destruct f, x; try (destruct (too_big _ _); [discriminate|]);
    try (destruct neg; [destruct (_ || _) in H|destruct (_ <? _) in H]); injection H as <- <-; exact I.
Qed.
Lemma json_texts f :
  (forall d l v t, json_value f d l = Some (v, t) -> texts_ok v) /\
  (forall d l v t, json_elems f d l = Some (v, t) -> Forall texts_ok v) /\
  (forall d l v t, json_members f d l = Some (v, t) -> Forall (fun x => texts_ok x.2) v).
Proof.
  induction f as [|f (IHv & IHe & IHm)]; [repeat split; discriminate|]. repeat split; intros d l v t H.
  - cbn [json_value] in H. destruct (skip_ws l) as [|c r]; [discriminate|].
    destruct (c =? 34).
    { destruct (json_str r) as [[[s e] t']|] eqn:F; [|discriminate]. injection H as <- <-. revert F. unfold json_str.
      destruct (str_tail r) as [[[s' e'] t'']|]; [|discriminate]. destruct (utf8_valid s') eqn:U; [|discriminate].
      intros F. injection F as <- <- <-. exact U. }
    destruct (c =? 91).
    { destruct (d <=? 1); [discriminate|]. destruct (skip_ws r) as [|c2 r2]; [discriminate|].
      destruct (c2 =? 93); [injection H as <- <-; exact I|].
      destruct (json_elems f (d - 1) r) as [[v' t']|] eqn:F; [|discriminate]. injection H as <- <-.
      apply texts_arr. eapply IHe; eauto. }
    destruct (c =? 123).
    { destruct (d <=? 1); [discriminate|]. destruct (skip_ws r) as [|c2 r2]; [discriminate|].
      destruct (c2 =? 125); [injection H as <- <-; exact I|].
      destruct (json_members f (d - 1) r) as [[v' t']|] eqn:F; [|discriminate]. injection H as <- <-.
      apply texts_obj. eapply IHm; eauto. }
    unfold literal in H.
    destruct (c =? 110); [destruct (is_prefix _ _); [injection H as <- <-; exact I|discriminate]|].
    destruct (c =? 116); [destruct (is_prefix _ _); [injection H as <- <-; exact I|discriminate]|].
    destruct (c =? 102); [destruct (is_prefix _ _); [injection H as <- <-; exact I|discriminate]|].
    destruct (c =? 45); [eapply number_texts; eauto|].
    destruct (is_digit c); [eapply number_texts; eauto|discriminate].
  - cbn [json_elems] in H. destruct (json_value f d l) as [[x t1]|] eqn:F; [|discriminate]. apply IHv in F.
    destruct (skip_ws t1) as [|c r]; [discriminate|].
    destruct (c =? 93); [injection H as <- <-; repeat constructor; auto|]. destruct (c =? 44); [|discriminate].
    destruct (json_elems f d r) as [[vs u]|] eqn:G; [|discriminate]. injection H as <- <-. apply IHe in G. constructor; auto.
  - cbn [json_members] in H. destruct (skip_ws l) as [|q r]; [discriminate|].
    destruct (q =? 34); [|discriminate]. destruct (json_str r) as [[[k e] t1]|] eqn:F; [|discriminate].
    destruct (skip_ws t1) as [|c r1]; [discriminate|].
    destruct (c =? 58); [|discriminate]. destruct (json_value f d r1) as [[x t2]|] eqn:G; [|discriminate]. apply IHv in G.
    destruct (skip_ws t2) as [|c2 r2]; [discriminate|].
    destruct (c2 =? 125); [injection H as <- <-; apply List.Forall_cons; [exact G|apply List.Forall_nil]|].
    destruct (c2 =? 44); [|discriminate].
    destruct (json_members f d r2) as [[vs u]|] eqn:K; [|discriminate]. injection H as <- <-. apply IHm in K.
    apply List.Forall_cons; auto.
Qed.
Lemma json_parse_texts b j : json_parse b = Some j -> texts_ok j.
Proof.
  unfold json_parse. destruct (json_value _ 128 b) as [[x t]|] eqn:F; [|discriminate].
  destruct (skip_ws t); [|discriminate]. intros H. injection H as <-. eapply json_texts; eauto.
Qed.

Lemma mapM_cons {A B} (f : A -> option B) x l :
  mapM f (x :: l) = match f x with Some y => match mapM f l with Some r => Some (y :: r) | None => None end | None => None end.
Proof. cbn. destruct (f x); [|reflexivity]. cbn. destruct (mapM f l); reflexivity. Qed.
Lemma entries_in k l v : In v (entries k l) -> Forall (fun x => texts_ok x.2) l -> texts_ok v.
Proof.
  intros H F. induction F as [|[a b] l Hx _ IH]; [destruct H|]. unfold entries in *. cbn in H.
  destruct (beq a k); cbn in H; [destruct H as [<-|H]; auto|auto].
Qed.
Lemma struct_texts names j fs : texts_ok j -> struct_ names j = Some fs -> Forall (opt_ok texts_ok) fs.
Proof.
  destruct j as [| | | | |l|l]; try discriminate; cbn [struct_]; intros H E.
  - destruct (_ =? _)%nat; [|discriminate]. injection E as <-. apply texts_arr in H. apply Forall_map. exact H.
  - apply texts_obj in H. revert fs E. induction names as [|k names IH]; intros fs E.
    + injection E as <-. constructor.
    + rewrite mapM_cons in E. destruct (entries k l) as [|v [|]] eqn:F; [| |discriminate].
      * destruct (mapM _ names) as [r|]; [|discriminate]. injection E as <-. constructor; [exact I|]. apply IH. reflexivity.
      * destruct (mapM _ names) as [r|]; [|discriminate]. injection E as <-. constructor; [|apply IH; reflexivity].
        cbn. apply (entries_in k l); [rewrite F; left; reflexivity|exact H].
Qed.
Lemma mapM_Forall {A B} (f : A -> option B) (P : A -> Prop) (Q : B -> Prop) l r :
  (forall x y, P x -> f x = Some y -> Q y) -> Forall P l -> mapM f l = Some r -> Forall Q r.
Proof.
  intros H F. revert r. induction F as [|x l Hx _ IH]; intros r E; [injection E as <-; constructor|].
  rewrite mapM_cons in E. destruct (f x) as [y|] eqn:G; [|discriminate].
  destruct (mapM f l) as [r'|]; [|discriminate]. injection E as <-. constructor; [eapply H; eauto|apply IH; reflexivity].
Qed.
Lemma d_list_Forall {A} (f : json -> option A) (Q : A -> Prop) j r :
  (forall x y, texts_ok x -> f x = Some y -> Q y) -> texts_ok j -> d_list f j = Some r -> Forall Q r.
Proof.
  destruct j as [| | | | |l|]; try discriminate. cbn [d_list]. intros H T E. apply texts_arr in T.
  eapply mapM_Forall; eauto.
Qed.
Lemma d_str_ok j s : texts_ok j -> d_str j = Some s -> text_ok s.
Proof. destruct j; try discriminate. cbn. intros H E. injection E as <-. exact H. Qed.
Lemma d_uint_lt b j n : d_uint b j = Some n -> n < b.
Proof.
  destruct j; try discriminate. cbn. destruct (_ && _) eqn:E; [|discriminate]. intros H. injection H as <-.
  apply andb_true_iff in E as [E1 E2]. apply Z.leb_le in E1. apply Z.ltb_lt in E2. lia.
Qed.
Lemma d_option_ok {A} (f : json -> option A) (Q : A -> Prop) o r :
  (forall x y, texts_ok x -> f x = Some y -> Q y) -> opt_ok texts_ok o -> d_option f o = Some r -> opt_ok Q r.
Proof.
  intros H T E. destruct o as [j|]; [|injection E as <-; exact I].
  assert (G : match f j with Some a => Some (Some a) | None => None end = Some r -> opt_ok Q r).
  { destruct (f j) as [a|] eqn:F; [|discriminate]. intros K. injection K as <-. eapply H; eauto. }
  destruct j; try (apply G; exact E). injection E as <-. exact I.
Qed.
Lemma hex_value_lt c v : hex_value c = Some v -> v < 16.
Proof.
  unfold hex_value. intros H.
  repeat match type of H with context [if ?b then _ else _] => destruct b eqn:? end; inversion H; subst; bools; lia.
Qed.
Lemma hex_decode_lt (s : list N) : forall b, hex_decode s = Some b -> Forall (fun x => x < 256) b.
Proof.
  remember (List.length s) as n eqn:E. revert s E.
  induction n as [n IH] using (well_founded_induction lt_wf). intros [|x [|y r]] -> b H; try discriminate.
  - injection H as <-. constructor.
  - cbn [hex_decode] in H. destruct (hex_value x) as [h|] eqn:F1; [|discriminate].
    destruct (hex_value y) as [l|] eqn:F2; [|discriminate]. destruct (hex_decode r) as [t|] eqn:F3; [|discriminate].
    injection H as <-. apply hex_value_lt in F1, F2. constructor; [lia|].
    apply (IH (List.length r)) with (s := r); cbn; auto.
Qed.
Lemma d_hex_ok n j b : d_hex n j = Some b -> bytes_ok n b.
Proof.
  unfold d_hex. destruct (d_borrowed j) as [s|]; [|discriminate]. destruct (hex_decode s) as [h|] eqn:F; [|discriminate].
  destruct (N.eqb_spec (lenN h) n); [|discriminate]. intros H. injection H as <-. split; [auto|eapply hex_decode_lt; eauto].
Qed.
Lemma r_date_fit j t : r_date j = Some t -> nanos_fit t.
Proof. unfold r_date. destruct (d_str j); [|discriminate]. apply rfc3339_fit. Qed.

(** the dates lie in the years 0 to 9999 *)
Definition year_ok (t : instant) : Prop := (-62167219200 <= i_secs t < 253402300800)%Z.
Definition level_dates (v : level_v) : Prop := year_ok (lv_date v).
Definition full_dates (v : full_v) : Prop := year_ok (fv_date v).
Definition identity_dates (v : identity_v) : Prop :=
  year_ok (iv_issue v) /\ year_ok (iv_next v) /\ Forall level_dates (iv_levels v).
Definition tcb_dates (v : tcb_v) : Prop :=
  year_ok (tv_issue v) /\ year_ok (tv_next v) /\ Forall full_dates (tv_levels v).

Ltac fields H :=
  repeat match type of H with
         | (match ?m with Some _ => _ | None => None end) = Some _ => destruct m eqn:?; [|discriminate]
         | (match ?m with [] => None | _ :: _ => _ end) = Some _ => destruct m; [discriminate|]
         | (match ?m with [] => _ | _ :: _ => None end) = Some _ => destruct m; [|discriminate]
         | (if ?m then _ else None) = Some _ => destruct m eqn:?; [|discriminate]
         end.
Ltac split_fs S := repeat (apply Forall_cons_1 in S; destruct S as [? S]); cbn [opt_ok] in *.
Lemma date_ok t : nanos_fit t -> year_ok t -> instant_ok t.
Proof. intros. split; auto. Qed.

Lemma r_level_ok j v : texts_ok j -> r_level j = Some v -> level_dates v -> level_ok v.
Proof.
  intros T H Hd. unfold r_level in H. destruct (struct_ _ j) as [fs|] eqn:F; [|discriminate].
  apply struct_texts in F; [|exact T]. fields H. split_fs F. injection H as <-. constructor; cbn.
  - unfold d_tcb in *. destruct (struct_ [asc "isvsvn"] _) as [[|[x|] [|]]|]; try discriminate. eapply d_uint_lt; eauto.
  - apply date_ok; [eapply r_date_fit; eauto|exact Hd].
  - eapply d_option_ok; [| |eassumption]; [|eassumption]. intros x y Tx Ey. eapply d_list_Forall; eauto. apply d_str_ok.
Qed.
Lemma r_component_ok j v : texts_ok j -> r_component j = Some v -> component_ok v.
Proof.
  intros T H. unfold r_component in H. destruct (struct_ _ j) as [fs|] eqn:F; [|discriminate].
  apply struct_texts in F; [|exact T]. fields H. split_fs F. injection H as <-. constructor; cbn.
  - eapply d_uint_lt; eauto.
  - eapply d_option_ok; [| |eassumption]; [apply d_str_ok|eassumption].
  - eapply d_option_ok; [| |eassumption]; [apply d_str_ok|eassumption].
Qed.
Lemma r_full_ok j v : texts_ok j -> r_full j = Some v -> full_dates v -> full_ok v.
Proof.
  intros T H Hd. unfold r_full in H. destruct (struct_ _ j) as [fs|] eqn:F; [|discriminate].
  apply struct_texts in F; [|exact T]. fields H. split_fs F. injection H as <-.
  match goal with E : r_tcb_full ?x = Some ?p, Tx : texts_ok ?x |- _ =>
    rename E into Et; rename Tx into Tt; rename p into p end.
  unfold r_tcb_full in Et. destruct (struct_ [_; _] _) as [fs'|] eqn:G; [|discriminate].
  apply struct_texts in G; [|exact Tt]. fields Et. split_fs G. injection Et as <-.
  constructor; cbn.
  - bools. auto.
  - eapply d_list_Forall; [exact r_component_ok| |eassumption]. assumption.
  - eapply d_uint_lt; eauto.
  - apply date_ok; [eapply r_date_fit; eauto|exact Hd].
  - eapply d_option_ok; [| |eassumption]; [|eassumption]. intros x y Tx Ey. eapply d_list_Forall; eauto. apply d_str_ok.
Qed.

Lemma Forall_impl2 {A} (P Q R : A -> Prop) l :
  (forall x, P x -> Q x -> R x) -> Forall P l -> Forall Q l -> Forall R l.
Proof. intros H HP. induction HP; intros HQ; apply Forall_cons_1 in HQ || idtac; constructor; firstorder. Qed.
Lemma d_list_dates {A} (f : json -> option A) (D Q : A -> Prop) j r :
  (forall x y, texts_ok x -> f x = Some y -> D y -> Q y) -> texts_ok j -> d_list f j = Some r -> Forall D r -> Forall Q r.
Proof.
  intros H T E. apply (Forall_impl2 (fun y => D y -> Q y)); [auto|].
  eapply d_list_Forall; [|exact T|exact E]. cbv beta. eauto.
Qed.
Lemma r_identity_ok j v : texts_ok j -> r_identity j = Some v -> identity_dates v -> identity_ok v.
Proof.
  intros T H (D1 & D2 & D3). unfold r_identity in H. destruct (struct_ _ j) as [fs|] eqn:F; [|discriminate].
  apply struct_texts in F; [|exact T]. fields H. split_fs F. injection H as <-. cbn in D1, D2, D3. constructor; cbn.
  all: try (eapply d_uint_lt; eassumption).
  all: try (eapply d_hex_ok; eassumption).
  all: try (apply date_ok; [eapply r_date_fit; eassumption|assumption]).
  - eapply d_str_ok; [|eassumption]. assumption.
  - eapply d_list_dates; [exact r_level_ok| |eassumption|exact D3]. assumption.
Qed.
Lemma r_tcb_ok j v : texts_ok j -> r_tcb j = Some v -> tcb_dates v -> tcb_ok v.
Proof.
  intros T H (D1 & D2 & D3). unfold r_tcb in H. destruct (struct_ _ j) as [fs|] eqn:F; [|discriminate].
  apply struct_texts in F; [|exact T]. fields H. split_fs F. injection H as <-. cbn in D1, D2, D3. constructor; cbn.
  all: try (eapply d_uint_lt; eassumption).
  all: try (eapply d_hex_ok; eassumption).
  all: try (apply date_ok; [eapply r_date_fit; eassumption|assumption]).
  - eapply d_str_ok; [|eassumption]. assumption.
  - eapply d_str_ok; [|eassumption]. assumption.
  - eapply d_list_dates; [exact r_full_ok| |eassumption|exact D3]. assumption.
Qed.

(** ** The readers of [CollateralModel] are these, keeping only what is used *)
Lemma mapM_map {A B C} (f : A -> option B) (g : A -> option C) (h : B -> C) l :
  (forall x, g x = option_map h (f x)) -> mapM g l = option_map (map h) (mapM f l).
Proof.
  intros H. induction l as [|x l IH]; [reflexivity|]. rewrite !mapM_cons, H, IH.
  destruct (f x); [|reflexivity]. cbn. destruct (mapM f l); reflexivity.
Qed.
Lemma d_list_map {A B} (f : json -> option A) (g : json -> option B) (h : A -> B) j :
  (forall x, g x = option_map h (f x)) -> d_list g j = option_map (map h) (d_list f j).
Proof. intros H. destruct j; try reflexivity. cbn [d_list]. apply mapM_map. exact H. Qed.
Lemma date_used j : d_date date_millis j = option_map millis (r_date j).
Proof. unfold d_date, r_date, date_millis. destruct (d_str j); [|reflexivity]. destruct (rfc3339 _); reflexivity. Qed.
Lemma level_used_ok j : d_level date_millis j = option_map level_used (r_level j).
Proof.
  unfold d_level, r_level. destruct (struct_ _ j) as [[|[a|] [|[b|] [|[c|] [|e [|]]]]]|]; try reflexivity.
  rewrite date_used. destruct (d_tcb a); try reflexivity; destruct (r_date b); try reflexivity; destruct (d_status c); try reflexivity; destruct (d_option _ e); try reflexivity.
Qed.
Lemma component_used_ok j : d_component j = option_map cv_svn (r_component j).
Proof.
  unfold d_component, r_component. destruct (struct_ _ j) as [[|[a|] [|b [|c [|]]]]|]; try reflexivity.
  destruct (d_uint 256 a); try reflexivity; destruct (d_option d_str b); try reflexivity; destruct (d_option d_str c); try reflexivity.
Qed.
Lemma tcb_full_used_ok j :
  d_tcb_full j = option_map (fun x => (map cv_svn x.1, x.2)) (r_tcb_full j).
Proof.
  unfold d_tcb_full, r_tcb_full. destruct (struct_ _ j) as [[|[a|] [|[b|] [|]]]|]; try reflexivity.
  rewrite (d_list_map r_component d_component cv_svn) by apply component_used_ok.
  destruct (d_list r_component a) as [l|]; [|reflexivity]. destruct (d_uint 65536 b); [|reflexivity]. cbn [option_map].
  unfold lenN. rewrite map_length. destruct (_ =? 16); reflexivity.
Qed.
Lemma full_used_ok j : d_level_full date_millis j = option_map full_used (r_full j).
Proof.
  unfold d_level_full, r_full. destruct (struct_ _ j) as [[|[a|] [|[b|] [|[c|] [|e [|]]]]]|]; try reflexivity.
  rewrite date_used, tcb_full_used_ok. destruct (r_tcb_full a); try reflexivity; destruct (r_date b); try reflexivity; destruct (d_status c); try reflexivity; destruct (d_option _ e); try reflexivity.
Qed.
Lemma identity_used_ok j : identity_of_json date_millis j = option_map identity_used (r_identity j).
Proof.
  unfold identity_of_json, r_identity.
  destruct (struct_ _ j) as [fs|]; [|reflexivity].
  do 12 (destruct fs as [|[?|] fs]; try reflexivity). destruct fs; [|reflexivity].
  rewrite !date_used, (d_list_map r_level _ level_used) by apply level_used_ok.
  destruct (d_str _); try reflexivity; destruct (d_uint 65536 _); try reflexivity; destruct (r_date _); try reflexivity; destruct (r_date _); try reflexivity; destruct (d_uint 65536 _); try reflexivity; destruct (d_hex 4 _); try reflexivity.
  cbn [option_map].
  destruct (d_hex 4 _); try reflexivity; destruct (d_hex 16 _); try reflexivity; destruct (d_hex 16 _); try reflexivity; destruct (d_hex 32 _); try reflexivity; destruct (d_uint 65536 _); try reflexivity; destruct (d_list r_level _); try reflexivity.
Qed.
Lemma tcb_used_ok j : tcb_of_json date_millis j = option_map tcb_used (r_tcb j).
Proof.
  unfold tcb_of_json, r_tcb.
  destruct (struct_ _ j) as [fs|]; [|reflexivity].
  do 9 (destruct fs as [|[?|] fs]; try reflexivity). destruct fs; [|reflexivity].
  rewrite !date_used, (d_list_map r_full _ full_used) by apply full_used_ok.
  destruct (d_str _); try reflexivity; destruct (d_uint 256 _); try reflexivity; destruct (r_date _); try reflexivity; destruct (r_date _); try reflexivity; destruct (d_hex 6 _); try reflexivity.
  cbn [option_map].
  destruct (d_str _); try reflexivity; destruct (d_uint 65536 _); try reflexivity; destruct (d_uint 65536 _); try reflexivity; destruct (d_list r_full _); try reflexivity.
Qed.
