(** * What the JSON documents of the collateral and of IAS reports say: C75. *)
From Coq Require Import String.
From Verif Require Import Base State Env TeerexBase SgxVerifyModel CollateralModel TeerexModel Runtime Examples Frame EnvFacts SgxProofs TeerexProofs
  SgxProps TeerexProps.

(** ** What a document says, independently of the reader *)
Definition absent (k : bytes) (l : list (bytes * json)) : Prop := Forall (fun e => e.1 <> k) l.
Definition once (k : bytes) (v : json) (l : list (bytes * json)) : Prop :=
  exists a b, l = a ++ (k, v) :: b /\ absent k a /\ absent k b.
Definition slot (l : list (bytes * json)) (k : bytes) (x : option json) : Prop :=
  match x with Some v => once k v l | None => absent k l end.
(** The named fields have these values ([None]: not there): an object, or an array in order *)
Definition fields (j : json) (names : list bytes) (xs : list (option json)) : Prop :=
  (exists l, j = JObj l /\ Forall2 (slot l) names xs) \/
  (exists us, j = JArr us /\ xs = map Some us /\ List.length us = List.length names).
Definition text (j : json) (s : bytes) : Prop := exists esc, j = JStr s esc.
Definition number (bound : N) (j : json) (n : N) : Prop := j = JInt (Z.of_N n) /\ n < bound.
(** Hexadecimal digits, two per byte *)
Definition digit (c d : N) : Prop :=
  48 <= c <= 57 /\ c = 48 + d \/ 65 <= c <= 70 /\ c = 55 + d \/ 97 <= c <= 102 /\ c = 87 + d.
Inductive spells : bytes -> bytes -> Prop :=
  | spells_nil : spells [] []
  | spells_cons a b h l s t : digit a h -> digit b l -> spells s t -> spells (a :: b :: s) (16 * h + l :: t).
Definition hexadecimal (n : N) (j : json) (bs : bytes) : Prop :=
  exists s, j = JStr s false /\ spells s bs /\ lenN bs = n.
Definition sequence {A} (R : json -> A -> Prop) (j : json) (l : list A) : Prop :=
  exists us, j = JArr us /\ Forall2 R us l.
Definition optional {A} (R : json -> A -> Prop) (x : option json) : Prop :=
  x = None \/ x = Some JNull \/ exists j a, x = Some j /\ j <> JNull /\ R j a.
Definition status_text (s : bytes) (st : tcb_status) : Prop :=
  match st with
  | TUnknown => s = asc "Unknown" | TUpToDate => s = asc "UpToDate" | TSWHardeningNeeded => s = asc "SWHardeningNeeded"
  | TConfigurationAndSWHardeningNeeded => s = asc "ConfigurationAndSWHardeningNeeded"
  | TOutOfDate => s = asc "OutOfDate" | TOutOfDateConfigurationNeeded => s = asc "OutOfDateConfigurationNeeded"
  | TRevoked => s = asc "Revoked"
  end.
Definition status_value (j : json) (st : tcb_status) : Prop :=
  exists s, (text j s \/ j = JObj [(s, JNull)]) /\ status_text s st.

Section Spec.
Context (date : bytes -> option Z).
Definition instant (j : json) (t : Z) : Prop := exists s, text j s /\ date s = Some t.
Definition tcb_value (j : json) (svn : N) : Prop :=
  exists v, fields j [asc "isvsvn"] [Some v] /\ number 65536 v svn.
(** A level of an enclave identity: security version and status *)
Definition level_value (j : json) (x : N * tcb_status) : Prop :=
  exists t d s a when, fields j [asc "tcb"; asc "tcbDate"; asc "tcbStatus"; asc "advisoryIDs"] [Some t; Some d; Some s; a] /\
  tcb_value t x.1 /\ instant d when /\ status_value s x.2 /\ optional (sequence text) a.
Definition component_value (j : json) (svn : N) : Prop :=
  exists v c t, fields j [asc "svn"; asc "category"; asc "type"] [Some v; c; t] /\ number 256 v svn /\ optional text c /\ optional text t.
(** A level of a TCB info: 16 component versions, PCE version and status *)
Definition full_level_value (j : json) (x : bytes * N * tcb_status) : Prop :=
  exists t d s a when c p, fields j [asc "tcb"; asc "tcbDate"; asc "tcbStatus"; asc "advisoryIDs"] [Some t; Some d; Some s; a] /\
  fields t [asc "sgxtcbcomponents"; asc "pcesvn"] [Some c; Some p] /\
  sequence component_value c x.1.1 /\ lenN x.1.1 = 16 /\ number 65536 p x.1.2 /\
  instant d when /\ status_value s x.2 /\ optional (sequence text) a.
Definition identity_says (j : json) (e : enclave_identity) : Prop :=
  exists j1 j2 j3 j4 j5 j6 j7 j8 j9 j10 j11 j12 evaluation,
  fields j [asc "id"; asc "version"; asc "issueDate"; asc "nextUpdate"; asc "tcbEvaluationDataNumber"; asc "miscselect";
            asc "miscselectMask"; asc "attributes"; asc "attributesMask"; asc "mrsigner"; asc "isvprodid"; asc "tcbLevels"]
           [Some j1; Some j2; Some j3; Some j4; Some j5; Some j6; Some j7; Some j8; Some j9; Some j10; Some j11; Some j12] /\
  text j1 (ei_id e) /\ number 65536 j2 (ei_version e) /\ instant j3 (ei_issue e) /\ instant j4 (ei_next e) /\
  number 65536 j5 evaluation /\ hexadecimal 4 j6 (ei_misc e) /\ hexadecimal 4 j7 (ei_misc_mask e) /\
  hexadecimal 16 j8 (ei_attr e) /\ hexadecimal 16 j9 (ei_attr_mask e) /\ hexadecimal 32 j10 (ei_mrsigner e) /\
  number 65536 j11 (ei_prodid e) /\ sequence level_value j12 (ei_levels e).
Definition tcb_says (j : json) (e : tcb_info_json) : Prop :=
  exists j1 j2 j3 j4 j5 j6 j7 j8 j9 pce kind evaluation,
  fields j [asc "id"; asc "version"; asc "issueDate"; asc "nextUpdate"; asc "fmspc"; asc "pceId"; asc "tcbType";
            asc "tcbEvaluationDataNumber"; asc "tcbLevels"]
           [Some j1; Some j2; Some j3; Some j4; Some j5; Some j6; Some j7; Some j8; Some j9] /\
  text j1 (tj_id e) /\ number 256 j2 (tj_version e) /\ instant j3 (tj_issue e) /\ instant j4 (tj_next e) /\
  hexadecimal 6 j5 (tj_fmspc e) /\ text j6 pce /\ number 65536 j7 kind /\ number 65536 j8 evaluation /\
  sequence full_level_value j9 (tj_levels e).
End Spec.

(** ** The readers, one by one *)
Lemma entries_nil k l : entries k l = [] <-> absent k l.
Proof.
  unfold entries, absent. induction l as [|[k' v] l IH]; [split; auto|]. cbn [omap list_omap fst snd].
  destruct (beq k' k) eqn:E.
  - apply beq_true in E. split; [discriminate|]. intros H. inversion H; subst; contradiction.
  - apply beq_false in E. rewrite Forall_cons, <- IH. cbn. tauto.
Qed.
Lemma entries_app k l l' : entries k (l ++ l') = entries k l ++ entries k l'.
Proof. unfold entries. induction l as [|[k' v] l IH]; [reflexivity|]. cbn [app omap list_omap fst snd]. destruct (beq k' k); cbn [app]; [f_equal|]; exact IH. Qed.
Lemma entries_here k v l : entries k ((k, v) :: l) = v :: entries k l.
Proof. unfold entries. cbn [omap list_omap fst snd]. rewrite beq_refl. reflexivity. Qed.
Lemma entries_cons_inv k l v vs : entries k l = v :: vs -> exists a b, l = a ++ (k, v) :: b /\ absent k a /\ entries k b = vs.
Proof.
  induction l as [|[k' w] l IH]; [discriminate|]. unfold entries. cbn [omap list_omap fst snd]. destruct (beq k' k) eqn:E.
  - apply beq_true in E. subst k'. intros [= -> <-]. exists [], l. split; [reflexivity|]. split; [constructor|reflexivity].
  - apply beq_false in E. intros H. apply IH in H as (a & b & -> & Ha & Hb). exists ((k', w) :: a), b. split; [reflexivity|]. split; [constructor; auto|auto].
Qed.
Lemma entries_one k l v : entries k l = [v] <-> once k v l.
Proof.
  split.
  - intros H. apply entries_cons_inv in H as (a & b & -> & Ha & Hb). apply entries_nil in Hb. exists a, b. auto.
  - intros (a & b & -> & Ha & Hb). apply entries_nil in Ha, Hb. rewrite entries_app, Ha, entries_here, Hb. reflexivity.
Qed.
Lemma mapM_iff {A B} (f : A -> option B) (R : A -> B -> Prop) : (forall a b, f a = Some b <-> R a b) ->
  forall l k, mapM f l = Some k <-> Forall2 R l k.
Proof. intros H l k. rewrite mapM_Some. split; intros F; (eapply Forall2_impl; [exact F|]); intros a b; apply H. Qed.
Lemma struct_iff names j xs : struct_ names j = Some xs <-> fields j names xs.
Proof.
  unfold fields. destruct j as [| | | | |us|l]; cbn [struct_];
    try (split; [discriminate|intros [(l & [=] & _)|(us & [=] & _)]]; fail).
  - destruct (Nat.eqb_spec (List.length us) (List.length names)) as [E|E].
    + split; [intros [= <-]; right; eauto|]. intros [(l & [=] & _)|(us' & [= <-] & -> & _)]. reflexivity.
    + split; [discriminate|]. intros [(l & [=] & _)|(us' & [= <-] & -> & H)]. contradiction.
  - rewrite (mapM_iff _ (slot l)).
    + split; [intros H; left; eauto|]. intros [(l' & [= <-] & H)|(us & [=] & _)]. exact H.
    + intros k x. destruct (entries k l) as [|v [|w r]] eqn:E.
      * apply entries_nil in E as E'. split; [intros [= <-]; exact E'|]. destruct x as [v|]; [|auto]. intros H.
        apply entries_one in H. cbn in *. congruence.
      * split; [intros [= <-]; apply entries_one; exact E|]. destruct x as [v'|]; intros H.
        -- apply entries_one in H. congruence.
        -- apply entries_nil in H. congruence.
      * split; [discriminate|]. destruct x as [v'|]; intros H; [apply entries_one in H|apply entries_nil in H]; congruence.
Qed.
Lemma d_str_iff j s : d_str j = Some s <-> text j s.
Proof.
  unfold text. destruct j as [| | | |t esc| |]; cbn [d_str]; try (split; [discriminate|intros [? [=]]]; fail).
  split; [intros [= ->]; eauto|intros [? [= -> _]]; auto].
Qed.
Lemma d_uint_iff b j n : d_uint b j = Some n <-> number b j n.
Proof.
  unfold number. destruct j as [| |z| | | |]; cbn [d_uint]; try (split; [discriminate|intros [[=] _]]; fail). split.
  - destruct (Z.leb_spec 0 z); [|discriminate]. destruct (Z.ltb_spec z (Z.of_N b)); [|discriminate]. cbn. intros [= <-].
    split; [f_equal|]; lia.
  - intros [[= ->] H]. destruct (Z.leb_spec 0 (Z.of_N n)); [|lia]. destruct (Z.ltb_spec (Z.of_N n) (Z.of_N b)); [|lia].
    cbn. f_equal. lia.
Qed.
Lemma hex_value_iff a d : hex_value a = Some d <-> digit a d.
Proof.
  unfold hex_value, digit.
  destruct (N.leb_spec 48 a), (N.leb_spec a 57), (N.leb_spec 65 a), (N.leb_spec a 70), (N.leb_spec 97 a), (N.leb_spec a 102); cbn;
    split; intros H'; try discriminate; try (injection H' as <-); try (f_equal; lia); lia.
Qed.
Lemma hex_decode_iff : forall s t, hex_decode s = Some t <-> spells s t.
Proof.
  assert (forall n s t, (List.length s <= n)%nat -> hex_decode s = Some t <-> spells s t) as H; [|intros s t; apply (H (List.length s)); auto].
  induction n as [|n IH]; intros [|a [|b r]] t Hl; cbn in Hl; try lia; cbn [hex_decode].
  1,2: split; [intros [= <-]; constructor|intros H; inversion H; reflexivity].
  - split; [discriminate|]. intros H. inversion H.
  - split.
    + destruct (hex_value a) as [h|] eqn:E1; [|discriminate]. destruct (hex_value b) as [l|] eqn:E2; [|discriminate].
      destruct (hex_decode r) as [t'|] eqn:E3; [|discriminate]. intros [= <-]. apply hex_value_iff in E1, E2. apply IH in E3; [|lia].
      constructor; auto.
    + intros H. inversion H as [|? ? h l ? t' H1 H2 H3]; subst. apply hex_value_iff in H1, H2. apply IH in H3; [|lia]. rewrite H1, H2, H3. reflexivity.
Qed.
Lemma d_hex_iff n j bs : d_hex n j = Some bs <-> hexadecimal n j bs.
Proof.
  unfold d_hex, hexadecimal. destruct j as [| | | |s esc| |]; cbn [d_borrowed]; try (split; [discriminate|intros (? & [=] & _)]).
  destruct esc; [split; [discriminate|intros (? & [=] & _)]|]. split.
  - destruct (hex_decode s) as [h|] eqn:E; [|discriminate]. destruct (N.eqb_spec (lenN h) n); [|discriminate].
    intros [= <-]. apply hex_decode_iff in E. eauto.
  - intros (s' & [= <-] & H & Hn). apply hex_decode_iff in H. rewrite H, Hn, N.eqb_refl. reflexivity.
Qed.
Lemma d_list_iff {A} (f : json -> option A) R : (forall j a, f j = Some a <-> R j a) -> forall j l, d_list f j = Some l <-> sequence R j l.
Proof.
  intros H j l. unfold sequence. destruct j as [| | | | |us|]; cbn [d_list]; try (split; [discriminate|intros (? & [=] & _)]).
  rewrite (mapM_iff _ R) by exact H. split; [eauto|]. intros (us' & [= <-] & F). exact F.
Qed.
Lemma d_option_iff {A} (f : json -> option A) R : (forall j a, f j = Some a <-> R j a) -> forall x,
  (exists y, d_option f x = Some y) <-> optional R x.
Proof.
  intros H x. unfold optional. split.
  - intros [y Hy]. destruct x as [j|]; [|auto]. right. destruct j eqn:Ej; [left; auto| | | | | |]; right; cbn [d_option] in Hy; rewrite <- Ej in *;
      (destruct (f j) as [a|] eqn:E; [|discriminate]); apply H in E; exists j, a; (split; [auto|]); (split; [congruence|auto]).
  - intros [->|[->|(j & a & -> & Hn & Ha)]]; [exists None; reflexivity|exists None; reflexivity|]. apply H in Ha. exists (Some a). cbn [d_option].
    destruct j; [contradiction| | | | | |]; rewrite Ha; reflexivity.
Qed.
Lemma status_of_name_iff s st : status_of_name s = Some st <-> status_text s st.
Proof.
  unfold status_of_name, status_names. cbn [List.find fst snd].
  repeat match goal with |- context [beq ?a s] => let E := fresh in destruct (beq a s) eqn:E; [apply beq_true in E; subst s|apply beq_false in E] end;
    (split; [intros H'; try discriminate; injection H' as <-; reflexivity|]); destruct st; cbn [status_text]; intros E'; try reflexivity;
    try (vm_compute in E'; discriminate E'); congruence.
Qed.
Lemma d_status_iff j st : d_status j = Some st <-> status_value j st.
Proof.
  unfold status_value, text. destruct j as [| | | |s esc| |l]; cbn [d_status];
    try (split; [discriminate|intros (s & [[e [=]]|[=]] & _)]; fail).
  - rewrite status_of_name_iff. split; [intros H; exists s; split; [left; eauto|auto]|].
    intros (s' & [[e He]|He] & Hst); [|discriminate]. injection He as <- _. exact Hst.
  - destruct l as [|[s v] [|x r]].
    + split; [discriminate|]. intros (s & [[e [=]]|[=]] & _).
    + destruct v; try (split; [discriminate|intros (s' & [[e [=]]|[=]] & _)]; fail).
      rewrite status_of_name_iff. split; [intros H; exists s; split; [right; auto|auto]|].
      intros (s' & [[e He]|He] & Hst); [discriminate|]. injection He as <-. exact Hst.
    + split; [destruct v; discriminate|]. intros (s' & [[e [=]]|[=]] & _).
Qed.

Section Readers.
Context (date : bytes -> option Z).
Lemma d_date_iff j t : d_date date j = Some t <-> instant date j t.
Proof.
  unfold d_date, instant. split.
  - destruct (d_str j) as [s|] eqn:E; [|discriminate]. apply d_str_iff in E. eauto.
  - intros (s & H & Hd). apply d_str_iff in H. rewrite H. exact Hd.
Qed.
Lemma d_tcb_iff j n : d_tcb j = Some n <-> tcb_value j n.
Proof.
  unfold d_tcb, tcb_value. split.
  - destruct (struct_ _ j) as [[|[v|] [|x xs]]|] eqn:E; try discriminate. intros H. apply struct_iff in E. apply d_uint_iff in H. eauto.
  - intros (v & E & H). apply struct_iff in E. rewrite E. apply d_uint_iff. exact H.
Qed.
Lemma d_texts_iff x : (exists y, d_option (d_list d_str) x = Some y) <-> optional (sequence text) x.
Proof. apply d_option_iff. apply d_list_iff. apply d_str_iff. Qed.
Lemma d_text_iff x : (exists y, d_option d_str x = Some y) <-> optional text x.
Proof. apply d_option_iff. apply d_str_iff. Qed.
Lemma d_level_iff j x : d_level date j = Some x <-> level_value date j x.
Proof.
  unfold d_level, level_value. split.
  - destruct (struct_ _ j) as [[|[t|] [|[d|] [|[s|] [|a [|y ys]]]]]|] eqn:E; try discriminate. apply struct_iff in E.
    destruct (d_tcb t) as [svn|] eqn:E1; [|discriminate]. destruct (d_date date d) as [w|] eqn:E2; [|discriminate].
    destruct (d_status s) as [st|] eqn:E3; [|discriminate]. destruct (d_option (d_list d_str) a) as [o|] eqn:E4; [|discriminate].
    intros [= <-]. exists t, d, s, a, w. apply d_tcb_iff in E1. apply d_date_iff in E2. apply d_status_iff in E3.
    assert (optional (sequence text) a) by (apply d_texts_iff; eauto). auto.
  - intros (t & d & s & a & w & E & E1 & E2 & E3 & E4). destruct x as [svn st]. cbn in E1, E3. apply struct_iff in E.
    apply d_tcb_iff in E1. apply d_date_iff in E2. apply d_status_iff in E3. apply d_texts_iff in E4 as [y E4]. rewrite E, E1, E2, E3, E4. reflexivity.
Qed.
Lemma d_component_iff j n : d_component j = Some n <-> component_value j n.
Proof.
  unfold d_component, component_value. split.
  - destruct (struct_ _ j) as [[|[v|] [|c [|t [|y ys]]]]|] eqn:E; try discriminate. apply struct_iff in E.
    destruct (d_uint 256 v) as [svn|] eqn:E1; [|discriminate]. destruct (d_option d_str c) as [y|] eqn:E2; [|discriminate].
    destruct (d_option d_str t) as [z|] eqn:E3; [|discriminate]. intros [= <-]. exists v, c, t. apply d_uint_iff in E1.
    assert (optional text c) by (apply d_text_iff; eauto). assert (optional text t) by (apply d_text_iff; eauto). auto.
  - intros (v & c & t & E & E1 & E2 & E3). apply struct_iff in E. apply d_uint_iff in E1. apply d_text_iff in E2 as [y E2].
    apply d_text_iff in E3 as [z E3]. rewrite E, E1, E2, E3. reflexivity.
Qed.
Lemma d_level_full_iff j x : d_level_full date j = Some x <-> full_level_value date j x.
Proof.
  unfold d_level_full, full_level_value, d_tcb_full. split.
  - destruct (struct_ _ j) as [[|[t|] [|[d|] [|[s|] [|a [|y ys]]]]]|] eqn:E; try discriminate. apply struct_iff in E.
    destruct (struct_ _ t) as [[|[c|] [|[p|] [|y ys]]]|] eqn:E0; try discriminate. apply struct_iff in E0.
    destruct (d_list d_component c) as [svns|] eqn:E1; [|discriminate]. destruct (d_uint 65536 p) as [pc|] eqn:E5; [|discriminate].
    destruct (N.eqb_spec (lenN svns) 16) as [E6|]; [|discriminate].
    destruct (d_date date d) as [w|] eqn:E2; [|discriminate].
    destruct (d_status s) as [st|] eqn:E3; [|discriminate]. destruct (d_option (d_list d_str) a) as [o|] eqn:E4; [|discriminate].
    intros [= <-]. exists t, d, s, a, w, c, p. apply (d_list_iff _ component_value d_component_iff) in E1. apply d_uint_iff in E5.
    apply d_date_iff in E2. apply d_status_iff in E3. assert (optional (sequence text) a) by (apply d_texts_iff; eauto). cbn. auto 10.
  - intros (t & d & s & a & w & c & p & E & E0 & E1 & E6 & E5 & E2 & E3 & E4). destruct x as [[svns pc] st]. cbn in E1, E3, E5, E6. apply struct_iff in E, E0.
    apply (d_list_iff _ component_value d_component_iff) in E1. apply d_uint_iff in E5. apply d_date_iff in E2. apply d_status_iff in E3.
    apply d_texts_iff in E4 as [y E4]. rewrite E, E0, E1, E5, E6, E2, E3, E4. reflexivity.
Qed.
End Readers.

(** ** Which documents are read, and as what *)
Theorem C75_identity_read_iff : forall date j e, identity_of_json date j = Some e <-> identity_says date j e.
Proof.
  intros date j e. unfold identity_of_json, identity_says. split.
  - intros H.
    destruct (struct_ identity_fields j) as [[|[j1|] [|[j2|] [|[j3|] [|[j4|] [|[j5|] [|[j6|] [|[j7|] [|[j8|] [|[j9|] [|[j10|] [|[j11|] [|[j12|] [|y ys]]]]]]]]]]]]]|] eqn:E;
      try discriminate H. apply struct_iff in E.
    destruct (d_str j1) eqn:E1; [|discriminate H]. destruct (d_uint 65536 j2) eqn:E2; [|discriminate H].
    destruct (d_date date j3) eqn:E3; [|discriminate H]. destruct (d_date date j4) eqn:E4; [|discriminate H].
    destruct (d_uint 65536 j5) as [ev|] eqn:E5; [|discriminate H]. destruct (d_hex 4 j6) eqn:E6; [|discriminate H].
    destruct (d_hex 4 j7) eqn:E7; [|discriminate H]. destruct (d_hex 16 j8) eqn:E8; [|discriminate H].
    destruct (d_hex 16 j9) eqn:E9; [|discriminate H]. destruct (d_hex 32 j10) eqn:E10; [|discriminate H].
    destruct (d_uint 65536 j11) eqn:E11; [|discriminate H]. destruct (d_list (d_level date) j12) eqn:E12; [|discriminate H].
    injection H as <-. exists j1, j2, j3, j4, j5, j6, j7, j8, j9, j10, j11, j12, ev. split; [exact E|].
    apply d_str_iff in E1. apply d_uint_iff in E2, E5, E11. apply d_date_iff in E3, E4. apply d_hex_iff in E6, E7, E8, E9, E10.
    apply (d_list_iff _ _ (d_level_iff date)) in E12. cbn. auto 20.
  - intros (j1 & j2 & j3 & j4 & j5 & j6 & j7 & j8 & j9 & j10 & j11 & j12 & ev & E & E1 & E2 & E3 & E4 & E5 & E6 & E7 & E8 & E9 & E10 & E11 & E12).
    apply struct_iff in E. apply d_str_iff in E1. apply d_uint_iff in E2, E5, E11. apply d_date_iff in E3, E4. apply d_hex_iff in E6, E7, E8, E9, E10.
    apply (d_list_iff _ _ (d_level_iff date)) in E12. unfold identity_fields. rewrite E, E1, E2, E3, E4, E5, E6, E7, E8, E9, E10, E11, E12. destruct e. reflexivity.
Qed.
Print Assumptions C75_identity_read_iff.
Theorem C75_tcb_read_iff : forall date j e, tcb_of_json date j = Some e <-> tcb_says date j e.
Proof.
  intros date j e. unfold tcb_of_json, tcb_says. split.
  - intros H.
    destruct (struct_ tcb_fields j) as [[|[j1|] [|[j2|] [|[j3|] [|[j4|] [|[j5|] [|[j6|] [|[j7|] [|[j8|] [|[j9|] [|y ys]]]]]]]]]]|] eqn:E;
      try discriminate H. apply struct_iff in E.
    destruct (d_str j1) eqn:E1; [|discriminate H]. destruct (d_uint 256 j2) eqn:E2; [|discriminate H].
    destruct (d_date date j3) eqn:E3; [|discriminate H]. destruct (d_date date j4) eqn:E4; [|discriminate H].
    destruct (d_hex 6 j5) eqn:E5; [|discriminate H]. destruct (d_str j6) as [pce|] eqn:E6; [|discriminate H].
    destruct (d_uint 65536 j7) as [kind|] eqn:E7; [|discriminate H]. destruct (d_uint 65536 j8) as [ev|] eqn:E8; [|discriminate H].
    destruct (d_list (d_level_full date) j9) eqn:E9; [|discriminate H].
    injection H as <-. exists j1, j2, j3, j4, j5, j6, j7, j8, j9, pce, kind, ev. split; [exact E|].
    apply d_str_iff in E1, E6. apply d_uint_iff in E2, E7, E8. apply d_date_iff in E3, E4. apply d_hex_iff in E5.
    apply (d_list_iff _ _ (d_level_full_iff date)) in E9. cbn. auto 20.
  - intros (j1 & j2 & j3 & j4 & j5 & j6 & j7 & j8 & j9 & pce & kind & ev & E & E1 & E2 & E3 & E4 & E5 & E6 & E7 & E8 & E9).
    apply struct_iff in E. apply d_str_iff in E1, E6. apply d_uint_iff in E2, E7, E8. apply d_date_iff in E3, E4. apply d_hex_iff in E5.
    apply (d_list_iff _ _ (d_level_full_iff date)) in E9. unfold tcb_fields. rewrite E, E1, E2, E3, E4, E5, E6, E7, E8, E9. destruct e. reflexivity.
Qed.
Print Assumptions C75_tcb_read_iff.
(** Of an IAS report, the last entry of a name counts, and it must be a string. *)
Definition last_entry (k : bytes) (s : bytes) (j : json) : Prop :=
  exists a v b, j = JObj (a ++ (k, v) :: b) /\ absent k b /\ text v s.
Lemma value_at_text k j s : d_str (value_at k j) = Some s <-> last_entry k s j.
Proof.
  unfold last_entry. split.
  - intros H. destruct j as [| | | | | |l]; cbn [value_at] in H; try discriminate H.
    destruct (last (entries k l)) as [v|] eqn:E; [|discriminate H]. apply d_str_iff in H. apply last_Some in E as [vs E].
    assert (exists a b, l = a ++ (k, v) :: b /\ absent k b) as (a & b & -> & Hb).
    { clear H. revert l E. induction vs as [|w vs IH]; intros l E.
      - apply entries_one in E as (a & b & -> & _ & Hb). eauto.
      - apply entries_cons_inv in E as (a & b & -> & _ & E). apply IH in E as (a' & b' & -> & Hb). exists (a ++ (k, w) :: a'), b'.
        rewrite <- app_assoc. auto. }
    exists a, v, b. auto.
  - intros (a & v & b & -> & Hb & H). cbn [value_at]. rewrite entries_app, entries_here. apply entries_nil in Hb. rewrite Hb, last_snoc.
    apply d_str_iff. exact H.
Qed.
Theorem C75_report_read_iff : forall j s,
  (ij_timestamp (ias_of_json j) = Some s <-> last_entry (asc "timestamp") s j) /\
  (ij_status (ias_of_json j) = Some s <-> last_entry (asc "isvEnclaveQuoteStatus") s j) /\
  (ij_body (ias_of_json j) = Some s <-> last_entry (asc "isvEnclaveQuoteBody") s j).
Proof. intros j s. cbn [ias_of_json ij_timestamp ij_status ij_body]. auto using value_at_text. Qed.
Print Assumptions C75_report_read_iff.

(** ** Consequences *)
(** The order of the entries does not matter, and entries with other names are skipped. *)
Lemma absent_permuted k l l' : Permutation l l' -> absent k l -> absent k l'.
Proof. unfold absent. intros H. rewrite H. auto. Qed.
Lemma once_permuted k v l l' : Permutation l l' -> once k v l -> once k v l'.
Proof.
  intros HP (a & b & -> & Ha & Hb). assert ((k, v) ∈ l') as Hin.
  { rewrite <- HP. apply elem_of_app. right. left. }
  apply elem_of_list_split in Hin as (a' & b' & ->). exists a', b'. split; [reflexivity|].
  rewrite <- !Permutation_middle in HP. apply Permutation_cons_inv in HP.
  assert (absent k (a' ++ b')) as H by (eapply absent_permuted; [exact HP|]; apply Forall_app; auto).
  apply Forall_app in H. exact H.
Qed.
Lemma fields_permuted names xs l l' : Permutation l l' -> fields (JObj l) names xs -> fields (JObj l') names xs.
Proof.
  intros HP [(l0 & [= <-] & H)|(us & [=] & _)]. left. exists l'. split; [auto|]. eapply Forall2_impl; [exact H|].
  intros k [v|]; cbn; [apply once_permuted|apply absent_permuted]; exact HP.
Qed.
Lemma struct_permuted names l l' : Permutation l l' -> struct_ names (JObj l) = struct_ names (JObj l').
Proof.
  intros HP. destruct (struct_ names (JObj l)) as [xs|] eqn:E.
  - symmetry. apply struct_iff. eapply fields_permuted; [exact HP|]. apply struct_iff. exact E.
  - destruct (struct_ names (JObj l')) as [xs|] eqn:E'; [|reflexivity]. apply struct_iff in E'. symmetry in HP.
    apply (fields_permuted _ _ _ _ HP) in E'. apply struct_iff in E'. congruence.
Qed.
Lemma mapM_ext_in {A B} (f g : A -> option B) l : (forall x, In x l -> f x = g x) -> mapM f l = mapM g l.
Proof. induction l as [|x l IH]; intros H; [reflexivity|]. simpl. rewrite H by (left; auto). rewrite IH by (intros; apply H; right; auto). reflexivity. Qed.
Lemma struct_unknown names k v l : ~ In k names -> struct_ names (JObj ((k, v) :: l)) = struct_ names (JObj l).
Proof.
  intros Hk. cbn [struct_]. apply mapM_ext_in. intros n Hn.
  assert (entries n ((k, v) :: l) = entries n l) as ->; [|reflexivity].
  unfold entries. cbn [omap list_omap fst snd]. assert (beq k n = false) as -> by (apply beq_false; intros ->; tauto). reflexivity.
Qed.
Theorem C75_order_and_unknown_entries_do_not_matter : forall date l l' extra,
  Permutation (extra ++ l) l' ->
  ((forall k v, In (k, v) extra -> ~ In k identity_fields) -> identity_of_json date (JObj l') = identity_of_json date (JObj l)) /\
  ((forall k v, In (k, v) extra -> ~ In k tcb_fields) -> tcb_of_json date (JObj l') = tcb_of_json date (JObj l)).
Proof.
  intros date l l' extra HP.
  assert (forall names, (forall k v, In (k, v) extra -> ~ In k names) -> struct_ names (JObj l') = struct_ names (JObj l)) as H.
  { intros names Hn. rewrite <- (struct_permuted names _ _ HP). clear HP. induction extra as [|[k v] ex IH]; [reflexivity|]. cbn [app].
    rewrite struct_unknown; [apply IH; intros; eapply Hn; right; eauto|]. eapply Hn. left. reflexivity. }
  split; intros Hn; unfold identity_of_json, tcb_of_json; rewrite H by exact Hn; reflexivity.
Qed.
Print Assumptions C75_order_and_unknown_entries_do_not_matter.

(** Everything read is within its type. *)
Lemma spells_octets s t : spells s t -> Forall (fun b => b < 256) t.
Proof.
  induction 1 as [|a b h l s t H1 H2 _ IH]; constructor; [|exact IH].
  assert (h < 16) by (unfold digit in H1; lia). assert (l < 16) by (unfold digit in H2; lia). lia.
Qed.
Theorem C75_values_are_typed : forall parse date o, reads_json parse date o ->
  json_levels_typed o /\
  (forall b e, or_json_tcb o b = Some e -> lenN (tj_fmspc e) = 6 /\ Forall (fun x => x < 256) (tj_fmspc e) /\ tj_version e < 256 /\
     Forall (fun l => lenN l.1.1 = 16 /\ Forall (fun x => x < 256) l.1.1 /\ l.1.2 < 65536) (tj_levels e)) /\
  (forall b e, or_json_identity o b = Some e -> lenN (ei_misc e) = 4 /\ lenN (ei_misc_mask e) = 4 /\ lenN (ei_attr e) = 16 /\
     lenN (ei_attr_mask e) = 16 /\ lenN (ei_mrsigner e) = 32 /\ ei_version e < 65536 /\ ei_prodid e < 65536 /\
     Forall (fun l => l.1 < 65536) (ei_levels e)).
Proof.
  intros parse date o (H1 & H2 & _).
  assert (forall b e, or_json_tcb o b = Some e -> lenN (tj_fmspc e) = 6 /\ Forall (fun x => x < 256) (tj_fmspc e) /\ tj_version e < 256 /\
     Forall (fun l => lenN l.1.1 = 16 /\ Forall (fun x => x < 256) l.1.1 /\ l.1.2 < 65536) (tj_levels e)) as Ht.
  { intros b e H. rewrite H2 in H. destruct (parse b) as [j|]; [|discriminate]. apply C75_tcb_read_iff in H.
    destruct H as (j1 & j2 & j3 & j4 & j5 & j6 & j7 & j8 & j9 & pce & kind & ev & _ & _ & [_ E2] & _ & _ & (s & _ & E5 & E5') & _ & _ & _ & us & _ & E9).
    split; [exact E5'|]. split; [eapply spells_octets; exact E5|]. split; [exact E2|]. clear -E9. induction E9 as [|j x us l Hx _ IH]; constructor; [|exact IH].
    destruct x as [[svns pc] st']. cbn [fst snd].
    destruct Hx as (t & d & st & a & w & c & p & _ & _ & (cs & _ & Hc) & Hl & [_ Hp] & _). cbn [fst snd] in Hc, Hl, Hp. split; [exact Hl|]. split; [|exact Hp].
    clear -Hc. induction Hc as [|u n us' ns Hu _ IHc]; constructor; [|exact IHc].
    destruct Hu as (v & c' & t' & _ & [_ Hn] & _). exact Hn. }
  split; [|split; [exact Ht|]].
  - intros doc d H. apply Ht in H as (_ & _ & _ & H). eapply Forall_impl; [exact H|]. cbn. intros l (Hl & _). unfold lenN in Hl. lia.
  - intros b e H. rewrite H1 in H. destruct (parse b) as [j|]; [|discriminate]. apply C75_identity_read_iff in H.
    destruct H as (j1 & j2 & j3 & j4 & j5 & j6 & j7 & j8 & j9 & j10 & j11 & j12 & ev & _ & _ & [_ E2] & _ & _ & _ &
      (? & _ & _ & E6) & (? & _ & _ & E7) & (? & _ & _ & E8) & (? & _ & _ & E9) & (? & _ & _ & E10) & [_ E11] & us & _ & E12).
    do 7 (split; [assumption|]). clear -E12. induction E12 as [|j x us l Hx _ IH]; constructor; [|exact IH].
    destruct Hx as (t & d & st & a & w & _ & (v & _ & [_ Hv]) & _). exact Hv.
Qed.
Print Assumptions C75_values_are_typed.

(** What [serialize_to_hex] writes is read back. *)
Theorem C75_hex_round_trip : forall l, Forall (fun b => b < 256) l -> d_hex (lenN l) (JStr (serialize_to_hex l) false) = Some l.
Proof.
  intros l Hl. apply d_hex_iff. exists (serialize_to_hex l). split; [reflexivity|]. split; [|reflexivity].
  induction Hl as [|b l Hb _ IH]; [constructor|]. cbn [serialize_to_hex].
  assert (forall n, n < 16 -> digit (hex_upper n) n) as Hd.
  { intros n Hn. unfold digit, hex_upper. destruct (N.ltb_spec n 10); lia. }
  rewrite (N.div_mod b 16) at 3 by lia. constructor; [apply Hd, N.div_lt_upper_bound; lia|apply Hd, N.mod_lt; lia|exact IH].
Qed.
Print Assumptions C75_hex_round_trip.

(** A single level whose status has another name spoils the whole document … *)
Theorem C75_unlisted_status_spoils_the_document : forall date l us lv s esc,
  once (asc "tcbLevels") (JArr us) l -> In (JObj lv) us -> once (asc "tcbStatus") (JStr s esc) lv ->
  (forall st, ~ status_text s st) ->
  tcb_of_json date (JObj l) = None /\ identity_of_json date (JObj l) = None.
Proof.
  intros date l us lv s esc Hl Hin Hs Hst.
  assert (forall names xs n x, fields (JObj l) names xs -> names !! n = Some (asc "tcbLevels") -> xs !! n = Some (Some x) -> x = JArr us) as Hf.
  { intros names xs n x [(l' & [= <-] & F)|(? & [=] & _)] Hn Hx. pose proof (Forall2_lookup_lr _ _ _ _ _ _ F Hn Hx) as H.
    unfold slot in H. apply entries_one in H, Hl. congruence. }
  assert (forall names xs n x, fields (JObj lv) names xs -> names !! n = Some (asc "tcbStatus") -> xs !! n = Some (Some x) -> x = JStr s esc) as Hf'.
  { intros names xs n x [(l' & [= <-] & F)|(? & [=] & _)] Hn Hx. pose proof (Forall2_lookup_lr _ _ _ _ _ _ F Hn Hx) as H.
    unfold slot in H. apply entries_one in H, Hs. congruence. }
  assert (forall x st, x = JStr s esc -> ~ status_value x st) as Hv.
  { intros x st -> (s' & [[e He]|He] & Ht); [|discriminate He]. injection He as <- _. eapply Hst; exact Ht. }
  split.
  - destruct (tcb_of_json date (JObj l)) as [e|] eqn:E; [exfalso|reflexivity]. apply C75_tcb_read_iff in E.
    destruct E as (j1 & j2 & j3 & j4 & j5 & j6 & j7 & j8 & j9 & pce & kind & ev & E & _ & _ & _ & _ & _ & _ & _ & _ & us' & -> & F).
    pose proof (Hf _ _ 8%nat _ E eq_refl eq_refl) as H. injection H as ->.
    apply elem_of_list_In, elem_of_list_lookup in Hin as [n Hn]. destruct (Forall2_lookup_l _ _ _ _ _ F Hn) as (x & _ & Hx).
    destruct Hx as (t & d & st & a & w & c & p & Ef & _ & _ & _ & _ & _ & Hs' & _).
    pose proof (Hf' _ _ 2%nat _ Ef eq_refl eq_refl) as H. exact (Hv _ _ H Hs').
  - destruct (identity_of_json date (JObj l)) as [e|] eqn:E; [exfalso|reflexivity]. apply C75_identity_read_iff in E.
    destruct E as (j1 & j2 & j3 & j4 & j5 & j6 & j7 & j8 & j9 & j10 & j11 & j12 & ev & E & _ & _ & _ & _ & _ & _ & _ & _ & _ & _ & _ & us' & -> & F).
    pose proof (Hf _ _ 11%nat _ E eq_refl eq_refl) as H. injection H as ->.
    apply elem_of_list_In, elem_of_list_lookup in Hin as [n Hn]. destruct (Forall2_lookup_l _ _ _ _ _ F Hn) as (x & _ & Hx).
    destruct Hx as (t & d & st & a & w & Ef & _ & _ & Hs' & _).
    pose proof (Hf' _ _ 2%nat _ Ef eq_refl eq_refl) as H. exact (Hv _ _ H Hs').
Qed.
Print Assumptions C75_unlisted_status_spoils_the_document.

(** A document with one level, given the status's name *)
Definition str (s : String.string) : json := JStr (asc s) false.
Definition hexs (n : N) : json := JStr (serialize_to_hex (zeros n)) false.
Definition component_doc (n : Z) : json := JObj [(asc "svn", JInt n); (asc "category", str "BIOS")].
Definition level_doc (status : String.string) : json :=
  JObj [(asc "tcb", JObj [(asc "sgxtcbcomponents", JArr (replicate 16 (component_doc 7))); (asc "pcesvn", JInt 13)]);
        (asc "tcbDate", str "2023-02-15T00:00:00Z"); (asc "tcbStatus", str status); (asc "advisoryIDs", JArr [str "INTEL-SA-00615"])].
Definition tcb_doc (status : String.string) (kind evaluation : Z) : json :=
  JObj [(asc "id", str "SGX"); (asc "version", JInt 3); (asc "issueDate", str "2023-04-01T00:00:00Z"); (asc "nextUpdate", str "2023-05-01T00:00:00Z");
        (asc "fmspc", str "00906EA10000"); (asc "pceId", str "0000"); (asc "tcbType", JInt kind); (asc "tcbEvaluationDataNumber", JInt evaluation);
        (asc "tcbLevels", JArr [level_doc "UpToDate"; level_doc status])].
(** Dates for the examples: from the month only, so that 5000 is between April and May *)
Definition toy_date (s : bytes) : option Z := if lenN s =? 20 then Some (1000 * Z.of_N (nth 6 s 0%N) - 47500)%Z else None.
Example C75_example_tcb :
  tcb_of_json toy_date (tcb_doc "OutOfDate" 0 15) =
    Some (mkTcbJson str_SGX 3 4500 5500 [0;144;110;161;0;0] [(replicate 16 7, 13, TUpToDate); (replicate 16 7, 13, TOutOfDate)]) /\
  (* extra entry, lower-case digits, a status as an object *)
  tcb_of_json toy_date (JObj [(asc "tcbLevels", JArr []); (asc "extra", JNull); (asc "id", str "SGX"); (asc "version", JInt 3);
    (asc "issueDate", str "2023-04-01T00:00:00Z"); (asc "nextUpdate", str "2023-05-01T00:00:00Z");
    (asc "fmspc", str "00906ea10000"); (asc "pceId", str "0000"); (asc "tcbType", JInt 0); (asc "tcbEvaluationDataNumber", JInt 15)]) =
    Some (mkTcbJson str_SGX 3 4500 5500 [0;144;110;161;0;0] []) /\
  (* an array in the order of the declaration *)
  tcb_of_json toy_date (JArr [str "SGX"; JInt 3; str "2023-04-01T00:00:00Z"; str "2023-05-01T00:00:00Z"; str "00906ea10000"; str "0000"; JInt 0; JInt 15; JArr []]) =
    Some (mkTcbJson str_SGX 3 4500 5500 [0;144;110;161;0;0] []) /\
  (* an escape sequence in a hexadecimal string, a version that does not fit *)
  tcb_of_json toy_date (JArr [str "SGX"; JInt 3; str "2023-04-01T00:00:00Z"; str "2023-05-01T00:00:00Z"; JStr (asc "00906ea10000") true; str "0000"; JInt 0; JInt 15; JArr []]) = None /\
  tcb_of_json toy_date (JArr [str "SGX"; JInt 259; str "2023-04-01T00:00:00Z"; str "2023-05-01T00:00:00Z"; str "00906ea10000"; str "0000"; JInt 0; JInt 15; JArr []]) = None.
Proof. vm_compute. auto 10. Qed.
(** … so "every TCB status of Intel's interface is read" is false: [ConfigurationNeeded] has no
    variant in primitives/teerex/src/lib.rs:123-132. *)
Theorem C75_every_status_of_intel_is_read_refuted : exists date j j' e,
  j = tcb_doc "ConfigurationAndSWHardeningNeeded" 0 15 /\ j' = tcb_doc "ConfigurationNeeded" 0 15 /\
  tcb_of_json date j = Some e /\ tcb_of_json date j' = None.
Proof.
  exists toy_date, (tcb_doc "ConfigurationAndSWHardeningNeeded" 0 15), (tcb_doc "ConfigurationNeeded" 0 15). eexists.
  split; [reflexivity|]. split; [reflexivity|]. split; vm_compute; reflexivity.
Qed.
Print Assumptions C75_every_status_of_intel_is_read_refuted.

(** The PCE id, the kind of TCB and the number of the evaluation are not looked at: any two documents
    that differ only there are read as the same. *)
Definition readable (k : bytes) (v : json) : Prop :=
  k = asc "pceId" /\ (exists s, text v s) \/ (k = asc "tcbType" \/ k = asc "tcbEvaluationDataNumber") /\ exists n, number 65536 v n.
Lemma entries_swap n k v v' a b : n <> k -> entries n (a ++ (k, v) :: b) = entries n (a ++ (k, v') :: b).
Proof.
  intros Hn. rewrite !entries_app. f_equal. unfold entries. cbn [omap list_omap fst snd].
  assert (beq k n = false) as -> by (apply beq_false; congruence). reflexivity.
Qed.
Theorem C75_kind_and_evaluation_number_not_used : forall date a b k v v', readable k v -> readable k v' ->
  tcb_of_json date (JObj (a ++ (k, v) :: b)) = tcb_of_json date (JObj (a ++ (k, v') :: b)).
Proof.
  assert (forall date a b k v v' e, readable k v' -> tcb_of_json date (JObj (a ++ (k, v) :: b)) = Some e ->
    tcb_of_json date (JObj (a ++ (k, v') :: b)) = Some e) as H.
  2:{ intros date a b k v v' Hv Hv'. destruct (tcb_of_json date (JObj (a ++ (k, v) :: b))) as [e|] eqn:E.
      - symmetry. eapply H; eauto.
      - destruct (tcb_of_json date (JObj (a ++ (k, v') :: b))) as [e|] eqn:E'; [|reflexivity]. apply (H _ _ _ _ _ v) in E'; [congruence|auto]. }
  intros date a b k v v' e Hr He. apply C75_tcb_read_iff in He. apply C75_tcb_read_iff.
  destruct He as (j1 & j2 & j3 & j4 & j5 & j6 & j7 & j8 & j9 & pce & kind & ev & F & E1 & E2 & E3 & E4 & E5 & E6 & E7 & E8 & E9).
  destruct F as [(l & [= <-] & F)|(? & [=] & _)].
  assert (forall n x, n <> k -> slot (a ++ (k, v) :: b) n x -> slot (a ++ (k, v') :: b) n x) as Hs.
  { intros n [x|] Hn; unfold slot; rewrite <- ?entries_one, <- ?entries_nil, (entries_swap n k v v') by auto; auto. }
  assert (forall x, slot (a ++ (k, v) :: b) k (Some x) -> slot (a ++ (k, v') :: b) k (Some v')) as Hk.
  { intros x. unfold slot. rewrite <- !entries_one, !entries_app, !entries_here. destruct (entries k a) as [|y [|z r]]; cbn; intros [=]. congruence. }
  repeat match type of F with Forall2 _ (_ :: _) _ => let S := fresh "S" in apply Forall2_cons in F as [S F] end.
  destruct Hr as [[-> [s Hs']]|[[-> | ->] [n Hn]]].
  - exists j1, j2, j3, j4, j5, v', j7, j8, j9, s, kind, ev. split; [|auto 20]. left. eexists. split; [reflexivity|].
    repeat (apply Forall2_cons; split; [first [apply Hs; [discriminate|assumption]|eapply Hk; eassumption]|]). constructor.
  - exists j1, j2, j3, j4, j5, j6, v', j8, j9, pce, n, ev. split; [|auto 20]. left. eexists. split; [reflexivity|].
    repeat (apply Forall2_cons; split; [first [apply Hs; [discriminate|assumption]|eapply Hk; eassumption]|]). constructor.
  - exists j1, j2, j3, j4, j5, j6, j7, v', j9, pce, kind, n. split; [|auto 20]. left. eexists. split; [reflexivity|].
    repeat (apply Forall2_cons; split; [first [apply Hs; [discriminate|assumption]|eapply Hk; eassumption]|]). constructor.
Qed.
Print Assumptions C75_kind_and_evaluation_number_not_used.
Example C75_example_evaluation : tcb_of_json toy_date (tcb_doc "OutOfDate" 0 15) = tcb_of_json toy_date (tcb_doc "OutOfDate" 1 4) /\
  tcb_of_json toy_date (tcb_doc "OutOfDate" 1 4) <> None.
Proof. split; [vm_compute; reflexivity|vm_compute; discriminate]. Qed.

(** ** On the chain: what is stored is what the document says *)
Theorem C75_stored_collateral_is_what_the_document_says : forall parse date c o s s', reads_json parse date (c_sgx c) ->
  (forall doc sig chain, dispatch c o (CTx (TxRegisterQe doc sig chain)) s = (Success, s') ->
   exists j e, parse doc = Some j /\ identity_says date j e /\
   tx_qe (rt_tx s') = mkQe (Z.to_N (ei_issue e)) (Z.to_N (ei_next e)) (ei_misc e) (ei_misc_mask e) (ei_attr e) (ei_attr_mask e)
                           (ei_mrsigner e) (ei_prodid e) (map fst (ei_levels e))) /\
  (forall doc sig chain, dispatch c o (CTx (TxRegisterTcb doc sig chain)) s = (Success, s') ->
   exists j e, parse doc = Some j /\ tcb_says date j e /\
   tx_tcb (rt_tx s') = <[tj_fmspc e := mkTcbInfo (Z.to_N (tj_issue e)) (Z.to_N (tj_next e))
                          (map (fun l => mkTcbLevel l.1.1 l.1.2 l.2) (tj_levels e))]> (tx_tcb (rt_tx s))).
Proof.
  intros parse date c o s s' (H1 & H2 & _). split; intros doc sig chain H; apply run_call_ok in H; cbn [exec tx_exec] in H.
  - apply reg_qe_ok in H as (a & e & _ & [_ He] & _ & _ & _ & _ & ->). rewrite H1 in He. destruct (parse doc) as [j|]; [|discriminate].
    apply C75_identity_read_iff in He. exists j, e. auto.
  - apply reg_tcb_ok in H as (a & e & _ & [_ He] & _ & _ & _ & _ & ->). rewrite H2 in He. destruct (parse doc) as [j|]; [|discriminate].
    apply C75_tcb_read_iff in He. exists j, e. auto.
Qed.
Print Assumptions C75_stored_collateral_is_what_the_document_says.
(** Oracles of this kind: the JSON texts are two documents, named [1] and [2] *)
Definition identity_doc : json :=
  JObj [(asc "id", str "QE"); (asc "version", JInt 2); (asc "issueDate", str "2023-04-01T00:00:00Z"); (asc "nextUpdate", str "2023-05-01T00:00:00Z");
        (asc "tcbEvaluationDataNumber", JInt 15); (asc "miscselect", hexs 4); (asc "miscselectMask", str "FFFFFFFF");
        (asc "attributes", hexs 16); (asc "attributesMask", hexs 16); (asc "mrsigner", hexs 32); (asc "isvprodid", JInt 1);
        (asc "tcbLevels", JArr [JObj [(asc "tcb", JObj [(asc "isvsvn", JInt 8)]); (asc "tcbDate", str "2023-02-15T00:00:00Z"); (asc "tcbStatus", str "UpToDate")];
                                JObj [(asc "tcb", JObj [(asc "isvsvn", JInt 6)]); (asc "tcbDate", str "2021-11-10T00:00:00Z"); (asc "tcbStatus", str "OutOfDate")]])].
Definition toy_parse (b : bytes) : option json :=
  match b with [1] => Some identity_doc | [2] => Some (tcb_doc "OutOfDate" 0 15) | _ => None end.
Definition sgx_json : sgx_oracles :=
  mkSgx (or_sha256 sgx_demo) (or_b64 sgx_demo) (or_ee_parse sgx_demo) (or_chain sgx_demo) (or_ias_ca sgx_demo)
        (or_ecdsa_cert sgx_demo) (or_rsa_cert sgx_demo) (or_p256_fixed sgx_demo) (or_x509_ext sgx_demo)
        (fun b => match toy_parse b with Some j => identity_of_json toy_date j | None => None end)
        (fun b => match toy_parse b with Some j => tcb_of_json toy_date j | None => None end)
        (fun b => match toy_parse b with Some j => Some (ias_of_json j) | None => None end)
        (or_datetime sgx_demo).
Definition cfg_json : cfg :=
  mkCfg true 10 340282366920938463463374607431768211455 u32_max 1000 86400000 172800000 3 64
        [] (fun _ => false) (fun _ => false) (fun _ => false) 2267 2039 2039
        (fun b => takeN 32 (b ++ zeros 32)) (fun _ _ => None) (fun _ => inr []) sgx_json.
Example C75_example_stored : reads_json toy_parse toy_date sgx_json /\
  or_json_identity sgx_json [1] = Some (mkIdentity str_QE 2 4500 5500 (zeros 4) [255;255;255;255] (zeros 16) (zeros 16) (zeros 32) 1 [(8, TUpToDate); (6, TOutOfDate)]) /\
  (let '(st, s') := dispatch cfg_json (Signed carol) (CTx (TxRegisterQe [1] (zeros 64) pem_demo)) (genesis_state (gen0 [])) in
   st = Success /\ q_tcb (tx_qe (rt_tx s')) = [8; 6]) /\
  (let '(st, s') := dispatch cfg_json (Signed carol) (CTx (TxRegisterTcb [2] (zeros 64) pem_demo)) (genesis_state (gen0 [])) in
   st = Success /\ tx_tcb (rt_tx s') !! ([0;144;110;161;0;0] : bytes) =
     Some (mkTcbInfo 4500 5500 [mkTcbLevel (replicate 16 7) 13 TUpToDate; mkTcbLevel (replicate 16 7) 13 TOutOfDate])).
Proof. split; [split; [|split]; reflexivity|]. vm_compute. auto 10. Qed.
