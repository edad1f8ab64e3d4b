(** * Lemmas on the sgx-verify model. *)
From Verif Require Import Base State SgxVerifyModel.

(** ** Results *)
Lemma rbind_ok {A B} (m : res A) (k : A -> res B) b : rbind m k = ROk b -> exists a, m = ROk a /\ k a = ROk b.
Proof. destruct m; cbn; intros; try discriminate. eauto. Qed.
Lemma rensure_ok b e u : rensure b e = ROk u -> b = true.
Proof. destruct b; cbn; auto; discriminate. Qed.
Lemma rok_or_ok {A} (o : option A) e a : rok_or o e = ROk a -> o = Some a.
Proof. destruct o; cbn; congruence. Qed.
Lemma z_to_u64_ok z n : z_to_u64 z = ROk n -> (0 <= z)%Z /\ n = Z.to_N z.
Proof. unfold z_to_u64. destruct (Z.leb_spec 0 z); intros E; inversion E; auto. Qed.

(** Functions that do not panic *)
Definition rnp {A} (r : res A) : Prop := r <> RPanic.
Lemma rnp_ok {A} (a : A) : rnp (ROk a). Proof. discriminate. Qed.
Lemma rnp_err {A} e : rnp (RErr e : res A). Proof. discriminate. Qed.
Lemma rnp_ensure b e : rnp (rensure b e). Proof. destruct b; discriminate. Qed.
Lemma rnp_ok_or {A} (o : option A) e : rnp (rok_or o e). Proof. destruct o; discriminate. Qed.
Lemma rnp_bind {A B} (m : res A) (k : A -> res B) : rnp m -> (forall a, m = ROk a -> rnp (k a)) -> rnp (rbind m k).
Proof. unfold rnp. destruct m; cbn; auto; discriminate. Qed.

(** ** Byte strings *)
Lemma takeN_dropN {A} n (l : list A) : takeN n l ++ dropN n l = l.
Proof. apply take_drop. Qed.
Lemma takeN_app {A} (a b : list A) n : lenN a = n -> takeN n (a ++ b) = a.
Proof. unfold lenN, takeN. intros <-. rewrite Nat2N.id. apply take_app. Qed.
Lemma dropN_app {A} (a b : list A) n : lenN a = n -> dropN n (a ++ b) = b.
Proof. unfold lenN, dropN. intros <-. rewrite Nat2N.id. apply drop_app. Qed.
Lemma dropN_0 {A} (l : list A) : dropN 0 l = l.
Proof. reflexivity. Qed.
Lemma dropN_add {A} n m (l : list A) : dropN (n + m) l = dropN m (dropN n l).
Proof. unfold dropN. rewrite drop_drop. f_equal. lia. Qed.
Lemma read_ok k l a b : read k l = Some (a, b) -> l = a ++ b /\ lenN a = k.
Proof.
  unfold read. destruct (N.leb_spec k (lenN l)); intros E; inversion E; subst. split.
  - symmetry. apply takeN_dropN.
  - rewrite lenN_takeN. lia.
Qed.
Lemma read_app a b k : lenN a = k -> read k (a ++ b) = Some (a, b).
Proof.
  intros E. unfold read. rewrite lenN_app. destruct (N.leb_spec k (lenN a + lenN b)); [|lia].
  rewrite takeN_app, dropN_app by auto. reflexivity.
Qed.
Lemma get_range_ok {A} off n (l x : list A) : get_range off n l = Some x ->
  exists a b, l = a ++ x ++ b /\ lenN a = off /\ lenN x = n.
Proof.
  unfold get_range. destruct (N.leb_spec (off + n) (lenN l)); intros E; inversion E; subst.
  exists (takeN off l), (dropN n (dropN off l)). split; [|split].
  - rewrite takeN_dropN. rewrite takeN_dropN. auto.
  - rewrite lenN_takeN. lia.
  - rewrite lenN_takeN, lenN_dropN. lia.
Qed.
Lemma get_range_app {A} (a x b : list A) off n : lenN a = off -> lenN x = n -> get_range off n (a ++ x ++ b) = Some x.
Proof.
  intros E1 E2. unfold get_range. rewrite !lenN_app. destruct (N.leb_spec (off + n) (lenN a + (lenN x + lenN b))); [|lia].
  rewrite dropN_app, takeN_app by auto. auto.
Qed.
Lemma get_range_len {A} off n (l x : list A) : get_range off n l = Some x -> lenN x = n.
Proof. intros H. apply get_range_ok in H as (a & b & _ & _ & H). auto. Qed.

(** ** Searching *)
Lemma is_prefix_spec p l : is_prefix p l = true <-> exists r, l = p ++ r.
Proof.
  revert l. induction p as [|x p IH]; intros l; cbn.
  - split; eauto.
  - destruct l as [|y l]; [split; [discriminate|intros [r E]; discriminate E]|].
    rewrite andb_true_iff, N.eqb_eq, IH. split.
    + intros [-> [r ->]]. eauto.
    + intros [r E]. inversion E; subst. eauto.
Qed.
Lemma is_prefix_len p l : is_prefix p l = true -> (length p <= length l)%nat.
Proof. intros H. apply is_prefix_spec in H as [r ->]. rewrite app_length. lia. Qed.
(** [position] finds the first occurrence *)
Lemma position_spec pat l i : pat <> [] -> position pat l = Some i <->
  is_prefix pat (dropN i l) = true /\ (forall j, j < i -> is_prefix pat (dropN j l) = false) .
Proof.
  intros Hp. revert i. induction l as [|x l IH]; intros i.
  - cbn [position]. assert (forall i, is_prefix pat (dropN i []) = false) as Hn.
    { intros j. unfold dropN. rewrite drop_nil. destruct pat; [contradiction|auto]. }
    assert (is_prefix pat [] = false) as -> by (destruct pat; [contradiction|auto]).
    split; [discriminate|]. intros [H _]. rewrite Hn in H. discriminate.
  - cbn [position]. destruct (is_prefix pat (x :: l)) eqn:E.
    + split.
      * intros H. inversion H; subst. rewrite dropN_0. split; [auto|]. intros j Hj. lia.
      * intros [H1 H2]. destruct (decide (i = 0)) as [->|Hi]; [auto|].
        specialize (H2 0). rewrite dropN_0, E in H2. discriminate H2. lia.
    + assert (forall j, dropN (1 + j) (x :: l) = dropN j l) as Hd.
      { intros j. rewrite dropN_add. reflexivity. }
      destruct (position pat l) as [k|] eqn:Ep.
      * destruct (proj1 (IH k) eq_refl) as [H1 H2]. split.
        -- intros H. inversion H; subst. rewrite Hd. split; [auto|].
           intros j Hj. destruct (decide (j = 0)) as [->|Hj0]; [auto|].
           replace j with (1 + (j - 1)) by lia. rewrite Hd. apply H2. lia.
        -- intros [H3 H4]. destruct (decide (i = 0)) as [->|Hi]; [rewrite dropN_0 in H3; congruence|].
           replace i with (1 + (i - 1)) in H3 by lia. rewrite Hd in H3. f_equal.
           assert (Some k = Some (i - 1)) as Ek.
           { apply IH. split; [auto|]. intros j Hj. rewrite <- Hd. apply H4. lia. }
           inversion Ek. lia.
      * split; [discriminate|]. intros [H3 H4]. exfalso.
        destruct (decide (i = 0)) as [->|Hi]; [rewrite dropN_0 in H3; congruence|].
        replace i with (1 + (i - 1)) in H3 by lia. rewrite Hd in H3.
        assert (None = Some (i - 1)) as Ek; [|discriminate Ek].
        apply IH. split; [auto|]. intros j Hj. rewrite <- Hd. apply H4. lia.
Qed.

(** ** Splitting *)
Lemma split_go_length pat s skip cur : pat <> [] -> (skip <= length s)%nat ->
  (length (concat (split_go pat s skip cur)) + length pat * (length (split_go pat s skip cur) - 1)
   = length s - skip + length cur)%nat /\ (1 <= length (split_go pat s skip cur))%nat.
Proof.
  intros Hp. revert skip cur. induction s as [|x r IH]; intros skip cur Hs.
  - cbn in *. rewrite app_nil_r, rev_length. split; [|lia]. destruct skip; lia.
  - cbn [split_go]. destruct skip as [|k].
    + destruct (is_prefix pat (x :: r)) eqn:E.
      * apply is_prefix_len in E. cbn [length] in E.
        assert (length pat - 1 <= length r)%nat as Hk by lia.
        destruct (IH (length pat - 1)%nat [] Hk) as [H1 H2]. cbn [concat length].
        rewrite app_length, rev_length. destruct pat as [|p0 pat]; [contradiction|]. cbn [length] in *.
        split; [|lia].
        destruct (length (split_go (p0 :: pat) r (S (length pat) - 1) [])) as [|m] eqn:Em; [lia|].
        cbn [Nat.sub] in *. rewrite Nat.sub_0_r in *. lia.
      * destruct (IH O (x :: cur)) as [H1 H2]; [lia|]. cbn [length] in *. split; lia.
    + destruct (IH k cur) as [H1 H2]; [cbn in Hs; lia|]. cbn [length] in *. split; [|lia]. lia.
Qed.
Lemma split_on_length pat s : pat <> [] ->
  (length (concat (split_on pat s)) + length pat * (length (split_on pat s) - 1) = length s)%nat.
Proof.
  intros Hp. unfold split_on. destruct (split_go_length pat s O [] Hp) as [H _]; [lia|]. cbn [length] in H. lia.
Qed.
Lemma remove_all_length pat s : pat <> [] -> (length (remove_all pat s) <= length s)%nat.
Proof. intros Hp. unfold remove_all. rewrite <- (split_on_length pat s Hp). apply Nat.le_add_r. Qed.

Lemma utf8_lossy_fuel_length f l : (length (utf8_lossy_fuel f l) <= length l)%nat.
Proof.
  revert l. induction f as [|f IH]; intros l; [cbn; lia|].
  destruct l as [|b0 r0]; [cbn; lia|]. cbn [utf8_lossy_fuel].
  repeat match goal with
  | |- context[utf8_lossy_fuel f ?x] =>
      lazymatch goal with H : (length (utf8_lossy_fuel f x) <= _)%nat |- _ => fail | _ => pose proof (IH x) end
  | |- context[if ?b then _ else _] => destruct b
  | |- context[match ?x with [] => _ | _ => _ end] => destruct x
  end; cbn [length] in *; try lia.
Qed.
Lemma utf8_lossy_length l : (length (utf8_lossy l) <= length l)%nat.
Proof. apply utf8_lossy_fuel_length. Qed.

Lemma omap_nonempty {A} (f : bytes -> option A) (parts : list bytes) :
  (forall p, p = [] -> f p = None) -> (length (omap f parts) <= length (concat parts))%nat /\ (length (omap f parts) <= length parts)%nat.
Proof.
  intros Hf. induction parts as [|p r [IH1 IH2]]; [cbn; lia|].
  change (omap f (p :: r)) with (match f p with Some y => y :: omap f r | None => omap f r end).
  cbn [concat]. rewrite app_length. destruct (f p) as [y|] eqn:E; cbn [length]; [|lia].
  destruct p; [rewrite Hf in E; [discriminate|auto]|]. cbn [length]. lia.
Qed.

(** Two certificates take at least 27 bytes: two non-empty parts and an end marker between them *)
Lemma extract_certs_length o chain : (2 <= length (extract_certs o chain))%nat -> (27 <= length chain)%nat.
Proof.
  unfold extract_certs. set (s := filter _ (utf8_lossy chain)). intros H.
  assert (length s <= length chain)%nat as H1.
  { subst s. eapply Nat.le_trans; [apply filter_length|apply utf8_lossy_length]. }
  assert (length (remove_all begin_marker s) <= length s)%nat as H2 by (apply remove_all_length; discriminate).
  pose proof (split_on_length end_marker (remove_all begin_marker s)) as H3.
  match type of H with (_ <= length (omap ?f ?parts))%nat =>
    destruct (omap_nonempty f parts) as [H4 H5]; [intros p ->; reflexivity|] end.
  change (length end_marker) with 25%nat in H3.
  assert (end_marker <> []) as Hne by discriminate. specialize (H3 Hne). unfold bytes in *. lia.
Qed.

(** ** Decoding quotes *)
Record quote_parts := mkParts {
  qp_header : bytes; qp_body : bytes; qp_siglen : bytes; qp_isv_sig : bytes; qp_key : bytes;
  qp_qe_report : bytes; qp_qe_sig : bytes; qp_auth_size : bytes; qp_auth : bytes;
  qp_cert_type : bytes; qp_cert_size : bytes; qp_certs : bytes }.
Definition parts_wf (p : quote_parts) : Prop :=
  lenN (qp_header p) = 48 /\ lenN (qp_body p) = 384 /\ lenN (qp_siglen p) = 4 /\ lenN (qp_isv_sig p) = 64 /\
  lenN (qp_key p) = 64 /\ lenN (qp_qe_report p) = 384 /\ lenN (qp_qe_sig p) = 64 /\ lenN (qp_auth_size p) = 2 /\
  lenN (qp_auth p) = le_val (qp_auth_size p) /\ lenN (qp_cert_type p) = 2 /\ lenN (qp_cert_size p) = 4 /\
  le_val (qp_cert_size p) <= 65000 /\ lenN (qp_certs p) = le_val (qp_cert_size p).
Definition parts_bytes (p : quote_parts) (rest : bytes) : bytes :=
  qp_header p ++ qp_body p ++ qp_siglen p ++ qp_isv_sig p ++ qp_key p ++ qp_qe_report p ++ qp_qe_sig p ++
  qp_auth_size p ++ qp_auth p ++ qp_cert_type p ++ qp_cert_size p ++ qp_certs p ++ rest.
Definition parts_quote (p : quote_parts) : dcap_quote :=
  mkQuote (le_val (sub_ 0 2 (qp_header p))) (le_val (sub_ 2 2 (qp_header p))) (parse_body (qp_body p))
          (qp_isv_sig p) (qp_key p) (parse_body (qp_qe_report p)) (qp_qe_sig p) (qp_auth p)
          (le_val (qp_cert_type p)) (qp_certs p).
Lemma decode_quote_ok l q rest : decode_quote l = Some (q, rest) ->
  exists p, parts_wf p /\ l = parts_bytes p rest /\ q = parts_quote p.
Proof.
  unfold decode_quote. intros H.
  destruct (read 48 l) as [[header l1]|] eqn:E1; [|discriminate H].
  destruct (read 384 l1) as [[body l2]|] eqn:E2; [|discriminate H].
  destruct (read 4 l2) as [[siglen l3]|] eqn:E3; [|discriminate H].
  destruct (read 64 l3) as [[isv l4]|] eqn:E4; [|discriminate H].
  destruct (read 64 l4) as [[key l5]|] eqn:E5; [|discriminate H].
  destruct (read 384 l5) as [[qer l6]|] eqn:E6; [|discriminate H].
  destruct (read 64 l6) as [[qsig l7]|] eqn:E7; [|discriminate H].
  destruct (read 2 l7) as [[asz l8]|] eqn:E8; [|discriminate H].
  destruct (read (le_val asz) l8) as [[auth l9]|] eqn:E9; [|discriminate H].
  destruct (read 2 l9) as [[cty l10]|] eqn:E10; [|discriminate H].
  destruct (read 4 l10) as [[csz l11]|] eqn:E11; [|discriminate H].
  destruct (N.ltb_spec 65000 (le_val csz)); [discriminate H|].
  destruct (read (le_val csz) l11) as [[certs l12]|] eqn:E12; [|discriminate H].
  inversion H; subst q l12; clear H.
  apply read_ok in E1 as [-> E1], E2 as [-> E2], E3 as [-> E3], E4 as [-> E4], E5 as [-> E5], E6 as [-> E6],
    E7 as [-> E7], E8 as [-> E8], E9 as [-> E9], E10 as [-> E10], E11 as [-> E11], E12 as [-> E12].
  exists (mkParts header body siglen isv key qer qsig asz auth cty csz certs).
  split; [|split]; [|reflexivity|reflexivity]. unfold parts_wf. cbn. repeat split; auto.
Qed.
Lemma decode_quote_parts p rest : parts_wf p -> decode_quote (parts_bytes p rest) = Some (parts_quote p, rest).
Proof.
  intros (H1 & H2 & H3 & H4 & H5 & H6 & H7 & H8 & H9 & H10 & H11 & H12 & H13).
  unfold decode_quote, parts_bytes.
  rewrite (read_app _ _ _ H1), (read_app _ _ _ H2), (read_app _ _ _ H3), (read_app _ _ _ H4), (read_app _ _ _ H5),
    (read_app _ _ _ H6), (read_app _ _ _ H7), (read_app _ _ _ H8), (read_app _ _ _ H9), (read_app _ _ _ H10),
    (read_app _ _ _ H11).
  destruct (N.ltb_spec 65000 (le_val (qp_cert_size p))); [lia|]. rewrite (read_app _ _ _ H13). reflexivity.
Qed.

Lemma slice_parts (l a x b : bytes) off n : l = a ++ x ++ b -> lenN a = off -> lenN x = n -> slice off n l = ROk x.
Proof. intros ->. intros. unfold slice. rewrite (get_range_app a x b off n) by auto. auto. Qed.

(** The slices [verify_dcap_quote] takes out of the raw bytes *)
Lemma key_slice p rest : parts_wf p -> slice 500 64 (parts_bytes p rest) = ROk (qp_key p).
Proof.
  intros (H1 & H2 & H3 & H4 & H5 & H6 & H7 & H8 & H9 & H10 & H11 & H12 & H13).
  eapply (slice_parts _ (qp_header p ++ qp_body p ++ qp_siglen p ++ qp_isv_sig p) _ _).
  - unfold parts_bytes. rewrite <- !app_assoc. reflexivity.
  - rewrite !lenN_app. lia.
  - auto.
Qed.
Lemma qe_slice p rest : parts_wf p -> slice 564 384 (parts_bytes p rest) = ROk (qp_qe_report p).
Proof.
  intros (H1 & H2 & H3 & H4 & H5 & H6 & H7 & H8 & H9 & H10 & H11 & H12 & H13).
  eapply (slice_parts _ (qp_header p ++ qp_body p ++ qp_siglen p ++ qp_isv_sig p ++ qp_key p) _ _).
  - unfold parts_bytes. rewrite <- !app_assoc. reflexivity.
  - rewrite !lenN_app. lia.
  - auto.
Qed.
Lemma isv_slice p rest : parts_wf p -> slice 0 432 (parts_bytes p rest) = ROk (qp_header p ++ qp_body p).
Proof.
  intros (H1 & H2 & H3 & H4 & H5 & H6 & H7 & H8 & H9 & H10 & H11 & H12 & H13).
  eapply (slice_parts _ [] _ _).
  - unfold parts_bytes. cbn [app]. rewrite <- !app_assoc. reflexivity.
  - reflexivity.
  - rewrite lenN_app. lia.
Qed.
(** The 32 bytes at the position of the authentication data *)
Definition auth32 (p : quote_parts) : bytes := takeN 32 (qp_auth p ++ qp_cert_type p ++ qp_cert_size p ++ qp_certs p).
Lemma auth_slice p : parts_wf p -> 27 <= lenN (qp_certs p) -> slice 1014 32 (parts_bytes p []) = ROk (auth32 p).
Proof.
  intros (H1 & H2 & H3 & H4 & H5 & H6 & H7 & H8 & H9 & H10 & H11 & H12 & H13) H.
  eapply (slice_parts _ (qp_header p ++ qp_body p ++ qp_siglen p ++ qp_isv_sig p ++ qp_key p ++ qp_qe_report p ++
           qp_qe_sig p ++ qp_auth_size p) _ (dropN 32 (qp_auth p ++ qp_cert_type p ++ qp_cert_size p ++ qp_certs p))).
  - unfold auth32. rewrite takeN_dropN. unfold parts_bytes. rewrite <- !app_assoc, app_nil_r. reflexivity.
  - rewrite !lenN_app. lia.
  - unfold auth32. rewrite lenN_takeN, !lenN_app. lia.
Qed.
Lemma auth_slice_np p rest : parts_wf p -> 27 <= lenN (qp_certs p) -> rnp (slice 1014 32 (parts_bytes p rest)).
Proof.
  intros (H1 & H2 & H3 & H4 & H5 & H6 & H7 & H8 & H9 & H10 & H11 & H12 & H13) H.
  unfold slice, get_range. destruct (N.leb_spec (1014 + 32) (lenN (parts_bytes p rest))) as [|Hl]; [discriminate|].
  unfold parts_bytes in Hl. rewrite !lenN_app in Hl. lia.
Qed.

(** ** The certificate's platform data does not depend on the time; it never panics *)
Lemma extract_tcb_np o cert : rnp (extract_tcb_info o cert).
Proof.
  unfold extract_tcb_info. apply rnp_bind.
  { unfold get_intel_extension. destruct (or_x509_ext o cert); [|discriminate].
    destruct (filter _ _) as [|e [|? ?]]; discriminate. }
  intros ext _. apply rnp_bind.
  { unfold get_fmspc. apply rnp_bind; [apply rnp_ok_or|intros; apply rnp_ok_or]. }
  intros fm _. apply rnp_bind.
  { unfold get_cpusvn. apply rnp_bind; [apply rnp_ok_or|intros; apply rnp_ok_or]. }
  intros cp _. apply rnp_bind; [|intros; discriminate].
  unfold get_pcesvn. apply rnp_bind; [apply rnp_ok_or|]. intros off _.
  apply rnp_bind; [apply rnp_ok_or|]. intros [n off'] _.
  apply rnp_bind; [apply rnp_ensure|]. intros _ _. apply rnp_bind; [apply rnp_ok_or|discriminate].
Qed.
Lemma encode_der_np d : rnp (encode_as_der d).
Proof. unfold encode_as_der. destruct (negb _); [discriminate|]. destruct (_ <=? _); discriminate. Qed.

(** ** Unfolding of [verify_dcap_quote] on decoded parts *)
Definition accepts_parts (o : sgx_oracles) (p : quote_parts) (t : N) (qe : qenclave) (fm : bytes) (tcb : tcb_level) : Prop :=
  le_val (sub_ 0 2 (qp_header p)) = 3 /\ le_val (sub_ 2 2 (qp_header p)) = 2 /\ le_val (qp_cert_type p) = 5 /\
  verify_body (parse_body (qp_qe_report p)) qe = true /\
  exists leaf i inter sig,
    extract_certs o (qp_certs p) = leaf :: i :: inter /\ or_ee_parse o leaf = true /\
    or_chain o leaf (i :: inter) (t / 1000) = true /\
    extract_tcb_info o leaf = ROk (fm, tcb) /\
    or_sha256 o (qp_key p ++ auth32 p) = sub_ 320 32 (qp_qe_report p) /\
    or_p256_fixed o (4 :: qp_key p) (qp_header p ++ qp_body p) (qp_isv_sig p) = true /\
    encode_as_der (qp_qe_sig p) = ROk sig /\ or_ecdsa_cert o leaf (qp_qe_report p) sig = true.
Definition parts_report (p : quote_parts) (t : N) : verified_report :=
  mkReport (sub_ 64 32 (qp_body p)) (sub_ 128 32 (qp_body p)) (sub_ 320 64 (qp_body p)) StInvalid t
           (sgx_build_mode (parse_body (qp_body p))).
Lemma sub_sub (l : bytes) : takeN 32 (sub_ 320 64 l) = sub_ 320 32 l.
Proof. unfold sub_, takeN. rewrite take_take. f_equal. Qed.
Lemma verify_dcap_iff o raw t qe fm tcb r :
  verify_dcap_quote o raw t qe = ROk (fm, tcb, r) <->
  exists p, parts_wf p /\ raw = parts_bytes p [] /\ accepts_parts o p t qe fm tcb /\ r = parts_report p t.
Proof.
  unfold verify_dcap_quote. split.
  - intros H. apply rbind_ok in H as ([q rest] & Hq & H). apply rok_or_ok in Hq.
    apply decode_quote_ok in Hq as (p & Hp & -> & ->).
    apply rbind_ok in H as (? & H1 & H). apply rensure_ok in H1. apply N.eqb_eq in H1.
    apply rbind_ok in H as (? & H2 & H). apply rensure_ok in H2. apply N.eqb_eq in H2.
    apply rbind_ok in H as (? & H3 & H). apply rensure_ok in H3. apply N.eqb_eq in H3.
    apply rbind_ok in H as (? & H4 & H). apply rensure_ok in H4.
    cbn [dq_cert_data parts_quote] in H.
    destruct (extract_certs o (qp_certs p)) as [|leaf [|i inter]] eqn:Ec; try discriminate H.
    assert (27 <= lenN (qp_certs p)) as Hlen.
    { pose proof (extract_certs_length o (qp_certs p)) as Hl. rewrite Ec in Hl. cbn [length] in Hl. unfold lenN. lia. }
    apply rbind_ok in H as (? & H5 & H). apply rensure_ok in H5.
    apply rbind_ok in H as (? & H6 & H). apply rensure_ok in H6.
    apply rbind_ok in H as ([fm' tcb'] & H7 & H).
    change (48 + 384 + 4 + 64 + 64 + 384 + 64 + 2) with 1014 in H. change (48 + 384 + 4 + 64 + 64) with 564 in H.
    change (48 + 384 + 4 + 64) with 500 in H. change (48 + 384) with 432 in H.
    rewrite key_slice, qe_slice, isv_slice in H by auto. cbn [rbind] in H.
    apply rbind_ok in H as (au & H8 & H). cbn [rbind] in H.
    apply rbind_ok in H as (? & H9 & H). apply rensure_ok in H9. apply beq_true in H9.
    apply rbind_ok in H as (? & H10 & H). apply rensure_ok in H10.
    apply rbind_ok in H as (sig & H11 & H). apply rbind_ok in H as (? & H12 & H). apply rensure_ok in H12.
    apply rbind_ok in H as (? & H13 & H). apply rensure_ok in H13. destruct rest; [|discriminate H13].
    rewrite auth_slice in H8 by auto. inversion H8; subst au. inversion H; subst; clear H.
    exists p. split; [auto|]. split; [auto|]. split; [|reflexivity].
    unfold accepts_parts. repeat (split; [auto; fail|]).
    exists leaf, i, inter, sig. rewrite <- sub_sub. repeat (split; [auto; fail|]). auto.
  - intros (p & Hp & -> & (H1 & H2 & H3 & H4 & leaf & i & inter & sig & Ec & H5 & H6 & H7 & H8 & H9 & H10 & H11) & ->).
    assert (27 <= lenN (qp_certs p)) as Hlen.
    { pose proof (extract_certs_length o (qp_certs p)) as Hl. rewrite Ec in Hl. cbn [length] in Hl. unfold lenN. lia. }
    rewrite decode_quote_parts by auto. cbn [rok_or rbind].
    cbn [dq_version dq_key_type dq_cert_type dq_qe_report dq_cert_data parts_quote dq_att_key dq_isv_sig dq_qe_sig dq_body].
    rewrite H1, H2, H3, H4, Ec. cbn [N.eqb Pos.eqb rensure rbind]. unfold N.eqb. cbn [Pos.eqb rensure rbind].
    unfold verify_certificate_chain, verify_signature. rewrite H5, H6. cbn [rensure rbind]. rewrite H7. cbn [rbind].
    change (48 + 384 + 4 + 64 + 64 + 384 + 64 + 2) with 1014. change (48 + 384 + 4 + 64 + 64) with 564.
    change (48 + 384 + 4 + 64) with 500. change (48 + 384) with 432.
    rewrite key_slice, qe_slice, isv_slice, auth_slice by auto. cbn [rbind].
    cbn [rb_report_data parse_body]. rewrite sub_sub, H8, beq_refl. cbn [rensure rbind].
    rewrite H9. cbn [rensure rbind]. rewrite H10. cbn [rbind]. rewrite H11. reflexivity.
Qed.

(** No byte string makes the verification panic *)
Lemma verify_dcap_np o raw t qe : rnp (verify_dcap_quote o raw t qe).
Proof.
  unfold verify_dcap_quote. apply rnp_bind; [apply rnp_ok_or|]. intros [q rest] Hq. apply rok_or_ok in Hq.
  apply decode_quote_ok in Hq as (p & Hp & -> & ->).
  do 4 (apply rnp_bind; [apply rnp_ensure|]; intros _ _).
  cbn [dq_cert_data parts_quote].
  destruct (extract_certs o (qp_certs p)) as [|leaf [|i inter]] eqn:Ec; try discriminate.
  assert (27 <= lenN (qp_certs p)) as Hlen.
  { pose proof (extract_certs_length o (qp_certs p)) as Hl. rewrite Ec in Hl. cbn [length] in Hl. unfold lenN. lia. }
  apply rnp_bind; [apply rnp_ensure|]; intros _ _. apply rnp_bind; [apply rnp_ensure|]; intros _ _.
  apply rnp_bind; [apply extract_tcb_np|]. intros [fm tcb] _.
  change (48 + 384 + 4 + 64 + 64 + 384 + 64 + 2) with 1014. change (48 + 384 + 4 + 64 + 64) with 564.
  change (48 + 384 + 4 + 64) with 500. change (48 + 384) with 432.
  rewrite key_slice, qe_slice, isv_slice by auto. cbn [rbind].
  apply rnp_bind; [apply auth_slice_np; auto|]. intros au _.
  apply rnp_bind; [apply rnp_ensure|]; intros _ _. cbn [rbind]. apply rnp_bind; [apply rnp_ensure|]; intros _ _.
  apply rnp_bind; [apply encode_der_np|]. intros sg _. apply rnp_bind; [apply rnp_ensure|]; intros _ _.
  apply rnp_bind; [apply rnp_ensure|]; intros _ _. discriminate.
Qed.
Lemma parse_report_np o raw : rnp (parse_report o raw).
Proof.
  unfold parse_report. apply rnp_bind; [apply rnp_ok_or|]. intros j _.
  apply rnp_bind; [apply rnp_ok_or|]. intros ts _. apply rnp_bind; [apply rnp_ok_or|]. intros d _.
  apply rnp_bind; [apply rnp_ensure|]. intros _ _. apply rnp_bind; [apply rnp_ok_or|]. intros st _.
  apply rnp_bind; [apply rnp_ok_or|]. intros b _. apply rnp_bind; [apply rnp_ok_or|]. intros q _.
  destruct (read 48 q) as [[? l]|]; [|discriminate]. destruct (read 384 l) as [[? ?]|]; discriminate.
Qed.
Lemma verify_ias_np o cert : rnp (verify_ias_report o cert).
Proof.
  unfold verify_ias_report. apply rnp_bind; [apply rnp_ok_or|]. intros [[rep sg] sc] _.
  do 3 (apply rnp_bind; [apply rnp_ensure|]; intros _ _). apply parse_report_np.
Qed.

(** ** TCB levels *)
Lemma level_verify_spec ref ex : length (tl_cpusvn ref) = length (tl_cpusvn ex) ->
  level_verify ref ex = true <-> Forall2 N.le (tl_cpusvn ref) (tl_cpusvn ex) /\ tl_pcesvn ref <= tl_pcesvn ex.
Proof.
  intros Hl. unfold level_verify. rewrite andb_true_iff, N.leb_le. apply and_iff_compat_r.
  revert Hl. generalize (tl_cpusvn ref) (tl_cpusvn ex). intros l. induction l as [|x l IH]; intros [|y k]; cbn; intros Hl; try discriminate.
  - split; [constructor|auto].
  - rewrite andb_true_iff, negb_true_iff, N.ltb_ge. inversion Hl as [Hl']. rewrite (IH k Hl').
    split; [intros [? ?]; constructor; auto|intros H; inversion H; auto].
Qed.
