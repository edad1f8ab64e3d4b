(** * Properties of sgx-verify: C35-C37, C39-C41. *)
From Verif Require Import Base State SgxVerifyModel SgxProofs.

(** ** C35: what an accepted DCAP quote guarantees, and nothing less is accepted *)

(** The QE report [b] is the one described by the stored quoting enclave: product id, signer, masked
    MISCSELECT, masked attribute flags and a security version reaching some level. *)
Definition qe_report_matches (b : bytes) (q : qenclave) : Prop :=
  le_val (sub_ 256 2 b) = q_prodid q /\ sub_ 128 32 b = q_mrsigner q /\
  (forall i, (i < 4)%nat -> N.land (nth i (sub_ 16 4 b) 0) (nth i (q_misc_mask q) 0)
                      = N.land (nth i (q_misc q) 0) (nth i (q_misc_mask q) 0)) /\
  N.land (le_val (sub_ 48 8 b)) (le_val (takeN 8 (q_attr_mask q))) = le_val (takeN 8 (q_attr q)) /\
  exists svn, svn ∈ q_tcb q /\ svn <= le_val (sub_ 258 2 b).

(** All 96 bytes hashed into the QE report, all signatures, the chain, and the platform data *)
Definition genuine_quote (o : sgx_oracles) (raw : bytes) (t : N) (qe : qenclave)
    (fm : bytes) (tcb : tcb_level) (r : verified_report) : Prop :=
  exists header body siglen isv_sig key qe_report qe_sig auth_size auth cert_type cert_size certs,
    raw = header ++ body ++ siglen ++ isv_sig ++ key ++ qe_report ++ qe_sig ++
          auth_size ++ auth ++ cert_type ++ cert_size ++ certs /\
    lenN header = 48 /\ lenN body = 384 /\ lenN siglen = 4 /\ lenN isv_sig = 64 /\ lenN key = 64 /\
    lenN qe_report = 384 /\ lenN qe_sig = 64 /\ lenN auth_size = 2 /\ lenN auth = le_val auth_size /\
    lenN cert_type = 2 /\ lenN cert_size = 4 /\ lenN certs = le_val cert_size /\ le_val cert_size <= 65000 /\
    le_val (sub_ 0 2 header) = 3 /\ le_val (sub_ 2 2 header) = 2 /\ le_val cert_type = 5 /\
    qe_report_matches qe_report qe /\
    (exists leaf inter sig,
       extract_certs o certs = leaf :: inter /\ inter <> [] /\
       or_ee_parse o leaf = true /\ or_chain o leaf inter (t / 1000) = true /\
       extract_tcb_info o leaf = ROk (fm, tcb) /\
       or_p256_fixed o (4 :: key) (header ++ body) isv_sig = true /\
       or_sha256 o (key ++ takeN 32 (auth ++ cert_type ++ cert_size ++ certs)) = sub_ 320 32 qe_report /\
       encode_as_der qe_sig = ROk sig /\ or_ecdsa_cert o leaf qe_report sig = true) /\
    vr_mr_enclave r = sub_ 64 32 body /\ vr_mr_signer r = sub_ 128 32 body /\
    vr_report_data r = sub_ 320 64 body /\ vr_status r = StInvalid /\ vr_timestamp r = t /\
    vr_build_mode r = if N.testbit (le_val (sub_ 48 8 body)) 1 then MDebug else MProduction.

Lemma verify_body_spec b q : verify_body (parse_body b) q = true <-> qe_report_matches b q.
Proof.
  unfold verify_body, qe_report_matches. cbn [rb_prod_id rb_mr_signer rb_isv_svn parse_body].
  destruct (N.eqb_spec (le_val (sub_ 256 2 b)) (q_prodid q)) as [E1|E1]; cbn [negb orb];
    [|split; [discriminate|intros [? _]; contradiction]].
  destruct (beq (sub_ 128 32 b) (q_mrsigner q)) eqn:E2; cbn [negb];
    [apply beq_true in E2|apply beq_false in E2; split; [discriminate|intros (_ & ? & _); contradiction]].
  assert (verify_misc (parse_body b) q = true <-> (forall i, (i < 4)%nat ->
    N.land (nth i (sub_ 16 4 b) 0) (nth i (q_misc_mask q) 0) = N.land (nth i (q_misc q) 0) (nth i (q_misc_mask q) 0))) as Hm.
  { unfold verify_misc. cbn [forallb rb_misc parse_body]. rewrite !andb_true_iff, !N.eqb_eq. split.
    - intros (H0 & H1 & H2 & H3 & _) i Hi. destruct i as [|[|[|[|i]]]]; auto. lia.
    - intros H. repeat split; apply H; lia. }
  destruct (verify_misc (parse_body b) q) eqn:E3; cbn [negb];
    [|split; [discriminate|intros (_ & _ & H & _); apply Hm in H; discriminate]].
  unfold verify_attributes. cbn [rb_flags parse_body].
  destruct (N.eqb_spec (N.land (le_val (sub_ 48 8 b)) (le_val (takeN 8 (q_attr_mask q)))) (le_val (takeN 8 (q_attr q)))) as [E4|E4];
    cbn [negb]; [|split; [discriminate|intros (_ & _ & _ & ? & _); contradiction]].
  rewrite existsb_exists. split.
  - intros (svn & H1 & H2). apply N.leb_le in H2. repeat split; auto; [apply Hm; auto|].
    exists svn. rewrite elem_of_list_In. auto.
  - intros (_ & _ & _ & _ & svn & H1 & H2). exists svn. rewrite <- elem_of_list_In, N.leb_le. auto.
Qed.
Lemma build_mode_bit b : sgx_build_mode (parse_body b) = if N.testbit (le_val (sub_ 48 8 b)) 1 then MDebug else MProduction.
Proof.
  unfold sgx_build_mode. cbn [rb_flags parse_body]. generalize (le_val (sub_ 48 8 b)). intros f.
  assert (N.land f 2 = if N.testbit f 1 then 2 else 0) as E.
  { apply N.bits_inj. intros i. rewrite N.land_spec.
    destruct (decide (i = 1)) as [->|Hi].
    - destruct (N.testbit f 1); reflexivity.
    - assert (N.testbit 2 i = false) as Hb.
      { change 2 with (2 ^ 1). apply N.pow2_bits_false. lia. }
      rewrite Hb, andb_false_r. destruct (N.testbit f 1); [auto|rewrite N.bits_0; auto]. }
  rewrite E. destruct (N.testbit f 1); reflexivity.
Qed.

Theorem C35_dcap_quote_accepted_iff_genuine : forall o raw t qe fm tcb r,
  verify_dcap_quote o raw t qe = ROk (fm, tcb, r) <-> genuine_quote o raw t qe fm tcb r.
Proof.
  intros o raw t qe fm tcb r. rewrite verify_dcap_iff. split.
  - intros (p & Hp & -> & (H1 & H2 & H3 & H4 & leaf & i & inter & sig & Ec & H5 & H6 & H7 & H8 & H9 & H10 & H11) & ->).
    destruct p as [header body siglen isv key qer qsig asz auth cty csz certs]. unfold parts_wf, parts_bytes, auth32 in *. cbn in * |-.
    destruct Hp as (L1 & L2 & L3 & L4 & L5 & L6 & L7 & L8 & L9 & L10 & L11 & L12 & L13).
    exists header, body, siglen, isv, key, qer, qsig, asz, auth, cty, csz, certs. cbn.
    rewrite app_nil_r. repeat (split; [auto; fail|]).
    split; [apply verify_body_spec; auto|]. split.
    + exists leaf, (i :: inter), sig. repeat (split; [auto; try discriminate; fail|]). auto.
    + repeat (split; [auto; fail|]). apply build_mode_bit.
  - intros (header & body & siglen & isv & key & qer & qsig & asz & auth & cty & csz & certs & -> &
            L1 & L2 & L3 & L4 & L5 & L6 & L7 & L8 & L9 & L10 & L11 & L12 & L13 & V1 & V2 & V3 & Hq &
            (leaf & inter & sig & Ec & Hi & H5 & H6 & H7 & H8 & H9 & H10 & H11) & R1 & R2 & R3 & R4 & R5 & R6).
    exists (mkParts header body siglen isv key qer qsig asz auth cty csz certs). unfold parts_wf, parts_bytes. cbn.
    split; [repeat split; auto|]. split; [rewrite app_nil_r; auto|]. split.
    + unfold accepts_parts, auth32. cbn. repeat (split; [auto; fail|]). split; [apply verify_body_spec; auto|].
      destruct inter as [|i inter]; [contradiction|]. exists leaf, i, inter, sig. repeat (split; [auto; fail|]). auto.
    + unfold parts_report. rewrite build_mode_bit. cbn. destruct r; cbn in *; subst; auto.
Qed.
Print Assumptions C35_dcap_quote_accepted_iff_genuine.

(** A concrete quote accepted under oracles that accept every signature *)
Definition ext_demo : bytes :=
  [48; 60] ++ oid_fmspc ++ [4; 6] ++ [0;144;110;161;0;0] ++ oid_cpusvn ++ [4; 16] ++
  [15;15;2;4;1;128;6;0;0;0;0;0;0;0;0;0] ++ oid_pcesvn ++ [2; 1; 11].
Definition sgx_demo : sgx_oracles :=
  mkSgx (fun _ => zeros 32) (fun b => Some b) (fun _ => true)
        (fun _ _ t => t <? 1000000) (fun _ _ => true)
        (fun _ _ _ => true) (fun _ _ _ => true) (fun _ _ _ => true)
        (fun _ => Some [(oid_sgx_ext, ext_demo)])
        (fun d => match d with
                  | [i; n; svn] => Some (mkIdentity str_QE 2 (Z.of_N i) (Z.of_N n) (zeros 4) (zeros 4) (zeros 16) (zeros 16)
                                           (zeros 32) 1 [(svn, TUpToDate); (2, TRevoked)])
                  | _ => None end)
        (fun d => match d with
                  | [i; n; svn] => Some (mkTcbJson str_SGX 3 (Z.of_N i) (Z.of_N n) [0;144;110;161;0;0]
                                           [(replicate 16 svn, svn, TUpToDate); (replicate 16 0, 0, TOutOfDate)])
                  | _ => None end)
        (fun d => Some (mkIas (Some (takeN 8 d)) (Some str_OK) (Some (dropN 8 d))))
        (fun t => Some (Z.of_N (le_val t))).
Definition pem_demo : bytes := begin_marker ++ [65;65] ++ end_marker ++ [10] ++ begin_marker ++ [66;66] ++ end_marker.
(** A quote for [report data], QE security version 7, product id 1; [flags] of the enclave *)
Definition quote_demo (mre rd : bytes) (flags : N) : bytes :=
  ([3;0;2;0] ++ zeros 44) ++
  (zeros 48 ++ [flags] ++ zeros 15 ++ takeN 32 (mre ++ zeros 32) ++ zeros 32 ++ zeros 160 ++ zeros 32 ++ takeN 64 (rd ++ zeros 64)) ++
  zeros 4 ++ zeros 64 ++ zeros 64 ++ (zeros 256 ++ [1;0;7;0] ++ zeros 124) ++ zeros 64 ++
  [32;0] ++ zeros 32 ++ [5;0] ++ le_bytes 4 (lenN pem_demo) ++ pem_demo.
Definition qe_demo : qenclave := mkQe 1 9000 (zeros 4) (zeros 4) (zeros 16) (zeros 16) (zeros 32) 1 [7].
Example C35_example :
  verify_dcap_quote sgx_demo (quote_demo [9;9;9] [1;2;3] 2) 5000 qe_demo =
  ROk ([0;144;110;161;0;0], mkTcbLevel [15;15;2;4;1;128;6;0;0;0;0;0;0;0;0;0] 11 TUnknown,
       mkReport ([9;9;9] ++ zeros 29) (zeros 32) ([1;2;3] ++ zeros 61) StInvalid 5000 MDebug).
Proof. vm_compute. reflexivity. Qed.

(** The hash covers only 32 bytes at the place of the authentication data, whatever its declared
    size (lib.rs:618 hard-codes it): what comes after those 32 bytes is signed by nobody, and can be
    replaced by anything of any length without the quote being rejected. *)
Theorem C35_authentication_data_beyond_32_bytes_unbound : forall o pre auth auth' post t qe x,
  lenN pre = 1012 -> 32 <= lenN auth < 65536 -> 32 <= lenN auth' < 65536 -> takeN 32 auth' = takeN 32 auth ->
  verify_dcap_quote o (pre ++ le_bytes 2 (lenN auth) ++ auth ++ post) t qe = ROk x ->
  verify_dcap_quote o (pre ++ le_bytes 2 (lenN auth') ++ auth' ++ post) t qe = ROk x.
Proof.
  intros o pre a a' post t qe [[fm tcb] r] Lp La La' Et H. apply C35_dcap_quote_accepted_iff_genuine in H.
  apply C35_dcap_quote_accepted_iff_genuine.
  destruct H as (header & body & siglen & isv & key & qer & qsig & asz & auth & cty & csz & certs & E &
            L1 & L2 & L3 & L4 & L5 & L6 & L7 & L8 & L9 & L10 & L11 & L12 & L13 & V1 & V2 & V3 & Hq &
            (leaf & inter & sig & Ec & Hi & H5 & H6 & H7 & H8 & H9 & H10 & H11) & R).
  assert (pre = header ++ body ++ siglen ++ isv ++ key ++ qer ++ qsig /\
          le_bytes 2 (lenN a) ++ a ++ post = asz ++ auth ++ cty ++ csz ++ certs) as [-> E1].
  { apply app_inj_1; [apply Nat2N.inj; fold (lenN pre); change (lenN pre = lenN (header ++ body ++ siglen ++ isv ++ key ++ qer ++ qsig));
      rewrite !lenN_app; lia|]. rewrite E, <- !app_assoc. reflexivity. }
  assert (le_bytes 2 (lenN a) = asz /\ a ++ post = auth ++ cty ++ csz ++ certs) as [<- E2].
  { apply app_inj_1; [|exact E1]. apply Nat2N.inj. fold (lenN asz). rewrite L8. reflexivity. }
  assert (forall n, n < 65536 -> le_val (le_bytes 2 n) = n) as Hle.
  { intros n Hn. change (le_bytes 2 n) with [n mod 256; n / 256 mod 256]. cbn [le_val].
    rewrite (N.mod_small (n / 256)) by (apply N.div_lt_upper_bound; lia). pose proof (N.div_mod n 256). lia. }
  rewrite Hle in L9 by lia.
  assert (a = auth /\ post = cty ++ csz ++ certs) as [<- ->].
  { apply app_inj_1; [|exact E2]. apply Nat2N.inj. auto. }
  exists header, body, siglen, isv, key, qer, qsig, (le_bytes 2 (lenN a')), a', cty, csz, certs.
  split; [rewrite <- !app_assoc; reflexivity|]. rewrite Hle by lia.
  repeat (split; [auto; fail|]). split; [|exact R].
  exists leaf, inter, sig. repeat (split; [auto; fail|]). split; [|auto]. rewrite <- H9. do 2 f_equal.
  assert (forall b z : bytes, 32 <= lenN b -> takeN 32 (b ++ z) = takeN 32 b) as Ht.
  { intros b z Hb. unfold takeN, lenN in *. apply take_app_le. lia. }
  rewrite !Ht by lia. auto.
Qed.
Print Assumptions C35_authentication_data_beyond_32_bytes_unbound.
(** The quote of the example, with 3 unsigned bytes after the 32 authentication bytes *)
Example C35_example_unbound :
  verify_dcap_quote sgx_demo (takeN 1012 (quote_demo [9;9;9] [1;2;3] 2) ++ le_bytes 2 35 ++ (zeros 32 ++ [66;66;66]) ++ dropN (1012 + 34) (quote_demo [9;9;9] [1;2;3] 2)) 5000 qe_demo =
  verify_dcap_quote sgx_demo (quote_demo [9;9;9] [1;2;3] 2) 5000 qe_demo.
Proof. vm_compute. reflexivity. Qed.

(** ** C36 *)
Theorem C36_dcap_and_ias_verification_never_panic : forall o raw t qe,
  verify_dcap_quote o raw t qe <> RPanic /\ verify_ias_report o raw <> RPanic.
Proof. intros. split; [apply verify_dcap_np|apply verify_ias_np]. Qed.
Print Assumptions C36_dcap_and_ias_verification_never_panic.
(** The margin of one byte: a quote with two certificates has at least 33 bytes from the
    authentication data on, 32 are read. *)
Theorem C36_slice_margin : forall o chain, 2 <= lenN (extract_certs o chain) -> 2 + 4 + lenN chain >= 33.
Proof. intros o chain H. pose proof (extract_certs_length o chain). unfold lenN in *. lia. Qed.
Print Assumptions C36_slice_margin.
Example C36_margin_tight : exists o chain, 2 <= lenN (extract_certs o chain) /\ 2 + 4 + lenN chain = 33.
Proof. exists sgx_demo, ([65] ++ end_marker ++ [66]). vm_compute. split; [discriminate|reflexivity]. Qed.
(** The helper that reads TCB data from a raw quote panics on every quote without certificates. *)
Theorem C36_raw_helper_panics_without_certificates : forall o raw,
  extract_tcb_info_from_raw o raw = RPanic <->
  exists q rest, decode_quote raw = Some (q, rest) /\ dq_version q = 3 /\ dq_key_type q = 2 /\ dq_cert_type q = 5 /\
  extract_certs o (dq_cert_data q) = [].
Proof.
  intros o raw. unfold extract_tcb_info_from_raw. destruct (decode_quote raw) as [[q rest]|]; cbn [rok_or rbind].
  - destruct (N.eqb_spec (dq_version q) 3) as [E1|E1]; cbn [rensure rbind];
      [|split; [discriminate|intros (? & ? & E & ? & _); inversion E; subst; contradiction]].
    destruct (N.eqb_spec (dq_key_type q) 2) as [E2|E2]; cbn [rensure rbind];
      [|split; [discriminate|intros (? & ? & E & _ & ? & _); inversion E; subst; contradiction]].
    destruct (N.eqb_spec (dq_cert_type q) 5) as [E3|E3]; cbn [rensure rbind];
      [|split; [discriminate|intros (? & ? & E & _ & _ & ? & _); inversion E; subst; contradiction]].
    destruct (extract_certs o (dq_cert_data q)) as [|leaf inter] eqn:Ec.
    + split; [intros _; exists q, rest; auto|auto].
    + split; [intros H; exfalso; exact (extract_tcb_np o leaf H)|].
      intros (? & ? & E & _ & _ & _ & E4). inversion E; subst. congruence.
  - split; [discriminate|]. intros (? & ? & E & _). discriminate E.
Qed.
Print Assumptions C36_raw_helper_panics_without_certificates.
Theorem C36_raw_helper_refuted : exists o raw, extract_tcb_info_from_raw o raw = RPanic.
Proof.
  exists sgx_demo, (([3;0;2;0] ++ zeros 44) ++ zeros 384 ++ zeros 4 ++ zeros 64 ++ zeros 64 ++ zeros 384 ++ zeros 64 ++
         [0;0] ++ [5;0] ++ zeros 4). vm_compute. reflexivity.
Qed.
Print Assumptions C36_raw_helper_refuted.

(** ** C37 *)
(** The quoting enclave built from an identity document accepts a report iff product id, signer, masked
    MISCSELECT and flags agree and the ISVSVN reaches that of some listed level, of any status. *)
Theorem C37_every_listed_level_is_trusted : forall d q b,
  to_quoting_enclave d = ROk q ->
  verify_body (parse_body b) q = true <->
  (le_val (sub_ 256 2 b) = ei_prodid d /\ sub_ 128 32 b = ei_mrsigner d /\
   (forall i, (i < 4)%nat -> N.land (nth i (sub_ 16 4 b) 0) (nth i (ei_misc_mask d) 0)
                       = N.land (nth i (ei_misc d) 0) (nth i (ei_misc_mask d) 0)) /\
   N.land (le_val (sub_ 48 8 b)) (le_val (takeN 8 (ei_attr_mask d))) = le_val (takeN 8 (ei_attr d)) /\
   exists svn st, (svn, st) ∈ ei_levels d /\ svn <= le_val (sub_ 258 2 b)).
Proof.
  intros d q b H. unfold to_quoting_enclave in H.
  apply rbind_ok in H as (i & _ & H). apply rbind_ok in H as (n & _ & H). inversion H; subst q; clear H.
  rewrite verify_body_spec. unfold qe_report_matches. cbn.
  assert ((exists svn, svn ∈ map fst (ei_levels d) /\ svn <= le_val (sub_ 258 2 b)) <->
          (exists svn st, (svn, st) ∈ ei_levels d /\ svn <= le_val (sub_ 258 2 b))) as ->; [|tauto].
  split.
  - intros (svn & Hi & Hle). change (map fst (ei_levels d)) with (fst <$> ei_levels d) in Hi.
    apply elem_of_list_fmap in Hi as ([x st] & -> & Hi). eauto.
  - intros (svn & st & Hi & Hle). exists svn. split; [|auto].
    change (map fst (ei_levels d)) with (fst <$> ei_levels d). apply elem_of_list_fmap. exists (svn, st). auto.
Qed.
Print Assumptions C37_every_listed_level_is_trusted.
(** "Only levels that are up to date are trusted" is false. *)
Definition doc_demo : enclave_identity :=
  mkIdentity str_QE 2 1%Z 9000%Z (zeros 4) (zeros 4) (zeros 16) (zeros 16) (zeros 32) 1 [(8, TUpToDate); (2, TRevoked)].
Theorem C37_only_up_to_date_refuted : exists d q b, to_quoting_enclave d = ROk q /\
  verify_body (parse_body b) q = true /\ (forall svn, (svn, TUpToDate) ∈ ei_levels d -> le_val (sub_ 258 2 b) < svn) /\
  (forall svn st, (svn, st) ∈ ei_levels d -> svn <= le_val (sub_ 258 2 b) -> st = TRevoked).
Proof.
  exists doc_demo, (mkQe 1 9000 (zeros 4) (zeros 4) (zeros 16) (zeros 16) (zeros 32) 1 [8;2]), (zeros 256 ++ [1;0;7;0] ++ zeros 124).
  split; [reflexivity|]. split; [vm_compute; reflexivity|].
  replace (le_val (sub_ 258 2 (zeros 256 ++ [1; 0; 7; 0] ++ zeros 124))) with 7 by (vm_compute; reflexivity).
  split.
  - intros svn H. cbn in H. rewrite !elem_of_cons in H. destruct H as [H|[H|H]]; [inversion H; lia|inversion H|inversion H].
  - intros svn st H. cbn in H. rewrite !elem_of_cons in H. destruct H as [H|[H|H]]; inversion H; subst; intros; auto. lia.
Qed.
Print Assumptions C37_only_up_to_date_refuted.
(** A quoting enclave without levels, as before any registration, rejects every report. *)
Theorem C37_unset_quoting_enclave_rejects_everything : forall b q, q_tcb q = [] -> verify_body b q = false.
Proof.
  intros b q H. unfold verify_body. rewrite H. cbn [existsb].
  destruct (_ || _); [auto|]. destruct (verify_misc b q); cbn [negb]; [|auto]. destruct (verify_attributes b q); auto.
Qed.
Print Assumptions C37_unset_quoting_enclave_rejects_everything.
(** The comparison of the attributes is not symmetric: stored flags outside the mask make the quoting
    enclave unusable. *)
Theorem C37_flags_outside_the_mask_reject_everything : forall b q i,
  N.testbit (le_val (takeN 8 (q_attr q))) i = true -> N.testbit (le_val (takeN 8 (q_attr_mask q))) i = false ->
  verify_body b q = false.
Proof.
  intros b q i H1 H2. unfold verify_body. destruct (_ || _); [auto|]. destruct (verify_misc b q); cbn [negb]; [|auto].
  assert (verify_attributes b q = false) as ->; [|auto].
  unfold verify_attributes. apply N.eqb_neq. intros E. apply (f_equal (fun n => N.testbit n i)) in E.
  rewrite N.land_spec, H1, H2, andb_false_r in E. discriminate.
Qed.
Print Assumptions C37_flags_outside_the_mask_reject_everything.

(** ** C39 *)
Lemma le_val_app a b : le_val (a ++ b) = le_val a + 256 ^ lenN a * le_val b.
Proof.
  induction a as [|x a IH]; cbn [app le_val]; [change (256 ^ lenN []) with 1; lia|].
  rewrite IH, lenN_cons, N.pow_add_r, N.pow_1_r. lia.
Qed.
Lemma be_val_cons x l : be_val (x :: l) = x * 256 ^ lenN l + be_val l.
Proof.
  unfold be_val. cbn [rev]. rewrite le_val_app. unfold lenN. rewrite rev_length. cbn [le_val]. lia.
Qed.
Lemma be_val_inj a b : wf_bytes a -> wf_bytes b -> length a = length b -> be_val a = be_val b -> a = b.
Proof.
  intros Ha. revert b. induction Ha as [|x a Hx Ha IH]; intros b Hb Hl E; destruct b as [|y b]; try discriminate; [auto|].
  inversion Hb; subst. inversion Hl as [Hl'].
  rewrite !be_val_cons in E. unfold lenN in E. rewrite Hl' in E.
  assert (forall l, wf_bytes l -> be_val l < 256 ^ lenN l) as Hb'.
  { intros l. induction 1 as [|z l Hz _ IHl]; [reflexivity|]. rewrite be_val_cons, lenN_cons, N.pow_add_r, N.pow_1_r. nia. }
  pose proof (Hb' a Ha) as B1. pose proof (Hb' b H2) as B2. unfold lenN in B1, B2. rewrite Hl' in B1.
  assert (x = y) as -> by nia. f_equal. apply IH; auto. nia.
Qed.
(** Minimal DER contents of a non-negative integer *)
Definition minimal_der (v : bytes) : Prop :=
  match v with
  | [] => False
  | [b] => b < 128
  | b0 :: b1 :: _ => b0 < 128 /\ (b0 = 0 -> 128 <= b1)
  end.
Lemma strip0_val l : be_val (strip0 l) = be_val l.
Proof.
  induction l as [|x l IH]; [auto|]. cbn [strip0]. destruct x as [|x]; [|auto]. destruct l as [|y l]; [auto|].
  rewrite IH, (be_val_cons 0). apply N.add_cancel_r with (p := 0). rewrite N.mul_0_l. reflexivity.
Qed.
Lemma strip0_len l : lenN (strip0 l) <= lenN l.
Proof.
  induction l as [|x l IH]; [cbn; lia|]. cbn [strip0]. destruct x as [|x]; [|lia]. destruct l as [|y l]; [lia|].
  rewrite (lenN_cons 0). lia.
Qed.
Lemma strip0_shape l : l <> [] -> match strip0 l with [] => False | [_] => True | b0 :: _ => b0 <> 0 end.
Proof.
  induction l as [|x l IH]; [contradiction|]. intros _. cbn [strip0]. destruct x as [|x]; [|destruct l; [auto|lia]].
  destruct l as [|y l]; [auto|]. apply IH. discriminate.
Qed.
(** Contents of the INTEGER *)
Definition der_content (l : bytes) : bytes :=
  match strip0 l with b :: r => if 128 <=? b then 0 :: b :: r else b :: r | [] => [] end.
Lemma der_uint_eq l : der_uint l = 2 :: lenN (der_content l) :: der_content l.
Proof. unfold der_uint, der_content. destruct (strip0 l) as [|b r]; [auto|]. destruct (128 <=? b); auto. Qed.
Lemma der_content_spec l : l <> [] ->
  be_val (der_content l) = be_val l /\ minimal_der (der_content l) /\ lenN (der_content l) <= lenN l + 1.
Proof.
  intros Hl. pose proof (strip0_val l) as H1. pose proof (strip0_len l) as H2. pose proof (strip0_shape l Hl) as H3.
  unfold der_content. destruct (strip0 l) as [|b r]; [contradiction|].
  destruct (N.leb_spec 128 b) as [Hb|Hb].
  - split; [rewrite be_val_cons; lia|]. split; [cbn; lia|]. rewrite lenN_cons. lia.
  - split; [auto|]. split; [|lia]. destruct r as [|b1 r]; cbn; [auto|]. split; [auto|]. intros ->. contradiction.
Qed.

(** A reader for DER sequences of two integers with one-byte lengths *)
Definition read_int (l : bytes) : option (bytes * bytes) :=
  match l with
  | 2 :: n :: r => match read n r with Some (v, rest) => Some (v, rest) | None => None end
  | _ => None
  end.
Definition read_der_pair (l : bytes) : option (bytes * bytes) :=
  match l with
  | 48 :: n :: r =>
      if lenN r =? n then
        match read_int r with
        | Some (v1, r1) => match read_int r1 with Some (v2, []) => Some (v1, v2) | _ => None end
        | None => None
        end
      else None
  | _ => None
  end.
Lemma read_int_der l rest : read_int (der_uint l ++ rest) = Some (der_content l, rest).
Proof. rewrite der_uint_eq. cbn [app read_int]. rewrite read_app by auto. auto. Qed.

Theorem C39_der_encoding_is_minimal_and_faithful : forall d, lenN d = 64 ->
  exists out v1 v2, encode_as_der d = ROk out /\ lenN out <= 72 /\
  read_der_pair out = Some (v1, v2) /\ minimal_der v1 /\ minimal_der v2 /\
  be_val v1 = be_val (takeN 32 d) /\ be_val v2 = be_val (dropN 32 d) /\
  nth 1 out 0 < 128.
Proof.
  intros d Hd. unfold encode_as_der. rewrite Hd. cbn [N.eqb Pos.eqb negb]. unfold N.eqb. cbn [Pos.eqb negb].
  assert (lenN (takeN 32 d) = 32) as L1 by (rewrite lenN_takeN; lia).
  assert (lenN (dropN 32 d) = 32) as L2 by (rewrite lenN_dropN; lia).
  assert (takeN 32 d <> []) as N1 by (intros E; rewrite E, lenN_nil in L1; lia).
  assert (dropN 32 d <> []) as N2 by (intros E; rewrite E, lenN_nil in L2; lia).
  destruct (der_content_spec _ N1) as (A1 & A2 & A3). destruct (der_content_spec _ N2) as (B1 & B2 & B3).
  set (body := der_uint (takeN 32 d) ++ der_uint (dropN 32 d)).
  assert (lenN body <= 70) as Lb.
  { unfold body. rewrite lenN_app, !der_uint_eq, !lenN_cons. lia. }
  destruct (N.leb_spec (lenN (48 :: lenN body :: body)) 72) as [|Hx]; [|rewrite !lenN_cons in Hx; lia].
  exists (48 :: lenN body :: body), (der_content (takeN 32 d)), (der_content (dropN 32 d)).
  split; [auto|]. split; [auto|]. split.
  { cbn [read_der_pair]. rewrite N.eqb_refl. unfold body. rewrite read_int_der.
    replace (der_uint (dropN 32 d)) with (der_uint (dropN 32 d) ++ []) by apply app_nil_r. rewrite read_int_der. auto. }
  repeat (split; [auto; fail|]). cbn [nth]. lia.
Qed.
Print Assumptions C39_der_encoding_is_minimal_and_faithful.
Theorem C39_der_encoding_is_injective : forall d1 d2 out, wf_bytes d1 -> wf_bytes d2 ->
  encode_as_der d1 = ROk out -> encode_as_der d2 = ROk out -> d1 = d2.
Proof.
  intros d1 d2 out W1 W2 E1 E2.
  assert (forall d o, encode_as_der d = ROk o -> lenN d = 64) as H64.
  { intros d o. unfold encode_as_der. destruct (N.eqb_spec (lenN d) 64); [auto|discriminate]. }
  pose proof (H64 _ _ E1) as L1. pose proof (H64 _ _ E2) as L2.
  destruct (C39_der_encoding_is_minimal_and_faithful d1 L1) as (o1 & a1 & b1 & F1 & _ & R1 & _ & _ & V1 & V2 & _).
  destruct (C39_der_encoding_is_minimal_and_faithful d2 L2) as (o2 & a2 & b2 & F2 & _ & R2 & _ & _ & V3 & V4 & _).
  rewrite E1 in F1. rewrite E2 in F2. inversion F1; inversion F2; subst o1 o2. rewrite R1 in R2. inversion R2; subst.
  assert (forall d n, wf_bytes d -> wf_bytes (takeN n d) /\ wf_bytes (dropN n d)) as Wn.
  { intros d n W. unfold takeN, dropN, wf_bytes. split; [apply Forall_take; auto|apply Forall_drop; auto]. }
  rewrite <- (takeN_dropN 32 d1), <- (takeN_dropN 32 d2). f_equal; apply be_val_inj; try apply Wn; auto.
  - unfold takeN. rewrite !take_length. unfold lenN in *. lia.
  - congruence.
  - unfold dropN. rewrite !drop_length. unfold lenN in *. lia.
  - congruence.
Qed.
Print Assumptions C39_der_encoding_is_injective.
Theorem C39_other_lengths_are_rejected : forall d, lenN d <> 64 -> encode_as_der d = RErr SKeyLengthIsInvalid.
Proof. intros d H. unfold encode_as_der. apply N.eqb_neq in H. rewrite H. auto. Qed.
Print Assumptions C39_other_lengths_are_rejected.
(** Both bounds are met: the longest encoding has exactly 72 bytes, the shortest 8. *)
Example C39_example : exists o1 o2, encode_as_der (replicate 64 255) = ROk o1 /\ lenN o1 = 72 /\
  encode_as_der (zeros 64) = ROk o2 /\ o2 = [48;6;2;1;0;2;1;0].
Proof. eexists _, _. vm_compute. repeat split; reflexivity. Qed.

(** ** C40 *)
(** DER length octets of [n] *)
Definition der_len (n : N) : bytes :=
  if n <? 128 then [n] else if n <? 256 then [129; n] else [130; n / 256; n mod 256].
Lemma nth_app_at (pre l : bytes) (off : N) k : lenN pre = off -> (pre ++ l : bytes) !! N.to_nat (off + N.of_nat k) = l !! k.
Proof.
  intros <-. unfold lenN. replace (N.to_nat (N.of_nat (length pre) + N.of_nat k)) with (length pre + k)%nat by lia.
  unfold bytes. rewrite lookup_app_r by lia. f_equal. lia.
Qed.
(** Short lengths and two-byte long lengths are read correctly; the offset ends at the last octet. *)
Theorem C40_length_read_correctly : forall pre n content, n < 65536 -> n < 128 \/ 256 <= n ->
  length_from_raw_data (pre ++ der_len n ++ content) (lenN pre) = Some (n, lenN pre + (lenN (der_len n) - 1)).
Proof.
  intros pre n content Hn Hc. unfold length_from_raw_data, der_len.
  pose proof (nth_app_at pre) as HA.
  destruct (N.ltb_spec n 128) as [H|H].
  - pose proof (HA ([n] ++ content) (lenN pre) 0%nat eq_refl) as H0. rewrite N.add_0_r in H0. rewrite H0. cbn [app lookup list_lookup].
    destruct (N.ltb_spec 128 n); [lia|]. change (lenN [n]) with 1. do 2 f_equal. lia.
  - destruct (N.ltb_spec n 256) as [|H2]; [lia|].
    set (l := [130; n / 256; n mod 256] ++ content).
    pose proof (HA l (lenN pre) 0%nat eq_refl) as H0. rewrite N.add_0_r in H0.
    pose proof (HA l (lenN pre) 1%nat eq_refl) as H3. pose proof (HA l (lenN pre) 2%nat eq_refl) as H4.
    change (N.of_nat 1) with 1 in H3. change (N.of_nat 2) with 2 in H4. rewrite H0, H3, H4.
    subst l. cbn [app lookup list_lookup]. change (128 <? 130) with true. cbn iota.
    change (lenN [130; n / 256; n mod 256]) with 3. pose proof (N.div_mod n 256). f_equal. f_equal; lia.
Qed.
Print Assumptions C40_length_read_correctly.
(** A one-byte long form is misread: the first content byte is taken as low byte of the length. *)
Theorem C40_one_byte_long_form_misread : forall pre n content, 128 <= n < 256 ->
  length_from_raw_data (pre ++ der_len n ++ content) (lenN pre) =
  match content with [] => None | b :: _ => Some (n * 256 + b, lenN pre + 2) end.
Proof.
  intros pre n content Hn. unfold length_from_raw_data, der_len.
  destruct (N.ltb_spec n 128) as [|_]; [lia|]. destruct (N.ltb_spec n 256) as [_|]; [|lia].
  set (l := [129; n] ++ content).
  pose proof (nth_app_at pre l (lenN pre) 0%nat eq_refl) as H0. rewrite N.add_0_r in H0.
  pose proof (nth_app_at pre l (lenN pre) 1%nat eq_refl) as H3. pose proof (nth_app_at pre l (lenN pre) 2%nat eq_refl) as H4.
  change (N.of_nat 1) with 1 in H3. change (N.of_nat 2) with 2 in H4. rewrite H0, H3, H4. subst l.
  cbn [app lookup list_lookup]. change (128 <? 129) with true. destruct content; reflexivity.
Qed.
Print Assumptions C40_one_byte_long_form_misread.
Theorem C40_long_form_refuted : exists data off n, data = [129; 200] ++ replicate 200 7 /\ off = 0 /\
  length_from_raw_data data off = Some n /\ n <> (200, 1).
Proof. exists ([129; 200] ++ replicate 200 7), 0, (51207, 2). vm_compute. repeat split; congruence. Qed.
Print Assumptions C40_long_form_refuted.
(** It is total: a length, or an error exactly when an octet it looks at is missing. *)
Theorem C40_error_iff_out_of_bounds : forall data off,
  length_from_raw_data data off = None <->
  lenN data <= off \/ (exists b, data !! N.to_nat off = Some b /\ 128 < b /\ lenN data <= off + 2).
Proof.
  intros data off. unfold length_from_raw_data.
  assert (forall i, data !! N.to_nat i = None <-> lenN data <= i) as HN.
  { intros i. rewrite lookup_ge_None. unfold lenN. lia. }
  destruct (data !! N.to_nat off) as [b|] eqn:E0.
  - assert (off < lenN data) as Hlt.
    { destruct (N.ltb_spec off (lenN data)) as [|Hx]; [auto|]. apply HN in Hx. congruence. }
    destruct (N.ltb_spec 128 b) as [Hb|Hb].
    + destruct (data !! N.to_nat (off + 1)) as [h|] eqn:E1; destruct (data !! N.to_nat (off + 2)) as [lo|] eqn:E2.
      * split; [discriminate|]. intros [?|(b' & _ & _ & H)]; [lia|]. apply HN in H. congruence.
      * split; [|auto]. intros _. right. exists b. repeat split; auto. apply HN. auto.
      * apply HN in E1. assert (lenN data <= off + 2) as E3 by lia. apply HN in E3. congruence.
      * split; [|auto]. intros _. right. exists b. repeat split; auto. apply HN. auto.
    + split; [discriminate|]. intros [?|(b' & E & ? & _)]; [lia|]. inversion E; subst. lia.
  - split; [|auto]. intros _. left. apply HN. auto.
Qed.
Print Assumptions C40_error_iff_out_of_bounds.

(** ** C41 *)
(** [pat] occurs in [l] first at offset [lenN pre] *)
Definition first_at (pat pre rest : bytes) : Prop :=
  forall j, j < lenN pre -> is_prefix pat (dropN j (pre ++ pat ++ rest)) = false.
Lemma position_first pat pre rest : pat <> [] -> first_at pat pre rest -> position pat (pre ++ pat ++ rest) = Some (lenN pre).
Proof.
  intros Hp Hf. apply position_spec; [auto|]. split; [|exact Hf].
  rewrite dropN_app by auto. apply is_prefix_spec. eauto.
Qed.
(** DER encoding of a 16 bit INTEGER, with tag *)
Definition der_int16 (n : N) : bytes :=
  if n <? 128 then [2; 1; n] else if n <? 256 then [2; 2; 0; n]
  else if n <? 32768 then [2; 2; n / 256; n mod 256] else [2; 3; 0; n / 256; n mod 256].
Theorem C41_fmspc_read_in_place : forall pre f rest, lenN f = 6 ->
  first_at oid_fmspc pre ([4; 6] ++ f ++ rest) ->
  get_fmspc (pre ++ oid_fmspc ++ [4; 6] ++ f ++ rest) = ROk f.
Proof.
  intros pre f rest Hf H. unfold get_fmspc. rewrite position_first by (auto; discriminate). cbn [rok_or rbind].
  replace (pre ++ oid_fmspc ++ [4; 6] ++ f ++ rest) with ((pre ++ oid_fmspc ++ [4; 6]) ++ f ++ rest) by (rewrite <- !app_assoc; auto).
  rewrite get_range_app; auto. rewrite !lenN_app. change (lenN oid_fmspc) with 10. change (lenN [4; 6]) with 2. lia.
Qed.
Print Assumptions C41_fmspc_read_in_place.
Theorem C41_cpusvn_read_in_place : forall pre v rest, lenN v = 16 ->
  first_at oid_cpusvn pre ([4; 16] ++ v ++ rest) ->
  get_cpusvn (pre ++ oid_cpusvn ++ [4; 16] ++ v ++ rest) = ROk v.
Proof.
  intros pre f rest Hf H. unfold get_cpusvn. rewrite position_first by (auto; discriminate). cbn [rok_or rbind].
  replace (pre ++ oid_cpusvn ++ [4; 16] ++ f ++ rest) with ((pre ++ oid_cpusvn ++ [4; 16]) ++ f ++ rest) by (rewrite <- !app_assoc; auto).
  rewrite get_range_app; auto. rewrite !lenN_app. change (lenN oid_cpusvn) with 11. change (lenN [4; 16]) with 2. lia.
Qed.
Print Assumptions C41_cpusvn_read_in_place.
Lemma len_from_at pre (b : N) rest : b <= 128 -> length_from_raw_data (pre ++ b :: rest) (lenN pre) = Some (b, lenN pre).
Proof.
  intros Hb. unfold length_from_raw_data. pose proof (nth_app_at pre (b :: rest) (lenN pre) 0%nat eq_refl) as H0.
  rewrite N.add_0_r in H0. rewrite H0. cbn [lookup list_lookup]. destruct (N.ltb_spec 128 b); [lia|auto].
Qed.
Lemma get_pcesvn_at pre n data rest : first_at oid_pcesvn pre (2 :: n :: data ++ rest) -> n <= 128 -> lenN data = n ->
  get_pcesvn (pre ++ oid_pcesvn ++ 2 :: n :: data ++ rest) =
  if (n =? 1) || (n =? 2) then ROk (be_val data) else RErr SPceSvnLengthMismatch.
Proof.
  intros H Hn Hd. unfold get_pcesvn. rewrite position_first by (auto; discriminate). cbn [rok_or rbind].
  replace (lenN pre + (lenN oid_pcesvn + 1)) with (lenN (pre ++ oid_pcesvn ++ [2])) by (rewrite !lenN_app; reflexivity).
  replace (pre ++ oid_pcesvn ++ 2 :: n :: data ++ rest) with ((pre ++ oid_pcesvn ++ [2]) ++ n :: data ++ rest)
    by (rewrite <- !app_assoc; auto).
  rewrite len_from_at by auto. cbn [rok_or rbind].
  destruct ((n =? 1) || (n =? 2)) eqn:E; cbn [rensure rbind]; [|auto].
  replace (get_range (lenN (pre ++ oid_pcesvn ++ [2]) + 1) n ((pre ++ oid_pcesvn ++ [2]) ++ n :: data ++ rest)) with (Some data).
  - cbn [rok_or rbind]. reflexivity.
  - symmetry. replace ((pre ++ oid_pcesvn ++ [2]) ++ n :: data ++ rest) with ((pre ++ oid_pcesvn ++ [2; n]) ++ data ++ rest)
      by (rewrite <- !app_assoc; auto).
    apply get_range_app; [|auto]. rewrite !lenN_app. change (lenN [2; n]) with 2. change (lenN [2]) with 1. lia.
Qed.
(** Every PCESVN below 2^15 is read exactly ... *)
Theorem C41_pcesvn_below_2_15_read_in_place : forall pre n rest, n < 32768 ->
  first_at oid_pcesvn pre (der_int16 n ++ rest) ->
  get_pcesvn (pre ++ oid_pcesvn ++ der_int16 n ++ rest) = ROk n.
Proof.
  intros pre n rest Hn. unfold der_int16.
  destruct (N.ltb_spec n 128) as [H1|H1]; [|destruct (N.ltb_spec n 256) as [H2|H2]; [|destruct (N.ltb_spec n 32768) as [_|]; [|lia]]]; intros H.
  - etransitivity; [exact (get_pcesvn_at pre 1 [n] rest H ltac:(lia) eq_refl)|]. cbn. f_equal. unfold be_val. cbn. lia.
  - etransitivity; [exact (get_pcesvn_at pre 2 [0; n] rest H ltac:(lia) eq_refl)|]. cbn. f_equal. unfold be_val. cbn. lia.
  - etransitivity; [exact (get_pcesvn_at pre 2 [n / 256; n mod 256] rest H ltac:(lia) eq_refl)|]. cbn. f_equal. unfold be_val. cbn.
    pose proof (N.div_mod n 256). lia.
Qed.
Print Assumptions C41_pcesvn_below_2_15_read_in_place.
(** ... and every larger 16 bit one is rejected. *)
Theorem C41_pcesvn_from_2_15_rejected : forall pre n rest, 32768 <= n < 65536 ->
  first_at oid_pcesvn pre (der_int16 n ++ rest) ->
  get_pcesvn (pre ++ oid_pcesvn ++ der_int16 n ++ rest) = RErr SPceSvnLengthMismatch.
Proof.
  intros pre n rest Hn. unfold der_int16.
  destruct (N.ltb_spec n 128); [lia|]. destruct (N.ltb_spec n 256); [lia|]. destruct (N.ltb_spec n 32768); [lia|]. intros Hf.
  exact (get_pcesvn_at pre 3 [0; n / 256; n mod 256] rest Hf ltac:(lia) eq_refl).
Qed.
Print Assumptions C41_pcesvn_from_2_15_rejected.
Theorem C41_extraction_never_panics : forall o cert, extract_tcb_info o cert <> RPanic.
Proof. intros. apply extract_tcb_np. Qed.
Print Assumptions C41_extraction_never_panics.
(** The hypotheses hold of a realistic extension, and the composition gives the platform data. *)
Example C41_example : forall cert, extract_tcb_info sgx_demo cert =
  ROk ([0;144;110;161;0;0], mkTcbLevel [15;15;2;4;1;128;6;0;0;0;0;0;0;0;0;0] 11 TUnknown).
Proof. intros. vm_compute. reflexivity. Qed.
Example C41_hypotheses : first_at oid_fmspc [48; 60] ([4; 6] ++ [1;2;3;4;5;6] ++ []) /\
  first_at oid_pcesvn [48; 60] (der_int16 40000).
Proof. split; intros j Hj; assert (j = 0 \/ j = 1) as [-> | ->] by (change (lenN [48; 60]) with 2 in Hj; lia); reflexivity. Qed.
