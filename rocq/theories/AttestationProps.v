(** * What registrations accept and what they store: C66, C67 and the content part of C38. *)
From Coq Require Import String.
From Verif Require Import Base State Env TeerdaysModel TeerexBase SgxVerifyModel TeerexModel
  EnclaveBridgeModel SidechainModel TeeracleModel ClaimsModel AssetRegistryModel XcmTransactorModel
  Runtime Frame EnvFacts Panic Examples SgxProofs SgxProps TeerexProofs TeerexProps PemProps.

(** ** C66: IAS reports *)
(** The comment extension of the certificate: its object identifier is the first occurrence of these 11
    bytes; then a tag, the length octets, and the content of that length *)
Definition comment_oid : bytes := [6; 9; 96; 134; 72; 1; 134; 248; 66; 1; 13].
Definition occurs_first (pat l : bytes) (pre rest : bytes) : Prop :=
  l = pre ++ pat ++ rest /\ forall pre' rest', l = pre' ++ pat ++ rest' -> lenN pre <= lenN pre'.
Definition length_octets (oct : bytes) (n : N) : Prop :=
  (oct = [n] /\ n <= 128) \/ exists x h l, oct = [x; h; l] /\ 128 < x /\ n = h * 256 + l.
Definition comment_of (cert content : bytes) : Prop :=
  exists pre tag oct rest, occurs_first comment_oid cert pre ([tag] ++ oct ++ content ++ rest) /\
  length_octets oct (lenN content).
(** A report signed by Intel's attestation service: report, signature and signing certificate are
    separated by bars; the latter two are base64 *)
Definition signed_ias_report (o : sgx_oracles) (cert report : bytes) : Prop :=
  exists s64 c64 sig sig_cert,
    comment_of cert (report ++ ascii "|" ++ s64 ++ ascii "|" ++ c64) /\
    ~ In 124 report /\ ~ In 124 s64 /\ ~ In 124 c64 /\
    or_b64 o s64 = Some sig /\ or_b64 o c64 = Some sig_cert /\
    or_ee_parse o sig_cert = true /\ or_rsa_cert o sig_cert report sig = true /\
    or_ias_ca o sig_cert 1573419050 = true.
(** The status of an IAS report *)
Definition ias_status_spec (t : bytes) (st : sgx_status) : Prop :=
  (t = ascii "OK" /\ st = StOk) \/ (t = ascii "GROUP_OUT_OF_DATE" /\ st = StGroupOutOfDate) \/
  (t = ascii "GROUP_REVOKED" /\ st = StGroupRevoked) \/ (t = ascii "CONFIGURATION_NEEDED" /\ st = StConfigurationNeeded) \/
  (t <> ascii "OK" /\ t <> ascii "GROUP_OUT_OF_DATE" /\ t <> ascii "GROUP_REVOKED" /\ t <> ascii "CONFIGURATION_NEEDED" /\
   st = StInvalid).
Definition genuine_ias (o : sgx_oracles) (cert : bytes) (r : verified_report) : Prop :=
  exists report j time secs status body quote header rb rest,
    signed_ias_report o cert report /\ or_json_ias o report = Some j /\
    ij_timestamp j = Some time /\ or_datetime o time = Some secs /\ (0 <= secs)%Z /\
    ij_status j = Some status /\ ij_body j = Some body /\ or_b64 o body = Some quote /\
    quote = header ++ rb ++ rest /\ lenN header = 48 /\ lenN rb = 384 /\
    vr_mr_enclave r = sub_ 64 32 rb /\ vr_mr_signer r = sub_ 128 32 rb /\ vr_report_data r = sub_ 320 64 rb /\
    ias_status_spec status (vr_status r) /\ vr_timestamp r = 1000 * Z.to_N secs /\
    vr_build_mode r = if N.testbit (le_val (sub_ 48 8 rb)) 1 then MDebug else MProduction.

Lemma occurs_first_iff pat l i : pat <> [] ->
  position pat l = Some i <-> exists pre rest, occurs_first pat l pre rest /\ lenN pre = i.
Proof.
  intros Hp. rewrite position_spec by auto. split.
  - intros [H1 H2]. apply is_prefix_spec in H1 as [rest H1].
    assert (lenN (takeN i l) = i) as Hl.
    { destruct (decide (i <= lenN l)) as [Hi|Hi].
      - unfold takeN, lenN in *. rewrite take_length. lia.
      - exfalso. unfold dropN in H1. rewrite drop_ge in H1 by (unfold lenN in Hi; lia).
        destruct pat; [congruence|discriminate]. }
    exists (takeN i l), rest. split; [|auto]. split.
    + rewrite <- H1. symmetry. apply takeN_dropN.
    + intros pre' rest' E. rewrite Hl. destruct (decide (lenN pre' < i)) as [Hlt|]; [|lia]. exfalso.
      specialize (H2 _ Hlt). rewrite E, dropN_app in H2 by auto.
      assert (is_prefix pat (pat ++ rest') = true) as Ht by (apply is_prefix_spec; eauto). congruence.
  - intros (pre & rest & [E Hmin] & <-). split.
    + rewrite E, dropN_app by auto. apply is_prefix_spec. eauto.
    + intros j Hj. destruct (is_prefix pat (dropN j l)) eqn:Ep; [exfalso|auto].
      apply is_prefix_spec in Ep as [r Ep]. specialize (Hmin (takeN j l) r). rewrite <- Ep, takeN_dropN in Hmin.
      specialize (Hmin eq_refl). unfold takeN, lenN in *. rewrite take_length in Hmin. lia.
Qed.
Lemma lookup_app_len (a b : bytes) i : i = lenN a -> (a ++ b) !! N.to_nat i = b !! 0%nat.
Proof. intros ->. unfold lenN, bytes. rewrite lookup_app_r by lia. f_equal. lia. Qed.
Lemma lookup_app_at (a b : bytes) i k : i = lenN a + N.of_nat k -> (a ++ b) !! N.to_nat i = b !! k.
Proof. intros ->. unfold lenN, bytes. rewrite lookup_app_r by lia. f_equal. lia. Qed.
Lemma lookup_split (l : bytes) i x : l !! N.to_nat i = Some x -> exists a b, l = a ++ x :: b /\ lenN a = i.
Proof.
  intros H. exists (take (N.to_nat i) l), (drop (S (N.to_nat i)) l). split; [symmetry; apply take_drop_middle; auto|].
  apply lookup_lt_Some in H. unfold lenN. rewrite take_length. lia.
Qed.
(** The content found at the first comment identifier *)
Lemma comment_iff cert content :
  (exists off len o', position ns_cmt_oid cert = Some off /\ length_from_raw_data cert (off + 12) = Some (len, o') /\
    get_range (o' + 1) len cert = Some content) <-> comment_of cert content.
Proof.
  split.
  - intros (off & len & o' & H1 & H2 & H3). apply occurs_first_iff in H1 as (pre & rest & Ho & <-); [|discriminate].
    pose proof (get_range_len _ _ _ _ H3) as Hlen.
    destruct Ho as [E Hmin]. unfold length_from_raw_data in H2.
    destruct (cert !! N.to_nat (lenN pre + 12)) as [b|] eqn:E1; [|discriminate].
    assert (exists tag r1, rest = tag :: b :: r1) as (tag & r1 & ->).
    { rewrite E in E1. apply lookup_split in E1 as (a & z & E1 & Ha).
      destruct rest as [|t r].
      { exfalso. apply (f_equal lenN) in E1. rewrite !lenN_app, Ha, lenN_cons in E1. change (lenN ns_cmt_oid) with 11 in E1.
        change (lenN []) with 0 in E1. lia. }
      exists t. replace (pre ++ ns_cmt_oid ++ t :: r) with ((pre ++ ns_cmt_oid ++ [t]) ++ r) in E1
        by (rewrite <- !app_assoc; reflexivity).
      apply app_inj_1 in E1 as [_ ->]; [eauto|].
      assert (lenN (pre ++ ns_cmt_oid ++ [t]) = lenN pre + 12) by (rewrite !lenN_app; reflexivity).
      unfold lenN in *. lia. }
    destruct (N.ltb_spec 128 b) as [Hb|Hb].
    + destruct (cert !! N.to_nat (lenN pre + 12 + 1)) as [h|] eqn:E2; [|discriminate].
      destruct (cert !! N.to_nat (lenN pre + 12 + 2)) as [lo|] eqn:E3; [|discriminate].
      inversion H2; subst len o'. clear H2.
      assert (exists r2, r1 = h :: lo :: r2) as (r2 & ->).
      { rewrite E in E2, E3.
        replace (pre ++ ns_cmt_oid ++ tag :: b :: r1) with ((pre ++ ns_cmt_oid ++ [tag; b]) ++ r1) in E2, E3
          by (rewrite <- !app_assoc; reflexivity).
        assert (lenN (pre ++ ns_cmt_oid ++ [tag; b]) = lenN pre + 13) as Hl by (rewrite !lenN_app; reflexivity).
        rewrite lookup_app_len in E2 by lia. destruct r1 as [|h' r]; [discriminate|]. inversion E2; subst.
        change (h :: r) with ([h] ++ r) in E3. rewrite app_assoc, lookup_app_len in E3.
        - destruct r; [discriminate|]. inversion E3; subst. eauto.
        - rewrite lenN_app, Hl, lenN_cons, lenN_nil. lia. }
      assert (lenN (pre ++ ns_cmt_oid ++ [tag; b; h; lo]) = lenN pre + 15) as Hl by (rewrite !lenN_app; reflexivity).
      apply get_range_ok in H3. destruct H3 as (a & z & E4 & Ha & _).
      assert (a = pre ++ ns_cmt_oid ++ [tag; b; h; lo] /\ content ++ z = r2) as [-> <-].
      { apply app_inj_1; [unfold lenN in *; lia|]. rewrite <- E4, E, <- !app_assoc. reflexivity. }
      exists pre, tag, [b; h; lo], z. split; [split; [exact E|exact Hmin]|]. right. exists b, h, lo. auto.
    + inversion H2; subst len o'. clear H2.
      assert (lenN (pre ++ ns_cmt_oid ++ [tag; b]) = lenN pre + 13) as Hl by (rewrite !lenN_app; reflexivity).
      apply get_range_ok in H3. destruct H3 as (a & z & E4 & Ha & _).
      assert (a = pre ++ ns_cmt_oid ++ [tag; b] /\ content ++ z = r1) as [-> <-].
      { apply app_inj_1; [unfold lenN in *; lia|]. rewrite <- E4, E, <- !app_assoc. reflexivity. }
      exists pre, tag, [b], z. split; [split; [exact E|exact Hmin]|]. left. split; [f_equal; lia|lia].
  - intros (pre & tag & oct & rest & Ho & Hoct).
    assert (position ns_cmt_oid cert = Some (lenN pre)) as Hp.
    { apply occurs_first_iff; [discriminate|]. eauto. }
    destruct Ho as [E Hmin]. exists (lenN pre), (lenN content).
    exists (lenN pre + 11 + lenN oct). split; [auto|].
    assert (lenN (pre ++ comment_oid ++ [tag]) = lenN pre + 12) as Hl by (rewrite !lenN_app; reflexivity).
    split.
    + unfold length_from_raw_data. rewrite E.
      replace (pre ++ comment_oid ++ [tag] ++ oct ++ content ++ rest)
        with ((pre ++ comment_oid ++ [tag]) ++ oct ++ content ++ rest) by (rewrite <- !app_assoc; reflexivity).
      rewrite lookup_app_len by lia.
      destruct Hoct as [[-> Hn]|(x & h & l & -> & Hx & Hn)].
      * cbn [app lookup list_lookup]. destruct (N.ltb_spec 128 (lenN content)); [lia|]. do 2 f_equal. rewrite !lenN_cons, lenN_nil. lia.
      * cbn [app lookup list_lookup]. destruct (N.ltb_spec 128 x); [|lia].
        rewrite (lookup_app_at _ _ (lenN pre + 12 + 1) 1), (lookup_app_at _ _ (lenN pre + 12 + 2) 2) by (rewrite Hl; lia).
        cbn [app lookup list_lookup]. rewrite Hn. do 2 f_equal. rewrite !lenN_cons, lenN_nil. lia.
    + rewrite E. replace (pre ++ comment_oid ++ [tag] ++ oct ++ content ++ rest)
        with ((pre ++ comment_oid ++ [tag] ++ oct) ++ content ++ rest) by (rewrite <- !app_assoc; reflexivity).
      apply get_range_app; [|auto]. rewrite !lenN_app, lenN_cons, lenN_nil. change (lenN comment_oid) with 11. lia.
Qed.

Lemma split_single p (Hp : p = 124) s : forall cur parts, ~ In p cur -> split_go [p] s O cur = parts ->
  Forall (fun x => ~ In p x) parts /\
  match parts with [] => False | q :: r => rev cur ++ s = q ++ concat (map (fun y => p :: y) r) end.
Proof.
  induction s as [|x s IH]; intros cur parts Hc E.
  - cbn in E. subst parts. split; [constructor; [|constructor]; rewrite <- in_rev; auto|]. cbn. reflexivity.
  - cbn [split_go is_prefix] in E. rewrite andb_true_r in E. destruct (N.eqb_spec p x) as [->|Hx].
    + cbn [length] in E. change (1 - 1)%nat with O in E. subst parts.
      destruct (IH [] _ (fun H => H) eq_refl) as [H1 H2].
      split; [constructor; [rewrite <- in_rev; auto|auto]|].
      destruct (split_go [x] s 0 []) as [|q r]; [contradiction|]. cbn [map concat]. cbn in H2. rewrite H2. reflexivity.
    + destruct (IH (x :: cur) parts) as [H1 H2]; [intros [H|H]; [congruence|auto]|exact E|]. split; [auto|].
      destruct parts; [auto|]. rewrite <- H2. cbn [rev]. rewrite <- app_assoc. reflexivity.
Qed.
Lemma split_bar_iff raw a b d : split_on [124] raw = [a; b; d] <->
  raw = a ++ [124] ++ b ++ [124] ++ d /\ ~ In 124 a /\ ~ In 124 b /\ ~ In 124 d.
Proof.
  unfold split_on. split.
  - intros E. destruct (split_single 124 eq_refl raw [] _ (fun H => H) E) as [H1 H2].
    inversion H1 as [|? ? A1 H3]; subst. inversion H3 as [|? ? A2 H4]; subst. inversion H4 as [|? ? A3 _]; subst.
    split; [|auto]. cbn in H2. rewrite H2, app_nil_r. reflexivity.
  - intros (-> & Ha & Hb & Hd).
    assert (forall x : bytes, ~ In 124 x -> Forall (fun y => y <> 124) x) as Hn.
    { intros x Hx. apply List.Forall_forall. intros y Hy ->. auto. }
    rewrite split_go_plain, app_nil_r by auto. rewrite split_go_match, rev_involutive.
    rewrite split_go_plain, app_nil_r by auto. rewrite split_go_match, rev_involutive.
    rewrite <- (app_nil_r d), split_go_plain, app_nil_r by auto. cbn [split_go]. rewrite rev_involutive, app_nil_r. reflexivity.
Qed.
Lemma netscape_iff o cert report sig sc : netscape o cert = Some (report, sig, sc) <->
  exists s64 c64, comment_of cert (report ++ [124] ++ s64 ++ [124] ++ c64) /\
  ~ In 124 report /\ ~ In 124 s64 /\ ~ In 124 c64 /\ or_b64 o s64 = Some sig /\ or_b64 o c64 = Some sc.
Proof.
  unfold netscape. split.
  - intros H. destruct (position ns_cmt_oid cert) as [off|] eqn:E1; [|discriminate].
    destruct (length_from_raw_data cert (off + 12)) as [[len o']|] eqn:E2; [|discriminate].
    destruct (get_range (o' + 1) len cert) as [raw|] eqn:E3; [|discriminate].
    destruct (split_on [124] raw) as [|a [|b [|d [|]]]] eqn:E4; try discriminate.
    apply split_bar_iff in E4 as (-> & Ha & Hb & Hd).
    destruct (or_b64 o b) as [x|] eqn:E5; [|discriminate]. destruct (or_b64 o d) as [y|] eqn:E6; [|discriminate].
    inversion H; subst. exists b, d. split; [apply comment_iff; exists off, len, o'; auto|]. auto.
  - intros (s64 & c64 & Hc & H1 & H2 & H3 & H4 & H5). apply comment_iff in Hc as (off & len & o' & -> & -> & ->).
    rewrite (proj2 (split_bar_iff _ report s64 c64)) by auto. rewrite H4, H5. reflexivity.
Qed.
Lemma ias_status_iff t st : ias_status t = st <-> ias_status_spec t st.
Proof.
  unfold ias_status, ias_status_spec.
  change str_OK with (ascii "OK"). change str_GROUP_OUT_OF_DATE with (ascii "GROUP_OUT_OF_DATE").
  change str_GROUP_REVOKED with (ascii "GROUP_REVOKED"). change str_CONFIGURATION_NEEDED with (ascii "CONFIGURATION_NEEDED").
  destruct (beq t (ascii "OK")) eqn:E1; [apply beq_true in E1; subst t|apply beq_false in E1].
  { split; [intros <-; auto|]. intros [[_ H]|[[H _]|[[H _]|[[H _]|(H & _)]]]]; [auto|discriminate..|congruence]. }
  destruct (beq t (ascii "GROUP_OUT_OF_DATE")) eqn:E2; [apply beq_true in E2; subst t|apply beq_false in E2].
  { split; [intros <-; auto|]. intros [[H _]|[[_ H]|[[H _]|[[H _]|(_ & H & _)]]]]; [discriminate|auto|discriminate..|congruence]. }
  destruct (beq t (ascii "GROUP_REVOKED")) eqn:E3; [apply beq_true in E3; subst t|apply beq_false in E3].
  { split; [intros <-; auto|]. intros [[H _]|[[H _]|[[_ H]|[[H _]|(_ & _ & H & _)]]]]; [discriminate..|auto|discriminate|congruence]. }
  destruct (beq t (ascii "CONFIGURATION_NEEDED")) eqn:E4; [apply beq_true in E4; subst t|apply beq_false in E4].
  { split; [intros <-; auto 10|]. intros [[H _]|[[H _]|[[H _]|[[_ H]|(_ & _ & _ & H & _)]]]]; [discriminate..|auto|congruence]. }
  split; [intros <-; auto 10|]. intros [[H _]|[[H _]|[[H _]|[[H _]|(_ & _ & _ & _ & H)]]]]; [congruence..|auto].
Qed.
(** A report is accepted exactly when it is genuine; the result is what the quote in it says. The
    signing certificate is judged as of 1573419050 (November 2019), not of the time of the call. *)
Theorem C66_ias_report_accepted_iff_genuine : forall o cert r,
  verify_ias_report o cert = ROk r <-> genuine_ias o cert r.
Proof.
  intros o cert r. unfold verify_ias_report, verify_signature. split.
  - intros H. apply rbind_ok in H as ([[report sig] sc] & H1 & H). apply rok_or_ok in H1.
    apply netscape_iff in H1 as (s64 & c64 & Hc & N1 & N2 & N3 & B1 & B2).
    apply rbind_ok in H as (? & H2 & H). apply rensure_ok in H2.
    apply rbind_ok in H as (? & H3 & H). apply rensure_ok in H3.
    apply rbind_ok in H as (? & H4 & H). apply rensure_ok in H4. unfold ias_valid_until in H4.
    unfold parse_report in H.
    apply rbind_ok in H as (j & J1 & H). apply rok_or_ok in J1.
    apply rbind_ok in H as (time & J2 & H). apply rok_or_ok in J2.
    apply rbind_ok in H as (secs & J3 & H). apply rok_or_ok in J3.
    apply rbind_ok in H as (? & J4 & H). apply rensure_ok in J4.
    apply rbind_ok in H as (st & J5 & H). apply rok_or_ok in J5.
    apply rbind_ok in H as (body & J6 & H). apply rok_or_ok in J6.
    apply rbind_ok in H as (quote & J7 & H). apply rok_or_ok in J7.
    destruct (read 48 quote) as [[header l]|] eqn:E1; [|discriminate].
    destruct (read 384 l) as [[rb rest]|] eqn:E2; [|discriminate].
    apply read_ok in E1 as [-> E1], E2 as [-> E2]. inversion H; subst r; clear H.
    exists report, j, time, secs, st, body, (header ++ rb ++ rest), header, rb, rest.
    cbn [vr_mr_enclave vr_mr_signer vr_report_data vr_status vr_timestamp vr_build_mode parse_body rb_mr_enclave rb_mr_signer rb_report_data].
    repeat (split; [auto; fail|]). split; [exists s64, c64, sig, sc; auto 10|]. repeat (split; [auto; fail|]). split; [lia|].
    repeat (split; [auto; fail|]). split; [apply ias_status_iff; auto|]. split; [lia|apply build_mode_bit].
  - intros (report & j & time & secs & st & body & quote & header & rb & rest &
      (s64 & c64 & sig & sc & Hc & N1 & N2 & N3 & B1 & B2 & H2 & H3 & H4) & J1 & J2 & J3 & J4 & J5 & J6 & J7 & -> & L1 & L2 &
      R1 & R2 & R3 & R4 & R5 & R6).
    assert (netscape o cert = Some (report, sig, sc)) as -> by (apply netscape_iff; exists s64, c64; auto 10).
    cbn [rok_or rbind]. rewrite H2. cbn [rensure rbind]. rewrite H3. cbn [rensure rbind]. unfold ias_valid_until. rewrite H4.
    cbn [rensure rbind]. unfold parse_report. rewrite J1. cbn [rok_or rbind]. rewrite J2. cbn [rok_or rbind]. rewrite J3.
    cbn [rok_or rbind]. destruct (Z.leb_spec 0 (secs * 1000)%Z) as [Hs|Hs]; [|lia]. cbn [rensure rbind].
    rewrite J5. cbn [rok_or rbind]. rewrite J6. cbn [rok_or rbind]. rewrite J7. cbn [rok_or rbind].
    rewrite (read_app _ _ _ L1), (read_app _ _ _ L2). f_equal. destruct r as [a1 a2 a3 a4 a5 a6].
    cbn [vr_mr_enclave vr_mr_signer vr_report_data vr_status vr_timestamp vr_build_mode parse_body rb_mr_enclave rb_mr_signer rb_report_data] in *.
    apply ias_status_iff in R4. subst. f_equal; [lia|]. apply build_mode_bit.
Qed.
Print Assumptions C66_ias_report_accepted_iff_genuine.

(** A certificate in the demo format: time 4, then a quote of account [acc 1] *)
Definition ias_content : bytes :=
  ([4; 0; 0; 0; 0; 0; 0; 0] ++ zeros 48 ++ (zeros 48 ++ [2] ++ zeros 15 ++ takeN 32 ([9; 9] ++ zeros 32) ++ zeros 224 ++ acc 1 ++ zeros 32) ++ [7])
  ++ ascii "|" ++ [1; 2] ++ ascii "|" ++ [3].
Definition ias_cert : bytes := [48; 6] ++ comment_oid ++ [4] ++ [130; lenN ias_content / 256; lenN ias_content mod 256] ++ ias_content ++ [1].
Example C66_example : verify_ias_report sgx_demo ias_cert =
  ROk (mkReport ([9; 9] ++ zeros 30) (zeros 32) (acc 1 ++ zeros 32) StOk 4000 MDebug).
Proof. vm_compute. reflexivity. Qed.

(** ** C67 *)
Definition url_fits (u : option bytes) : Prop := forall x, u = Some x -> lenN x <= 256.
(** The state after filing [e] as the enclave of account [a] (of key [k]): nothing else changes but the
    event log *)
Definition after_sovereign (a : acct) (e : enclave) (u : option bytes) (s : rt) : rt :=
  let t := rt_tx s in
  add_ev (EvAddedSgxEnclave a u (en_status e) (en_method e))
    (set_tx (mkTx (<[a := e]> (tx_sov t)) (tx_prox t) (tx_qe t) (tx_tcb t) (tx_allow_debug t) (tx_allow_skip t)) s).
Definition after_proxied (k : eaddr) (e : enclave) (u : option bytes) (s : rt) : rt :=
  let t := rt_tx s in
  add_ev (EvAddedSgxEnclave k.1.2 u (en_status e) (en_method e))
    (set_tx (mkTx (tx_sov t) (<[k := e]> (tx_prox t)) (tx_qe t) (tx_tcb t) (tx_allow_debug t) (tx_allow_skip t)) s).

Lemma register_fw c a proof url m s e :
  attested c s a proof m e -> (en_build_mode e = MDebug -> tx_allow_debug (rt_tx s) = true) ->
  lenN proof <= 5000 -> url_fits url ->
  register_sgx_enclave c (Signed a) proof url m s =
  Ok tt (add_ev (EvAddedSgxEnclave a url (en_status e) m) (store_enclave a (with_url e url) s)).
Proof.
  intros Ha Hd Hl Hu. unfold register_sgx_enclave. rewrite (bind_fw _ _ _ a s) by reflexivity.
  rewrite (bind_fw _ _ _ tt s).
  2:{ unfold ensure, max_proof_len. destruct (N.leb_spec (lenN proof) 5000); [reflexivity|lia]. }
  rewrite (bind_fw _ _ _ tt s).
  2:{ destruct url as [x|]; [|reflexivity]. specialize (Hu x eq_refl). unfold ensure, max_url_len.
      destruct (N.leb_spec (lenN x) 256); [reflexivity|lia]. }
  assert ((match m with MIas => reg_ias c a proof | MDcap p => reg_dcap c a proof p | MSkip p => reg_skip a proof p end) s = Ok e s) as He.
  { destruct Ha as [r Hv H1 H2 H3|p fm tcb r ref st Hv Hp Hf Ht|p Hs Ha].
    - unfold reg_ias, ensure_within_24h. rewrite (bind_fw _ _ _ r s) by (rewrite Hv; reflexivity).
      rewrite (bind_fw _ _ _ tt s).
      2:{ rewrite (bind_fw _ _ _ (rt_now s) s) by reflexivity. unfold ensure.
          destruct (N.leb_spec (vr_timestamp r) (rt_now s)); [|lia]. rewrite (bind_fw _ _ _ tt s) by reflexivity.
          destruct (N.ltb_spec (rt_now s - vr_timestamp r) (c_day c)); [reflexivity|lia]. }
      rewrite (bind_fw _ _ _ tt s); [reflexivity|]. rewrite <- H3. unfold ensure.
      rewrite (proj2 (beq_true a a) eq_refl). reflexivity.
    - unfold reg_dcap. rewrite (bind_fw _ _ _ (rt_now s) s) by reflexivity. rewrite (bind_fw _ _ _ (tx_qe (rt_tx s)) s) by reflexivity.
      rewrite (bind_fw _ _ _ (fm, tcb, r) s) by (rewrite Hv; reflexivity). cbv iota beta.
      rewrite (bind_fw _ _ _ tt s).
      2:{ destruct p; [reflexivity|]. cbn [negb]. rewrite <- (Hp eq_refl). unfold ensure.
          rewrite (proj2 (beq_true a a) eq_refl). reflexivity. }
      rewrite (bind_fw _ _ _ (Some ref) s) by (unfold gets; rewrite Hf; reflexivity).
      rewrite (bind_fw _ _ _ ref s) by reflexivity. rewrite (bind_fw _ _ _ st s) by (rewrite Ht; reflexivity). reflexivity.
    - unfold reg_skip. rewrite (bind_fw _ _ _ true s) by (unfold gets; rewrite Hs; reflexivity).
      rewrite (bind_fw _ _ _ tt s) by reflexivity. rewrite (bind_fw _ _ _ (rt_now s) s) by reflexivity.
      destruct (N.leb_spec (lenN a) 64); [reflexivity|lia]. }
  rewrite (bind_fw _ _ _ e s) by exact He. rewrite (bind_fw _ _ _ (tx_allow_debug (rt_tx s)) s) by reflexivity.
  rewrite (bind_fw _ _ _ tt s).
  2:{ destruct (decide (en_build_mode e = MDebug)) as [Em|Em].
      - rewrite (Hd Em). reflexivity.
      - rewrite bool_decide_eq_false_2 by auto. destruct (tx_allow_debug (rt_tx s)); reflexivity. }
  pose proof (attested_method _ _ _ _ _ _ Ha) as <-.
  rewrite (bind_fw _ _ _ tt (store_enclave a (with_url e url) s)).
  - destruct url; reflexivity.
  - unfold add_enclave, store_enclave, fingerprint, instance_signer. destruct (is_proxied (with_url e url)); reflexivity.
Qed.
Lemma dispatch_iff c o k s s' : dispatch c o k s = (Success, s') <-> exec c o k s = Ok tt s'.
Proof.
  split; [apply run_call_ok|]. intros H. unfold dispatch, run_call. rewrite H. reflexivity.
Qed.
Lemma register_iff c o proof url m s s' : dispatch c o (CTx (TxRegister proof url m)) s = (Success, s') <->
  exists a e, o = Signed a /\ attested c s a proof m e /\
  (en_build_mode e = MDebug -> tx_allow_debug (rt_tx s) = true) /\
  lenN proof <= 5000 /\ url_fits url /\
  s' = add_ev (EvAddedSgxEnclave a url (en_status e) m) (store_enclave a (with_url e url) s).
Proof.
  rewrite dispatch_iff. cbn [exec tx_exec]. split; [apply register_ok|].
  intros (a & e & -> & Ha & Hd & Hl & Hu & ->). apply register_fw; auto.
Qed.
Lemma url_new rd mre mrs t m st am u : with_url (new_enclave rd mre mrs t m st am) u = mkEnclave rd mre mrs t u m am st.
Proof. destruct u; reflexivity. Qed.

(** An IAS registration succeeds exactly if the report is genuine, at most a day old, of the caller's
    key and, in debug mode, allowed; then the caller's entry is what the report says. *)
Theorem C67_ias_registration_stores_exactly_the_report : forall c o p u s s',
  dispatch c o (CTx (TxRegister p u MIas)) s = (Success, s') <->
  exists a r, o = Signed a /\ lenN p <= 5000 /\ url_fits u /\ genuine_ias (c_sgx c) p r /\
  vr_timestamp r <= rt_now s < vr_timestamp r + c_day c /\ takeN 32 (vr_report_data r) = a /\
  (vr_build_mode r = MDebug -> tx_allow_debug (rt_tx s) = true) /\
  s' = after_sovereign a (mkEnclave (vr_report_data r) (vr_mr_enclave r) (vr_mr_signer r) (vr_timestamp r) u
                                    (vr_build_mode r) MIas (vr_status r)) u s.
Proof.
  intros c o p u s s'. rewrite register_iff. split.
  - intros (a & e & -> & Ha & Hd & Hl & Hu & ->). inversion Ha as [r Hv H1 H2 H3| |]; subst e.
    exists a, r. cbn [en_build_mode new_enclave] in Hd. rewrite <- C66_ias_report_accepted_iff_genuine.
    repeat (split; [auto; fail|]). split; [lia|]. split; [auto|]. split; [auto|]. rewrite url_new. reflexivity.
  - intros (a & r & -> & Hl & Hu & Hv & Ht & Ha & Hd & ->). apply C66_ias_report_accepted_iff_genuine in Hv.
    exists a. eexists. split; [reflexivity|]. split; [apply (att_ias c s a p r); auto; lia|].
    cbn [en_build_mode new_enclave]. repeat (split; [auto; fail|]). rewrite url_new. reflexivity.
Qed.
Print Assumptions C67_ias_registration_stores_exactly_the_report.
(** A DCAP registration succeeds exactly if the quote is genuine under the stored quoting enclave, its
    platform reaches a level of the stored list of its FMSPC and, if sovereign, it is of the caller's
    key. The entry is what the quote says, stamped with the present time and the status of the first
    level reached. *)
Theorem C67_dcap_registration_stores_exactly_the_quote : forall c g l o p u proxied s',
  json_levels_typed (c_sgx c) -> let s := run c (genesis_state g) l in
  dispatch c o (CTx (TxRegister p u (MDcap proxied))) s = (Success, s') <->
  exists a fm tcb r i n lv, o = Signed a /\ lenN p <= 5000 /\ url_fits u /\
  genuine_quote (c_sgx c) p (rt_now s) (tx_qe (rt_tx s)) fm tcb r /\
  tx_tcb (rt_tx s) !! fm = Some i /\ first_reached i tcb lv n /\
  (vr_build_mode r = MDebug -> tx_allow_debug (rt_tx s) = true) /\
  let e := mkEnclave (vr_report_data r) (vr_mr_enclave r) (vr_mr_signer r) (rt_now s) u
                     (vr_build_mode r) (MDcap proxied) (recorded_status (tl_status lv)) in
  if proxied then s' = after_proxied (vr_mr_enclave r, a, inl (vr_report_data r ++ [0; 0])) e u s
  else takeN 32 (vr_report_data r) = a /\ s' = after_sovereign a e u s.
Proof.
  intros c g l o p u pr s' Hj s. rewrite register_iff.
  assert (forall fm tcb r, verify_dcap_quote (c_sgx c) p (rt_now s) (tx_qe (rt_tx s)) = ROk (fm, tcb, r) ->
    vr_timestamp r = rt_now s /\ length (tl_cpusvn tcb) = 16%nat) as Hq.
  { intros fm tcb r H. split.
    - apply verify_dcap_iff in H as (q & _ & _ & _ & ->). reflexivity.
    - apply verify_dcap_iff in H as (q & _ & _ & (_ & _ & _ & _ & leaf & i & inter & sig & _ & _ & _ & Hx & _) & _).
      apply extract_tcb_16 in Hx. auto. }
  assert (forall fm i, tx_tcb (rt_tx s) !! fm = Some i -> levels_16 i) as H16.
  { intros fm i Hi. eapply stored_levels_16; eauto. }
  split.
  - intros (a & e & -> & Ha & Hd & Hl & Hu & ->).
    inversion Ha as [|p' fm tcb r ref st Hv Hs Hf Ht Ep Ee|]; subst p' e. cbn [en_build_mode new_enclave] in Hd.
    destruct (Hq _ _ _ Hv) as [Et Ex].
    apply C34_recorded_status_is_of_first_matching_level in Ht as (n & lv & Hn & ->); [|eauto|auto].
    apply C35_dcap_quote_accepted_iff_genuine in Hv.
    exists a, fm, tcb, r, ref, n, lv. repeat (split; [auto; fail|]). cbn zeta. rewrite url_new, Et.
    destruct pr; [reflexivity|]. split; [symmetry; auto|reflexivity].
  - intros (a & fm & tcb & r & i & n & lv & -> & Hl & Hu & Hv & Hf & Hn & Hd & H). cbn zeta in H.
    apply C35_dcap_quote_accepted_iff_genuine in Hv. destruct (Hq _ _ _ Hv) as [Et Ex].
    exists a. eexists. split; [reflexivity|]. split.
    { apply (att_dcap c s a p pr fm tcb r i (recorded_status (tl_status lv))); auto.
      - intros ->. destruct H as [<- _]. reflexivity.
      - apply C34_recorded_status_is_of_first_matching_level; eauto. }
    cbn [en_build_mode new_enclave]. repeat (split; [auto; fail|]). rewrite url_new, Et.
    destruct pr; [exact H|]. destruct H as [_ ->]. reflexivity.
Qed.
Print Assumptions C67_dcap_registration_stores_exactly_the_quote.
(** Skipping attestation *)
Theorem C67_skipped_registration_stores_exactly_the_claim : forall c a p u proxied s s', lenN a <= 64 ->
  dispatch c (Signed a) (CTx (TxRegister p u (MSkip proxied))) s = (Success, s') <->
  lenN p <= 5000 /\ url_fits u /\ tx_allow_skip (rt_tx s) = true /\
  let rd := a ++ zeros (64 - lenN a) in
  let mre := if 32 <=? lenN p then takeN 32 p else zeros 32 in
  let e := mkEnclave rd mre (zeros 32) (rt_now s) u MProduction (MSkip proxied) StInvalid in
  s' = if proxied then after_proxied (mre, a, inl (rd ++ [0; 0])) e u s else after_sovereign a e u s.
Proof.
  intros c a p u pr s s' H64. rewrite register_iff. split.
  - intros (a' & e & E & Ha & Hd & Hl & Hu & ->). inversion E; subst a'. inversion Ha as [| |p' Hs _ Ep Ee]; subst p' e.
    repeat (split; [auto; fail|]). cbn zeta. rewrite url_new. destruct pr; reflexivity.
  - intros (Hl & Hu & Hs & ->). exists a. eexists. split; [reflexivity|]. split; [apply att_skip; auto|].
    split; [discriminate|]. repeat (split; [auto; fail|]). rewrite url_new. destruct pr; reflexivity.
Qed.
Print Assumptions C67_skipped_registration_stores_exactly_the_claim.
(** All three methods succeed on concrete inputs *)
Example C67_example :
  let s := run cfg_dcap (genesis_state (gen0 [alice])) [reg_qe 100 9000 7; reg_tcb 100 9000 11; OCall Root (CTx (TxSetFlags true true))] in
  (dispatch cfg_dcap (Signed (acc 1)) (CTx (TxRegister ias_cert (Some [7]) MIas)) s).1 = Success /\
  (dispatch cfg_dcap (Signed bob) (CTx (TxRegister (quote_demo (acc 77) alice 2) None (MDcap true))) s).1 = Success /\
  (dispatch cfg_dcap (Signed bob) (CTx (TxRegister [1; 2] (Some []) (MSkip false))) s).1 = Success.
Proof. vm_compute. auto. Qed.

(** ** C38: what is stored of a collateral document *)
Definition after_qe (q : qenclave) (s : rt) : rt :=
  let t := rt_tx s in
  add_ev (EvSgxQuotingEnclaveRegistered q)
    (set_tx (mkTx (tx_sov t) (tx_prox t) q (tx_tcb t) (tx_allow_debug t) (tx_allow_skip t)) s).
Definition after_tcb (fm : bytes) (i : tcb_info) (s : rt) : rt :=
  let t := rt_tx s in
  add_ev (EvSgxTcbInfoRegistered fm i)
    (set_tx (mkTx (tx_sov t) (tx_prox t) (tx_qe t) (<[fm := i]> (tx_tcb t)) (tx_allow_debug t) (tx_allow_skip t)) s).
(** The document is stored exactly if it is authentic and in force, with the content of all its fields. *)
Theorem C38_quoting_enclave_is_stored_as_documented : forall c o doc sig chain s s',
  dispatch c o (CTx (TxRegisterQe doc sig chain)) s = (Success, s') <->
  exists a d q, o = Signed a /\ authentic_identity c (rt_now s) doc sig chain d /\
  ei_id d = ascii "QE" /\ ei_version d = 2 /\ (ei_issue d < Z.of_N (rt_now s) < ei_next d)%Z /\ rt_now s <= i64_max /\
  Z.of_N (q_issue q) = ei_issue d /\ Z.of_N (q_next q) = ei_next d /\
  q_misc q = ei_misc d /\ q_misc_mask q = ei_misc_mask d /\ q_attr q = ei_attr d /\ q_attr_mask q = ei_attr_mask d /\
  q_mrsigner q = ei_mrsigner d /\ q_prodid q = ei_prodid d /\ q_tcb q = map fst (ei_levels d) /\
  s' = after_qe q s.
Proof.
  intros c o doc sig chain s s'. rewrite dispatch_iff. cbn [exec tx_exec]. split.
  - intros H. assert (rt_now s <= i64_max) as Hm.
    { unfold register_quoting_enclave, verify_quoting_enclave in H.
      apply bind_ok in H as (a & s1 & H1 & H). apply ensure_signed_ok in H1 as [-> ->].
      apply bind_ok in H as (q & s1 & H1 & H).
      apply bind_ok in H1 as (t & s2 & H2 & H1). apply gets_ok in H2 as [-> ->].
      apply bind_ok in H1 as (leaf & s2 & H2 & H1). apply lift_res_ok in H2 as [Hl ->].
      apply bind_ok in H1 as (d & s2 & H2 & H1). apply lift_res_ok in H2 as [Hd ->].
      apply bind_ok in H1 as (z & s2 & H2 & H1). apply lift_res_ok in H2 as [Hz ->]. apply time_i64_ok in Hz as [Hz ->]. auto. }
    apply reg_qe_ok in H as (a & d & -> & Ha & H1 & H2 & H3 & H4 & H). exists a, d. eexists.
    split; [reflexivity|]. split; [auto|]. split; [rewrite H1; reflexivity|]. split; [auto|]. split; [lia|]. split; [auto|].
    cbn zeta in H. unfold after_qe. rewrite H.
    match goal with |- context [put_qe ?q s] => instantiate (1 := q) end. cbn. repeat (split; [auto; try lia; fail|]). reflexivity.
  - intros (a & d & q & -> & Ha & H1 & H2 & H3 & Hm & Q1 & Q2 & Q3 & Q4 & Q5 & Q6 & Q7 & Q8 & Q9 & ->).
    apply authentic_identity_iff in Ha as (leaf & Hl & Hd).
    unfold register_quoting_enclave, verify_quoting_enclave. rewrite (bind_fw _ _ _ a s) by reflexivity.
    rewrite (bind_fw _ _ _ q s); [reflexivity|]. rewrite (bind_fw _ _ _ (rt_now s) s) by reflexivity.
    rewrite (bind_fw _ _ _ leaf s) by (rewrite Hl; reflexivity). rewrite (bind_fw _ _ _ d s) by (rewrite Hd; reflexivity).
    rewrite (bind_fw _ _ _ (Z.of_N (rt_now s)) s).
    2:{ unfold time_i64. destruct (N.leb_spec (rt_now s) i64_max); [reflexivity|lia]. }
    rewrite (bind_fw _ _ _ tt s).
    2:{ unfold identity_is_valid. rewrite H1, H2. change (beq (ascii "QE") str_QE) with true.
        destruct (Z.ltb_spec (ei_issue d) (Z.of_N (rt_now s))); [|lia].
        destruct (Z.ltb_spec (Z.of_N (rt_now s)) (ei_next d)); [|lia]. reflexivity. }
    unfold to_quoting_enclave, z_to_u64. rewrite <- Q1, <- Q2.
    destruct (Z.leb_spec 0 (Z.of_N (q_issue q))); [|lia]. destruct (Z.leb_spec 0 (Z.of_N (q_next q))); [|lia].
    cbn [rbind lift_res]. rewrite !N2Z.id, <- Q3, <- Q4, <- Q5, <- Q6, <- Q7, <- Q8, <- Q9. destruct q. reflexivity.
Qed.
Print Assumptions C38_quoting_enclave_is_stored_as_documented.
Theorem C38_tcb_info_is_stored_as_documented : forall c o doc sig chain s s',
  dispatch c o (CTx (TxRegisterTcb doc sig chain)) s = (Success, s') <->
  exists a d i, o = Signed a /\ authentic_tcb c (rt_now s) doc sig chain d /\
  tj_id d = ascii "SGX" /\ tj_version d = 3 /\ (tj_issue d < Z.of_N (rt_now s) < tj_next d)%Z /\ rt_now s <= i64_max /\
  Z.of_N (ti_issue i) = tj_issue d /\ Z.of_N (ti_next i) = tj_next d /\
  map (fun l => (tl_cpusvn l, tl_pcesvn l, tl_status l)) (ti_levels i) = tj_levels d /\
  s' = after_tcb (tj_fmspc d) i s.
Proof.
  intros c o doc sig chain s s'. rewrite dispatch_iff. cbn [exec tx_exec]. split.
  - intros H. assert (rt_now s <= i64_max) as Hm.
    { unfold register_tcb_info, verify_tcb_info in H.
      apply bind_ok in H as (a & s1 & H1 & H). apply ensure_signed_ok in H1 as [-> ->].
      apply bind_ok in H as (q & s1 & H1 & H).
      apply bind_ok in H1 as (t & s2 & H2 & H1). apply gets_ok in H2 as [-> ->].
      apply bind_ok in H1 as (leaf & s2 & H2 & H1). apply lift_res_ok in H2 as [Hl ->].
      apply bind_ok in H1 as (d & s2 & H2 & H1). apply lift_res_ok in H2 as [Hd ->].
      apply bind_ok in H1 as (z & s2 & H2 & H1). apply lift_res_ok in H2 as [Hz ->]. apply time_i64_ok in Hz as [Hz ->]. auto. }
    apply reg_tcb_ok in H as (a & d & -> & Ha & H1 & H2 & H3 & H4 & H). exists a, d. eexists.
    split; [reflexivity|]. split; [auto|]. split; [rewrite H1; reflexivity|]. split; [auto|]. split; [lia|]. split; [auto|].
    cbn zeta in H. unfold after_tcb. rewrite H.
    match goal with |- context [put_tcb _ ?q s] => instantiate (1 := q) end. cbn [ti_issue ti_next ti_levels].
    split; [lia|]. split; [lia|]. split; [|reflexivity]. rewrite map_map. cbn.
    rewrite <- (map_id (tj_levels d)) at 2. apply map_ext. intros [[? ?] ?]. reflexivity.
  - intros (a & d & i & -> & Ha & H1 & H2 & H3 & Hm & Q1 & Q2 & Q3 & ->).
    apply authentic_tcb_iff in Ha as (leaf & Hl & Hd).
    unfold register_tcb_info, verify_tcb_info. rewrite (bind_fw _ _ _ a s) by reflexivity.
    rewrite (bind_fw _ _ _ (tj_fmspc d, i) s); [reflexivity|]. rewrite (bind_fw _ _ _ (rt_now s) s) by reflexivity.
    rewrite (bind_fw _ _ _ leaf s) by (rewrite Hl; reflexivity). rewrite (bind_fw _ _ _ d s) by (rewrite Hd; reflexivity).
    rewrite (bind_fw _ _ _ (Z.of_N (rt_now s)) s).
    2:{ unfold time_i64. destruct (N.leb_spec (rt_now s) i64_max); [reflexivity|lia]. }
    rewrite (bind_fw _ _ _ tt s).
    2:{ unfold tcb_is_valid. rewrite H1, H2. change (beq (ascii "SGX") str_SGX) with true.
        destruct (Z.ltb_spec (tj_issue d) (Z.of_N (rt_now s))); [|lia].
        destruct (Z.ltb_spec (Z.of_N (rt_now s)) (tj_next d)); [|lia]. reflexivity. }
    unfold to_chain_tcb_info, z_to_u64. rewrite <- Q1, <- Q2.
    destruct (Z.leb_spec 0 (Z.of_N (ti_issue i))); [|lia]. destruct (Z.leb_spec 0 (Z.of_N (ti_next i))); [|lia].
    cbn [rbind lift_res]. rewrite !N2Z.id, <- Q3, map_map. destruct i as [x y lv]. cbn [ti_levels ti_issue ti_next].
    unfold ret. do 4 f_equal. rewrite <- (map_id lv) at 2. apply map_ext. intros []. reflexivity.
Qed.
Print Assumptions C38_tcb_info_is_stored_as_documented.
