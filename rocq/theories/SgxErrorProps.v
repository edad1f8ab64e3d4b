(** * The answer to every enclave registration and collateral call: C70. *)
From Coq Require Import String.
From Verif Require Import Base State Env TeerdaysModel TeerexBase SgxVerifyModel TeerexModel
  EnclaveBridgeModel SidechainModel TeeracleModel ClaimsModel AssetRegistryModel XcmTransactorModel
  Runtime Frame EnvFacts Panic Examples SgxProofs SgxProps TeerexProofs TeerexProps PemProps
  AttestationProps AcceptProps EffectProps XcmProps ErrorProps.

(** ** Pure functions *)
Lemma verdict_lift {A} (r : res A) s : verdict (lift_res r) s = rverdict r.
Proof. destruct r; reflexivity. Qed.
Lemma r_bind {A B} (m : res A) (k : A -> res B) l1 l2 : proper l1 -> answers l1 (rverdict m) ->
  (forall a, m = ROk a -> answers l2 (rverdict (k a))) -> answers (l1 ++ l2) (rverdict (rbind m k)).
Proof.
  intros Hp H1 H2. destruct m as [a|e|]; cbn [rbind].
  - apply answers_app; auto.
  - apply answers_stop; [discriminate|auto].
  - apply answers_stop; [discriminate|auto].
Qed.
Lemma r_last {A B} (m : res A) (k : A -> res B) l : proper l -> answers l (rverdict m) ->
  (forall a, m = ROk a -> exists b, k a = ROk b) -> answers l (rverdict (rbind m k)).
Proof.
  intros Hp H1 H2. rewrite <- (app_nil_r l). apply r_bind; auto. intros a H. destruct (H2 a H) as [b ->]. reflexivity.
Qed.
Lemma r_ensure {B} b e (k : unit -> res B) (P : Prop) l : (b = true <-> P) ->
  (P -> answers l (rverdict (k tt))) -> answers (or_sgx P e :: l) (rverdict (rbind (rensure b e) k)).
Proof.
  intros Hb Hk. destruct b; cbn.
  - left. split; [apply Hb; auto|]. apply Hk, Hb. auto.
  - right. split; [rewrite <- Hb; discriminate|reflexivity].
Qed.
Lemma r_ok_or {A B} (x : option A) e (k : A -> res B) (P : Prop) l : (is_Some x <-> P) ->
  (forall a, x = Some a -> answers l (rverdict (k a))) -> answers (or_sgx P e :: l) (rverdict (rbind (rok_or x e) k)).
Proof.
  intros Hx Hk. destruct x as [a|]; cbn.
  - left. split; [apply Hx; eauto|]. apply Hk. reflexivity.
  - right. split; [rewrite <- Hx; intros [? ?]; discriminate|reflexivity].
Qed.
Lemma r_ok_or_last {A} (x : option A) e (P : Prop) : (is_Some x <-> P) -> answers [or_sgx P e] (rverdict (rok_or x e)).
Proof.
  intros Hx. destruct x as [a|]; cbn.
  - left. split; [apply Hx; eauto|reflexivity].
  - right. split; [rewrite <- Hx; intros [? ?]; discriminate|reflexivity].
Qed.
Lemma a_lift {A B} (r : res A) (k : A -> RM B) s l1 l2 : proper l1 -> answers l1 (rverdict r) ->
  (forall a, r = ROk a -> answers l2 (verdict (k a) s)) -> answers (l1 ++ l2) (verdict (bind (lift_res r) k) s).
Proof.
  intros Hp H1 H2. apply a_bind; [auto|rewrite verdict_lift; auto|]. intros a s1 H. destruct r; cbn in H; inversion H; subst. auto.
Qed.

(** ** IAS reports *)
(** Report, signature and signing certificate in the comment of the certificate *)
Definition ias_parts (o : sgx_oracles) (cert report sig sig_cert : bytes) : Prop :=
  exists s64 c64, comment_of cert (report ++ ascii "|" ++ s64 ++ ascii "|" ++ c64) /\
  ~ In 124 report /\ ~ In 124 s64 /\ ~ In 124 c64 /\ or_b64 o s64 = Some sig /\ or_b64 o c64 = Some sig_cert.
Definition ias_demands (o : sgx_oracles) (cert : bytes) : list demand :=
  let of_parts (P : bytes -> bytes -> bytes -> Prop) := forall report sig sc, ias_parts o cert report sig sc -> P report sig sc in
  let of_json (P : ias_json -> Prop) := of_parts (fun report _ _ => forall j, or_json_ias o report = Some j -> P j) in
  let of_time (P : Z -> Prop) := of_json (fun j => forall t d, ij_timestamp j = Some t -> or_datetime o t = Some d -> P d) in
  [or_sgx (exists report sig sc, ias_parts o cert report sig sc) SNetscapeDecodingError;
   or_sgx (of_parts (fun _ _ sc => or_ee_parse o sc = true)) SNetscapeDerError;
   or_sgx (of_parts (fun report sig sc => or_rsa_cert o sc report sig = true)) SRsaSignatureIsInvalid;
   or_sgx (of_parts (fun _ _ sc => or_ias_ca o sc 1573419050 = true)) SCaVerificationFailed;
   or_sgx (of_parts (fun report _ _ => is_Some (or_json_ias o report))) SSgxReportParsingError;
   or_sgx (of_json (fun j => is_Some (ij_timestamp j))) STimestampIsMissing;
   or_sgx (of_json (fun j => forall t, ij_timestamp j = Some t -> is_Some (or_datetime o t))) STimestampIsInvalid;
   or_sgx (of_time (fun d => (0 <= d)%Z)) STimestampIsInvalid;
   or_sgx (of_json (fun j => is_Some (ij_status j))) SQuoteStatusMissing;
   or_sgx (of_json (fun j => is_Some (ij_body j))) SQuoteBodyMissing;
   or_sgx (of_json (fun j => forall b, ij_body j = Some b -> is_Some (or_b64 o b))) SQuoteBodyDecodingError;
   or_sgx (of_json (fun j => forall b q, ij_body j = Some b -> or_b64 o b = Some q -> 432 <= lenN q)) SQuoteBodyIsInvalid].
Lemma netscape_parts o cert report sig sc : netscape o cert = Some (report, sig, sc) <-> ias_parts o cert report sig sc.
Proof. apply netscape_iff. Qed.
Lemma ias_answers o cert : answers (ias_demands o cert) (rverdict (verify_ias_report o cert)).
Proof.
  unfold verify_ias_report, ias_demands. cbv zeta. apply r_ok_or.
  { split; [intros [[[a b] d] H]; exists a, b, d; apply netscape_parts; auto|].
    intros (a & b & d & H). apply netscape_parts in H. rewrite H. eauto. }
  intros [[report sig] sc] Hn.
  assert (forall (P : bytes -> bytes -> bytes -> Prop), P report sig sc <->
    (forall a b d, ias_parts o cert a b d -> P a b d)) as Hp.
  { intros P. split.
    - intros H a b d Hx. apply netscape_parts in Hx. rewrite Hx in Hn. injection Hn as -> -> ->. exact H.
    - intros H. apply H, netscape_parts, Hn. }
  apply r_ensure; [apply (Hp (fun _ _ sc => or_ee_parse o sc = true))|]. intros _.
  apply r_ensure; [apply (Hp (fun report sig sc => or_rsa_cert o sc report sig = true))|]. intros _.
  apply r_ensure; [apply (Hp (fun _ _ sc => or_ias_ca o sc 1573419050 = true))|]. intros _.
  unfold parse_report. apply r_ok_or; [apply (Hp (fun report _ _ => is_Some (or_json_ias o report)))|]. intros j Hj.
  assert (forall (P : ias_json -> Prop), P j <->
    (forall a b d, ias_parts o cert a b d -> forall x, or_json_ias o a = Some x -> P x)) as Hq.
  { intros P. rewrite <- (Hp (fun a _ _ => forall x, or_json_ias o a = Some x -> P x)). rewrite Hj.
    split; [intros H x [= <-]; exact H|]. intros H. apply H. reflexivity. }
  apply r_ok_or; [apply (Hq (fun j => is_Some (ij_timestamp j)))|]. intros t Ht.
  apply r_ok_or.
  { rewrite <- (Hq (fun j => forall t, ij_timestamp j = Some t -> is_Some (or_datetime o t))). rewrite Ht.
    split; [intros H x [= <-]; exact H|]. intros H. apply H. reflexivity. }
  intros d Hd. apply r_ensure.
  { rewrite <- (Hq (fun j => forall t d, ij_timestamp j = Some t -> or_datetime o t = Some d -> (0 <= d)%Z)). rewrite Ht.
    rewrite Z.leb_le. split.
    - intros H x y [= <-] H'. rewrite Hd in H'. injection H' as <-. lia.
    - intros H. specialize (H t d eq_refl Hd). lia. }
  intros _. apply r_ok_or; [apply (Hq (fun j => is_Some (ij_status j)))|]. intros st Hst.
  apply r_ok_or; [apply (Hq (fun j => is_Some (ij_body j)))|]. intros b Hb.
  apply r_ok_or.
  { rewrite <- (Hq (fun j => forall b, ij_body j = Some b -> is_Some (or_b64 o b))). rewrite Hb.
    split; [intros H x [= <-]; exact H|]. intros H. apply H. reflexivity. }
  intros q Hqq.
  assert (432 <= lenN q <-> (forall a b d, ias_parts o cert a b d -> forall x, or_json_ias o a = Some x ->
    forall b q, ij_body x = Some b -> or_b64 o b = Some q -> 432 <= lenN q)) as Hl.
  { rewrite <- (Hq (fun j => forall b q, ij_body j = Some b -> or_b64 o b = Some q -> 432 <= lenN q)). rewrite Hb. split.
    - intros H x y [= <-] H'. rewrite Hqq in H'. injection H' as <-. exact H.
    - intros H. apply (H b q eq_refl Hqq). }
  cbn [answers or_sgx]. unfold read. destruct (N.leb_spec 48 (lenN q)) as [H1|H1].
  - rewrite lenN_dropN. destruct (N.leb_spec 384 (lenN q - 48)) as [H2|H2].
    + left. split; [apply Hl; lia|reflexivity].
    + right. split; [rewrite <- Hl; lia|reflexivity].
  - right. split; [rewrite <- Hl; lia|reflexivity].
Qed.
Lemma ias_proper o cert : proper (ias_demands o cert).
Proof. repeat constructor; discriminate. Qed.

(** ** The platform data of a certificate *)
(** Object identifiers 1.2.840.113741.1.13.1 and its parts .4, .2.17, .2.18 *)
Definition intel_oid : bytes := [42; 134; 72; 134; 248; 77; 1; 13; 1].
(** [ext] is the value of the only extension of the certificate with Intel's identifier *)
Definition intel_ext (o : sgx_oracles) (cert ext : bytes) : Prop :=
  exists a b, or_x509_ext o cert = Some (a ++ [(intel_oid, ext)] ++ b) /\
  (forall x, ~ In (intel_oid, x) a) /\ (forall x, ~ In (intel_oid, x) b).
Definition platform_demands (o : sgx_oracles) (cert : bytes) : list demand :=
  let found oid := forall ext, intel_ext o cert ext -> exists pre rest, occurs_first (intel_oid ++ oid) ext pre rest in
  let followed oid (P : bytes -> Prop) := forall ext pre rest, intel_ext o cert ext ->
    occurs_first (intel_oid ++ oid) ext pre rest -> P rest in
  (* tag, length octets, content *)
  let sized (P : N -> bytes -> Prop) := followed [2; 17] (fun rest => forall tag oct n r,
    rest = [tag] ++ oct ++ r -> length_octets oct n -> P n r) in
  [or_sgx (is_Some (or_x509_ext o cert)) SIntelExtensionCertificateDecodingError;
   or_sgx (exists ext, intel_ext o cert ext) SIntelExtensionAmbiguity;
   or_sgx (found [4]) SFmspcOidIsMissing;
   or_sgx (followed [4] (fun rest => 2 + 6 <= lenN rest)) SFmspcLengthMismatch;
   or_sgx (found [2; 18]) SCpuSvnOidIsMissing;
   or_sgx (followed [2; 18] (fun rest => 2 + 16 <= lenN rest)) SCpuSvnLengthMismatch;
   or_sgx (found [2; 17]) SPceSvnOidIsMissing;
   or_sgx (followed [2; 17] (fun rest => exists tag oct n r, rest = [tag] ++ oct ++ r /\ length_octets oct n)) SPceSvnDecodingError;
   or_sgx (sized (fun n _ => n = 1 \/ n = 2)) SPceSvnLengthMismatch;
   or_sgx (sized (fun n r => n <= lenN r)) SPceSvnLengthMismatch].
Lemma filter_none (exts : list (bytes * bytes)) : filter (fun e => e.1 = oid_sgx_ext) exts = [] <-> (forall x, ~ In (intel_oid, x) exts).
Proof.
  split.
  - intros H x Hx. apply elem_of_list_In in Hx.
    assert ((intel_oid, x) ∈ filter (fun e : bytes * bytes => e.1 = oid_sgx_ext) exts) as Hf by (apply elem_of_list_filter; auto).
    rewrite H in Hf. inversion Hf.
  - intros H. destruct (filter _ exts) as [|[n v] r] eqn:E; [auto|exfalso].
    assert ((n, v) ∈ filter (fun e : bytes * bytes => e.1 = oid_sgx_ext) exts) as Hf by (rewrite E; left).
    apply elem_of_list_filter in Hf as [H1 H2]. cbn in H1. subst n. apply elem_of_list_In in H2. apply (H v H2).
Qed.
Lemma filter_one (exts : list (bytes * bytes)) ext :
  (exists e, filter (fun e => e.1 = oid_sgx_ext) exts = [e] /\ e.2 = ext) <->
  (exists a b, exts = a ++ [(intel_oid, ext)] ++ b /\ (forall x, ~ In (intel_oid, x) a) /\ (forall x, ~ In (intel_oid, x) b)).
Proof.
  split.
  - intros (e & H & <-). revert H. induction exts as [|x exts IH]; [discriminate|]. rewrite filter_cons.
    destruct (decide (x.1 = oid_sgx_ext)) as [Hx|Hx].
    + intros [= -> H]. exists [], exts. destruct e as [n v]. cbn in Hx |- *. subst n. split; [reflexivity|]. split; [auto|].
      apply filter_none. exact H.
    + intros H. destruct (IH H) as (a & b & -> & H1 & H2). exists (x :: a), b. split; [reflexivity|]. split; [|auto].
      intros y [->|Hy]; [apply Hx; reflexivity|]. apply (H1 y Hy).
  - intros (a & b & -> & H1 & H2). apply filter_none in H1, H2. exists (intel_oid, ext). split; [|reflexivity].
    rewrite !filter_app, H1, H2. reflexivity.
Qed.
Lemma intel_iff o cert ext : get_intel_extension o cert = ROk ext <-> intel_ext o cert ext.
Proof.
  unfold get_intel_extension, intel_ext. destruct (or_x509_ext o cert) as [exts|].
  - pose proof (filter_one exts ext) as Hf. split.
    + intros H. destruct (proj1 Hf) as (a & b & -> & H1 & H2); [|eauto].
      destruct (filter _ exts) as [|e [|? ?]]; try discriminate H. injection H as <-. eauto.
    + intros (a & b & [= ->] & H1 & H2). destruct (proj2 Hf) as (e & -> & <-); [eauto|reflexivity].
  - split; [discriminate|]. intros (a & b & H & _). discriminate.
Qed.
Lemma occurs_fun pat l pre rest pre' rest' : occurs_first pat l pre rest -> occurs_first pat l pre' rest' -> pre = pre' /\ rest = rest'.
Proof.
  intros [H1 H2] [H3 H4]. pose proof (H2 _ _ H3). pose proof (H4 _ _ H1). rewrite H3 in H1.
  apply app_inj_1 in H1 as [-> H1]; [|unfold lenN in *; lia]. apply app_inv_head in H1. auto.
Qed.
(** Looking for an identifier *)
Lemma r_position {B} oid pat l e (k : N -> res B) ld (P : Prop) : pat = intel_oid ++ oid ->
  (P <-> exists pre rest, occurs_first pat l pre rest) ->
  (forall pre rest, occurs_first pat l pre rest -> answers ld (rverdict (k (lenN pre)))) ->
  answers (or_sgx P e :: ld) (rverdict (rbind (rok_or (position pat l) e) k)).
Proof.
  intros Hpat HP Hk. assert (pat <> []) as Hne by (rewrite Hpat; discriminate). apply r_ok_or.
  - rewrite HP. split.
    + intros [i Hi]. apply occurs_first_iff in Hi as (pre & rest & H & _); eauto.
    + intros (pre & rest & H). exists (lenN pre). apply occurs_first_iff; eauto.
  - intros i Hi. apply occurs_first_iff in Hi as (pre & rest & H & <-); [|auto]. eapply Hk; eauto.
Qed.
Lemma range_some (l : bytes) off n : is_Some (get_range off n l) <-> off + n <= lenN l.
Proof.
  unfold get_range. destruct (N.leb_spec (off + n) (lenN l)); split; try (intros [? ?]); try discriminate; try lia; eauto.
Qed.
(** Reading the length octets after a tag *)
Lemma octets_read (pre : bytes) l : length_from_raw_data (pre ++ l) (lenN pre) =
  match l with
  | b :: r => if 128 <? b then match r with h :: lo :: _ => Some (h * 256 + lo, lenN pre + 2) | _ => None end
              else Some (b, lenN pre)
  | [] => None
  end.
Proof.
  unfold length_from_raw_data. rewrite lookup_app_len by auto.
  rewrite (lookup_app_at _ _ (lenN pre + 1) 1), (lookup_app_at _ _ (lenN pre + 2) 2) by lia.
  destruct l as [|b [|h [|lo l]]]; cbn; try reflexivity; destruct (128 <? b); reflexivity.
Qed.
Lemma octets_fun oct n r oct' n' r' : oct ++ r = oct' ++ r' -> length_octets oct n -> length_octets oct' n' ->
  oct = oct' /\ n = n' /\ r = r'.
Proof.
  intros E [[-> H]|(x & h & lo & -> & H & ->)] [[-> H']|(x' & h' & lo' & -> & H' & ->)]; cbn in E; inversion E; subst; auto; lia.
Qed.
Lemma platform_proper o cert : proper (platform_demands o cert).
Proof. repeat constructor; discriminate. Qed.
Lemma platform_answers o cert : answers (platform_demands o cert) (rverdict (extract_tcb_info o cert)).
Proof.
  unfold extract_tcb_info, platform_demands. cbv zeta.
  match goal with |- answers (?a :: ?b :: ?l) _ => change (a :: b :: l) with ([a; b] ++ l) end.
  apply r_bind; [repeat constructor; discriminate| |].
  { pose proof (intel_iff o cert) as Hi. unfold get_intel_extension in *. cbn [answers or_sgx].
    destruct (or_x509_ext o cert) as [exts|]; [left; split; [eauto|]|right; split; [intros [? ?]; discriminate|reflexivity]].
    destruct (filter _ exts) as [|e [|e' r]].
    - right. split; [|reflexivity]. intros [ext H]. apply Hi in H. discriminate.
    - left. split; [|reflexivity]. exists (e.2). apply Hi. reflexivity.
    - right. split; [|reflexivity]. intros [ext H]. apply Hi in H. discriminate. }
  intros ext He. apply intel_iff in He.
  assert (forall x, intel_ext o cert x -> x = ext) as Hu.
  { intros x Hx. apply intel_iff in Hx, He. congruence. }
  assert (forall oid, (forall x, intel_ext o cert x -> exists pre rest, occurs_first (intel_oid ++ oid) x pre rest) <->
    exists pre rest, occurs_first (intel_oid ++ oid) ext pre rest) as Hf.
  { intros oid. split; [intros H; apply H, He|]. intros H x Hx. rewrite (Hu x Hx). exact H. }
  assert (forall oid (P : bytes -> Prop) pre rest, occurs_first (intel_oid ++ oid) ext pre rest ->
    (P rest <-> forall x p r, intel_ext o cert x -> occurs_first (intel_oid ++ oid) x p r -> P r)) as Hr.
  { intros oid P pre rest H. split.
    - intros Hx x p r H1 H2. rewrite (Hu x H1) in H2. destruct (occurs_fun _ _ _ _ _ _ H H2) as [_ <-]. exact Hx.
    - intros H'. apply (H' ext pre rest); auto. }
  match goal with |- answers (?a :: ?b :: ?l) _ => change (a :: b :: l) with ([a; b] ++ l) end.
  apply r_bind; [repeat constructor; discriminate| |].
  { unfold get_fmspc. apply (r_position [4]); [reflexivity|apply Hf|]. intros pre rest H. apply r_ok_or_last.
    rewrite <- (Hr [4] (fun rest => 2 + 6 <= lenN rest) pre rest H), range_some. destruct H as [-> _]. rewrite !lenN_app.
    change (lenN oid_fmspc) with 10. lia. }
  intros fm _.
  match goal with |- answers (?a :: ?b :: ?l) _ => change (a :: b :: l) with ([a; b] ++ l) end.
  apply r_bind; [repeat constructor; discriminate| |].
  { unfold get_cpusvn. apply (r_position [2; 18]); [reflexivity|apply Hf|]. intros pre rest H. apply r_ok_or_last.
    rewrite <- (Hr [2; 18] (fun rest => 2 + 16 <= lenN rest) pre rest H), range_some. destruct H as [-> _]. rewrite !lenN_app.
    change (lenN oid_cpusvn) with 11. lia. }
  intros cp _. apply r_last; [repeat constructor; discriminate| |eauto].
  unfold get_pcesvn. apply (r_position [2; 17]); [reflexivity|apply Hf|]. intros pre rest H.
  pose proof (fun P => Hr [2; 17] P pre rest H) as Hr'.
  change (lenN oid_pcesvn + 1) with 12. destruct H as [E _].
  apply r_ok_or.
  { rewrite <- (Hr' (fun rest => exists tag oct n r, rest = [tag] ++ oct ++ r /\ length_octets oct n)). destruct rest as [|tag rest].
    - split; [|intros (? & ? & ? & ? & [=] & _)]. intros [[n off] H]. exfalso. unfold length_from_raw_data in H.
      destruct (ext !! N.to_nat (lenN pre + 12)) eqn:El; [|discriminate].
      apply lookup_lt_Some in El. apply (f_equal lenN) in E. rewrite !lenN_app, lenN_nil in E. change (lenN (oid_pcesvn)) with 11 in E.
      unfold lenN in *. lia.
    - replace ext with ((pre ++ oid_pcesvn ++ [tag]) ++ rest) by (rewrite E, <- !app_assoc; reflexivity).
      replace (lenN pre + 12) with (lenN (pre ++ oid_pcesvn ++ [tag])) by (rewrite !lenN_app; change (lenN oid_pcesvn) with 11; change (lenN [tag]) with 1; lia).
      rewrite octets_read. split.
      + intros [[n off] H]. destruct rest as [|b r]; [discriminate|]. destruct (N.ltb_spec 128 b) as [Hb|Hb].
        * destruct r as [|h [|lo r]]; try discriminate H. exists tag, [b; h; lo], (h * 256 + lo), r. split; [reflexivity|].
          right. exists b, h, lo. auto.
        * exists tag, [b], b, r. split; [reflexivity|]. left. auto.
      + intros (tag' & oct & n & r & [= <- ->] & [[-> Hn]|(x & h & lo & -> & Hx & ->)]); cbn [app].
        * destruct (N.ltb_spec 128 n); [lia|]. eauto.
        * destruct (N.ltb_spec 128 x); [|lia]. eauto. }
  intros [n off] Hn.
  assert (exists tag oct r, rest = [tag] ++ oct ++ r /\ length_octets oct n /\ off = lenN pre + 11 + lenN oct) as (tag & oct & r & -> & Ho & ->).
  { destruct rest as [|tag rest].
    - exfalso. unfold length_from_raw_data in Hn.
      destruct (ext !! N.to_nat (lenN pre + 12)) eqn:El; [|discriminate].
      apply lookup_lt_Some in El. apply (f_equal lenN) in E. rewrite !lenN_app, lenN_nil in E. change (lenN (oid_pcesvn)) with 11 in E.
      unfold lenN in *. lia.
    - replace ext with ((pre ++ oid_pcesvn ++ [tag]) ++ rest) in Hn by (rewrite E, <- !app_assoc; reflexivity).
      assert (lenN (pre ++ oid_pcesvn ++ [tag]) = lenN pre + 12) as El
        by (rewrite !lenN_app; change (lenN oid_pcesvn) with 11; change (lenN [tag]) with 1; lia).
      rewrite <- El, octets_read, El in Hn.
      destruct rest as [|b r]; [discriminate|]. destruct (N.ltb_spec 128 b) as [Hb|Hb].
      + destruct r as [|h [|lo r]]; try discriminate Hn. injection Hn as <- <-. exists tag, [b; h; lo], r. split; [reflexivity|].
        split; [right; exists b, h, lo; auto|]. change (lenN [b; h; lo]) with 3. lia.
      + injection Hn as <- <-. exists tag, [b], r. split; [reflexivity|]. split; [left; auto|]. change (lenN [b]) with 1. lia. }
  assert (forall (P : N -> bytes -> Prop), P n r <->
    (forall x p rest, intel_ext o cert x -> occurs_first (intel_oid ++ [2; 17]) x p rest ->
      forall tag oct n r, rest = [tag] ++ oct ++ r -> length_octets oct n -> P n r)) as Hs.
  { intros P. rewrite <- (Hr' (fun rest => forall tag oct n r, rest = [tag] ++ oct ++ r -> length_octets oct n -> P n r)). split.
    - intros HP t' o' n' r' E' Ho'. injection E' as _ E'. destruct (octets_fun _ _ _ _ _ _ E' Ho Ho') as (_ & <- & <-). exact HP.
    - intros HP. apply (HP tag oct n r); auto. }
  apply r_ensure; [rewrite <- (Hs (fun n _ => n = 1 \/ n = 2)), orb_true_iff, !N.eqb_eq; reflexivity|]. intros _.
  apply r_last; [repeat constructor; discriminate| |eauto]. apply r_ok_or_last.
  rewrite range_some, <- (Hs (fun n r => n <= lenN r)). rewrite E, !lenN_app. change (lenN oid_pcesvn) with 11. change (lenN [tag]) with 1.
  change (lenN (intel_oid ++ [2; 17])) with 11. lia.
Qed.

(** ** C41: the platform data of a certificate, exactly *)
(** The value is read from the only extension with Intel's identifier: six and 16 bytes after the first
    occurrence of the object identifiers and two further bytes; the PCE's version is the one or two byte
    number after a tag and length octets. *)
Definition platform_data (o : sgx_oracles) (cert fm cpusvn : bytes) (pcesvn : N) : Prop :=
  exists ext, intel_ext o cert ext /\
  (exists pre t n rest, occurs_first (intel_oid ++ [4]) ext pre ([t; n] ++ fm ++ rest) /\ lenN fm = 6) /\
  (exists pre t n rest, occurs_first (intel_oid ++ [2; 18]) ext pre ([t; n] ++ cpusvn ++ rest) /\ lenN cpusvn = 16) /\
  (exists pre tag oct v rest, occurs_first (intel_oid ++ [2; 17]) ext pre ([tag] ++ oct ++ v ++ rest) /\
     length_octets oct (lenN v) /\ (lenN v = 1 \/ lenN v = 2) /\ pcesvn = be_val v).
Lemma after_oid (pat l : bytes) k n x : pat <> [] -> k = lenN pat + 2 ->
  (exists off, position pat l = Some off /\ get_range (off + k) n l = Some x) <->
  (exists pre t m rest, occurs_first pat l pre ([t; m] ++ x ++ rest) /\ lenN x = n).
Proof.
  intros Hp ->. split.
  - intros (off & H1 & H2). apply occurs_first_iff in H1 as (pre & rest & H & <-); [|auto].
    apply get_range_ok in H2 as (a & z & E & Ha & Hn). pose proof H as [E' _].
    assert (exists t m r, rest = t :: m :: r) as (t & m & r & ->).
    { destruct rest as [|t [|m r]]; [| |eauto]; exfalso; rewrite E' in E; apply (f_equal lenN) in E;
        rewrite !lenN_app, Ha, ?lenN_cons, ?lenN_nil in E; lia. }
    assert (lenN (pre ++ pat ++ [t; m]) = lenN pre + (lenN pat + 2)) as Hl.
    { rewrite !lenN_app. change (lenN [t; m]) with 2. lia. }
    assert (a = pre ++ pat ++ [t; m] /\ x ++ z = r) as [-> <-].
    { apply app_inj_1; [unfold lenN in *; lia|]. rewrite <- E, E', <- !app_assoc. reflexivity. }
    exists pre, t, m, z. auto.
  - intros (pre & t & m & rest & H & Hn). exists (lenN pre). split; [apply occurs_first_iff; eauto|].
    destruct H as [-> _]. replace (pre ++ pat ++ [t; m] ++ x ++ rest) with ((pre ++ pat ++ [t; m]) ++ x ++ rest)
      by (rewrite <- !app_assoc; reflexivity).
    apply get_range_app; [|auto]. rewrite !lenN_app. change (lenN [t; m]) with 2. lia.
Qed.
Lemma pcesvn_iff ext n : get_pcesvn ext = ROk n <->
  exists pre tag oct v rest, occurs_first (intel_oid ++ [2; 17]) ext pre ([tag] ++ oct ++ v ++ rest) /\
     length_octets oct (lenN v) /\ (lenN v = 1 \/ lenN v = 2) /\ n = be_val v.
Proof.
  unfold get_pcesvn. change (lenN oid_pcesvn + 1) with 12. change oid_pcesvn with (intel_oid ++ [2; 17]).
  assert (intel_oid ++ [2; 17] <> []) as Hne by discriminate.
  assert (forall pre tag, lenN (pre ++ (intel_oid ++ [2; 17]) ++ [tag]) = lenN pre + 12) as Hl.
  { intros pre tag. rewrite !lenN_app. change (lenN intel_oid) with 9. change (lenN [2; 17]) with 2. change (lenN [tag]) with 1. lia. }
  split.
  - intros H. apply rbind_ok in H as (off & H1 & H). apply rok_or_ok in H1. apply occurs_first_iff in H1 as (pre & rest & Ho & <-); [|auto].
    apply rbind_ok in H as ([k off] & H2 & H). apply rok_or_ok in H2.
    apply rbind_ok in H as (u & H3 & H). apply rensure_ok in H3. apply rbind_ok in H as (v & H4 & H). apply rok_or_ok in H4. inversion H; subst n. clear H.
    pose proof Ho as [E _]. destruct rest as [|tag rest].
    { exfalso. unfold length_from_raw_data in H2. destruct (ext !! N.to_nat (lenN pre + 12)) eqn:El; [|discriminate].
      apply lookup_lt_Some in El. apply (f_equal lenN) in E. rewrite !lenN_app, lenN_nil in E.
      change (lenN intel_oid) with 9 in E. change (lenN [2; 17]) with 2 in E. unfold lenN in *. lia. }
    replace ext with ((pre ++ (intel_oid ++ [2; 17]) ++ [tag]) ++ rest) in H2, H4 by (rewrite E, <- !app_assoc; reflexivity).
    rewrite <- Hl with (tag := tag), octets_read, Hl in H2.
    assert (exists oct r, rest = oct ++ r /\ length_octets oct k /\ off + 1 = lenN pre + 12 + lenN oct) as (oct & r & -> & Hk & Eo).
    { destruct rest as [|b r]; [discriminate|]. destruct (N.ltb_spec 128 b) as [Hb|Hb].
      - destruct r as [|h [|lo r]]; try discriminate H2. injection H2 as <- <-. exists [b; h; lo], r. split; [reflexivity|].
        split; [right; exists b, h, lo; auto|]. change (lenN [b; h; lo]) with 3. lia.
      - injection H2 as <- <-. exists [b], r. split; [reflexivity|]. split; [left; auto|]. change (lenN [b]) with 1. lia. }
    rewrite Eo in H4. pose proof (get_range_len _ _ _ _ H4) as Hv. apply get_range_ok in H4 as (a & z & E4 & Ha & _).
    assert (a = pre ++ (intel_oid ++ [2; 17]) ++ [tag] ++ oct /\ v ++ z = r) as [-> <-].
    { apply app_inj_1.
      - specialize (Hl pre tag). rewrite <- (app_nil_r [tag]) in Hl. apply Nat2N.inj. change (lenN a = lenN (pre ++ (intel_oid ++ [2; 17]) ++ [tag] ++ oct)).
        rewrite Ha, !lenN_app in *. change (lenN []) with 0 in Hl. lia.
      - rewrite <- E4, <- !app_assoc. reflexivity. }
    exists pre, tag, oct, v, z. split; [exact Ho|]. rewrite Hv. split; [auto|]. split; [|auto].
    rewrite orb_true_iff, !N.eqb_eq in H3. exact H3.
  - intros (pre & tag & oct & v & rest & Ho & Hk & Hv & ->).
    assert (position (intel_oid ++ [2; 17]) ext = Some (lenN pre)) as -> by (apply occurs_first_iff; eauto).
    cbn [rok_or rbind]. destruct Ho as [E _].
    replace ext with ((pre ++ (intel_oid ++ [2; 17]) ++ [tag]) ++ oct ++ v ++ rest) by (rewrite E, <- !app_assoc; reflexivity).
    rewrite <- Hl with (tag := tag), octets_read, Hl.
    assert (match oct ++ v ++ rest with
            | b :: r => if 128 <? b then match r with h :: lo :: _ => Some (h * 256 + lo, lenN pre + 12 + 2) | _ => None end
                        else Some (b, lenN pre + 12)
            | [] => None end = Some (lenN v, lenN pre + 11 + lenN oct)) as ->.
    { destruct Hk as [[-> Hk]|(x & h & lo & -> & Hx & Hk)]; cbn [app].
      - destruct (N.ltb_spec 128 (lenN v)); [lia|]. do 2 f_equal. rewrite lenN_cons, lenN_nil. lia.
      - destruct (N.ltb_spec 128 x); [|lia]. rewrite Hk. do 2 f_equal. rewrite !lenN_cons, lenN_nil. lia. }
    cbn [rok_or rbind].
    assert ((lenN v =? 1) || (lenN v =? 2) = true) as -> by (rewrite orb_true_iff, !N.eqb_eq; auto). cbn [rensure rbind].
    replace ((pre ++ (intel_oid ++ [2; 17]) ++ [tag]) ++ oct ++ v ++ rest) with ((pre ++ (intel_oid ++ [2; 17]) ++ [tag] ++ oct) ++ v ++ rest)
      by (rewrite <- !app_assoc; reflexivity).
    rewrite get_range_app; [reflexivity| |reflexivity]. specialize (Hl pre tag). rewrite !lenN_app in *. lia.
Qed.
Theorem C41_platform_data_extracted_iff : forall o cert fm tcb,
  extract_tcb_info o cert = ROk (fm, tcb) <->
  exists cpusvn pcesvn, tcb = mkTcbLevel cpusvn pcesvn TUnknown /\ platform_data o cert fm cpusvn pcesvn.
Proof.
  intros o cert fm tcb. unfold extract_tcb_info, platform_data. split.
  - intros H. apply rbind_ok in H as (ext & H1 & H). apply intel_iff in H1.
    apply rbind_ok in H as (f & H2 & H). apply rbind_ok in H as (cp & H3 & H). apply rbind_ok in H as (pc & H4 & H).
    inversion H; subst. exists cp, pc. split; [reflexivity|]. exists ext. split; [auto|].
    split; [|split; [|apply pcesvn_iff; auto]].
    + unfold get_fmspc in H2. apply rbind_ok in H2 as (off & H2 & H5). apply rok_or_ok in H2, H5.
      apply (after_oid _ _ 12 6); [discriminate|reflexivity|]. eauto.
    + unfold get_cpusvn in H3. apply rbind_ok in H3 as (off & H3 & H5). apply rok_or_ok in H3, H5.
      apply (after_oid _ _ 13 16); [discriminate|reflexivity|]. eauto.
  - intros (cp & pc & -> & ext & H1 & H2 & H3 & H4). apply intel_iff in H1. rewrite H1. cbn [rbind].
    apply (after_oid _ _ 12 6) in H2; [|discriminate|reflexivity]. destruct H2 as (off & H2 & H2').
    apply (after_oid _ _ 13 16) in H3; [|discriminate|reflexivity]. destruct H3 as (off' & H3 & H3').
    unfold get_fmspc, get_cpusvn. change oid_fmspc with (intel_oid ++ [4]). change oid_cpusvn with (intel_oid ++ [2; 18]).
    rewrite H2. cbn [rok_or rbind]. rewrite H2'. cbn [rok_or rbind]. rewrite H3. cbn [rok_or rbind]. rewrite H3'. cbn [rok_or rbind].
    apply pcesvn_iff in H4. rewrite H4. reflexivity.
Qed.
Print Assumptions C41_platform_data_extracted_iff.
Example C41_example_data : platform_data sgx_demo [] [0;144;110;161;0;0] [15;15;2;4;1;128;6;0;0;0;0;0;0;0;0;0] 11.
Proof.
  destruct (proj1 (C41_platform_data_extracted_iff sgx_demo [] _ _) (C41_example [])) as (cp & pc & E & H). injection E as <- <-. exact H.
Qed.

(** ** Certificate chains *)
Definition chain_demands (o : sgx_oracles) (certs : list bytes) (t : N) : list demand :=
  [or_sgx (2 <= lenN certs) SCertificateChainIsTooShort;
   or_sgx (forall leaf rest, certs = leaf :: rest -> or_ee_parse o leaf = true) SLeafCertificateParsingError;
   or_sgx (forall leaf rest, certs = leaf :: rest -> or_chain o leaf rest (t / 1000) = true) SCertificateChainIsInvalid].
(** A 64 byte signature of the leaf certificate's key *)
Definition cert_signed (o : sgx_oracles) (certs : list bytes) (msg sig : bytes) : Prop :=
  forall leaf rest der, certs = leaf :: rest -> encode_as_der sig = ROk der -> or_ecdsa_cert o leaf msg der = true.

(** ** DCAP quotes *)
(** The bytes [n] at offset [off] as a number *)
Definition at_ (raw : bytes) (off n : N) : N := le_val (sub_ off n raw).
Definition dcap_demands (o : sgx_oracles) (raw : bytes) (t : N) (qe : qenclave) : list demand :=
  let auth := at_ raw 1012 2 in
  let size := at_ raw (1016 + auth) 4 in
  let certs := extract_certs o (sub_ (1020 + auth) size raw) in
  let qe_report := sub_ 564 384 raw in
  [or_sgx (1020 + auth <= lenN raw /\ size <= 65000 /\ 1020 + auth + size <= lenN raw) SDcapQuoteDecodingError;
   or_sgx (at_ raw 0 2 = 3) SDcapQuoteVersionMismatch;
   or_sgx (at_ raw 2 2 = 2) SDcapKeyTypeMismatch;
   or_sgx (at_ raw (1014 + auth) 2 = 5) SPckCertFormatMismatch;
   or_sgx (qe_report_matches qe_report qe) SQeHasRejectedEnclave] ++
  chain_demands o certs t ++
  match certs with leaf :: _ => platform_demands o leaf | [] => [] end ++
  [or_sgx (or_sha256 o (sub_ 500 64 raw ++ sub_ 1014 32 raw) = sub_ 320 32 qe_report) SQeReportHashMismatch;
   or_sgx (or_p256_fixed o (4 :: sub_ 500 64 raw) (sub_ 0 432 raw) (sub_ 436 64 raw) = true) SIsvEnclaveReportSignatureIsInvalid;
   or_sgx (cert_signed o certs qe_report (sub_ 948 64 raw)) SRsaSignatureIsInvalid;
   or_sgx (lenN raw <= 1020 + auth + size) SDcapQuoteIsTooLong].
Lemma chain_proper o certs t : proper (chain_demands o certs t).
Proof. repeat constructor; discriminate. Qed.
Lemma proper_app l1 l2 : proper l1 -> proper l2 -> proper (l1 ++ l2).
Proof. intros H1 H2. apply Forall_app; auto. Qed.
Lemma dcap_proper o raw t qe : proper (dcap_demands o raw t qe).
Proof.
  unfold dcap_demands. cbv zeta. repeat apply proper_app; try apply chain_proper; try (repeat constructor; discriminate).
  destruct (extract_certs _ _); [constructor|apply platform_proper].
Qed.
Lemma sub_parts (l a x b : bytes) off n : l = a ++ x ++ b -> lenN a = off -> lenN x = n -> sub_ off n l = x.
Proof. intros -> H1 H2. unfold sub_. rewrite dropN_app by auto. apply takeN_app. auto. Qed.
Definition decodable (raw : bytes) : Prop :=
  let auth := at_ raw 1012 2 in let size := at_ raw (1016 + auth) 4 in
  1020 + auth <= lenN raw /\ size <= 65000 /\ 1020 + auth + size <= lenN raw.
Lemma read_at n off raw : off + n <= lenN raw -> read n (dropN off raw) = Some (sub_ off n raw, dropN (off + n) raw).
Proof.
  intros H. unfold read. rewrite lenN_dropN. destruct (N.leb_spec n (lenN raw - off)); [|lia]. rewrite dropN_add. reflexivity.
Qed.
Lemma decodable_some raw : decodable raw -> is_Some (decode_quote raw).
Proof.
  unfold decodable, at_. cbv zeta. intros (H1 & H2 & H3). unfold decode_quote.
  rewrite <- (dropN_0 raw) at 1.
  rewrite (read_at 48 0) by lia. rewrite (read_at 384) by lia. rewrite (read_at 4) by lia. rewrite (read_at 64) by lia.
  rewrite (read_at 64) by lia. rewrite (read_at 384) by lia. rewrite (read_at 64) by lia. rewrite (read_at 2) by lia.
  change (0 + 48 + 384 + 4 + 64 + 64 + 384 + 64) with 1012. change (1012 + 2) with 1014.
  revert H1 H2 H3. generalize (le_val (sub_ 1012 2 raw)). intros asz H1 H2 H3.
  rewrite (read_at asz) by lia. rewrite (read_at 2) by lia. rewrite (read_at 4) by lia.
  replace (1014 + asz + 2) with (1016 + asz) by lia. destruct (N.ltb_spec 65000 (le_val (sub_ (1016 + asz) 4 raw))); [lia|].
  rewrite read_at by lia. eauto.
Qed.
(** The fields of a decoded quote are at their offsets *)
Lemma parts_at p rest : parts_wf p -> let raw := parts_bytes p rest in
  at_ raw 1012 2 = le_val (qp_auth_size p) /\
  at_ raw (1016 + le_val (qp_auth_size p)) 4 = le_val (qp_cert_size p) /\
  at_ raw (1014 + le_val (qp_auth_size p)) 2 = le_val (qp_cert_type p) /\
  sub_ (1020 + le_val (qp_auth_size p)) (le_val (qp_cert_size p)) raw = qp_certs p /\
  sub_ 564 384 raw = qp_qe_report p /\ sub_ 500 64 raw = qp_key p /\ sub_ 0 432 raw = qp_header p ++ qp_body p /\
  sub_ 436 64 raw = qp_isv_sig p /\ sub_ 948 64 raw = qp_qe_sig p /\
  at_ raw 0 2 = le_val (sub_ 0 2 (qp_header p)) /\ at_ raw 2 2 = le_val (sub_ 2 2 (qp_header p)) /\
  lenN raw = 1020 + le_val (qp_auth_size p) + le_val (qp_cert_size p) + lenN rest.
Proof.
  intros (H1 & H2 & H3 & H4 & H5 & H6 & H7 & H8 & H9 & H10 & H11 & H12 & H13). cbv zeta. unfold at_, parts_bytes.
  split; [f_equal; eapply (sub_parts _ (qp_header p ++ qp_body p ++ qp_siglen p ++ qp_isv_sig p ++ qp_key p ++ qp_qe_report p ++ qp_qe_sig p));
          [rewrite <- !app_assoc; reflexivity|rewrite !lenN_app; lia|auto]|].
  split; [f_equal; eapply (sub_parts _ (qp_header p ++ qp_body p ++ qp_siglen p ++ qp_isv_sig p ++ qp_key p ++ qp_qe_report p ++ qp_qe_sig p ++ qp_auth_size p ++ qp_auth p ++ qp_cert_type p));
          [rewrite <- !app_assoc; reflexivity|rewrite !lenN_app; lia|auto]|].
  split; [f_equal; eapply (sub_parts _ (qp_header p ++ qp_body p ++ qp_siglen p ++ qp_isv_sig p ++ qp_key p ++ qp_qe_report p ++ qp_qe_sig p ++ qp_auth_size p ++ qp_auth p));
          [rewrite <- !app_assoc; reflexivity|rewrite !lenN_app; lia|auto]|].
  split; [eapply (sub_parts _ (qp_header p ++ qp_body p ++ qp_siglen p ++ qp_isv_sig p ++ qp_key p ++ qp_qe_report p ++ qp_qe_sig p ++ qp_auth_size p ++ qp_auth p ++ qp_cert_type p ++ qp_cert_size p));
          [rewrite <- !app_assoc; reflexivity|rewrite !lenN_app; lia|auto]|].
  split; [eapply (sub_parts _ (qp_header p ++ qp_body p ++ qp_siglen p ++ qp_isv_sig p ++ qp_key p));
          [rewrite <- !app_assoc; reflexivity|rewrite !lenN_app; lia|auto]|].
  split; [eapply (sub_parts _ (qp_header p ++ qp_body p ++ qp_siglen p ++ qp_isv_sig p));
          [rewrite <- !app_assoc; reflexivity|rewrite !lenN_app; lia|auto]|].
  split; [eapply (sub_parts _ []); [cbn [app]; rewrite <- !app_assoc; reflexivity|reflexivity|rewrite lenN_app; lia]|].
  split; [eapply (sub_parts _ (qp_header p ++ qp_body p ++ qp_siglen p));
          [rewrite <- !app_assoc; reflexivity|rewrite !lenN_app; lia|auto]|].
  split; [eapply (sub_parts _ (qp_header p ++ qp_body p ++ qp_siglen p ++ qp_isv_sig p ++ qp_key p ++ qp_qe_report p));
          [rewrite <- !app_assoc; reflexivity|rewrite !lenN_app; lia|auto]|].
  assert (forall off n, off + n <= 48 -> forall x, sub_ off n (qp_header p ++ x) = sub_ off n (qp_header p)) as Hh.
  { intros off n Hn x. unfold sub_, takeN, dropN. rewrite drop_app_le by (unfold lenN in H1; lia).
    rewrite take_app_le; [reflexivity|]. rewrite drop_length. unfold lenN in H1. lia. }
  split; [f_equal; apply Hh; lia|]. split; [f_equal; apply Hh; lia|].
  rewrite !lenN_app. lia.
Qed.
Lemma der_ok sig : lenN sig = 64 -> exists der, encode_as_der sig = ROk der.
Proof. intros H. destruct (C39_der_encoding_is_minimal_and_faithful sig H) as (out & ? & ? & E & _). eauto. Qed.
Lemma dcap_answers o raw t qe : answers (dcap_demands o raw t qe) (rverdict (verify_dcap_quote o raw t qe)).
Proof.
  unfold verify_dcap_quote, dcap_demands. cbv zeta.
  destruct (decode_quote raw) as [[q rest]|] eqn:Ed.
  2:{ right. split; [|reflexivity]. intros H. apply decodable_some in H. rewrite Ed in H. destruct H; discriminate. }
  cbn [rok_or rbind]. apply decode_quote_ok in Ed as (p & Hp & -> & ->).
  destruct (parts_at p rest Hp) as (A1 & A2 & A3 & A4 & A5 & A6 & A7 & A8 & A9 & A10 & A11 & A12).
  rewrite A1, A2, A3, A4, A5, A6, A7, A8, A9, A10, A11, A12. pose proof Hp as Hp'.
  destruct Hp' as (H1 & H2 & H3 & H4 & H5 & H6 & H7 & H8 & H9 & H10 & H11 & H12 & H13).
  cbn [app]. left. split; [lia|].
  cbn [dq_version dq_key_type dq_cert_type dq_qe_report dq_cert_data parts_quote dq_att_key dq_isv_sig dq_qe_sig dq_body].
  apply r_ensure; [apply N.eqb_eq|]. intros _. apply r_ensure; [apply N.eqb_eq|]. intros _.
  apply r_ensure; [apply N.eqb_eq|]. intros _. apply r_ensure; [apply verify_body_spec|]. intros _.
  destruct (extract_certs o (qp_certs p)) as [|leaf [|i inter]] eqn:Ec.
  { right. split; [unfold lenN; cbn; lia|reflexivity]. }
  { right. split; [unfold lenN; cbn; lia|reflexivity]. }
  left. split; [unfold lenN; cbn [length]; lia|].
  assert (27 <= lenN (qp_certs p)) as Hlen.
  { pose proof (extract_certs_length o (qp_certs p)) as Hl. rewrite Ec in Hl. cbn [length] in Hl. unfold lenN. lia. }
  assert (slice 1014 32 (parts_bytes p rest) = ROk (sub_ 1014 32 (parts_bytes p rest))) as Ha.
  { unfold slice, get_range. rewrite A12. destruct (N.leb_spec (1014 + 32) (1020 + le_val (qp_auth_size p) + le_val (qp_cert_size p) + lenN rest)); [|lia].
    reflexivity. }
  assert (forall (P : bytes -> list bytes -> Prop), P leaf (i :: inter) <->
    (forall a b, leaf :: i :: inter = a :: b -> P a b)) as Hc.
  { intros P. split; [intros H a b [= <- <-]; exact H|]. intros H. apply H. reflexivity. }
  apply r_ensure; [apply (Hc (fun a _ => or_ee_parse o a = true))|]. intros _.
  apply r_ensure; [apply (Hc (fun a b => or_chain o a b (t / 1000) = true))|]. intros _.
  change (?a ++ ?b) with (a ++ b). apply r_bind; [apply platform_proper|apply platform_answers|]. intros [fm tcb] _.
  change (48 + 384 + 4 + 64 + 64 + 384 + 64 + 2) with 1014. change (48 + 384 + 4 + 64 + 64) with 564.
  change (48 + 384 + 4 + 64) with 500. change (48 + 384) with 432.
  rewrite key_slice, qe_slice, isv_slice, Ha by auto. cbn [rbind].
  apply r_ensure; [rewrite beq_true; cbn [rb_report_data parse_body]; rewrite sub_sub; reflexivity|]. intros _.
  apply r_ensure; [reflexivity|]. intros _. destruct (der_ok _ H7) as [der Hd]. rewrite Hd. cbn [rbind].
  apply r_ensure.
  { unfold cert_signed. split.
    - intros H a b d [= <- <-] Hd'. rewrite Hd in Hd'. injection Hd' as <-. exact H.
    - intros H. apply (H leaf _ der eq_refl Hd). }
  intros _. apply r_ensure; [|intros _; done_ok].
  destruct rest as [|z rest]; [rewrite lenN_nil; split; [lia|auto]|]. rewrite lenN_cons. split; [discriminate|lia].
Qed.

(** ** teerex *)
(** The level reached by a platform *)
Definition some_level_reached (i : tcb_info) (tcb : tcb_level) : Prop := exists lv, In lv (ti_levels i) /\ reaches tcb lv.
Definition allowed_mode (s : rt) (r : verified_report) : Prop := vr_build_mode r = MDebug -> tx_allow_debug (rt_tx s) = true.
Definition attestation_demands (c : cfg) (s : rt) (a : acct) (p : bytes) (m : att_method) : list demand :=
  match m with
  | MIas =>
      let of_report (P : verified_report -> Prop) := forall r, genuine_ias (c_sgx c) p r -> P r in
      ias_demands (c_sgx c) p ++
      [or_err (of_report (fun r => vr_timestamp r <= rt_now s)) TimestampUnderflow;
       or_err (of_report (fun r => rt_now s < vr_timestamp r + c_day c)) RemoteAttestationIsTooOld;
       or_err (of_report (fun r => takeN 32 (vr_report_data r) = a)) SenderIsNotAttestedEnclave;
       or_err (of_report (allowed_mode s)) SgxModeIsNotAllowed]
  | MDcap proxied =>
      let of_quote (P : bytes -> tcb_level -> verified_report -> Prop) :=
        forall fm tcb r, genuine_quote (c_sgx c) p (rt_now s) (tx_qe (rt_tx s)) fm tcb r -> P fm tcb r in
      dcap_demands (c_sgx c) p (rt_now s) (tx_qe (rt_tx s)) ++
      [or_err (of_quote (fun _ _ r => proxied = false -> takeN 32 (vr_report_data r) = a)) SenderIsNotAttestedEnclave;
       or_err (of_quote (fun fm _ _ => is_Some (tx_tcb (rt_tx s) !! fm))) MissingTcbInfoForFmspc;
       or_err (of_quote (fun fm tcb _ => forall i, tx_tcb (rt_tx s) !! fm = Some i -> some_level_reached i tcb)) TcbInfoIsOutdated;
       or_err (of_quote (fun _ _ r => allowed_mode s r)) SgxModeIsNotAllowed]
  | MSkip _ => [or_err (tx_allow_skip (rt_tx s) = true) SkippingAttestationIsNotAllowed; or_panic (lenN a <= 64)]
  end.
(** A collateral document: the chain, the signature, the JSON, the dates *)
Definition document_demands (c : cfg) (now : N) (doc sig chain : bytes) (bad_sig : sgx_error) : list demand :=
  let certs := extract_certs (c_sgx c) chain in
  chain_demands (c_sgx c) certs now ++
  [or_sgx (lenN sig = 64) SKeyLengthIsInvalid; or_sgx (cert_signed (c_sgx c) certs doc sig) bad_sig].
Definition tx_demands (c : cfg) (s : rt) (o : origin) (k : tx_call) : list demand :=
  let unused (e : enclave) := en_timestamp e + c_renewal c < rt_now s in
  match k with
  | TxSetFlags _ _ => [or_err (o = Root) BadOrigin]
  | _ =>
    or_err (exists a, o = Signed a) BadOrigin ::
    match o with
    | Signed a =>
      match k with
      | TxRegister p u m => [or_err (lenN p <= 5000) RaProofIsTooLong; or_err (url_fits u) EnclaveUrlIsTooLong] ++
          attestation_demands c s a p m
      | TxUnregisterSovereign w =>
          [or_err (is_Some (tx_sov (rt_tx s) !! w)) EnclaveIsNotRegistered;
           or_err (forall e, tx_sov (rt_tx s) !! w = Some e -> unused e) UnregisterActiveEnclaveIsNotAllowed]
      | TxUnregisterProxied w =>
          [or_err (is_Some (tx_prox (rt_tx s) !! w)) EnclaveIsNotRegistered;
           or_err (forall e, tx_prox (rt_tx s) !! w = Some e -> unused e) UnregisterActiveEnclaveIsNotAllowed]
      | TxRegisterQe doc sig chain =>
          let of_doc (P : enclave_identity -> Prop) := forall d, or_json_identity (c_sgx c) doc = Some d -> P d in
          document_demands c (rt_now s) doc sig chain SEnclaveIdentitySignatureIsInvalid ++
          [or_sgx (is_Some (or_json_identity (c_sgx c) doc)) SEnclaveIdentityDecodingError;
           or_panic (rt_now s < 2 ^ 63);
           or_err (of_doc (fun d => ei_id d = ascii "QE" /\ ei_version d = 2 /\
             (ei_issue d < Z.of_N (rt_now s) < ei_next d)%Z)) CollateralIsInvalid;
           or_panic (of_doc (fun d => (0 <= ei_issue d)%Z))]
      | TxRegisterTcb doc sig chain =>
          let of_doc (P : tcb_info_json -> Prop) := forall d, or_json_tcb (c_sgx c) doc = Some d -> P d in
          document_demands c (rt_now s) doc sig chain SRsaSignatureIsInvalid ++
          [or_sgx (is_Some (or_json_tcb (c_sgx c) doc)) STcbInfoIsInvalid;
           or_panic (rt_now s < 2 ^ 63);
           or_err (of_doc (fun d => tj_id d = ascii "SGX" /\ tj_version d = 3 /\
             (tj_issue d < Z.of_N (rt_now s) < tj_next d)%Z)) CollateralIsInvalid;
           or_panic (of_doc (fun d => (0 <= tj_issue d)%Z))]
      | _ => []
      end
    | _ => []
    end
  end.
Lemma chain_answers c chain now : answers (chain_demands (c_sgx c) (extract_certs (c_sgx c) chain) now) (rverdict (collateral_leaf c chain now)).
Proof.
  unfold collateral_leaf, chain_demands, verify_certificate_chain.
  destruct (extract_certs (c_sgx c) chain) as [|leaf [|i inter]].
  { right. split; [unfold lenN; cbn; lia|reflexivity]. }
  { right. split; [unfold lenN; cbn; lia|reflexivity]. }
  left. split; [unfold lenN; cbn [length]; lia|].
  apply r_ensure; [split; [intros H a b [= <- <-]; exact H|intros H; apply (H leaf _ eq_refl)]|]. intros _.
  apply r_ensure; [split; [intros H a b [= <- <-]; exact H|intros H; apply (H leaf _ eq_refl)]|]. intros _. done_ok.
Qed.
Lemma signature_answers {A} o certs leaf inter doc sig bad (k : bytes -> res A) l : certs = leaf :: inter ->
  (forall der, encode_as_der sig = ROk der -> answers l (rverdict (k der))) ->
  answers ([or_sgx (lenN sig = 64) SKeyLengthIsInvalid; or_sgx (cert_signed o certs doc sig) bad] ++ l)
    (rverdict (rlet d := encode_as_der sig in rdo rensure (or_ecdsa_cert o leaf doc d) bad in k d)).
Proof.
  intros -> Hk. cbn [app]. destruct (decide (lenN sig = 64)) as [H|H].
  - left. split; [auto|]. destruct (der_ok _ H) as [der Hd]. rewrite Hd. cbn [rbind]. apply r_ensure; [|intros _; apply Hk; auto].
    unfold cert_signed. split.
    + intros H' a b d [= <- <-] Hd'. rewrite Hd in Hd'. injection Hd' as <-. exact H'.
    + intros H'. apply (H' leaf _ der eq_refl Hd).
  - right. split; [auto|]. rewrite (C39_other_lengths_are_rejected sig H). reflexivity.
Qed.
Lemma some_level_iff i tcb : levels_16 i -> length (tl_cpusvn tcb) = 16%nat -> is_Some (tcb_verify i tcb) <-> some_level_reached i tcb.
Proof.
  intros Hi Ht. split.
  - intros [st H]. apply C34_recorded_status_is_of_first_matching_level in H as (n & l & (H1 & H2 & _) & _); auto.
    exists l. split; [|auto]. apply elem_of_list_In. eapply elem_of_list_lookup_2; eauto.
  - intros (lv & H1 & H2). apply elem_of_list_In, elem_of_list_lookup in H1 as [n H1].
    destruct (first_reached_exists i tcb n lv H1 H2) as (m & l' & _ & H).
    eexists. apply C34_recorded_status_is_of_first_matching_level; eauto.
Qed.
Lemma mode_iff b (x : build_mode) : b || negb (bool_decide (x = MDebug)) = true <-> (x = MDebug -> b = true).
Proof.
  destruct b; cbn; [tauto|]. rewrite negb_true_iff, bool_decide_eq_false. split; [intros H H'; contradiction|]. intros H H'. discriminate (H H').
Qed.
Lemma split_last (l : list demand) a b d e : l ++ [a; b; d; e] = (l ++ [a; b; d]) ++ [e].
Proof. rewrite <- app_assoc. reflexivity. Qed.
Lemma app_assoc_reverse_3 (a b d e : demand) l : [a; b] ++ d :: e :: l = ([a; b] ++ [d]) ++ e :: l.
Proof. reflexivity. Qed.
Lemma document_proper c now doc sig chain e (P1 P2 P3 P4 : Prop) e1 :
  proper (document_demands c now doc sig chain e ++ [or_sgx P1 e1; or_panic P2; or_err P3 CollateralIsInvalid; or_panic P4]).
Proof. repeat constructor; discriminate. Qed.
Lemma time_answers n : answers [or_panic (n < 2 ^ 63)] (rverdict (time_i64 n)).
Proof.
  unfold time_i64. destruct (N.leb_spec n i64_max) as [H|H]; unfold i64_max in H; [left|right]; (split; [|reflexivity]);
    change (2 ^ 63) with 9223372036854775808; lia.
Qed.
Theorem C70_teerex_answers : forall c g l o k st, json_levels_typed (c_sgx c) -> let s := run c (genesis_state g) l in
  (dispatch c o (CTx k) s).1 = st <-> answers (tx_demands c s o k) st.
Proof.
  intros c g l o k st Hj s. revert st. apply exact. cbn [exec].
  assert (forall fm i, tx_tcb (rt_tx s) !! fm = Some i -> levels_16 i) as H16.
  { intros fm i Hi. eapply stored_levels_16; eauto. }
  clearbody s. clear Hj g l.
  destruct k as [p u m|w|w|doc sig chain|doc sig chain|sk d]; cbn [tx_exec tx_demands].
  - unfold register_sgx_enclave. apply a_signed. intros a ->. apply a_ensure; [apply N.leb_le|]. intros _. cbn [app].
    assert (forall B (k : unit -> RM B) l, answers l (verdict (k tt) s) -> answers (or_err (url_fits u) EnclaveUrlIsTooLong :: l)
      (verdict (bind (match u with Some u => ensure (lenN u <=? max_url_len) EnclaveUrlIsTooLong | None => ret tt end) k) s)) as Hu.
    { intros B k l Hk. destruct u as [x|].
      - apply a_ensure; [|auto]. rewrite N.leb_le. unfold url_fits. split; [intros H y [= <-]; exact H|]. intros H. apply (H x eq_refl).
      - left. split; [intros x [=]|]. apply (a_step _ _ _ tt s); [reflexivity|auto]. }
    apply Hu. clear Hu.
    assert (forall e l, (en_build_mode e = MDebug -> tx_allow_debug (rt_tx s) = true) <-> l ->
      answers [or_err l SgxModeIsNotAllowed] (verdict (let! debug := gets (fun s => tx_allow_debug (rt_tx s)) in
        do! ensure (debug || negb (bool_decide (en_build_mode e = MDebug))) SgxModeIsNotAllowed in
        let e := with_url e u in do! add_enclave a e in deposit_event (EvAddedSgxEnclave a u (en_status e) (en_method e))) s)) as Hm.
    { intros e l Hl. apply a_gets, a_ensure; [rewrite mode_iff; exact Hl|]. intros _. cbv zeta.
      unfold add_enclave. destruct (is_proxied _); done_ok. }
    destruct m as [px| |px]; cbn [attestation_demands].
    + change [or_err (tx_allow_skip (rt_tx s) = true) SkippingAttestationIsNotAllowed; or_panic (lenN a <= 64)] with
        ([or_err (tx_allow_skip (rt_tx s) = true) SkippingAttestationIsNotAllowed; or_panic (lenN a <= 64)] ++ []).
      apply a_bind; [repeat constructor; discriminate| |].
      * unfold reg_skip. apply a_gets, a_ensure; [reflexivity|]. intros _. cbv zeta. apply a_gets.
        destruct (N.leb_spec (lenN a) 64); [left; split; [auto|done_ok]|right; split; [lia|done_ok]].
      * intros e s1 H. unfold reg_skip in H. inv_rt H.
        destruct (lenN a <=? 64); [|discriminate]. inversion H; subst. apply a_gets.
        apply (a_step _ _ _ tt s1); [|unfold add_enclave; cbv zeta; destruct (is_proxied _); done_ok].
        cbn [en_build_mode new_enclave]. rewrite bool_decide_eq_false_2 by discriminate. rewrite orb_true_r. reflexivity.
    + cbv zeta. rewrite (split_last (ias_demands (c_sgx c) p)).
      apply a_bind; [apply proper_app; [apply ias_proper|repeat constructor; discriminate]| |].
      * unfold reg_ias. apply a_lift; [apply ias_proper|apply ias_answers|]. intros r Hr.
        apply C66_ias_report_accepted_iff_genuine in Hr as Hg.
        assert (forall P : verified_report -> Prop, P r <-> forall r, genuine_ias (c_sgx c) p r -> P r) as Hp.
        { intros P. split; [|intros H; apply H, Hg]. intros H r' Hr'. apply C66_ias_report_accepted_iff_genuine in Hr'. congruence. }
        unfold ensure_within_24h. match goal with |- answers [?x; ?y; ?z] _ => change [x; y; z] with ([x; y] ++ [z]) end.
        apply a_bind; [repeat constructor; discriminate| |].
        { apply a_gets, a_ensure; [rewrite N.leb_le; apply (Hp (fun r => vr_timestamp r <= rt_now s))|]. intros H.
          apply a_ensure_last. rewrite <- (Hp (fun r => rt_now s < vr_timestamp r + c_day c)), N.ltb_lt.
          rewrite <- (Hp (fun r => vr_timestamp r <= rt_now s)) in H. lia. }
        intros v s1 H. apply bind_ok in H as (n & s2 & H1 & H). apply gets_ok in H1 as [_ ->].
        apply bind_ok in H as (n' & s2 & H1 & H). apply ensure_ok in H1 as [_ ->]. apply ensure_ok in H as [_ ->].
        apply a_ensure; [|intros _; done_ok]. rewrite beq_true, <- (Hp (fun r => takeN 32 (vr_report_data r) = a)).
        split; congruence.
      * intros e s1 H. unfold reg_ias in H. apply bind_ok in H as (r & s2 & H1 & H).
        destruct (verify_ias_report (c_sgx c) p) as [r'|?|] eqn:Hr; cbn in H1; inversion H1; subst r' s2. clear H1.
        apply bind_ok in H as (v & s2 & H1 & H). unfold ensure_within_24h in H1. apply bind_ok in H1 as (n & s3 & H2 & H1). apply gets_ok in H2 as [_ ->].
        apply bind_ok in H1 as (n' & s3 & H2 & H1). apply ensure_ok in H2 as [_ ->]. apply ensure_ok in H1 as [_ ->].
        apply bind_ok in H as (v' & s2 & H1 & H). apply ensure_ok in H1 as [_ ->]. inversion H; subst.
        apply Hm. cbn [en_build_mode new_enclave]. apply C66_ias_report_accepted_iff_genuine in Hr as Hg.
        split; [|intros H'; apply (H' r Hg)]. intros H' r' Hr'. apply C66_ias_report_accepted_iff_genuine in Hr'.
        unfold allowed_mode. rewrite Hr in Hr'. inversion Hr'; subst. exact H'.
    + cbv zeta. rewrite (split_last (dcap_demands (c_sgx c) p (rt_now s) (tx_qe (rt_tx s)))).
      apply a_bind; [apply proper_app; [apply dcap_proper|repeat constructor; discriminate]| |].
      * unfold reg_dcap. apply a_gets, a_gets, a_lift; [apply dcap_proper|apply dcap_answers|]. intros [[fm tcb] r] Hr.
        assert (length (tl_cpusvn tcb) = 16%nat) as Ht.
        { pose proof Hr as H. apply verify_dcap_iff in H as (q & _ & _ & (_ & _ & _ & _ & leaf & i & inter & sig & _ & _ & _ & Hx & _) & _).
          apply extract_tcb_16 in Hx. auto. }
        apply C35_dcap_quote_accepted_iff_genuine in Hr as Hg.
        assert (forall P : bytes -> tcb_level -> verified_report -> Prop, P fm tcb r <->
          forall fm tcb r, genuine_quote (c_sgx c) p (rt_now s) (tx_qe (rt_tx s)) fm tcb r -> P fm tcb r) as Hp.
        { intros P. split; [|intros H; apply H, Hg]. intros H fm' tcb' r' Hr'. apply C35_dcap_quote_accepted_iff_genuine in Hr'.
          rewrite Hr in Hr'. injection Hr' as <- <- <-. exact H. }
        match goal with |- answers [?x; ?y; ?z] _ => change [x; y; z] with ([x] ++ [y; z]) end.
        apply a_bind; [repeat constructor; discriminate| |].
        { destruct px; cbn [negb].
          - left. split; [discriminate|done_ok].
          - apply a_ensure_last. rewrite beq_true, <- (Hp (fun _ _ r => false = false -> takeN 32 (vr_report_data r) = a)).
            split; [intros -> _; reflexivity|]. intros H. symmetry. apply H. reflexivity. }
        intros v s1 H. assert (s1 = s) as ->.
        { destruct px; cbn [negb] in H; [inversion H; reflexivity|]. apply ensure_ok in H as [_ ->]. reflexivity. }
        apply a_gets, a_ok_or; [apply (Hp (fun fm _ _ => is_Some (tx_tcb (rt_tx s) !! fm)))|]. intros i Hi.
        apply a_ok_or; [|intros; done_ok].
        rewrite <- (Hp (fun fm tcb _ => forall i, tx_tcb (rt_tx s) !! fm = Some i -> some_level_reached i tcb)).
        rewrite some_level_iff; [|eauto|auto]. rewrite Hi. split; [intros H' j [= <-]; exact H'|]. intros H'. apply H'. reflexivity.
      * intros e s1 H. unfold reg_dcap in H. apply bind_ok in H as (n & s2 & H1 & H). apply gets_ok in H1 as [-> ->].
        apply bind_ok in H as (q & s2 & H1 & H). apply gets_ok in H1 as [-> ->].
        apply bind_ok in H as ([[fm tcb] r] & s2 & H1 & H).
        destruct (verify_dcap_quote (c_sgx c) p (rt_now s) (tx_qe (rt_tx s))) as [r'|?|] eqn:Hr; cbn in H1; inversion H1; subst r' s2. clear H1.
        apply bind_ok in H as (v & s2 & H1 & H). assert (s2 = s) as ->.
        { destruct px; cbn [negb] in H1; [inversion H1; reflexivity|]. apply ensure_ok in H1 as [_ ->]. reflexivity. }
        apply bind_ok in H as (i & s2 & H2 & H). apply gets_ok in H2 as [-> ->].
        apply bind_ok in H as (i & s2 & H2 & H). apply ok_or_ok in H2 as [_ ->].
        apply bind_ok in H as (st & s2 & H2 & H). apply ok_or_ok in H2 as [_ ->]. inversion H; subst.
        apply Hm. cbn [en_build_mode new_enclave]. apply C35_dcap_quote_accepted_iff_genuine in Hr as Hg.
        split; [|intros H'; apply (H' _ _ r Hg)]. intros H' fm' tcb' r' Hr'. apply C35_dcap_quote_accepted_iff_genuine in Hr'.
        unfold allowed_mode. rewrite Hr in Hr'. inversion Hr'; subst. exact H'.
  - unfold unregister_sovereign. apply a_signed. intros a ->. apply a_gets, a_ok_or; [reflexivity|]. intros e He. apply a_gets.
    apply a_ensure; [|intros _; done_ok]. rewrite He, N.ltb_lt. unfold sat_sub. split; [intros H e' [= <-]; lia|].
    intros H. specialize (H e eq_refl). lia.
  - unfold unregister_proxied. apply a_signed. intros a ->. apply a_gets, a_ok_or; [reflexivity|]. intros e He. apply a_gets.
    apply a_ensure; [|intros _; done_ok]. rewrite He, N.ltb_lt. unfold sat_sub. split; [intros H e' [= <-]; lia|].
    intros H. specialize (H e eq_refl). lia.
  - unfold register_quoting_enclave. apply a_signed. intros a ->. apply a_last; [apply document_proper| |intros; eexists; eexists; reflexivity].
    unfold verify_quoting_enclave, document_demands. cbv zeta. rewrite <- app_assoc. apply a_gets, a_lift; [apply chain_proper|apply chain_answers|].
    intros leaf Hl. apply collateral_leaf_iff in Hl as (inter & Ec & _). rewrite app_assoc_reverse_3.
    apply a_lift.
    { repeat constructor; discriminate. }
    { unfold deserialize_enclave_identity. apply (signature_answers _ _ leaf inter); [exact Ec|]. intros der _. apply r_ok_or_last. reflexivity. }
    intros d Hd. unfold deserialize_enclave_identity in Hd. apply rbind_ok in Hd as (der & _ & Hd).
    apply rbind_ok in Hd as (? & _ & Hd). apply rok_or_ok in Hd.
    assert (forall P : enclave_identity -> Prop, P d <-> forall d, or_json_identity (c_sgx c) doc = Some d -> P d) as Hp.
    { intros P. rewrite Hd. split; [intros H d' [= <-]; exact H|]. intros H. apply H. reflexivity. }
    match goal with |- answers (?x :: ?l) _ => change (x :: l) with ([x] ++ l) end.
    apply a_lift; [repeat constructor; discriminate|apply time_answers|]. intros t Ht. apply time_i64_ok in Ht as [Ht ->].
    apply a_ensure.
    { rewrite <- (Hp (fun d => ei_id d = ascii "QE" /\ ei_version d = 2 /\ (ei_issue d < Z.of_N (rt_now s) < ei_next d)%Z)).
      unfold identity_is_valid. rewrite !andb_true_iff, beq_true, N.eqb_eq, !Z.ltb_lt. change (ascii "QE") with str_QE. tauto. }
    intros H. rewrite <- Hp in H. destruct H as (_ & _ & H). rewrite verdict_lift. unfold to_quoting_enclave.
    cbn [answers or_panic]. rewrite <- Hp. unfold z_to_u64.
    destruct (Z.leb_spec 0 (ei_issue d)) as [H0|H0]; [left; split; [auto|]|right; split; [lia|reflexivity]].
    destruct (Z.leb_spec 0 (ei_next d)); [reflexivity|lia].
  - unfold register_tcb_info. apply a_signed. intros a ->. apply a_last; [apply document_proper| |intros; eexists; eexists; reflexivity].
    unfold verify_tcb_info, document_demands. cbv zeta. rewrite <- app_assoc. apply a_gets, a_lift; [apply chain_proper|apply chain_answers|].
    intros leaf Hl. apply collateral_leaf_iff in Hl as (inter & Ec & _). rewrite app_assoc_reverse_3.
    apply a_lift.
    { repeat constructor; discriminate. }
    { unfold deserialize_tcb_info. apply (signature_answers _ _ leaf inter); [exact Ec|]. intros der _. apply r_ok_or_last. reflexivity. }
    intros d Hd. unfold deserialize_tcb_info in Hd. apply rbind_ok in Hd as (der & _ & Hd).
    apply rbind_ok in Hd as (? & _ & Hd). apply rok_or_ok in Hd.
    assert (forall P : tcb_info_json -> Prop, P d <-> forall d, or_json_tcb (c_sgx c) doc = Some d -> P d) as Hp.
    { intros P. rewrite Hd. split; [intros H d' [= <-]; exact H|]. intros H. apply H. reflexivity. }
    match goal with |- answers (?x :: ?l) _ => change (x :: l) with ([x] ++ l) end.
    apply a_lift; [repeat constructor; discriminate|apply time_answers|]. intros t Ht. apply time_i64_ok in Ht as [Ht ->].
    apply a_ensure.
    { rewrite <- (Hp (fun d => tj_id d = ascii "SGX" /\ tj_version d = 3 /\ (tj_issue d < Z.of_N (rt_now s) < tj_next d)%Z)).
      unfold tcb_is_valid. rewrite !andb_true_iff, beq_true, N.eqb_eq, !Z.ltb_lt. change (ascii "SGX") with str_SGX. tauto. }
    intros H. rewrite <- Hp in H. destruct H as (_ & _ & H). rewrite verdict_lift. unfold to_chain_tcb_info.
    cbn [answers or_panic]. rewrite <- Hp. unfold z_to_u64.
    destruct (Z.leb_spec 0 (tj_issue d)) as [H0|H0]; [left; split; [auto|]|right; split; [lia|reflexivity]].
    destruct (Z.leb_spec 0 (tj_next d)); [reflexivity|lia].
  - unfold set_security_flags. apply a_root. intros ->. done_ok.
Qed.
Print Assumptions C70_teerex_answers.
(** The reasons come in the order of the demands *)
Example C70_example_teerex :
  let s := run cfg_dcap (genesis_state (gen0 [alice])) [reg_qe 100 9000 7; reg_tcb 100 9000 11; OCall Root (CTx (TxSetFlags false false))] in
  let t a p u m := (dispatch cfg_dcap (Signed a) (CTx (TxRegister p u m)) s).1 in
  let long := zeros 5001 in
  t alice long (Some (zeros 257)) MIas = Failed RaProofIsTooLong /\
  t alice ias_cert (Some (zeros 257)) MIas = Failed EnclaveUrlIsTooLong /\
  t alice (zeros 5000) (Some (zeros 256)) MIas = Failed (TxSgx SNetscapeDecodingError) /\
  t (acc 2) ias_cert None MIas = Failed SenderIsNotAttestedEnclave /\
  t (acc 1) ias_cert None MIas = Failed SgxModeIsNotAllowed /\
  t (acc 1) ias_cert None (MSkip true) = Failed SkippingAttestationIsNotAllowed /\
  t bob (quote_demo (acc 77) alice 2) None (MDcap false) = Failed SenderIsNotAttestedEnclave /\
  t bob (quote_demo (acc 77) alice 2) None (MDcap true) = Failed SgxModeIsNotAllowed /\
  t bob (1 :: dropN 1 (quote_demo (acc 77) alice 2)) None (MDcap true) = Failed (TxSgx SDcapQuoteVersionMismatch) /\
  t bob (takeN 1160 (quote_demo (acc 77) alice 2)) None (MDcap true) = Failed (TxSgx SDcapQuoteDecodingError) /\
  t bob (quote_demo (acc 77) alice 2 ++ [0]) None (MDcap true) = Failed (TxSgx SDcapQuoteIsTooLong).
Proof. vm_compute. auto 20. Qed.
Example C70_example_demands : exists r, genuine_ias sgx_demo ias_cert r /\ vr_timestamp r = 4000 /\ takeN 32 (vr_report_data r) = acc 1.
Proof. eexists. rewrite <- C66_ias_report_accepted_iff_genuine, C66_example. split; [reflexivity|]. split; reflexivity. Qed.

(** ** asset registry *)
Definition ar_demands (c : cfg) (s : rt) (o : origin) (k : ar_call) : list demand :=
  or_err (c_asset_origin c o = true) BadOrigin ::
  match k with
  | ArRegister i l =>
      [or_err (is_Some (ar_assets (rt_ar s) !! i)) AssetDoesNotExist; or_err (ar_loc (rt_ar s) !! i = None) AssetAlreadyRegistered;
       or_err (accepted_shape l) WrongLocation]
  | ArUnregister i => [or_err (is_Some (ar_loc (rt_ar s) !! i)) AssetIsNotRegistered]
  end.
Theorem C70_registry_answers : forall c s o k st,
  (dispatch c o (CAr k) s).1 = st <-> answers (ar_demands c s o k) st.
Proof.
  intros c s o k. apply exact. cbn [exec]. unfold ar_demands. destruct k as [i l|i]; cbn [ar_exec].
  - unfold register_asset. apply a_ensure; [reflexivity|]. intros _. apply a_gets, a_ensure.
    { destruct (ar_assets (rt_ar s) !! i); split; intros H; try discriminate; eauto. destruct H; discriminate. }
    intros _. apply a_gets, a_ensure; [destruct (ar_loc (rt_ar s) !! i); split; congruence|]. intros _.
    apply a_ensure; [apply valid_shape|]. intros _. done_ok.
  - unfold unregister_asset. apply a_ensure; [reflexivity|]. intros _. apply a_gets, a_ok_or; [reflexivity|]. intros l _. done_ok.
Qed.
Print Assumptions C70_registry_answers.
Example C70_example_registry : let c := cfg_x (fun _ => inr []) in let s := genesis_state (gen_x {[ 7 := 3 ]}) in
  let t k := (dispatch c (Signed carol) (CAr k) s).1 in
  t (ArUnregister 7) = Failed AssetIsNotRegistered /\ t (ArRegister 8 (mkLoc 1 [JGeneralIndex 4])) = Failed AssetDoesNotExist /\
  t (ArRegister 7 (mkLoc 1 [JGeneralIndex 4])) = Failed WrongLocation /\ t (ArRegister 7 (mkLoc 1 [JParachain 4])) = Success.
Proof. vm_compute. auto. Qed.

(** ** xcm-transactor *)
(** The answer of the router to the message of C56 *)
Definition router_demands (r : send_error + bytes) : list demand :=
  let not e := r <> inl e in
  [or_err (not SENotApplicable) XUnreachable; or_err (not SETransport) XTransport; or_err (not SEUnroutable) XUnroutable;
   or_err (not SEDestinationUnsupported) XDestinationUnsupported; or_err (not SEFees) XFeesNotMet; or_err (not SEOther) XXcmSendError].
Definition xt_demands (c : cfg) (o : origin) (k : xt_call) : list demand :=
  match k with
  | XtSwap self other w fee =>
      let ours x := x = c_shell_id c \/ x = c_integritee_id c in
      [or_err (c_swap_origin c o = true) BadOrigin; or_err (self <> other) SwapIdsEqual; or_err (ours self) InvalidSwapIds;
       or_err (ours other) InvalidSwapIds] ++ router_demands (c_router c (swap_message (c_own_para c) self other w fee))
  end.
Theorem C70_swap_answers : forall c s o k st,
  (dispatch c o (CXt k) s).1 = st <-> answers (xt_demands c o k) st.
Proof.
  intros c s o [self other w fee]. apply exact. cbn [exec xt_exec xt_demands]. cbv zeta. unfold send_swap_ump. cbn [app].
  apply a_ensure; [reflexivity|]. intros _. apply a_ensure; [rewrite negb_true_iff; apply N.eqb_neq|]. intros _.
  apply a_ensure; [rewrite orb_true_iff, !N.eqb_eq; reflexivity|]. intros _.
  apply a_ensure; [rewrite orb_true_iff, !N.eqb_eq; reflexivity|]. intros _. cbv zeta. rewrite swap_message_eq. unfold router_demands.
  destruct (c_router c _) as [[]|h]; cbn;
    repeat first [left; split; [discriminate|]; reflexivity | right; split; [intros H; apply H; reflexivity|reflexivity] | left; split; [discriminate|]].
Qed.
Print Assumptions C70_swap_answers.
Example C70_example_swap : let t r self other := (dispatch (cfg_x r) (Signed carol) (CXt (XtSwap self other (1, 1) 5)) (genesis_state (gen_x ∅))).1 in
  t (fun _ => inl SEFees) 2267 2267 = Failed SwapIdsEqual /\ t (fun _ => inl SEFees) 2267 1 = Failed InvalidSwapIds /\
  t (fun _ => inl SEFees) 2267 2039 = Failed XFeesNotMet /\ t (fun _ => inr []) 2267 2039 = Success.
Proof. vm_compute. auto. Qed.
