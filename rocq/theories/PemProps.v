(** * Reading certificate chains in PEM format: C63. *)
From Coq Require Import String Ascii.
From Verif Require Import Base State SgxVerifyModel SgxProofs.

(** ** C63 *)
Definition ascii (t : string) : bytes := map N_of_ascii (list_ascii_of_string t).
(** A certificate in a PEM file: the text between the markers, and the number of newlines after the end marker *)
Definition pem_entry : Type := bytes * nat.
Definition pem_block (e : pem_entry) : bytes :=
  ascii "-----BEGIN CERTIFICATE-----" ++ e.1 ++ ascii "-----END CERTIFICATE-----" ++ replicate e.2 10.
Definition pem_file (l : list pem_entry) : bytes := concat (map pem_block l).
(** ASCII text without dashes: base64 text with newlines anywhere *)
Definition plain_text (t : bytes) : Prop := Forall (fun x => x < 128 /\ x <> 45) t.
Definition without_newlines (t : bytes) : bytes := List.filter (fun x => negb (x =? 10)) t.
(** The certificate an entry stands for, if its text is base64 *)
Definition entry_cert (o : sgx_oracles) (e : pem_entry) : option bytes :=
  match without_newlines e.1 with [] => None | p => or_b64 o p end.

Lemma utf8_lossy_ascii l : Forall (fun x => x < 128) l -> utf8_lossy l = l.
Proof.
  unfold utf8_lossy. induction 1 as [|x l Hx Hl IH]; [reflexivity|]. cbn [length utf8_lossy_fuel].
  destruct (N.ltb_spec x 128); [|lia]. rewrite IH. reflexivity.
Qed.
Lemma utf8_enc_ascii l : Forall (fun x => x < 128) l -> utf8_enc l = l.
Proof.
  unfold utf8_enc. induction 1 as [|x l Hx Hl IH]; [reflexivity|]. cbn [map concat]. unfold utf8_enc1 at 1.
  destruct (N.ltb_spec x 128); [|lia]. rewrite IH. reflexivity.
Qed.
Lemma filter_newline (l : list N) : filter (fun x => x <> newline) l = without_newlines l.
Proof.
  unfold without_newlines, newline. induction l as [|x l IH]; [reflexivity|]. rewrite filter_cons. cbn [List.filter].
  destruct (N.eqb_spec x 10) as [E|E]; cbn [negb]; destruct (decide (x <> 10)); try (exfalso; tauto); rewrite IH; reflexivity.
Qed.
Lemma without_app a b : without_newlines (a ++ b) = without_newlines a ++ without_newlines b.
Proof. unfold without_newlines. apply List.filter_app. Qed.
Lemma without_reps n : without_newlines (replicate n newline) = [].
Proof. induction n; [reflexivity|]. exact IHn. Qed.
Lemma without_plain t : plain_text t -> plain_text (without_newlines t).
Proof.
  unfold plain_text. rewrite !List.Forall_forall. intros H x Hx. apply filter_In in Hx as [Hx _]. auto.
Qed.
(** A file without newlines *)
Definition block1 (t : bytes) : bytes := begin_marker ++ t ++ end_marker.
Lemma without_file l : without_newlines (pem_file l) = concat (map (fun e => block1 (without_newlines e.1)) l).
Proof.
  unfold pem_file. induction l as [|e l IH]; [reflexivity|]. cbn [map concat]. rewrite without_app, IH. f_equal.
  unfold pem_block, block1. change (replicate e.2 10) with (replicate e.2 newline). rewrite !without_app, without_reps, app_nil_r. reflexivity.
Qed.
Lemma split_go_skip pat x s cur : split_go pat (x ++ s) (length x) cur = split_go pat s O cur.
Proof. induction x; [reflexivity|]. exact IHx. Qed.
Lemma split_go_match p0 pat s cur :
  split_go (p0 :: pat) ((p0 :: pat) ++ s) O cur = rev cur :: split_go (p0 :: pat) s O [].
Proof.
  cbn [app split_go]. assert (is_prefix (p0 :: pat) (p0 :: pat ++ s) = true) as ->.
  { apply is_prefix_spec. exists s. reflexivity. }
  f_equal. cbn [length]. replace (S (length pat) - 1)%nat with (length pat) by lia. apply split_go_skip.
Qed.
Lemma split_go_plain p0 pat t s cur : Forall (fun x => x <> p0) t ->
  split_go (p0 :: pat) (t ++ s) O cur = split_go (p0 :: pat) s O (rev t ++ cur).
Proof.
  intros H. revert cur. induction H as [|x t Hx Ht IH]; intros cur; [reflexivity|]. cbn [app split_go is_prefix].
  destruct (N.eqb_spec p0 x); [congruence|]. cbn [andb]. rewrite IH. cbn [rev]. rewrite <- app_assoc. reflexivity.
Qed.
Lemma concat_split_go pat s : forall k cur, concat (split_go pat s k cur) = rev cur ++ concat (split_go pat s k []).
Proof.
  induction s as [|x s IH]; intros k cur.
  - cbn. rewrite !app_nil_r. reflexivity.
  - cbn [split_go]. destruct k; [|apply IH]. destruct (is_prefix pat (x :: s)); [reflexivity|].
    rewrite (IH O (x :: cur)), (IH O [x]). cbn [rev app]. rewrite <- app_assoc. reflexivity.
Qed.
Lemma split_go_free pat x s : (forall n, (n < length x)%nat -> is_prefix pat (drop n x ++ s) = false) ->
  forall cur, split_go pat (x ++ s) O cur = split_go pat s O (rev x ++ cur).
Proof.
  induction x as [|y x IH]; intros H cur; [reflexivity|]. cbn [app split_go].
  pose proof (H O ltac:(cbn; lia)) as H0. cbn [drop app] in H0. rewrite H0, IH.
  - cbn [rev]. rewrite <- app_assoc. reflexivity.
  - intros n Hn. apply (H (S n)). cbn. lia.
Qed.
(** No begin marker starts inside an end marker *)
Lemma split_begin_end s cur : (s = [] \/ exists r, s = begin_marker ++ r) ->
  split_go begin_marker (end_marker ++ s) O cur = split_go begin_marker s O (rev end_marker ++ cur).
Proof.
  intros Hs. apply split_go_free. intros n Hn. change (length end_marker) with 25%nat in Hn.
  destruct Hs as [->|[r ->]]; do 25 (destruct n as [|n]; [vm_compute; reflexivity|]); lia.
Qed.
Lemma plain_no_dash t : plain_text t -> Forall (fun x => x <> 45) t.
Proof. intros H. eapply Forall_impl; [exact H|]. cbn. tauto. Qed.
Lemma remove_begin l : Forall plain_text l ->
  remove_all begin_marker (concat (map block1 l)) = concat (map (fun t => t ++ end_marker) l).
Proof.
  unfold remove_all, split_on. induction 1 as [|t l Ht Hl IH]; [reflexivity|]. cbn [map concat].
  unfold block1 at 1. rewrite <- !app_assoc. unfold begin_marker at 1 2. rewrite split_go_match. fold begin_marker.
  cbn [rev concat app]. unfold begin_marker at 1. rewrite (split_go_plain 45) by (apply plain_no_dash; auto). fold begin_marker.
  rewrite split_begin_end.
  - rewrite concat_split_go, IH, app_nil_r, rev_app_distr, !rev_involutive, <- !app_assoc. reflexivity.
  - destruct l as [|t' l]; [left; reflexivity|right]. cbn [map concat]. unfold block1. rewrite <- !app_assoc. eauto.
Qed.
Lemma split_end l : Forall plain_text l ->
  split_on end_marker (concat (map (fun t => t ++ end_marker) l)) = l ++ [[]].
Proof.
  unfold split_on. induction 1 as [|t l Ht Hl IH]; [reflexivity|]. cbn [map concat]. rewrite <- app_assoc.
  unfold end_marker at 1. rewrite (split_go_plain 45) by (apply plain_no_dash; auto). rewrite app_nil_r.
  unfold end_marker at 1. rewrite split_go_match. fold end_marker. rewrite rev_involutive, IH. reflexivity.
Qed.
Lemma ascii_file l : Forall (fun e : pem_entry => plain_text e.1) l -> Forall (fun x => x < 128) (pem_file l).
Proof.
  unfold pem_file. induction 1 as [|e l He Hl IH]; [constructor|]. cbn [map concat]. apply Forall_app. split; [|auto].
  unfold pem_block. rewrite !Forall_app. split; [repeat constructor; reflexivity|].
  split; [eapply Forall_impl; [exact He|]; cbn; tauto|]. split; [repeat constructor; reflexivity|].
  apply Forall_replicate. reflexivity.
Qed.
(** The chain is read entry by entry, in order; entries that are empty or not base64 are skipped
    silently. *)
Theorem C63_chain_is_read_entry_by_entry : forall o (l : list pem_entry),
  Forall (fun e => plain_text e.1) l -> extract_certs o (pem_file l) = omap (entry_cert o) l.
Proof.
  intros o l Hl. unfold extract_certs. rewrite utf8_lossy_ascii by (apply ascii_file; auto). rewrite filter_newline, without_file.
  assert (Forall plain_text (map (fun e : pem_entry => without_newlines e.1) l)) as Hp.
  { apply Forall_map. eapply Forall_impl; [exact Hl|]. cbn. intros e He. apply without_plain. auto. }
  rewrite <- (map_map (fun e : pem_entry => without_newlines e.1) block1), remove_begin, split_end by auto.
  clear Hl. rewrite omap_app. cbn [omap list_omap]. rewrite app_nil_r.
  induction l as [|e l IH]; [reflexivity|]. cbn [map] in *. apply Forall_cons in Hp as [He Hp]. cbn [omap list_omap].
  rewrite IH by auto. unfold entry_cert. destruct (without_newlines e.1) as [|x r] eqn:Ex; [reflexivity|].
  rewrite utf8_enc_ascii; [reflexivity|]. eapply Forall_impl; [exact He|]. cbn. tauto.
Qed.
Print Assumptions C63_chain_is_read_entry_by_entry.
(** A file of base64 texts, with line breaks anywhere, yields exactly the encoded certificates, in order. *)
Theorem C63_round_trip : forall o (l : list pem_entry) (certs : list bytes),
  Forall2 (fun e d => plain_text e.1 /\ without_newlines e.1 <> [] /\ or_b64 o (without_newlines e.1) = Some d) l certs ->
  extract_certs o (pem_file l) = certs.
Proof.
  intros o l certs H. rewrite C63_chain_is_read_entry_by_entry.
  - induction H as [|e d l certs (H1 & H2 & H3) HF IH]; [reflexivity|]. cbn [omap list_omap]. rewrite IH. unfold entry_cert.
    destruct (without_newlines e.1); [congruence|]. rewrite H3. reflexivity.
  - induction H as [|e d l certs (H1 & H2 & H3) HF IH]; constructor; auto.
Qed.
Print Assumptions C63_round_trip.
(** Damaging an entry does not make the chain invalid: it is dropped and its successors move up. *)
Theorem C63_damaged_entry_is_dropped : forall o (l1 l2 : list pem_entry) e,
  Forall (fun e => plain_text e.1) (l1 ++ e :: l2) -> or_b64 o (without_newlines e.1) = None ->
  extract_certs o (pem_file (l1 ++ e :: l2)) = extract_certs o (pem_file (l1 ++ l2)).
Proof.
  intros o l1 l2 e H He. rewrite !C63_chain_is_read_entry_by_entry; auto.
  - rewrite !omap_app. f_equal. cbn [omap list_omap]. unfold entry_cert at 1.
    destruct (without_newlines e.1); [reflexivity|]. rewrite He. reflexivity.
  - apply Forall_app in H as [H1 H2]. apply Forall_cons in H2 as [_ H2]. apply Forall_app. auto.
Qed.
Print Assumptions C63_damaged_entry_is_dropped.
(** Texts with line breaks, several newlines between the entries, an undecodable one in the middle *)
Definition sgx_b64 : sgx_oracles :=
  mkSgx (fun _ => []) (fun b => match b with 33 :: _ => None | _ => Some (0 :: b) end) (fun _ => true) (fun _ _ _ => true)
        (fun _ _ => true) (fun _ _ _ => true) (fun _ _ _ => true) (fun _ _ _ => true) (fun _ => None) (fun _ => None)
        (fun _ => None) (fun _ => None) (fun _ => None).
Example C63_example :
  let l : list pem_entry := [([10; 65; 66; 10; 67; 10], 1%nat); ([33; 65], 0%nat); ([10; 68; 69; 10], 3%nat)] in
  Forall (fun e => plain_text e.1) l /\ extract_certs sgx_b64 (pem_file l) = [[0; 65; 66; 67]; [0; 68; 69]].
Proof. split; [|vm_compute; reflexivity]. repeat constructor; cbn; discriminate. Qed.
(** "Text outside the markers is ignored" is false: a comment line becomes part of the certificate. *)
Theorem C63_comments_are_ignored_refuted : exists o comment t d,
  plain_text comment /\ plain_text t /\ extract_certs o (pem_file [(t, 1%nat)]) = [d] /\
  extract_certs o (comment ++ pem_file [(t, 1%nat)]) <> [d].
Proof.
  exists sgx_b64, [35; 120; 10], [65; 66], [0; 65; 66]. split; [repeat constructor; cbn; discriminate|].
  split; [repeat constructor; cbn; discriminate|]. split; [vm_compute; reflexivity|]. vm_compute. discriminate.
Qed.
Print Assumptions C63_comments_are_ignored_refuted.
