(** * C106: text in builds with and without the standard library
    The runtime takes the strings of teeracle as bytes, every build with the standard library as UTF-8.
    What such a build reads and what it refuses, byte for byte; who can write what it refuses; and
    that it reads everything as long as only valid text is sent. *)
From Coq Require Import String.
From Verif Require Import Base State Env TeerdaysModel TeerexBase SgxVerifyModel TeerexModel TextModel
  EnclaveBridgeModel SidechainModel TeeracleModel ClaimsModel AssetRegistryModel XcmTransactorModel
  MigrationsModel Runtime ErrorProps EnvFacts Frame Events AttestationProps ScaleModel ScaleProofs StorageModel
  StorageProps EncodingProps LayoutProps TypingProps EffectProps RuntimeProps TeerexProofs BridgeProofs TeeracleProps ObserverProps EventModel EventProps StdTextModel Examples.

(** ** What text is *)
(** RFC 3629: a character is a code point that is not a surrogate, in one to four bytes *)
Definition character (c : N) : Prop := c < 55296 \/ 57344 <= c < 1114112.
Definition character_bytes (c : N) : bytes :=
  if c <? 128 then [c]
  else if c <? 2048 then [192 + c / 64; 128 + c mod 64]
  else if c <? 65536 then [224 + c / 4096; 128 + c / 64 mod 64; 128 + c mod 64]
  else [240 + c / 262144; 128 + c / 4096 mod 64; 128 + c / 64 mod 64; 128 + c mod 64].
Definition text (b : bytes) : Prop := exists cs, Forall character cs /\ b = concat (map character_bytes cs).

Ltac Zify.zify_post_hook ::= Z.div_mod_to_equations.
Ltac rng := unfold cont, in_rng, second_ok in *;
  repeat match goal with
  | H : _ && _ = true |- _ => apply andb_prop in H as [? ?]
  | H : (_ <=? _) = true |- _ => apply N.leb_le in H
  | H : (_ <? _) = true |- _ => apply N.ltb_lt in H
  | H : (_ <? _) = false |- _ => apply N.ltb_ge in H
  | H : (_ =? _) = true |- _ => apply N.eqb_eq in H
  | H : (_ =? _) = false |- _ => apply N.eqb_neq in H
  end.
Lemma in_rng_t lo hi b : lo <= b -> b <= hi -> in_rng lo hi b = true.
Proof. intros H1 H2. unfold in_rng. rewrite (proj2 (N.leb_le lo b) H1), (proj2 (N.leb_le b hi) H2). reflexivity. Qed.
Lemma in_rng_f lo hi b : hi < b -> in_rng lo hi b = false.
Proof. intros H. unfold in_rng. rewrite (proj2 (N.leb_gt b hi) H). apply andb_false_r. Qed.
Lemma valid_app_char c r : character c -> utf8_valid (character_bytes c ++ r) = utf8_valid r.
Proof.
  intros Hc. unfold character, character_bytes in *.
  destruct (N.ltb_spec c 128) as [H1|H1].
  { cbn [app utf8_valid]. rewrite (proj2 (N.ltb_lt c 128)) by exact H1. reflexivity. }
  destruct (N.ltb_spec c 2048) as [H2|H2].
  { cbn [app utf8_valid]. rewrite (proj2 (N.ltb_ge _ 128)) by lia. rewrite in_rng_t by lia.
    unfold cont. rewrite (proj2 (N.leb_le 128 _)), (proj2 (N.leb_le _ 191)) by lia. reflexivity. }
  destruct (N.ltb_spec c 65536) as [H3|H3].
  { cbn [app utf8_valid]. rewrite (proj2 (N.ltb_ge _ 128)) by lia.
    rewrite (in_rng_f 194 223), (in_rng_t 224 239) by lia.
    assert (cont (128 + c mod 64) = true) as -> by (unfold cont; rewrite (proj2 (N.leb_le 128 _)), (proj2 (N.leb_le _ 191)) by lia; reflexivity).
    assert (second_ok (224 + c / 4096) (128 + c / 64 mod 64) = true) as ->; [|reflexivity].
    unfold second_ok, in_rng, cont.
    destruct (N.eqb_spec (224 + c / 4096) 224); [rewrite (proj2 (N.leb_le 160 _)), (proj2 (N.leb_le _ 191)) by lia; reflexivity|].
    destruct (N.eqb_spec (224 + c / 4096) 237); [rewrite (proj2 (N.leb_le 128 _)), (proj2 (N.leb_le _ 159)) by lia; reflexivity|].
    destruct (N.eqb_spec (224 + c / 4096) 240); [lia|]. destruct (N.eqb_spec (224 + c / 4096) 244); [lia|].
    rewrite (proj2 (N.leb_le 128 _)), (proj2 (N.leb_le _ 191)) by lia. reflexivity. }
  cbn [app utf8_valid]. rewrite (proj2 (N.ltb_ge _ 128)) by lia.
  rewrite (in_rng_f 194 223), (in_rng_f 224 239), (in_rng_t 240 244) by lia.
  assert (cont (128 + c mod 64) = true) as -> by (unfold cont; rewrite (proj2 (N.leb_le 128 _)), (proj2 (N.leb_le _ 191)) by lia; reflexivity).
  assert (cont (128 + c / 64 mod 64) = true) as -> by (unfold cont; rewrite (proj2 (N.leb_le 128 _)), (proj2 (N.leb_le _ 191)) by lia; reflexivity).
  assert (second_ok (240 + c / 262144) (128 + c / 4096 mod 64) = true) as ->; [|reflexivity].
  unfold second_ok, in_rng, cont.
  destruct (N.eqb_spec (240 + c / 262144) 224); [lia|]. destruct (N.eqb_spec (240 + c / 262144) 237); [lia|].
  destruct (N.eqb_spec (240 + c / 262144) 240); [rewrite (proj2 (N.leb_le 144 _)), (proj2 (N.leb_le _ 191)) by lia; reflexivity|].
  destruct (N.eqb_spec (240 + c / 262144) 244); [rewrite (proj2 (N.leb_le 128 _)), (proj2 (N.leb_le _ 143)) by lia; reflexivity|].
  rewrite (proj2 (N.leb_le 128 _)), (proj2 (N.leb_le _ 191)) by lia. reflexivity.
Qed.
Lemma valid_head l : utf8_valid l = true -> l = [] \/ exists c r, character c /\ l = character_bytes c ++ r /\ utf8_valid r = true.
Proof.
  destruct l as [|b0 r0]; [auto|]. intros H. right. cbn [utf8_valid] in H.
  destruct (b0 <? 128) eqn:E0.
  { exists b0, r0. unfold character, character_bytes. rewrite E0. rng. split; [lia|auto]. }
  destruct (in_rng 194 223 b0) eqn:E1.
  { destruct r0 as [|b1 r1]; [discriminate|]. rng.
    exists ((b0 - 192) * 64 + (b1 - 128)), r1. unfold character, character_bytes.
    destruct (N.ltb_spec ((b0 - 192) * 64 + (b1 - 128)) 128); [lia|].
    destruct (N.ltb_spec ((b0 - 192) * 64 + (b1 - 128)) 2048); [|lia].
    split; [lia|]. split; [|assumption]. cbn [app]. f_equal; [lia|]. f_equal. lia. }
  destruct (in_rng 224 239 b0) eqn:E2.
  { destruct r0 as [|b1 [|b2 r2]]; try discriminate. apply andb_prop in H as [H Hr]. apply andb_prop in H as [Hs Hc].
    assert (128 <= b1 <= 191 /\ (b0 = 224 -> 160 <= b1) /\ (b0 = 237 -> b1 <= 159)) as (Hb & Hb1 & Hb2).
    { unfold second_ok in Hs. destruct (b0 =? 224) eqn:?; [rng; lia|]. destruct (b0 =? 237) eqn:?; [rng; lia|].
      destruct (b0 =? 240) eqn:?; [rng; lia|]. destruct (b0 =? 244) eqn:?; [rng; lia|]. rng; lia. }
    clear Hs. rng. set (c := (b0 - 224) * 4096 + (b1 - 128) * 64 + (b2 - 128)).
    assert (2048 <= c /\ c < 65536) as [? ?] by (unfold c; lia).
    exists c, r2. unfold character, character_bytes.
    destruct (N.ltb_spec c 128); [lia|]. destruct (N.ltb_spec c 2048); [lia|]. destruct (N.ltb_spec c 65536); [|lia].
    split; [unfold c; lia|]. split; [|assumption]. cbn [app]. unfold c. f_equal; [lia|]. f_equal; [lia|]. f_equal. lia. }
  destruct (in_rng 240 244 b0) eqn:E3; [|discriminate].
  destruct r0 as [|b1 [|b2 [|b3 r3]]]; try discriminate. apply andb_prop in H as [H Hr]. apply andb_prop in H as [H Hc3]. apply andb_prop in H as [Hs Hc2].
  assert (128 <= b1 <= 191 /\ (b0 = 240 -> 144 <= b1) /\ (b0 = 244 -> b1 <= 143)) as (Hb & Hb1 & Hb2).
  { unfold second_ok in Hs. destruct (b0 =? 224) eqn:?; [rng; lia|]. destruct (b0 =? 237) eqn:?; [rng; lia|].
    destruct (b0 =? 240) eqn:?; [rng; lia|]. destruct (b0 =? 244) eqn:?; [rng; lia|]. rng; lia. }
  clear Hs. rng. set (c := (b0 - 240) * 262144 + (b1 - 128) * 4096 + (b2 - 128) * 64 + (b3 - 128)).
  assert (65536 <= c /\ c < 1114112) as [? ?] by (unfold c; lia).
  exists c, r3. unfold character, character_bytes.
  destruct (N.ltb_spec c 128); [lia|]. destruct (N.ltb_spec c 2048); [lia|]. destruct (N.ltb_spec c 65536); [lia|].
  split; [lia|]. split; [|assumption]. cbn [app]. unfold c. f_equal; [lia|]. f_equal; [lia|]. f_equal; [lia|]. f_equal. lia.
Qed.
Lemma char_nonempty c : character_bytes c <> [].
Proof. unfold character_bytes. destruct (c <? 128); [discriminate|]. destruct (c <? 2048); [discriminate|]. destruct (c <? 65536); discriminate. Qed.
Theorem C106_valid_is_a_sequence_of_characters : forall b, utf8_valid b = true <-> text b.
Proof.
  intros b. split.
  - remember (length b) as n eqn:Hn. revert b Hn. induction n as [n IH] using lt_wf_ind. intros b -> Hb.
    destruct (valid_head b Hb) as [->|(c & r & Hc & -> & Hr)]; [exists []; auto|].
    destruct (IH (length r)) with (b := r) as (cs & H1 & ->); auto.
    { rewrite app_length. pose proof (char_nonempty c). destruct (character_bytes c); [congruence|cbn; lia]. }
    exists (c :: cs). split; [constructor; assumption|reflexivity].
  - intros (cs & HF & ->). induction HF as [|c cs Hc HF IH]; [reflexivity|]. cbn [map concat]. rewrite valid_app_char by exact Hc. exact IH.
Qed.
Print Assumptions C106_valid_is_a_sequence_of_characters.
(** "Zürich 🙂" is text; a stray byte, an overlong slash, half a character and a surrogate are not. *)
Example C106_texts :
  utf8_valid [90; 195; 188; 114; 105; 99; 104; 32; 240; 159; 153; 130] = true /\ utf8_valid [255] = false /\
  utf8_valid [192; 175] = false /\ utf8_valid [226; 130] = false /\ utf8_valid [237; 160; 128] = false.
Proof. vm_compute. auto 10. Qed.

(** ** Reading what the runtime wrote *)
(** [b] encodes like [a] and decodes like it, except that it refuses the values that are not [ok]. *)
Definition stricter {A} (ok : A -> bool) (b a : codec A) : Prop :=
  (forall x, enc b x = enc a x) /\
  forall l, dec b l = match dec a l with Some (x, r) => if ok x then Some (x, r) else None | None => None end.
Lemma strict_same {A} (a : codec A) : stricter (fun _ => true) a a.
Proof. split; [reflexivity|]. intros l. destruct (dec a l) as [[x r]|]; reflexivity. Qed.
Lemma strict_string : stricter utf8_valid c_string c_bytes.
Proof. split; [reflexivity|]. intros l. reflexivity. Qed.
Lemma strict_pair {A B} (f : A -> bool) (h : B -> bool) a a' b b' : stricter f a' a -> stricter h b' b ->
  stricter (fun x => f x.1 && h x.2) (c_pair a' b') (c_pair a b).
Proof.
  intros [E1 D1] [E2 D2]. split; [intros x; cbn; rewrite E1, E2; reflexivity|].
  intros l. cbn [dec c_pair]. rewrite D1. destruct (dec a l) as [[x r]|]; [|reflexivity]. destruct (f x) eqn:Ef.
  - rewrite D2. destruct (dec b r) as [[z r']|]; [|reflexivity]. cbn [fst snd]. rewrite Ef. destruct (h z); reflexivity.
  - destruct (dec b r) as [[z r']|]; [|reflexivity]. cbn [fst snd]. rewrite Ef. reflexivity.
Qed.
Lemma strict_case {A B} t (f : A -> bool) (h : B -> bool) a a' inj prj rest rest' :
  stricter f a' a -> stricter h rest' rest -> (forall x, h (inj x) = f x) ->
  stricter h (c_case t a' inj prj rest') (c_case t a inj prj rest).
Proof.
  intros [E1 D1] [E2 D2] Hf. split.
  - intros x. cbn [enc c_case]. destruct (prj x); [rewrite E1|rewrite E2]; reflexivity.
  - intros l. cbn [dec c_case]. destruct l as [|b r]; [reflexivity|]. destruct (b =? t).
    + rewrite D1. destruct (dec a r) as [[x r']|]; [|reflexivity]. rewrite Hf. destruct (f x); reflexivity.
    + apply D2.
Qed.
Lemma strict_void {B} (h : B -> bool) : stricter h c_void c_void.
Proof. split; [reflexivity|]. intros l. reflexivity. Qed.
Lemma strict_vec {A} (f : A -> bool) a a' : stricter f a' a -> stricter (forallb f) (c_vec a') (c_vec a).
Proof.
  intros [E D]. split.
  - intros xs. cbn [enc c_vec]. f_equal. unfold enc_seq. f_equal. apply map_ext. exact E.
  - intros l. cbn [dec c_vec]. destruct (dec_compact 4 l) as [[n r]|]; [|reflexivity]. generalize (length r) as fuel. intros fuel.
    revert n r. induction fuel as [|fuel IH]; intros n r; cbn [dec_seq]; (destruct (n =? 0); [reflexivity|]); [reflexivity|].
    rewrite D. destruct (dec a r) as [[x r1]|]; [|reflexivity]. destruct (f x) eqn:Ef.
    + rewrite IH. destruct (dec_seq a fuel (n - 1) r1) as [[xs r2]|]; [|reflexivity]. cbn [forallb]. rewrite Ef. destruct (forallb f xs); reflexivity.
    + destruct (dec_seq a fuel (n - 1) r1) as [[xs r2]|]; [|reflexivity]. cbn [forallb]. rewrite Ef. reflexivity.
Qed.

(** The strings in a call, in an event on the wire and in an event of the log *)
Definition call_texts (k : call) : list bytes :=
  match k with
  | CTo (ToAdd src _) | CTo (ToRemove src _) => [src]
  | CTo (ToUpdateOracle name src _) => [name; src]
  | CTo (ToUpdateRate src tp _) => [src; tp]
  | _ => []
  end.
Definition wire_texts (w : wire_event) : list bytes :=
  match w with
  | WTo (WExchangeRateUpdated src tp _) | WTo (WExchangeRateDeleted src tp) => [src; tp]
  | WTo (WOracleUpdated name src) => [name; src]
  | WTo (WAddedToWhitelist src _) | WTo (WRemovedFromWhitelist src _) => [src]
  | _ => []
  end.
Definition event_texts (e : event) : list bytes := match wire e with Some w => wire_texts w | None => [] end.

Ltac strict := repeat first
  [ apply strict_void
  | apply (strict_case _ _ _ _ _ _ _ _ _ (strict_same _)); [|reflexivity] ].
Lemma strict_call y ix : stricter (fun k => forallb utf8_valid (call_texts k)) (c_call_std y ix) (c_call y ix).
Proof.
  unfold c_call_std, c_call. do 3 (apply (strict_case _ (fun _ => true)); [apply strict_same| |reflexivity]).
  apply (strict_case _ (fun x => forallb utf8_valid (call_texts (CTo x)))); [|strict|reflexivity].
  unfold c_to_call_std, c_to_call.
  apply (strict_case _ (fun x => utf8_valid x.1 && true)); [apply (strict_pair utf8_valid (fun _ => true)); [apply strict_string|apply strict_same]| |intros []; reflexivity].
  apply (strict_case _ (fun x => utf8_valid x.1 && true)); [apply (strict_pair utf8_valid (fun _ => true)); [apply strict_string|apply strict_same]| |intros []; reflexivity].
  do 2 (apply (strict_case _ (fun x => utf8_valid x.1 && (utf8_valid x.2.1 && true)));
    [apply (strict_pair utf8_valid (fun x => utf8_valid x.1 && true)); [apply strict_string|apply (strict_pair utf8_valid (fun _ => true)); [apply strict_string|apply strict_same]]| |intros [? []]; reflexivity]).
  apply strict_void.
Qed.
Lemma strict_wire y ix : stricter (fun w => forallb utf8_valid (wire_texts w)) (c_wire_std y ix) (c_wire y ix).
Proof.
  unfold c_wire_std, c_wire. do 3 (apply (strict_case _ (fun _ => true)); [apply strict_same| |reflexivity]).
  apply (strict_case _ (fun x => forallb utf8_valid (wire_texts (WTo x)))); [|strict|reflexivity].
  unfold c_to_event_std, c_to_event.
  apply (strict_case _ (fun x => utf8_valid x.1 && (utf8_valid x.2.1 && true)));
    [apply (strict_pair utf8_valid (fun x => utf8_valid x.1 && true)); [apply strict_string|apply (strict_pair utf8_valid (fun _ => true)); [apply strict_string|apply strict_same]]| |intros [? []]; reflexivity].
  do 2 (apply (strict_case _ (fun x => utf8_valid x.1 && utf8_valid x.2)); [apply strict_pair; apply strict_string| |intros []; cbn; rewrite andb_true_r; reflexivity]).
  do 2 (apply (strict_case _ (fun x => utf8_valid x.1 && true)); [apply (strict_pair utf8_valid (fun _ => true)); [apply strict_string|apply strict_same]| |intros []; reflexivity]).
  apply strict_void.
Qed.
Lemma strict_record y ix : stricter (fun r => forallb utf8_valid (wire_texts r.2.1)) (c_record_std y ix) (c_record y ix).
Proof.
  unfold c_record_std, c_record.
  destruct (strict_pair (fun _ => true) (fun x => forallb utf8_valid (wire_texts x.1) && true) c_phase c_phase _ _ (strict_same _)
    (strict_pair (fun w => forallb utf8_valid (wire_texts w)) (fun _ => true) _ _ _ _ (strict_wire y ix) (strict_same (c_vec c_hash)))) as [E D].
  split; [exact E|]. intros l. rewrite D. destruct (dec _ l) as [[[ph [w t]] r]|]; [|reflexivity]. cbn [fst snd andb]. rewrite andb_true_r. reflexivity.
Qed.

(** A build with the standard library decodes a call exactly if the runtime does and all its strings
    are text, and then to the same call; the bytes it writes are the same. *)
Theorem C106_calls_read_by_std_builds : forall y ix,
  (forall k, enc (c_call_std y ix) k = enc (c_call y ix) k) /\
  forall l k r, dec (c_call_std y ix) l = Some (k, r) <-> dec (c_call y ix) l = Some (k, r) /\ Forall text (call_texts k).
Proof.
  intros y ix. destruct (strict_call y ix) as [E D]. split; [exact E|]. intros l k r. rewrite D.
  assert (forall k, forallb utf8_valid (call_texts k) = true <-> Forall text (call_texts k)) as Hf.
  { intros k0. rewrite forallb_forall, List.Forall_forall. split; intros H x Hx; apply C106_valid_is_a_sequence_of_characters; auto. }
  destruct (dec (c_call y ix) l) as [[k' r']|]; [|split; [discriminate|intros [[=] _]]].
  destruct (forallb utf8_valid (call_texts k')) eqn:Ek.
  - split; [intros [= <- <-]; split; [reflexivity|apply Hf, Ek]|intros [H _]; exact H].
  - split; [discriminate|]. intros [[= <- <-] H]. apply Hf in H. congruence.
Qed.
Print Assumptions C106_calls_read_by_std_builds.

(** The events of a block are one vector of records: a client built with the standard library reads
    all of them or, if a single string is not text, none. *)
Theorem C106_events_read_by_std_clients : forall y ix rs more, sane y -> sane_index ix -> wt (c_vec (c_record y ix)) rs ->
  let block := enc (c_vec (c_record y ix)) rs ++ more in
  dec (c_vec (c_record y ix)) block = Some (rs, more) /\
  (Forall (fun x => Forall text (wire_texts x.2.1)) rs -> dec (c_vec (c_record_std y ix)) block = Some (rs, more)) /\
  (~ Forall (fun x => Forall text (wire_texts x.2.1)) rs -> dec (c_vec (c_record_std y ix)) block = None).
Proof.
  intros y ix rs more S I W block.
  assert (lawful (c_vec (c_record y ix))) as LV.
  { apply lawful_vec; [now apply lawful_record|]. intros [ph z] _. unfold c_record. rewrite pair_spec. destruct ph; discriminate. }
  assert (dec (c_vec (c_record y ix)) block = Some (rs, more)) as E by apply (law_rt _ LV _ _ W).
  split; [exact E|]. destruct (strict_vec _ _ _ (strict_record y ix)) as [_ D]. rewrite D, E.
  assert (forallb (fun x : phase * (wire_event * list bytes) => forallb utf8_valid (wire_texts x.2.1)) rs = true <-> Forall (fun x => Forall text (wire_texts x.2.1)) rs) as Hf.
  { rewrite forallb_forall, List.Forall_forall. split; intros H x Hx; specialize (H x Hx).
    - rewrite forallb_forall in H. rewrite List.Forall_forall. intros b Hb. apply C106_valid_is_a_sequence_of_characters; auto.
    - rewrite forallb_forall. rewrite List.Forall_forall in H. intros b Hb. apply C106_valid_is_a_sequence_of_characters; auto. }
  destruct (forallb _ rs) eqn:Ek; split; intros H; try reflexivity.
  - destruct H. apply Hf. reflexivity.
  - apply Hf in H. discriminate H.
Qed.
Print Assumptions C106_events_read_by_std_clients.

(** ** Who can write what is not text *)
(** Every string in an event an operation deposits is one of the strings of the call. *)
Lemma event_texts_of o k e b : attributable o k e -> In b (event_texts e) -> In b (call_texts k).
Proof.
  unfold event_texts. destruct e; cbn [wire]; intros H Hb; try contradiction Hb;
  (destruct k as [x|x|x|x|x|x|x|x]; try contradiction H); destruct x; try contradiction H; cbn [attributable] in H; cbn [wire_texts call_texts] in *.
  all: intuition (subst; cbn; auto).
Qed.
(** A string that is not text gets into the event log only with an accepted call of the oracle, made
    by root (who names a source on a whitelist) or by a registered enclave whose measurement is on the
    whitelist of the source it names. *)
Theorem C106_who_writes_what_is_not_text : forall c s x evs e b,
  rt_ev (step c s x) = evs ++ rt_ev s -> In e evs -> In b (event_texts e) -> ~ text b ->
  exists o k, x = OCall o (CTo k) /\ In b (call_texts (CTo k)) /\ (dispatch c o (CTo k) s).1 = Success /\
  match k with
  | ToAdd src _ | ToRemove src _ => o = Root /\ b = src
  | ToUpdateOracle _ src _ | ToUpdateRate src _ _ =>
      exists a y, o = Signed a /\ tx_sov (rt_tx s) !! a = Some y /\ fingerprint y ∈ whitelist s src
  end.
Proof.
  intros c s x evs e b Ev He Hb Hn. destruct (step_emits c s x) as (evs' & E' & F).
  assert (evs' = evs) as -> by (rewrite E' in Ev; apply app_inv_tail in Ev; exact Ev).
  rewrite List.Forall_forall in F. specialize (F e He).
  destruct x as [o k| | | | | | | | | |].
  2-11: cbn [emitted_by env_event] in F; destruct e; try contradiction F; contradiction Hb.
  cbn [emitted_by] in F. pose proof (event_texts_of _ _ _ _ F Hb) as Hk.
  destruct k as [k|k|k|k|k|k|k|k]; try contradiction Hk.
  destruct (dispatch c o (CTo k) s) as [st s'] eqn:Ed.
  assert (st = Success) as ->.
  { destruct st; [reflexivity| |]; exfalso; destruct (step_call c s o (CTo k)) as [(s2 & E2 & _)|E2].
    1,3: unfold dispatch, run_call in Ed; rewrite E2 in Ed; discriminate Ed.
    1,2: rewrite E2 in Ev; apply (app_inv_tail (rt_ev s) [] evs) in Ev; subst evs; contradiction He. }
  exists o, k. split; [reflexivity|]. split; [exact Hk|]. split; [rewrite Ed; reflexivity|].
  apply dispatch_iff in Ed. cbn [exec] in Ed. destruct k; cbn [to_exec] in Ed; cbn [call_texts] in Hk.
  - apply add_wl_ok in Ed as (-> & _). destruct Hk as [->|[]]. auto.
  - apply remove_wl_ok in Ed as (-> & _). destruct Hk as [->|[]]. auto.
  - apply update_oracle_ok in Ed as (a & y & -> & H1 & H2 & _). eauto.
  - apply update_rate_ok in Ed as (a & y & -> & H1 & H2 & _). eauto.
Qed.
Print Assumptions C106_who_writes_what_is_not_text.

(** The source an event of the oracle names, and what it names under that source *)
Definition event_source (e : event) : option bytes :=
  match e with
  | EvExchangeRateUpdated src _ _ | EvExchangeRateDeleted src _ | EvOracleUpdated _ src
  | EvAddedToWhitelist src _ | EvRemovedFromWhitelist src _ => Some src
  | _ => None
  end.
Definition event_label (e : event) : option bytes :=
  match e with
  | EvExchangeRateUpdated _ tp _ | EvExchangeRateDeleted _ tp => Some tp
  | EvOracleUpdated name _ => Some name
  | _ => None
  end.
Lemma event_texts_split e b : In b (event_texts e) <-> event_source e = Some b \/ event_label e = Some b.
Proof.
  unfold event_texts. destruct e; cbn; try solve [split; [intros []|intros [[=]|[=]]]];
  (split; [intros H; intuition (subst; auto)|intros [[=]|[=]]; subst; auto]).
Qed.

Section Texts.
Context (PS PL : bytes -> Prop).
Definition oracle_texts (s : rt) : Prop :=
  (forall src w, to_wl (rt_to s) !! src = Some w -> PS src) /\
  (forall tp src v, to_rates (rt_to s) !! (tp, src) = Some v -> PS src /\ PL tp) /\
  (forall name src v, to_data (rt_to s) !! (name, src) = Some v -> PS src /\ PL name) /\
  (forall e b, In e (rt_ev s) -> (event_source e = Some b -> PS b) /\ (event_label e = Some b -> PL b)).
Definition texts_in (x : op) : Prop :=
  match x with
  | OCall Root (CTo (ToAdd src _)) => PS src
  | OCall (Signed _) (CTo (ToUpdateOracle name _ _)) => PL name
  | OCall (Signed _) (CTo (ToUpdateRate _ tp _)) => PL tp
  | _ => True
  end.
Lemma whitelisted_key s src fp : fp ∈ whitelist s src -> exists w, to_wl (rt_to s) !! src = Some w.
Proof. unfold whitelist. destruct (to_wl (rt_to s) !! src) as [w|]; [eauto|]. intros H. inversion H. Qed.
Lemma oracle_texts_step c s x : texts_in x -> oracle_texts s -> oracle_texts (step c s x).
Proof.
  intros Hx (Hw & Hr & Hd & He).
  assert (rt_to (step c s x) = rt_to s -> (forall e, In e (rt_ev (step c s x)) -> In e (rt_ev s) \/ event_texts e = []) -> oracle_texts (step c s x)) as Same.
  { intros Et Ee. unfold oracle_texts. rewrite Et. repeat split; try solve [eauto | eapply Hr; eauto | eapply Hd; eauto];
    (destruct (Ee _ H) as [Hi|Hi]; [eapply He; eauto|]); intros Hs;
    assert (In b (event_texts e)) as Hc by (apply event_texts_split; auto); rewrite Hi in Hc; contradiction Hc. }
  destruct (op_may_write x PTo) eqn:Hp.
  2: { apply Same; [exact (step_same c s x PTo Hp)|]. intros e Hi. destruct (step_emits c s x) as (evs & E & F). rewrite E in Hi.
       apply in_app_or in Hi as [Hi|Hi]; [right|left; exact Hi]. rewrite List.Forall_forall in F. specialize (F e Hi).
       destruct x as [o k| | | | | | | | | |]; cbn [emitted_by env_event] in F; [|destruct e; solve [contradiction F|reflexivity]..].
       destruct (event_texts e) as [|b r] eqn:Eb; [reflexivity|]. assert (In b (call_texts k)) as Hk by (eapply event_texts_of; [exact F|rewrite Eb; left; reflexivity]).
       destruct k; try contradiction Hk. discriminate Hp. }
  destruct x as [o k| | | | | | | | | |]; try discriminate Hp.
  destruct (step_call c s o k) as [(s' & E & Es)|Es].
  2: { rewrite Es in *. repeat split; try solve [eauto | eapply Hr; eauto | eapply Hd; eauto | eapply He; eauto]. }
  rewrite Es. clear Same Es. destruct k as [k|k|k|k|k|k|k|k]; try discriminate Hp; cbn [exec] in E. destruct k; cbn [to_exec] in E; cbn [texts_in] in Hx.
  - apply add_wl_ok in E as (-> & _ & _ & _ & ->). split; [|split; [exact Hr|split; [exact Hd|]]].
    + intros src' w. cbn. destruct (decide (src = src')) as [->|Hne]; [intros _; exact Hx|rewrite lookup_insert_ne by auto; apply Hw].
    + intros e b [<-|Hi]; [cbn; split; [intros [= <-]; exact Hx|discriminate]|exact (He e b Hi)].
  - apply remove_wl_ok in E as (-> & Hi & ->). apply whitelisted_key in Hi as [w0 Hi]. split; [|split; [exact Hr|split; [exact Hd|]]].
    + intros src' w. cbn. destruct (decide (src = src')) as [->|Hne]; [intros _; exact (Hw _ _ Hi)|rewrite lookup_insert_ne by auto; apply Hw].
    + intros e b [<-|Hb]; [cbn; split; [intros [= <-]; exact (Hw _ _ Hi)|discriminate]|exact (He e b Hb)].
  - apply update_oracle_ok in E as (a & y & -> & _ & Hi & _ & _ & _ & ->). apply whitelisted_key in Hi as [w0 Hi].
    split; [exact Hw|split; [exact Hr|split]].
    + intros n' src' v. cbn. destruct (decide ((name, src) = (n', src'))) as [Ek|Hne].
      * injection Ek as <- <-. intros _. split; [exact (Hw _ _ Hi)|exact Hx].
      * rewrite lookup_insert_ne by auto. apply Hd.
    + intros e b [<-|Hb]; [cbn; split; intros [= <-]; [exact (Hw _ _ Hi)|exact Hx]|exact (He e b Hb)].
  - apply update_rate_ok in E as (a & y & -> & _ & Hi & _ & ->). apply whitelisted_key in Hi as [w0 Hi].
    split; [destruct (nonzero v); exact Hw|split; [|split; [destruct (nonzero v); exact Hd|]]].
    + intros n' src' v'. destruct (decide ((pair, src) = (n', src'))) as [Ek|Hne].
      * injection Ek as <- <-. intros _. split; [exact (Hw _ _ Hi)|exact Hx].
      * destruct (nonzero v); cbn; [rewrite lookup_insert_ne by auto|rewrite lookup_delete_ne by auto]; apply Hr.
    + intros e b. destruct (nonzero v); (intros [<-|Hb]; [cbn; split; intros [= <-]; [exact (Hw _ _ Hi)|exact Hx]|exact (He e b Hb)]).
Qed.
Lemma oracle_texts_run c g l : Forall texts_in l -> oracle_texts (run c (genesis_state g) l).
Proof.
  intros F. apply (run_inv c oracle_texts texts_in); [intros; apply oracle_texts_step; auto| |exact F].
  repeat split; intros; cbn in *; try contradiction;
  match goal with H : _ !! _ = Some _ |- _ => rewrite lookup_empty in H; discriminate end.
Qed.
End Texts.

(** If every string submitted to the oracle is text, every key the oracle stores and every event is,
    and a client built with the standard library can read every event. *)
Theorem C106_text_in_text_out : forall c g l,
  (forall o k, In (OCall o k) l -> Forall text (call_texts k)) ->
  let s := run c (genesis_state g) l in
  (forall src w, to_wl (rt_to s) !! src = Some w -> text src) /\
  (forall tp src v, to_rates (rt_to s) !! (tp, src) = Some v -> text tp /\ text src) /\
  (forall name src v, to_data (rt_to s) !! (name, src) = Some v -> text name /\ text src) /\
  (forall e, In e (rt_ev s) -> Forall text (event_texts e)).
Proof.
  intros c g l H s. destruct (oracle_texts_run text text c g l) as (H1 & H2 & H3 & H4).
  { rewrite List.Forall_forall. intros x Hx. destruct x as [o k| | | | | | | | | |]; try exact I. specialize (H o k Hx).
    destruct o; try exact I; destruct k as [k|k|k|k|k|k|k|k]; try exact I; destruct k; try exact I; cbn [call_texts texts_in] in *;
    rewrite !Forall_cons in H; tauto. }
  split; [exact H1|]. split; [intros; destruct (H2 _ _ _ H0); auto|]. split; [intros; destruct (H3 _ _ _ H0); auto|].
  intros e He. rewrite List.Forall_forall. intros b Hb. apply event_texts_split in Hb. destruct (H4 e b He) as [P Q]. destruct Hb; auto.
Qed.
Print Assumptions C106_text_in_text_out.

(** If root puts sources on whitelists that are text, all sources are: only the trading pairs and the
    names of oracle data, which whitelisted enclaves choose, may be something else. *)
Theorem C106_root_decides_about_sources : forall c g l,
  (forall src fp, In (OCall Root (CTo (ToAdd src fp))) l -> text src) ->
  let s := run c (genesis_state g) l in
  (forall src w, to_wl (rt_to s) !! src = Some w -> text src) /\
  (forall tp src v, to_rates (rt_to s) !! (tp, src) = Some v -> text src) /\
  (forall name src v, to_data (rt_to s) !! (name, src) = Some v -> text src) /\
  (forall e src, In e (rt_ev s) -> event_source e = Some src -> text src).
Proof.
  intros c g l H s. destruct (oracle_texts_run text (fun _ => True) c g l) as (H1 & H2 & H3 & H4).
  { rewrite List.Forall_forall. intros x Hx. destruct x as [o k| | | | | | | | | |]; try exact I.
    destruct o; try exact I; destruct k as [k|k|k|k|k|k|k|k]; try exact I; destruct k; try exact I; cbn [texts_in]; eauto. }
  split; [exact H1|]. split; [intros; eapply H2; eauto|]. split; [intros; eapply H3; eauto|]. intros e src He. apply (H4 e src He).
Qed.
Print Assumptions C106_root_decides_about_sources.

(** ** Clients of a chain *)
Lemma records_typed y ix evs ph : wt c_phase ph -> Forall (ev_typed y ix) evs -> Forall (wt (c_record y ix)) (omap (record_of ph) evs).
Proof.
  intros P. induction evs as [|e evs IH]; intros F; [constructor|]. inversion F as [|? ? T F']; subst. cbn [omap list_omap].
  unfold record_of. destruct (wire e) as [w|] eqn:E; cbn [fmap option_fmap option_map]; [|auto]. constructor; [|auto].
  destruct (T w E) as [W1 W2]. split; [exact P|]. split; [exact W1|exact W2].
Qed.
(** The records of the events of a block, or of any selection of the log, written by the runtime, are
    read by a client built with the standard library if all strings ever submitted are text. *)
Theorem C106_clients_of_a_chain_with_text_only : forall y ix c g l, sane y -> sane_index ix ->
  cfg_typed y c -> router_typed c -> genesis_typed y g -> Forall (op_typed y) l ->
  (forall o k, In (OCall o k) l -> Forall text (call_texts k)) ->
  forall evs ph more, incl evs (rt_ev (run c (genesis_state g) l)) -> wt c_phase ph ->
  let rs := omap (record_of ph) evs in lenN rs <= u32_max ->
  dec (c_vec (c_record_std y ix)) (enc (c_vec (c_record y ix)) rs ++ more) = Some (rs, more).
Proof.
  intros y ix c g l S I C R G L H evs ph more Hi P rs Hl.
  pose proof (C95_deposited_events_have_their_types y ix c g l C R G L) as F.
  assert (Forall (ev_typed y ix) evs) as Fe. { rewrite List.Forall_forall in *. intros e He. apply F, Hi, He. }
  destruct (C106_events_read_by_std_clients y ix rs more S I) as (_ & Good & _).
  { split; [apply records_typed; assumption|exact Hl]. }
  apply Good. destruct (C106_text_in_text_out c g l H) as (_ & _ & _ & T). rewrite List.Forall_forall. intros r Hr.
  apply elem_of_list_In, elem_of_list_omap in Hr as (e & He & Er). apply elem_of_list_In in He. unfold record_of in Er. destruct (wire e) as [w|] eqn:Ew; [|discriminate Er].
  cbn in Er. injection Er as <-. cbn [fst snd]. specialize (T e (Hi _ He)). unfold event_texts in T. rewrite Ew in T. exact T.
Qed.
Print Assumptions C106_clients_of_a_chain_with_text_only.

(** ** The witness *)
(** Two enclaves; root whitelists the measurement of one for the source "cg"; it submits a rate for the
    pair "TE", then one for a trading pair that is the single byte 255. So does the other, without success. *)
Definition std_hist : list op :=
  [OCall (Signed alice) (CTx (TxRegister (acc 77) None (MSkip false)));
   OCall (Signed bob) (CTx (TxRegister (acc 78) None (MSkip false)));
   OCall Root (CTo (ToAdd [99; 103] (acc 77)));
   OCall (Signed alice) (CTo (ToUpdateRate [99; 103] [84; 69] (Some 42)));
   OCall (Signed bob) (CTo (ToUpdateRate [99; 103] [254] (Some 42)));
   OCall (Signed alice) (CTo (ToUpdateRate [99; 103] [255] (Some 42)))].
Definition std_records (l : list op) : list (phase * (wire_event * list bytes)) :=
  omap (record_of (PhApply 1)) (rev (rt_ev (run cfg_t (genesis_state gen_t) l))).
Lemma std_hist_typed : Forall (op_typed layout0) std_hist.
Proof. unfold std_hist. typed_tac. Qed.
Lemma std_hist_read : forall evs, evs = rev (rt_ev (run cfg_t (genesis_state gen_t) std_hist)) ->
  lenN (omap (record_of (PhApply 1)) evs) <= u32_max /\
  dec (c_vec (c_record_std layout0 ix0)) (enc (c_vec (c_record layout0 ix0)) (omap (record_of (PhApply 1)) evs) ++ []) = None.
Proof. intros evs ->. vm_compute. split; [discriminate|reflexivity]. Qed.
Theorem C106_std_clients_read_all_events_refuted :
  ~ (forall y ix c g l, sane y -> sane_index ix -> cfg_typed y c -> router_typed c -> genesis_typed y g -> Forall (op_typed y) l ->
     forall evs ph more, incl evs (rt_ev (run c (genesis_state g) l)) -> wt c_phase ph ->
     let rs := omap (record_of ph) evs in lenN rs <= u32_max ->
     dec (c_vec (c_record_std y ix)) (enc (c_vec (c_record y ix)) rs ++ more) = Some (rs, more)).
Proof.
  intros H. specialize (H layout0 ix0 cfg_t gen_t std_hist layout0_sane ix0_sane cfg_t_typed router_t gen_t_typed std_hist_typed
    (rev (rt_ev (run cfg_t (genesis_state gen_t) std_hist))) (PhApply 1) []).
  remember (rev (rt_ev (run cfg_t (genesis_state gen_t) std_hist))) as evs eqn:Ev.
  destruct (std_hist_read evs Ev) as [Hl N]. cbv zeta in H.
  assert (incl evs (rt_ev (run cfg_t (genesis_state gen_t) std_hist))) as Hi by (intros e He; rewrite Ev in He; apply in_rev, He).
  assert (wt c_phase (PhApply 1)) as P by (vm_compute; reflexivity).
  specialize (H Hi P Hl). rewrite N in H. discriminate H.
Qed.
Print Assumptions C106_std_clients_read_all_events_refuted.
(** Before the odd submission all events are readable; after it none is, although the runtime reads all. *)
Example C106_one_string_hides_all_events :
  lenN (std_records std_hist) = 5 /\
  dec (c_vec (c_record_std layout0 ix0)) (enc (c_vec (c_record layout0 ix0)) (std_records (firstn 5 std_hist))) = Some (std_records (firstn 5 std_hist), []) /\
  lenN (std_records (firstn 5 std_hist)) = 4 /\
  dec (c_vec (c_record_std layout0 ix0)) (enc (c_vec (c_record layout0 ix0)) (std_records std_hist)) = None /\
  dec (c_vec (c_record layout0 ix0)) (enc (c_vec (c_record layout0 ix0)) (std_records std_hist)) = Some (std_records std_hist, []).
Proof. vm_compute. auto 10. Qed.
(** A call with such a string is read by the runtime and refused by a build with the standard library. *)
Example C106_example_calls :
  let b := [53; 3; 8; 99; 103; 4; 255; 0] in
  dec (c_call layout0 ix0) b = Some (CTo (ToUpdateRate [99; 103] [255] None), []) /\
  dec (c_call_std layout0 ix0) b = None /\
  dec (c_call_std layout0 ix0) [53; 3; 8; 99; 103; 8; 195; 188; 0] = Some (CTo (ToUpdateRate [99; 103] [195; 188] None), []).
Proof. vm_compute. auto. Qed.
(** The keys of this history: the source root wrote is text, one pair is not *)
Example C106_example_keys :
  let t := rt_to (run cfg_t (genesis_state gen_t) std_hist) in
  (to_rates t !! ([84; 69], [99; 103]), to_rates t !! ([255], [99; 103]), to_rates t !! ([254], [99; 103])) = (Some 42, Some 42, None).
Proof. vm_compute. reflexivity. Qed.
