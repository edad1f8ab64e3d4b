(** * C81: stored values and calls have unambiguous encodings *)
From Coq Require Import String.
From Verif Require Import Base State Env TeerdaysModel TeerexBase SgxVerifyModel TeerexModel
  EnclaveBridgeModel SidechainModel TeeracleModel ClaimsModel AssetRegistryModel XcmTransactorModel
  MigrationsModel Runtime ErrorProps ScaleModel ScaleProofs StorageModel StorageProps Examples.

(** What is asked of an encoding: a decoder that returns the value and leaves what follows alone, that
    accepts no other bytes for it, and nothing for bytes that encode no value. *)
Definition unambiguous {A} (k : codec A) : Prop :=
  (forall x r, wt k x -> dec k (enc k x ++ r) = Some (x, r)) /\
  (forall l x r, wf_bytes l -> dec k l = Some (x, r) -> wt k x /\ l = enc k x ++ r) /\
  (forall x y r r', wt k x -> wt k y -> enc k x ++ r = enc k y ++ r' -> x = y /\ r = r').
Lemma lawful_unambiguous {A} (k : codec A) : lawful k -> unambiguous k.
Proof.
  intros L. split; [apply (law_rt _ L)|]. split; [apply (law_canon _ L)|]. intros. eapply lawful_inj; eauto.
Qed.

(** The values in storage *)
Theorem C81_stored_values_unambiguous y k : sane y -> unambiguous (val_codec y k).
Proof. intros S. apply lawful_unambiguous, lawful_val, S. Qed.
Print Assumptions C81_stored_values_unambiguous.

(** The calls of all pallets, with the index [ix] the runtime gives to each pallet *)
Definition c_call (y : layout) (ix : N -> N) : codec call :=
  c_case (ix 0) (c_td_call (ly_w y)) CTd (fun k => match k with CTd x => Some x | _ => None end)
 (c_case (ix 1) (c_eb_call (ly_w y)) CEb (fun k => match k with CEb x => Some x | _ => None end)
 (c_case (ix 2) c_sc_call CSc (fun k => match k with CSc x => Some x | _ => None end)
 (c_case (ix 3) (c_to_call (ly_max_blob y)) CTo (fun k => match k with CTo x => Some x | _ => None end)
 (c_case (ix 4) c_tx_call CTx (fun k => match k with CTx x => Some x | _ => None end)
 (c_case (ix 5) (c_cl_call (ly_w y)) CCl (fun k => match k with CCl x => Some x | _ => None end)
 (c_case (ix 6) (c_ar_call (ly_w y) (ly_xcm y)) CAr (fun k => match k with CAr x => Some x | _ => None end)
 (c_case (ix 7) c_xt_call CXt (fun k => match k with CXt x => Some x | _ => None end) c_void))))))).
Definition sane_index (ix : N -> N) : Prop := forall i j, i < 8 -> j < 8 -> ix i < 256 /\ (ix i = ix j -> i = j).
Lemma lawful_call y ix : sane y -> compactable (ly_w y) -> sane_index ix -> lawful (c_call y ix).
Proof.
  intros S W I. pose proof (sane_xcm _ S) as X.
  pose proof (lawful_td_call _ W). pose proof (lawful_eb_call (ly_w y)). pose proof lawful_sc_call.
  pose proof (lawful_to_call (ly_max_blob y)). pose proof lawful_tx_call. pose proof (lawful_cl_call (ly_w y)).
  pose proof (lawful_ar_call (ly_w y) _ X). pose proof lawful_xt_call.
  assert (NE : forall i j, i < 8 -> j < 8 -> i <> j -> ix i <> ix j).
  { intros i j Hi Hj N E. apply N. now apply (I i j Hi Hj). }
  assert (LT : forall i, i < 8 -> ix i < 256) by (intros i Hi; now apply (I i i Hi Hi)).
  unfold c_call.
  repeat (apply lawful_case;
    [ assumption | | apply LT; lia | reflexivity
    | intros x z E; destruct x; inversion E; subst; reflexivity
    | intros x HW; destruct x; cbn in HW |- *; try contradiction;
      (split; [reflexivity|eexists; eexists; split; [reflexivity|apply NE; lia]]) ]).
  apply lawful_void.
Qed.
(** Extrinsics carry calls: bytes determine the call, and a call has only one form. *)
Theorem C81_calls_unambiguous y ix : sane y -> compactable (ly_w y) -> sane_index ix -> unambiguous (c_call y ix).
Proof. intros. apply lawful_unambiguous, lawful_call; auto. Qed.
Print Assumptions C81_calls_unambiguous.

(** ** Places where the code itself encodes or decodes *)
(** enclave-bridge/src/lib.rs:213-214, 245-246: the account of a shard's vault is the decoding of the encoded
    shard identifier. It never fails, uses up the input, and is the identifier itself. *)
Theorem C81_vault_account_of_a_shard sh : wt c_hash sh -> dec c_acct (enc c_hash sh) = Some (sh, []).
Proof.
  intros W. pose proof (law_rt _ lawful_acct sh [] W) as R. rewrite app_nil_r in R. exact R.
Qed.
Print Assumptions C81_vault_account_of_a_shard.

(** primitives/xcm-transactor/src/lib.rs:56-97, 112: the encoded relay chain call; the relay chain
    reads the two ids back. *)
Theorem C81_relay_call this other : this <= u32_max -> other <= u32_max ->
  swap_call this other = enc c_relay_call (this, other) /\
  dec c_relay_call (swap_call this other) = Some ((this, other), []).
Proof.
  intros A B. assert (E : swap_call this other = enc c_relay_call (this, other)) by reflexivity.
  split; auto. rewrite E. rewrite <- (app_nil_r (enc c_relay_call _)). apply (law_rt _ lawful_relay_call).
  change (wt c_relay_call (this, other)) with (this < 256 ^ N.of_nat 4 /\ other < 256 ^ N.of_nat 4).
  change (256 ^ N.of_nat 4) with (u32_max + 1). lia.
Qed.
Print Assumptions C81_relay_call.

(** claims/src/lib.rs:425: the tag of a claim in the pool, ("claims", address) *)
Theorem C81_pool_tag e : wt (c_arr 20) e ->
  provides_tag e = enc (c_pair c_bytes (c_arr 20)) (bytes_of_string "claims"%string, e) /\
  forall e', wt (c_arr 20) e' -> provides_tag e = provides_tag e' -> e = e'.
Proof.
  intros W. split; [reflexivity|]. intros e' W' E. unfold provides_tag in E. inversion E as [E1].
  repeat (match goal with H : _ :: _ = _ :: _ |- _ => inversion H; clear H end; subst); auto.
Qed.
Print Assumptions C81_pool_tag.

(** teerex/src/migrations.rs:72, 112: the state handed from pre_upgrade to post_upgrade *)
Theorem C81_upgrade_state m : mg_version m < 65536 -> mg_v0_count m <= u64_max ->
  pre_upgrade_v1 m = enc (c_pair (c_pair (c_le 2) (c_le 8)) c_bool) (mg_version m, mg_v0_count m, mg_v0_debug m) /\
  dec (c_pair (c_pair (c_le 2) (c_le 8)) c_bool) (pre_upgrade_v1 m) =
    Some ((mg_version m, mg_v0_count m, mg_v0_debug m), []).
Proof.
  intros A B. assert (E : pre_upgrade_v1 m = enc (c_pair (c_pair (c_le 2) (c_le 8)) c_bool) (mg_version m, mg_v0_count m, mg_v0_debug m)).
  { unfold pre_upgrade_v1. cbn [enc c_pair c_le c_bool fst snd]. now rewrite <- app_assoc. }
  split; auto. rewrite E. rewrite <- (app_nil_r (enc _ _)).
  assert (L : lawful (c_pair (c_pair (c_le 2) (c_le 8)) c_bool)) by law.
  apply (law_rt _ L). cbn [wt c_pair c_le c_bool fst snd].
  change (256 ^ N.of_nat 2) with 65536. change (256 ^ N.of_nat 8) with (u64_max + 1). lia.
Qed.
Print Assumptions C81_upgrade_state.
(** the model's reader of that state is the decoder *)
Theorem C81_upgrade_state_reader st : wf_bytes st ->
  dec_state st = match dec (c_pair (c_pair (c_le 2) (c_le 8)) c_bool) st with
                 | Some ((v, n, b), _) => Some (v, n, b) | None => None end.
Proof.
  intros W. unfold dec_state. cbn [dec c_pair c_le c_bool].
  unfold dropN, takeN. change (N.to_nat 10) with 10%nat. change (N.to_nat 2) with 2%nat. change (N.to_nat 8) with 8%nat.
  destruct (N.ltb_spec (lenN st) (N.of_nat 2)) as [H|H].
  { rewrite (drop_ge st 10); [reflexivity|]. unfold lenN in H. lia. }
  destruct (N.ltb_spec (lenN (drop 2 st)) (N.of_nat 8)) as [H'|H'].
  { rewrite (drop_ge st 10); [reflexivity|]. unfold lenN in H'. rewrite drop_length in H'. lia. }
  rewrite drop_drop. change (2 + 8)%nat with 10%nat.
  destruct (drop 10 st) as [|b r]; [reflexivity|]. destruct b as [|[?|?|]]; reflexivity.
Qed.
Print Assumptions C81_upgrade_state_reader.

(** ** A limit that cannot be hit: a blob longer than allowed is refused when the call is decoded, so
    [OracleBlobTooBig] (teeracle/src/lib.rs:207-210) is never returned for a decoded call. *)
Theorem C81_blob_limit_is_dead y ix c o s l name src blob r :
  sane y -> compactable (ly_w y) -> sane_index ix -> wf_bytes l -> ly_max_blob y = c_max_blob c ->
  dec (c_call y ix) l = Some (CTo (ToUpdateOracle name src blob), r) ->
  (dispatch c o (CTo (ToUpdateOracle name src blob)) s).1 <> Failed OracleBlobTooBig.
Proof.
  intros S W I WF M D F.
  destruct (law_canon _ (lawful_call y ix S W I) _ _ _ WF D) as [T _]. cbn in T. destruct T as (_ & _ & _ & T).
  rewrite M in T. apply C70_teeracle_answers in F. cbn [to_demands answers or_err] in F.
  repeat match goal with H : _ \/ _ |- _ => destruct H | H : _ /\ _ |- _ => destruct H end; try discriminate.
  match goal with H : ~ _ |- _ => now apply H end.
Qed.
Print Assumptions C81_blob_limit_is_dead.

(** ** Examples: the hypotheses hold for the layout of the mock runtimes *)
Definition ix0 (i : N) : N := 50 + i.
Lemma ix0_sane : sane_index ix0.
Proof. unfold sane_index, ix0. intros i j Hi Hj. lia. Qed.
Lemma layout0_compact : compactable (ly_w layout0).
Proof. unfold compactable. cbn. lia. Qed.
Example C81_example : unambiguous (c_call layout0 ix0).
Proof. apply C81_calls_unambiguous; auto using layout0_sane, ix0_sane, layout0_compact. Qed.
(** bond(1000): pallet, call, and the compact amount; followed by other bytes *)
Example C81_example_call :
  enc (c_call layout0 ix0) (CTd (TdBond 1000)) = [50; 0; 161; 15] /\
  dec (c_call layout0 ix0) [50; 0; 161; 15; 9; 9] = Some (CTd (TdBond 1000), [9; 9]) /\
  dec (c_call layout0 ix0) [58; 0; 161; 15] = None /\
  dec (c_call layout0 ix0) [50; 5; 161; 15] = None /\
  dec (c_call layout0 ix0) [50; 0; 161] = None.
Proof. vm_compute. repeat split. Qed.
(** longer forms of the amount 1 are refused: the two-, four- and many-byte mode *)
Example C81_example_not_canonical :
  dec (c_call layout0 ix0) [50; 0; 4] = Some (CTd (TdBond 1), []) /\
  dec (c_call layout0 ix0) [50; 0; 5; 0] = None /\
  dec (c_call layout0 ix0) [50; 0; 6; 0; 0; 0] = None /\
  dec (c_call layout0 ix0) [50; 0; 3; 1; 0; 0; 0] = None.
Proof. vm_compute. repeat split. Qed.
(** an oracle update with a blob at the limit, and one byte longer *)
Example C81_example_blob :
  let y := mkLayout widths0 (ly_xcm layout0) (ly_name layout0) (ly_blake layout0) 3 in
  dec (c_call y ix0) [53; 2; 4; 65; 4; 66; 12; 1; 2; 3] = Some (CTo (ToUpdateOracle [65] [66] [1; 2; 3]), []) /\
  dec (c_call y ix0) [53; 2; 4; 65; 4; 66; 16; 1; 2; 3; 4] = None.
Proof. vm_compute. repeat split. Qed.
