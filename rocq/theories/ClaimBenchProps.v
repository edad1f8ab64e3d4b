(** * The benchmarks of claims: C92. *)
From Coq Require Import String.
From Verif Require Import Base State Env TeerdaysModel TeerexBase SgxVerifyModel TeerexModel
  EnclaveBridgeModel SidechainModel TeeracleModel ClaimsModel AssetRegistryModel XcmTransactorModel
  Runtime Frame EnvFacts Panic Examples BridgeProofs TeerexProofs TeeracleProps XcmProps
  AttestationProps RuntimeProps ClaimsProps AcceptProps EffectProps BenchmarksModel.

(** The claims after the set-up: all the 10000 claims that are minted are two *)
Definition filled (A B : bytes) (t : N) (k : cl_store) : cl_store :=
  mkCl (<[B := bench_value]> (<[A := bench_value]> (cl_claims k))) t
       (<[B := (100000, 1000, 100)]> (<[A := (100000, 1000, 100)]> (cl_vesting k)))
       (<[B := StRegular]> (cl_signing k)) (cl_preclaims k).

Section Fill.
Context (c : cfg) (e : clenv).
Let A := bench_eth c e plain_key.
Let B := bench_eth c e attest_key.
Let pair_ : RM unit := do! create_claim c e bench_claims None in create_claim c e (u32_max - bench_claims) (Some StRegular).
Context (Hovf : c_ovf c = true) (HAB : A <> B).

Lemma create_is n st s : create_claim c e n st s =
  if cl_total (rt_cl s) + bench_value <=? c_bal_max c then
    Ok tt (upd_cl (fun k => mkCl (<[bench_eth c e n := bench_value]> (cl_claims k)) (cl_total (rt_cl s) + bench_value)
      (<[bench_eth c e n := (100000, 1000, 100)]> (cl_vesting k))
      (match st with Some x => <[bench_eth c e n := x]> (cl_signing k) | None => cl_signing k end) (cl_preclaims k)) s)
  else Panic.
Proof.
  unfold create_claim. cbn [exec cl_exec]. unfold mint_claim, bind, gets. cbn [ensure_root]. unfold ret at 1. unfold plain_add. rewrite Hovf.
  destruct (_ <=? _); reflexivity.
Qed.
Lemma pair_is s : pair_ s = if cl_total (rt_cl s) + 2 * bench_value <=? c_bal_max c
  then Ok tt (set_cl (filled A B (cl_total (rt_cl s) + 2 * bench_value) (rt_cl s)) s) else Panic.
Proof.
  unfold pair_, bind. rewrite create_is. destruct (N.leb_spec (cl_total (rt_cl s) + bench_value) (c_bal_max c)) as [H|H].
  - rewrite create_is. unfold upd_cl. cbn [set_cl rt_cl cl_total cl_claims cl_vesting cl_signing cl_preclaims].
    replace (cl_total (rt_cl s) + bench_value + bench_value) with (cl_total (rt_cl s) + 2 * bench_value) by lia.
    destruct (_ <=? _); reflexivity.
  - destruct (N.leb_spec (cl_total (rt_cl s) + 2 * bench_value) (c_bal_max c)); [lia|reflexivity].
Qed.
Lemma filled_twice t t' k : filled A B t (filled A B t' k) = filled A B t k.
Proof.
  assert (forall V (x : V) (m : gmap bytes V), <[B := x]> (<[A := x]> (<[B := x]> (<[A := x]> m))) = <[B := x]> (<[A := x]> m)) as H.
  { intros V x m. rewrite (insert_commute (<[A := x]> m) A B) by exact HAB. rewrite !insert_insert. reflexivity. }
  unfold filled. cbn [cl_claims cl_vesting cl_signing cl_preclaims]. rewrite !H, insert_insert. reflexivity.
Qed.
Lemma repeat_is n s : repeat_m (S n) pair_ s =
  if cl_total (rt_cl s) + 2 * N.of_nat (S n) * bench_value <=? c_bal_max c
  then Ok tt (set_cl (filled A B (cl_total (rt_cl s) + 2 * N.of_nat (S n) * bench_value) (rt_cl s)) s) else Panic.
Proof.
  revert s. induction n as [|n IH]; intros s.
  - cbn [repeat_m]. unfold bind. rewrite pair_is. destruct (_ <=? _); reflexivity.
  - change (repeat_m (S (S n)) pair_) with (do! pair_ in repeat_m (S n) pair_). unfold bind. rewrite pair_is.
    unfold bench_value in *. destruct (N.leb_spec (cl_total (rt_cl s) + 2 * 1000000) (c_bal_max c)) as [H|H].
    + rewrite IH. cbn [set_cl rt_cl filled cl_total]. rewrite filled_twice.
      replace (cl_total (rt_cl s) + 2 * 1000000 + 2 * N.of_nat (S n) * 1000000) with (cl_total (rt_cl s) + 2 * N.of_nat (S (S n)) * 1000000) by lia.
      destruct (_ <=? _); reflexivity.
    + destruct (N.leb_spec (cl_total (rt_cl s) + 2 * N.of_nat (S (S n)) * 1000000) (c_bal_max c)); [lia|reflexivity].
Qed.
Lemma fill_is s : fill_claims c e s =
  if cl_total (rt_cl s) + 10000000000 <=? c_bal_max c
  then Ok tt (set_cl (filled A B (cl_total (rt_cl s) + 10000000000) (rt_cl s)) s) else Panic.
Proof.
  unfold fill_claims. fold pair_. assert (exists n, N.to_nat (bench_claims / 2) = S n /\ 2 * N.of_nat (S n) * bench_value = 10000000000) as (n & Hn & Hv).
  { exists (N.to_nat 4999). unfold bench_value, bench_claims. split; [change (10000 / 2) with 5000; lia|lia]. }
  rewrite Hn, repeat_is, Hv. reflexivity.
Qed.
End Fill.

(** The signatures that the benchmarks make are recovered by the runtime *)
Definition signs (c : cfg) (e : clenv) : Prop := forall n h, c_secp c (ce_sign e n h) h = Some (ce_pub e n).
Lemma bench_recover c e n what extra : signs c e -> eth_recover c (bench_sig c e n what extra) (to_ascii_hex what) extra = Some (bench_eth c e n).
Proof. intros H. unfold eth_recover, bench_sig. rewrite H. reflexivity. Qed.
Lemma claim_passes_after c e g b o k s0 : claim_setup c e b (genesis_state g) = Ok (o, k) s0 ->
  claim_passes c e g b <-> claim_valid c e b k (first_block s0) /\
    exists s', dispatch c o (CCl k) (first_block s0) = (Success, s') /\ claim_verify c e b s'.
Proof.
  intros H. unfold claim_passes, claim_measures. split.
  - intros (o' & k' & s & s' & s0' & H0 & -> & H1 & H2 & H3). rewrite H in H0. injection H0 as <- <- <-. eauto.
  - intros (H0 & s' & H1 & H2). exists o, k, (first_block s0), s', s0. auto.
Qed.
Lemma claim_passes_never c e g b : (forall x s0, claim_setup c e b (genesis_state g) <> Ok x s0) -> ~ claim_passes c e g b.
Proof. intros H (o & k & s & s' & s0 & H0 & _). exact (H _ _ H0). Qed.
Lemma first_block_cl s : rt_cl (first_block s) = rt_cl s /\ rt_vest (first_block s) = rt_vest s.
Proof. unfold first_block. destruct (_ =? _); split; reflexivity. Qed.
Lemma accepted_call c o k s : (dispatch c o k s).1 = Success <-> exists s', dispatch c o k s = (Success, s').
Proof. destruct (dispatch c o k s) as [st s']. cbn. split; [intros ->; eauto|]. intros (x & H). congruence. Qed.

(** A benchmark of claims passes exactly where the total of all claims can grow by all that it mints, and
    genesis does not interfere with its keys. *)
Theorem C92_claims_benchmarks_pass_iff : forall c e g, c_ovf c = true -> signs c e ->
  let A := bench_eth c e plain_key in let B := bench_eth c e attest_key in let C := bench_eth c e new_key in
  A <> B -> C <> A -> C <> B ->
  let k := rt_cl (genesis_state g) in let room n := cl_total k + n * 1000000 <= c_bal_max c in
  (claim_passes c e g BcClaim <-> room 10001 /\ cl_signing k !! A = None) /\
  (claim_passes c e g BcMint <-> room 10001) /\
  (claim_passes c e g BcClaimAttest <-> room 10001) /\
  (claim_passes c e g BcAttest <-> room 10001) /\
  (claim_passes c e g BcMove <-> room 10000 /\ cl_claims k !! C = None).
Proof.
  intros c e g Hovf Hsig A B C HAB HCA HCB k room. set (s := genesis_state g).
  pose proof (fill_is c e Hovf HAB s) as HF. fold A B in HF.
  change (rt_cl s) with k in HF. set (t := cl_total k + 10000000000) in *.
  set (s1 := set_cl (filled A B t k) s) in *.
  assert (forall n st, create_claim c e n st s1 = if t + bench_value <=? c_bal_max c then
    Ok tt (set_cl (mkCl (<[bench_eth c e n := bench_value]> (cl_claims (filled A B t k))) (t + bench_value)
      (<[bench_eth c e n := (100000, 1000, 100)]> (cl_vesting (filled A B t k)))
      (match st with Some x => <[bench_eth c e n := x]> (cl_signing (filled A B t k)) | None => cl_signing (filled A B t k) end) (cl_preclaims k)) s1) else Panic) as HC.
  { intros n st. rewrite create_is by exact Hovf. reflexivity. }
  assert (forall b, (b = BcClaim \/ b = BcClaimAttest \/ b = BcAttest) -> ~ room 10001 -> ~ claim_passes c e g b) as HN.
  { intros b Hb Hr. apply claim_passes_never. intros x s0 H. unfold room in Hr.
    assert (forall st n (m : unit -> RM (origin * cl_call)), (do! fill_claims c e in bind (create_claim c e n st) m) s <> Ok x s0) as HX.
    { intros st n m H'. unfold bind in H'. rewrite HF in H'. destruct (N.leb_spec t (c_bal_max c)) as [Ht|]; [|discriminate].
      rewrite HC in H'. destruct (N.leb_spec (t + bench_value) (c_bal_max c)) as [Ht'|]; [|discriminate]. unfold t, bench_value in *. lia. }
    destruct Hb as [Hb | [Hb | Hb]]; rewrite Hb in H; cbn [claim_setup] in H; exact (HX _ _ _ H). }
  assert (room 10001 <-> t + bench_value <= c_bal_max c) as HR by (unfold room, t, bench_value; split; lia).
  assert (room 10001 -> t <=? c_bal_max c = true) as HR' by (intros; apply N.leb_le; unfold room, t in *; lia).
  assert (t + bench_value - bench_value = t) as Hsub by lia.
  assert (bench_value <= t + bench_value) as Hle by lia.
  split; [|split; [|split; [|split]]].
  - destruct (N.leb_spec (t + bench_value) (c_bal_max c)) as [Hr|Hr].
    2:{ split; [|intros [H _]; apply HR in H; lia]. intros HP. exfalso. revert HP. apply HN; [auto|]. rewrite HR. lia. }
    set (k2 := mkCl (<[A := bench_value]> (cl_claims (filled A B t k))) (t + bench_value)
      (<[A := (100000, 1000, 100)]> (cl_vesting (filled A B t k))) (cl_signing (filled A B t k)) (cl_preclaims k)).
    set (s2 := set_cl k2 s1).
    assert (create_claim c e plain_key None s1 = Ok tt s2) as H2 by (rewrite HC; reflexivity).
    rewrite (claim_passes_after c e g BcClaim NoneO (ClClaim (ce_user e) (bench_sig c e plain_key (ce_user e) [])) s2).
    2:{ cbn [claim_setup]. fold s. rewrite (bind_fw _ _ _ tt s1) by (rewrite HF, HR' by (apply HR, Hr); reflexivity). rewrite (bind_fw _ _ _ _ _ H2).
        rewrite (bind_fw _ _ _ tt s2); [reflexivity|]. unfold assert_m, bind, gets, is_claim. cbn [s2 set_cl rt_cl k2 cl_claims]. fold A. rewrite lookup_insert. rewrite N.eqb_refl. reflexivity. }
    destruct (first_block_cl s2) as [E1 E2]. set (s3 := first_block s2) in *.
    assert (cl_signing k2 !! A = cl_signing k !! A) as HS by (cbn [k2 cl_signing filled]; apply lookup_insert_ne; auto).
    assert (cl_claims k2 !! A = Some bench_value) as HL by (cbn [k2 cl_claims]; apply lookup_insert).
    assert (rt_cl s3 = k2) as E3 by (rewrite E1; reflexivity).
    split.
    + intros (_ & s' & H & _). split; [apply HR, Hr|].
      assert ((dispatch c NoneO (CCl (ClClaim (ce_user e) (bench_sig c e plain_key (ce_user e) []))) s3).1 = Success) as Hd by (rewrite H; auto).
      apply C68_claims_calls_accepted_exactly in Hd as (sg & _ & Hd & Hx & _). apply eth_recover_signed in Hd. rewrite (bench_recover _ _ _ _ _ Hsig) in Hd.
      injection Hd as <-. fold A in Hx. rewrite E3, HS in Hx. exact Hx.
    + intros [_ Hn]. split.
      * cbn [claim_valid]. unfold validate_unsigned. rewrite (bench_recover _ _ _ _ _ Hsig). fold A. rewrite E3, HL, HS, Hn. eauto.
      * assert ((dispatch c NoneO (CCl (ClClaim (ce_user e) (bench_sig c e plain_key (ce_user e) []))) s3).1 = Success) as Hd.
        { apply C68_claims_calls_accepted_exactly. exists A. split; [auto|]. split; [apply eth_recover_signed, bench_recover, Hsig|]. rewrite E3, HS. split; [auto|].
          exists bench_value. rewrite E3. split; [exact HL|]. split; [exact Hle|]. intros lk per st. cbn [k2 cl_vesting]. rewrite lookup_insert. intros [= <- <- <-].
          split; [rewrite E2; apply lookup_empty|lia]. }
        apply accepted_call in Hd as (s' & Hd). exists s'. split; [exact Hd|].
        apply C69_claims_calls_do_exactly_this in Hd as [(sg & Hd & (due & _ & _ & He & _) & _) _]. rewrite (bench_recover _ _ _ _ _ Hsig) in Hd. injection Hd as <-.
        cbn [claim_verify]. rewrite He. destruct (decide _); [reflexivity|tauto].
  - destruct (N.leb_spec t (c_bal_max c)) as [Ht|Ht].
    2:{ split; [|intros H; unfold room, t in *; lia]. intros HP. exfalso. revert HP. apply claim_passes_never. intros x s0 H. cbn [claim_setup] in H. fold s in H.
        unfold bind in H. rewrite HF in H. discriminate. }
    rewrite (claim_passes_after c e g BcMint Root (ClMint (ce_address e) bench_value bench_vesting (Some StRegular)) s1).
    2:{ cbn [claim_setup]. fold s. rewrite (bind_fw _ _ _ tt s1) by (rewrite HF; reflexivity). reflexivity. }
    destruct (first_block_cl s1) as [E1 E2]. set (s3 := first_block s1) in *.
    assert ((dispatch c Root (CCl (ClMint (ce_address e) bench_value bench_vesting (Some StRegular))) s3).1 = Success <-> room 10001) as Hd.
    { rewrite C68_claims_calls_accepted_exactly, HR. cbn [cl_accepts]. rewrite E1. cbn [s1 set_cl rt_cl filled cl_total]. split; [intros [_ H]; auto|]. auto. }
    rewrite <- Hd, accepted_call. split; [intros (_ & s' & H & _); eauto|]. intros (s' & H). split; [exact I|]. exists s'. split; [exact H|].
    apply C69_claims_calls_do_exactly_this in H as [(H & _) _]. cbn [claim_verify]. rewrite H. destruct (decide _); [reflexivity|tauto].
  - destruct (N.leb_spec (t + bench_value) (c_bal_max c)) as [Hr|Hr].
    2:{ split; [|intros H; apply HR in H; lia]. intros HP. exfalso. revert HP. apply HN; [auto|]. rewrite HR. lia. }
    split; [intros _; apply HR, Hr|]. intros _.
    set (k2 := mkCl (<[B := bench_value]> (cl_claims (filled A B t k))) (t + bench_value)
      (<[B := (100000, 1000, 100)]> (cl_vesting (filled A B t k))) (<[B := StRegular]> (cl_signing (filled A B t k))) (cl_preclaims k)).
    set (s2 := set_cl k2 s1). 
    assert (create_claim c e attest_key (Some StRegular) s1 = Ok tt s2) as H2 by (rewrite HC; reflexivity).
    rewrite (claim_passes_after c e g BcClaimAttest NoneO (ClClaimAttest (ce_user e) (bench_sig c e attest_key (ce_user e) (to_text StRegular)) (to_text StRegular)) s2).
    2:{ cbn [claim_setup]. fold s. rewrite (bind_fw _ _ _ tt s1) by (rewrite HF, HR' by (apply HR, Hr); reflexivity). rewrite (bind_fw _ _ _ _ _ H2). 
        rewrite (bind_fw _ _ _ tt s2); [reflexivity|]. unfold assert_m, bind, gets, is_claim. cbn [s2 set_cl rt_cl k2 cl_claims]. fold B. rewrite lookup_insert. rewrite N.eqb_refl. reflexivity. }
    destruct (first_block_cl s2) as [E1 E2]. set (s3 := first_block s2) in *.
    assert (cl_signing k2 !! B = Some StRegular) as HS by (cbn [k2 cl_signing]; apply lookup_insert).
    assert (cl_claims k2 !! B = Some bench_value) as HL by (cbn [k2 cl_claims]; apply lookup_insert).
    assert (rt_cl s3 = k2) as E3 by (rewrite E1; reflexivity).
    assert (payable_claim s3 B (ce_user e)) as HY.
    { exists bench_value. rewrite E3. split; [exact HL|]. split; [exact Hle|]. intros lk per st. cbn [k2 cl_vesting]. rewrite lookup_insert. intros [= <- <- <-].
      split; [rewrite E2; apply lookup_empty|lia]. }
    assert (statement_met s3 B (to_text StRegular)) as HM by (intros st; rewrite E3, HS; intros [= <-]; reflexivity).
    split.
    + cbn [claim_valid]. unfold validate_unsigned. rewrite (bench_recover _ _ _ _ _ Hsig). fold B. rewrite E3, HL, HS, beq_refl. eauto.
    + assert ((dispatch c NoneO (CCl (ClClaimAttest (ce_user e) (bench_sig c e attest_key (ce_user e) (to_text StRegular)) (to_text StRegular))) s3).1 = Success) as Hd.
      { apply C68_claims_calls_accepted_exactly. exists B. split; [auto|]. split; [apply eth_recover_signed, bench_recover, Hsig|]. auto. }
      apply accepted_call in Hd as (s' & Hd). exists s'. split; [exact Hd|].
      apply C69_claims_calls_do_exactly_this in Hd as [(sg & Hd & (due & _ & _ & He & _) & _) _]. rewrite (bench_recover _ _ _ _ _ Hsig) in Hd. injection Hd as <-.
      cbn [claim_verify]. rewrite He. destruct (decide _); [reflexivity|tauto].
  - destruct (N.leb_spec (t + bench_value) (c_bal_max c)) as [Hr|Hr].
    2:{ split; [|intros H; apply HR in H; lia]. intros HP. exfalso. revert HP. apply HN; [auto|]. rewrite HR. lia. }
    split; [intros _; apply HR, Hr|]. intros _.
    set (k2 := mkCl (<[B := bench_value]> (cl_claims (filled A B t k))) (t + bench_value)
      (<[B := (100000, 1000, 100)]> (cl_vesting (filled A B t k))) (<[B := StRegular]> (cl_signing (filled A B t k))) (<[ce_user e := B]> (cl_preclaims k))).
    set (s2 := set_cl k2 s1). 
    assert (create_claim c e attest_key (Some StRegular) s1 = Ok tt (set_cl (mkCl (cl_claims k2) (cl_total k2) (cl_vesting k2) (cl_signing k2) (cl_preclaims k)) s1)) as H2 by (rewrite HC; reflexivity).
    rewrite (claim_passes_after c e g BcAttest (Signed (ce_user e)) (ClAttest (to_text StRegular)) s2).
    2:{ cbn [claim_setup]. fold s. rewrite (bind_fw _ _ _ tt s1) by (rewrite HF, HR' by (apply HR, Hr); reflexivity). rewrite (bind_fw _ _ _ _ _ H2). 
        rewrite (bind_fw _ _ _ tt s2) by reflexivity.
        rewrite (bind_fw _ _ _ tt s2); [reflexivity|]. unfold assert_m, bind, gets, is_claim. cbn [s2 set_cl rt_cl k2 cl_claims]. fold B. rewrite lookup_insert. rewrite N.eqb_refl. reflexivity. }
    destruct (first_block_cl s2) as [E1 E2]. set (s3 := first_block s2) in *.
    assert (cl_signing k2 !! B = Some StRegular) as HS by (cbn [k2 cl_signing]; apply lookup_insert).
    assert (cl_claims k2 !! B = Some bench_value) as HL by (cbn [k2 cl_claims]; apply lookup_insert).
    assert (rt_cl s3 = k2) as E3 by (rewrite E1; reflexivity).
    assert (payable_claim s3 B (ce_user e)) as HY.
    { exists bench_value. rewrite E3. split; [exact HL|]. split; [exact Hle|]. intros lk per st. cbn [k2 cl_vesting]. rewrite lookup_insert. intros [= <- <- <-].
      split; [rewrite E2; apply lookup_empty|lia]. }
    assert (statement_met s3 B (to_text StRegular)) as HM by (intros st; rewrite E3, HS; intros [= <-]; reflexivity).
    assert (cl_preclaims (rt_cl s3) !! ce_user e = Some B) as HP by (rewrite E3; cbn [k2 cl_preclaims]; apply lookup_insert).
    split.
    + cbn [claim_valid]. unfold prevalidate. rewrite HP, E3, HS, beq_refl. reflexivity.
    + assert ((dispatch c (Signed (ce_user e)) (CCl (ClAttest (to_text StRegular))) s3).1 = Success) as Hd.
      { apply C68_claims_calls_accepted_exactly. exists (ce_user e), B. auto. }
      apply accepted_call in Hd as (s' & Hd). exists s'. split; [exact Hd|].
      apply C69_claims_calls_do_exactly_this in Hd as [(a & sg & [= <-] & Hd & (due & _ & _ & He & _) & _) _]. rewrite HP in Hd. injection Hd as <-.
      cbn [claim_verify]. rewrite He. destruct (decide _); [reflexivity|tauto].
  - destruct (N.leb_spec t (c_bal_max c)) as [Ht|Ht].
    2:{ split; [|intros [H _]; unfold room, t in *; lia]. intros HP. exfalso. revert HP. apply claim_passes_never. intros x s0 H. cbn [claim_setup] in H. fold s in H.
        unfold bind in H. rewrite HF in H. discriminate. }
    set (k2 := mkCl (cl_claims (filled A B t k)) t (cl_vesting (filled A B t k)) (cl_signing (filled A B t k)) (<[ce_user e := B]> (cl_preclaims k))).
    set (s2 := set_cl k2 s1).
    assert (cl_claims k2 !! B = Some bench_value) as HL by (cbn [k2 cl_claims filled]; apply lookup_insert).
    assert (cl_claims k2 !! C = cl_claims k !! C) as HCk.
    { cbn [k2 cl_claims filled]. rewrite !lookup_insert_ne by auto. reflexivity. }
    assert (claim_setup c e BcMove s = if has_claim C s2 then Panic else Ok (Root, ClMove B C (Some (ce_user e))) s2) as HX.
    { cbn [claim_setup]. rewrite (bind_fw _ _ _ tt s1) by (rewrite HF; reflexivity). rewrite (bind_fw _ _ _ tt s2) by reflexivity.
      rewrite (bind_fw _ _ _ tt s2).
      2:{ unfold assert_m, bind, gets, has_claim. cbn [s2 set_cl rt_cl]. fold B. rewrite HL. reflexivity. }
      unfold assert_m, bind, gets. fold C. destruct (has_claim C s2); reflexivity. }
    assert (has_claim C s2 = match cl_claims k !! C with Some _ => true | None => false end) as HH by (unfold has_claim; cbn [s2 set_cl rt_cl]; rewrite HCk; reflexivity).
    rewrite HH in HX. destruct (cl_claims k !! C) as [v|] eqn:EC.
    { split; [|intros [_ H]; discriminate]. intros HP. exfalso. revert HP. apply claim_passes_never. intros x s0 H. fold s in H. rewrite HX in H. discriminate. }
    split; [intros _; split; [unfold room, t in *; lia|reflexivity]|]. intros _. rewrite (claim_passes_after c e g BcMove _ _ _ HX). split; [exact I|].
    destruct (first_block_cl s2) as [E1 E2]. set (s3 := first_block s2) in *.
    assert ((dispatch c Root (CCl (ClMove B C (Some (ce_user e)))) s3).1 = Success) as Hd by (apply C68_claims_calls_accepted_exactly; left; auto).
    apply accepted_call in Hd as (s' & Hd). exists s'. split; [exact Hd|].
    apply C69_claims_calls_do_exactly_this in Hd as [(Hd & _) _]. unfold entry_moved in Hd. rewrite E1 in Hd. cbn [s2 set_cl rt_cl] in Hd. rewrite HL in Hd.
    destruct Hd as (H1 & H2 & _). cbn [claim_verify]. unfold has_claim. fold B C. rewrite H1, H2 by exact HCB. split; reflexivity.
Qed.
Print Assumptions C92_claims_benchmarks_pass_iff.

(** The benchmarks are meant to measure with 10000 claims in storage. Their loops mint one of the same two
    claims each time, so they measure with two claims more than genesis has. *)
Theorem C92_claims_benchmarks_hold_two_claims : forall c e g b o k s s', c_ovf c = true ->
  let A := bench_eth c e plain_key in let B := bench_eth c e attest_key in A <> B ->
  claim_measures c e g b o k s s' ->
  let k0 := rt_cl (genesis_state g) in
  (forall x, cl_claims (rt_cl s) !! x = if bool_decide (x = A) || bool_decide (x = B) then Some 1000000 else cl_claims k0 !! x) /\
  (size (cl_claims (rt_cl s)) <= size (cl_claims k0) + 2)%nat /\
  cl_total k0 + 10000000000 <= cl_total (rt_cl s).
Proof.
  intros c e g b o k s s' Hovf A B HAB (s0 & H & -> & _) k0. destruct (first_block_cl s0) as [-> _].
  pose proof (fill_is c e Hovf HAB (genesis_state g)) as HF. fold A B in HF.
  assert (rt_cl (genesis_state g) = k0) as Hk by reflexivity. clearbody k0. rewrite Hk in HF. clear Hk.
  assert (exists s1, fill_claims c e (genesis_state g) = Ok tt s1) as (s1 & H1).
  { destruct b; cbn [claim_setup] in H; apply bind_ok in H as ([] & s1 & H & _); eauto. }
  assert (cl_claims (rt_cl s0) = <[B := bench_value]> (<[A := bench_value]> (cl_claims k0)) /\ cl_total k0 + 10000000000 <= cl_total (rt_cl s0)) as [E1 E2].
  { rewrite H1 in HF. destruct (N.leb_spec (cl_total k0 + 10000000000) (c_bal_max c)); [|discriminate]. injection HF as HF.
    assert (forall n st s2, (n = plain_key \/ n = attest_key) -> create_claim c e n st s1 = Ok tt s2 ->
      cl_claims (rt_cl s2) = <[B := bench_value]> (<[A := bench_value]> (cl_claims k0)) /\ cl_total k0 + 10000000000 <= cl_total (rt_cl s2)) as HC.
    { intros n st s2 Hn Hx. rewrite create_is in Hx by exact Hovf. destruct (_ <=? _); [|discriminate]. injection Hx as <-. rewrite HF.
      unfold upd_cl. cbn [set_cl rt_cl cl_claims cl_total filled]. split; [|unfold bench_value; lia]. destruct Hn as [Hn | Hn]; rewrite Hn; fold A B.
      - rewrite (insert_commute (<[A := bench_value]> (cl_claims k0)) A B) by exact HAB. rewrite insert_insert. reflexivity.
      - rewrite insert_insert. reflexivity. }
    assert (forall p s2 s3 u, assert_m p s2 = Ok u s3 -> s3 = s2) as HM.
    { intros p s2 s3 u Hx. unfold assert_m, bind, gets in Hx. destruct (p s2); [injection Hx; auto|discriminate]. }
    destruct b; cbn [claim_setup] in H; rewrite (bind_fw _ _ _ _ _ H1) in H.
    - apply bind_ok in H as ([] & s2 & Ha & H). apply bind_ok in H as (u & s3 & Hb & H). apply HM in Hb as ->. injection H as _ _ <-. exact (HC _ _ _ (or_introl eq_refl) Ha).
    - injection H as _ _ <-. rewrite HF. cbn [set_cl rt_cl cl_claims cl_total filled]. split; [reflexivity|lia].
    - apply bind_ok in H as ([] & s2 & Ha & H). apply bind_ok in H as (u & s3 & Hb & H). apply HM in Hb as ->. injection H as _ _ <-. exact (HC _ _ _ (or_intror eq_refl) Ha).
    - apply bind_ok in H as ([] & s2 & Ha & H). apply bind_ok in H as (u & s3 & Hb & H). unfold modify in Hb. injection Hb as <- <-.
      apply bind_ok in H as (u & s3 & Hb & H). apply HM in Hb as ->. injection H as _ _ <-. destruct (HC _ _ _ (or_intror eq_refl) Ha) as [E1 E2].
      unfold put_preclaim, upd_cl. cbn [set_cl rt_cl cl_claims cl_total]. auto.
    - apply bind_ok in H as (u & s3 & Hb & H). unfold modify in Hb. injection Hb as <- <-.
      apply bind_ok in H as (u1 & s3 & Hb & H). apply HM in Hb as ->. apply bind_ok in H as (u2 & s3 & Hb & H). apply HM in Hb as ->. injection H as _ _ <-.
      rewrite HF. unfold put_preclaim, upd_cl. cbn [set_cl rt_cl cl_claims cl_total filled]. split; [reflexivity|lia]. }
  rewrite E1. split; [|split; [|exact E2]].
  - intros x. destruct (bool_decide_reflect (x = B)) as [->|HB]; [rewrite orb_true_r; apply lookup_insert|]. rewrite orb_false_r, lookup_insert_ne by auto.
    destruct (bool_decide_reflect (x = A)) as [->|HA]; [apply lookup_insert|apply lookup_insert_ne; auto].
  - assert (forall V (m : gmap bytes V) i v, (size (<[i := v]> m) <= size m + 1)%nat) as HI.
    { intros V m i v. destruct (m !! i) eqn:E; [rewrite map_size_insert_Some by (rewrite E; eauto)|rewrite map_size_insert_None by exact E]; lia. }
    pose proof (HI _ (<[A := bench_value]> (cl_claims k0)) B bench_value). pose proof (HI _ (cl_claims k0) A bench_value). lia.
Qed.
Print Assumptions C92_claims_benchmarks_hold_two_claims.
