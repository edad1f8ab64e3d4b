(** * C105: what the genesis build puts into storage
    When building the genesis panics and what total it stores; which entry of a list with repeated
    addresses counts; when the total is exactly what can be claimed; and what follows for a chain
    whose listed claims exceed the balance type. *)
From Coq Require Import String Permutation.
From Verif Require Import Base State Env TeerdaysModel TeerexBase SgxVerifyModel TeerexModel
  EnclaveBridgeModel SidechainModel TeeracleModel ClaimsModel AssetRegistryModel XcmTransactorModel
  MigrationsModel Runtime GenesisModel ScaleModel StorageModel Frame EnvFacts Ledger Events ClaimsProofs Examples ClaimsProps GrowthProps.

(** ** Running the build *)
Lemma for_each_ok {A} (f : A -> rt -> rt) l : forall s,
  for_each (fun x => modify (f x)) l s = Ok tt (fold_left (fun s x => f x s) l s).
Proof. induction l as [|x l IH]; intros s; cbn [for_each fold_left]; [reflexivity|]. unfold bind, modify. apply IH. Qed.
Lemma fold_upd {A} (f : A -> cl_store -> cl_store) l : forall s,
  fold_left (fun s x => upd_cl (f x) s) l s = upd_cl (fold_left (fun k x => f x k) l) s.
Proof.
  induction l as [|x l IH]; intros s; cbn [fold_left]; [destruct s as [? ? ? ? ? ? ? ? ? [] ? ? ?]; reflexivity|].
  rewrite IH. reflexivity.
Qed.
Lemma sum_m c (l : list gclaim) : forall t s, t <= c_bal_max c ->
  fold_m (fun acc (x : gclaim) => plain_add (c_ovf c) (c_bal_max c) acc x.1.1.2) l t s =
  let S := t + foldr (fun x acc => x.1.1.2 + acc) 0 l in
  if S <=? c_bal_max c then Ok S s else if c_ovf c then Panic else Ok (S mod (c_bal_max c + 1)) s.
Proof.
  induction l as [|x l IH]; intros t s Ht; cbn [fold_m foldr].
  - rewrite N.add_0_r. cbv zeta. destruct (N.leb_spec t (c_bal_max c)); [reflexivity|lia].
  - unfold bind, plain_add. set (r := foldr (fun x acc => x.1.1.2 + acc) 0 l) in *. cbv zeta in IH |- *.
    destruct (N.leb_spec (t + x.1.1.2) (c_bal_max c)) as [H|H].
    + cbn [ret]. unfold ret. rewrite IH by exact H. rewrite N.add_assoc. reflexivity.
    + destruct (N.leb_spec (t + (x.1.1.2 + r)) (c_bal_max c)) as [H1|_]; [lia|].
      destruct (c_ovf c) eqn:Eo; [reflexivity|]. unfold ret. rewrite IH.
      2:{ pose proof (N.mod_lt (t + x.1.1.2) (c_bal_max c + 1)). lia. }
      set (M := c_bal_max c + 1) in *. assert (((t + x.1.1.2) mod M + r) mod M = (t + (x.1.1.2 + r)) mod M) as E.
      { rewrite N.add_mod_idemp_l by lia. f_equal. lia. }
      destruct (N.leb_spec ((t + x.1.1.2) mod M + r) (c_bal_max c)) as [H2|_].
      * f_equal. rewrite <- E. symmetry. apply N.mod_small. lia.
      * rewrite E. reflexivity.
Qed.

(** The state after a genesis whose listed claims have the total [t] *)
Definition with_total (t : N) (s : rt) : rt :=
  upd_cl (fun k => mkCl (cl_claims k) t (cl_vesting k) (cl_signing k) (cl_preclaims k)) s.

Lemma fold_claims (l : list gclaim) : forall k,
  fold_left (fun k x => mkCl (<[x.1 := x.2]> (cl_claims k)) (cl_total k) (cl_vesting k) (cl_signing k) (cl_preclaims k))
    (map (fun x : gclaim => (x.1.1.1, x.1.1.2)) l) k =
  mkCl (fold_left (fun m x => <[x.1.1.1 := x.1.1.2]> m) l (cl_claims k)) (cl_total k) (cl_vesting k) (cl_signing k) (cl_preclaims k).
Proof. induction l as [|x l IH]; intros k; cbn [fold_left map]; [destruct k; reflexivity|]. rewrite IH. reflexivity. Qed.
Lemma fold_vesting (l : list (bytes * (N * N * N))) : forall k,
  fold_left (fun k x => mkCl (cl_claims k) (cl_total k) (<[x.1 := x.2]> (cl_vesting k)) (cl_signing k) (cl_preclaims k)) l k =
  mkCl (cl_claims k) (cl_total k) (fold_left (fun m x => <[x.1 := x.2]> m) l (cl_vesting k)) (cl_signing k) (cl_preclaims k).
Proof. induction l as [|x l IH]; intros k; cbn [fold_left]; [destruct k; reflexivity|]. rewrite IH. reflexivity. Qed.
Lemma fold_signing (l : list gclaim) : forall k,
  fold_left (fun k x => mkCl (cl_claims k) (cl_total k) (cl_vesting k) (<[x.1 := x.2]> (cl_signing k)) (cl_preclaims k))
    (filter_map (fun x : gclaim => match x.2 with Some s => Some (x.1.1.1, s) | None => None end) l) k =
  mkCl (cl_claims k) (cl_total k) (cl_vesting k)
    (fold_left (fun m x => match x.2 with Some v => <[x.1.1.1 := v]> m | None => m end) l (cl_signing k)) (cl_preclaims k).
Proof.
  induction l as [|x l IH]; intros k; [destruct k; reflexivity|]. cbn [fold_left].
  change (filter_map ?f (x :: l)) with (match f x with Some y => y :: filter_map f l | None => filter_map f l end).
  cbv beta. destruct x.2; cbn [fold_left]; rewrite IH; reflexivity.
Qed.
Lemma fold_preclaims (l : list gclaim) : forall k,
  fold_left (fun k x => mkCl (cl_claims k) (cl_total k) (cl_vesting k) (cl_signing k) (<[x.1 := x.2]> (cl_preclaims k)))
    (filter_map (fun x : gclaim => match x.1.2 with Some i => Some (i, x.1.1.1) | None => None end) l) k =
  mkCl (cl_claims k) (cl_total k) (cl_vesting k) (cl_signing k)
    (fold_left (fun m x => match x.1.2 with Some a => <[a := x.1.1.1]> m | None => m end) l (cl_preclaims k)).
Proof.
  induction l as [|x l IH]; intros k; [destruct k; reflexivity|]. cbn [fold_left].
  change (filter_map ?f (x :: l)) with (match f x with Some y => y :: filter_map f l | None => filter_map f l end).
  cbv beta. destruct x.1.2; cbn [fold_left]; rewrite IH; reflexivity.
Qed.

Lemma bind_run {A B} (m : RM A) (k : A -> RM B) s a s1 : m s = Ok a s1 -> bind m k s = k a s1.
Proof. intros H. unfold bind. rewrite H. reflexivity. Qed.

Lemma claims_build_run c g s : rt_cl s = mkCl ∅ 0 ∅ ∅ ∅ ->
  let r t := set_cl (mkCl (cl_claims (claims_genesis (g_claims g) (g_vesting g))) t
                          (cl_vesting (claims_genesis (g_claims g) (g_vesting g)))
                          (cl_signing (claims_genesis (g_claims g) (g_vesting g)))
                          (cl_preclaims (claims_genesis (g_claims g) (g_vesting g)))) s in
  claims_build c (g_claims g) (g_vesting g) s =
    (if genesis_claims g <=? c_bal_max c then Ok tt (r (genesis_claims g))
     else if c_ovf c then Panic
     else Ok tt (r (genesis_claims g mod (c_bal_max c + 1)))).
Proof.
  intros Hs r. unfold claims_build.
  erewrite bind_run; [|rewrite for_each_ok, fold_upd; reflexivity].
  unfold bind at 1. rewrite sum_m by lia. cbv zeta. rewrite N.add_0_l.
  change (foldr (fun x acc => x.1.1.2 + acc) 0 (g_claims g)) with (genesis_claims g).
  assert (forall t, (do! modify (upd_cl (fun k => mkCl (cl_claims k) t (cl_vesting k) (cl_signing k) (cl_preclaims k))) in
    do! for_each (fun x => modify (upd_cl (fun k =>
        mkCl (cl_claims k) (cl_total k) (<[x.1 := x.2]> (cl_vesting k)) (cl_signing k) (cl_preclaims k)))) (g_vesting g) in
    do! for_each (fun x => modify (upd_cl (fun k =>
        mkCl (cl_claims k) (cl_total k) (cl_vesting k) (<[x.1 := x.2]> (cl_signing k)) (cl_preclaims k))))
      (filter_map (fun x : gclaim => match x.2 with Some s => Some (x.1.1.1, s) | None => None end) (g_claims g)) in
    for_each (fun x => modify (upd_cl (fun k =>
        mkCl (cl_claims k) (cl_total k) (cl_vesting k) (cl_signing k) (<[x.1 := x.2]> (cl_preclaims k)))))
      (filter_map (fun x : gclaim => match x.1.2 with Some i => Some (i, x.1.1.1) | None => None end) (g_claims g)))
    (upd_cl (fold_left (fun k x => mkCl (<[x.1 := x.2]> (cl_claims k)) (cl_total k) (cl_vesting k) (cl_signing k) (cl_preclaims k))
      (map (fun x : gclaim => (x.1.1.1, x.1.1.2)) (g_claims g))) s) = Ok tt (r t)) as E.
  { intros t. erewrite bind_run; [|reflexivity].
    erewrite bind_run; [|rewrite for_each_ok, fold_upd; reflexivity].
    erewrite bind_run; [|rewrite for_each_ok, fold_upd; reflexivity].
    rewrite for_each_ok, fold_upd. f_equal. unfold r, upd_cl. cbn [rt_cl set_cl].
    rewrite fold_claims, fold_vesting, fold_signing, fold_preclaims, Hs. reflexivity. }
  destruct (genesis_claims g <=? c_bal_max c); [apply E|]. destruct (c_ovf c); [reflexivity|apply E].
Qed.

(** The build panics exactly if the runtime checks for overflow and the listed claims exceed the
    balance type; otherwise it ends in the state the histories of this development start in, except
    that a sum beyond the balance type is reduced modulo its size. *)
Theorem C105_what_the_build_does : forall c g,
  build c g (bare g) =
    (if genesis_claims g <=? c_bal_max c then Ok tt (genesis_state g)
     else if c_ovf c then Panic
     else Ok tt (with_total (genesis_claims g mod (c_bal_max c + 1)) (genesis_state g))).
Proof.
  intros c g. unfold build. erewrite bind_run; [|reflexivity].
  rewrite claims_build_run by reflexivity. cbv zeta.
  destruct (genesis_claims g <=? c_bal_max c); [|destruct (c_ovf c); reflexivity].
  unfold genesis_state at 1. f_equal. unfold set_cl, bare, put_flags. cbn. f_equal.
  unfold claims_genesis. f_equal. rewrite claims_genesis_total. reflexivity.
Qed.
Print Assumptions C105_what_the_build_does.
(** Teerex's two flags, six claims' worth of entries, the total within and beyond the type *)
Example C105_three_builds :
  let g v := gen_cl [(eth 1, 600, Some alice, Some StSaft); (eth 2, v, None, None)] [(eth 2, (5, 1, 0))] in
  build (cfg_cl true 5) (g 400) (bare (g 400)) = Ok tt (genesis_state (g 400)) /\
  build (cfg_cl true 5) (g 401) (bare (g 401)) = Panic /\
  match build (cfg_cl false 5) (g 401) (bare (g 401)) with Ok _ s => cl_total (rt_cl s) = 0 /\ open_claims s = 1001 | _ => False end.
Proof. cbv zeta. rewrite !C105_what_the_build_does. vm_compute. auto. Qed.

(** ** Which entry of a list counts *)
Lemma last_wins {A K V} `{Countable K} (f : A -> option (K * V)) (l : list A) : forall (m : gmap K V) k v,
  fold_left (fun m x => match f x with Some y => <[y.1 := y.2]> m | None => m end) l m !! k = Some v <->
  (exists l1 x l2, l = l1 ++ x :: l2 /\ f x = Some (k, v) /\ forall y w, In y l2 -> f y <> Some (k, w)) \/
  (m !! k = Some v /\ forall y w, In y l -> f y <> Some (k, w)).
Proof.
  induction l as [|x l IH]; intros m k v; cbn [fold_left].
  - split; [intros E; right; split; [exact E|intros y w []]|]. intros [(l1 & x & l2 & E & _)|[E _]]; [destruct l1; discriminate E|exact E].
  - rewrite IH. split.
    + intros [(l1 & y & l2 & -> & E1 & E2)|[E1 E2]].
      * left. exists (x :: l1), y, l2. auto.
      * destruct (f x) as [[k' w]|] eqn:E.
        -- cbn [fst snd] in E1. destruct (decide (k' = k)) as [->|Hn].
           ++ rewrite lookup_insert in E1. injection E1 as ->. left. exists [], x, l. auto.
           ++ rewrite lookup_insert_ne in E1 by exact Hn. right. split; [exact E1|]. intros y u [<-|Hy]; [congruence|apply E2, Hy].
        -- right. split; [exact E1|]. intros y u [<-|Hy]; [congruence|apply E2, Hy].
    + intros [(l1 & y & l2 & E & E1 & E2)|[E1 E2]].
      * destruct l1 as [|z l1]; cbn [app] in E; injection E as -> ->.
        -- right. rewrite E1. cbn [fst snd]. rewrite lookup_insert. split; [reflexivity|exact E2].
        -- left. exists l1, y, l2. auto.
      * right. split; [|intros y w Hy; apply E2; right; exact Hy].
        destruct (f x) as [[k' w]|] eqn:E; [|exact E1]. cbn [fst snd]. rewrite lookup_insert_ne; [exact E1|].
        intros ->. apply (E2 x w); [left; reflexivity|exact E].
Qed.
Lemma last_wins_0 {A K V} `{Countable K} (f : A -> option (K * V)) (l : list A) k v :
  fold_left (fun m x => match f x with Some y => <[y.1 := y.2]> m | None => m end) l (∅ : gmap K V) !! k = Some v <->
  exists l1 x l2, l = l1 ++ x :: l2 /\ f x = Some (k, v) /\ forall y w, In y l2 -> f y <> Some (k, w).
Proof.
  rewrite last_wins. split; [intros [E|[E _]]; [exact E|rewrite lookup_empty in E; discriminate]|auto].
Qed.
Lemma fold_ext {A B} (f h : B -> A -> B) l : (forall b x, f b x = h b x) -> forall b, fold_left f l b = fold_left h l b.
Proof. intros E. induction l as [|x l IH]; intros b; cbn [fold_left]; [reflexivity|]. rewrite E. apply IH. Qed.

Definition of_claims (x : gclaim) : option (bytes * N) := Some (x.1.1.1, x.1.1.2).
Definition of_signing (x : gclaim) : option (bytes * statement) := match x.2 with Some k => Some (x.1.1.1, k) | None => None end.
Definition of_preclaims (x : gclaim) : option (acct * bytes) := match x.1.2 with Some a => Some (a, x.1.1.1) | None => None end.
Definition of_vesting (x : bytes * (N * N * N)) : option (bytes * (N * N * N)) := Some (x.1, x.2).
Definition put_last {A K V} `{Countable K} (f : A -> option (K * V)) (m : gmap K V) (x : A) : gmap K V :=
  match f x with Some y => <[y.1 := y.2]> m | None => m end.

(** An address has the value of the last entry that lists it; the statement of the last entry that
    lists it with a statement; an account is pre-claimed the address of the last entry naming the
    account; an address has the schedule listed last. The flags are the configured ones. *)
Theorem C105_the_last_entry_counts : forall g, let s := genesis_state g in
  (forall e v, cl_claims (rt_cl s) !! e = Some v <->
     exists l1 p k l2, g_claims g = l1 ++ (e, v, p, k) :: l2 /\ forall y, In y l2 -> y.1.1.1 <> e) /\
  (forall e k, cl_signing (rt_cl s) !! e = Some k <->
     exists l1 v p l2, g_claims g = l1 ++ (e, v, p, Some k) :: l2 /\ forall y, In y l2 -> y.1.1.1 = e -> y.2 = None) /\
  (forall a e, cl_preclaims (rt_cl s) !! a = Some e <->
     exists l1 v k l2, g_claims g = l1 ++ (e, v, Some a, k) :: l2 /\ forall y, In y l2 -> y.1.2 <> Some a) /\
  (forall e x, cl_vesting (rt_cl s) !! e = Some x <->
     exists l1 l2, g_vesting g = l1 ++ (e, x) :: l2 /\ forall y, In y l2 -> y.1 <> e) /\
  tx_allow_debug (rt_tx s) = g_debug g /\ tx_allow_skip (rt_tx s) = g_skip g.
Proof.
  intros g s. unfold s, genesis_state, claims_genesis. cbn [rt_cl cl_claims cl_signing cl_preclaims cl_vesting].
  split; [|split; [|split; [|split; [|split; reflexivity]]]].
  - intros e v. rewrite (fold_ext _ (put_last of_claims)) by reflexivity.
    etransitivity; [exact (last_wins_0 of_claims _ _ _)|]. unfold of_claims. split.
    + intros (l1 & [[[e' v'] p] k] & l2 & E & [= -> ->] & H). exists l1, p, k, l2. split; [exact E|]. intros y Hy <-. eapply H; eauto.
    + intros (l1 & p & k & l2 & E & H). exists l1, (e, v, p, k), l2. split; [exact E|]. split; [reflexivity|]. intros y w Hy [= E1 _]. apply (H y Hy E1).
  - intros e k. rewrite (fold_ext _ (put_last of_signing)) by (intros ? [? [|]]; reflexivity).
    etransitivity; [exact (last_wins_0 of_signing _ _ _)|]. unfold of_signing. split.
    + intros (l1 & [[[e' v] p] [k'|]] & l2 & E & E1 & H); cbn in E1; [|discriminate]. injection E1 as -> ->. exists l1, v, p, l2. split; [exact E|].
      intros y Hy <-. destruct y.2 as [w|] eqn:Ey; [|reflexivity]. exfalso. apply (H y w Hy). rewrite Ey. reflexivity.
    + intros (l1 & v & p & l2 & E & H). exists l1, (e, v, p, Some k), l2. split; [exact E|]. split; [reflexivity|].
      intros y w Hy E1. destruct y.2 eqn:Ey; [|discriminate]. injection E1 as E1 _. rewrite (H y Hy E1) in Ey. discriminate.
  - intros a e. rewrite (fold_ext _ (put_last of_preclaims)) by (intros ? [[? [|]] ?]; reflexivity).
    etransitivity; [exact (last_wins_0 of_preclaims _ _ _)|]. unfold of_preclaims. split.
    + intros (l1 & [[[e' v] [a'|]] k] & l2 & E & E1 & H); cbn in E1; [|discriminate]. injection E1 as -> ->. exists l1, v, k, l2. split; [exact E|].
      intros y Hy Ey. apply (H y y.1.1.1 Hy). rewrite Ey. reflexivity.
    + intros (l1 & v & k & l2 & E & H). exists l1, (e, v, Some a, k), l2. split; [exact E|]. split; [reflexivity|].
      intros y w Hy E1. destruct y.1.2 eqn:Ey; [|discriminate]. injection E1 as -> _. exact (H y Hy Ey).
  - intros e x. rewrite (fold_ext _ (put_last of_vesting)) by reflexivity.
    etransitivity; [exact (last_wins_0 of_vesting _ _ _)|]. unfold of_vesting. split.
    + intros (l1 & [e' x'] & l2 & E & [= -> ->] & H). exists l1, l2. split; [exact E|]. intros y Hy <-. eapply H; eauto.
    + intros (l1 & l2 & E & H). exists l1, (e, x), l2. split; [exact E|]. split; [reflexivity|]. intros y w Hy [= E1 _]. apply (H y Hy E1).
Qed.
Print Assumptions C105_the_last_entry_counts.
(** A statement asked for by an entry that is overwritten by one without is still asked for; two
    accounts can be pre-claimed the same address, and the second to attest gets nothing. *)
Example C105_repeated_entries :
  let g := gen_cl [(eth 1, 600, Some alice, Some StSaft); (eth 1, 7, Some bob, None)] [] in
  let s := genesis_state g in let c := cfg_cl true 5 in let att a := dispatch c (Signed a) (CCl (ClAttest (to_text StSaft))) in
  cl_claims (rt_cl s) !! eth 1 = Some 7 /\ cl_total (rt_cl s) = 607 /\ cl_signing (rt_cl s) !! eth 1 = Some StSaft /\
  (dispatch c NoneO (CCl (ClClaim alice (toy_sign c 1 alice []))) s).1 = Failed InvalidStatement /\
  (att bob s).1 = Success /\ (att alice (att bob s).2).1 = Failed SignerHasNoClaim /\
  cl_preclaims (rt_cl (att bob s).2) !! alice = Some (eth 1).
Proof. vm_compute. auto 10. Qed.

(** ** The total against what can be claimed *)
(** Values of entries whose address is listed again further on *)
Fixpoint overwritten (l : list gclaim) : N :=
  match l with
  | [] => 0
  | x :: r => (if in_dec (List.list_eq_dec N.eq_dec) x.1.1.1 (map (fun y : gclaim => y.1.1.1) r) then x.1.1.2 else 0) + overwritten r
  end.
Notation put_claims L M := (fold_left (fun (m : gmap bytes N) (x : gclaim) => <[x.1.1.1 := x.1.1.2]> m) L M).
Lemma put_claims_at l : forall m e,
  put_claims l m !! e = match put_claims l ∅ !! e with Some v => Some v | None => m !! e end.
Proof.
  induction l as [|x l IH]; intros m e; cbn [fold_left]; [rewrite lookup_empty; reflexivity|].
  rewrite IH, (IH (<[_ := _]> ∅)). destruct (put_claims l ∅ !! e); [reflexivity|].
  destruct (decide (x.1.1.1 = e)) as [->|Hn]; [rewrite !lookup_insert; reflexivity|]. rewrite !lookup_insert_ne, lookup_empty by exact Hn. reflexivity.
Qed.
Lemma put_claims_in l e : is_Some (put_claims l ∅ !! e) <-> In e (map (fun y : gclaim => y.1.1.1) l).
Proof.
  induction l as [|x l IH]; cbn [fold_left map In]; [rewrite lookup_empty; split; [intros [? E]; discriminate E|intros []]|].
  rewrite put_claims_at. destruct (put_claims l ∅ !! e) as [v|] eqn:E.
  - split; [intros _; right; apply IH; eauto|intros _; eauto].
  - destruct (decide (x.1.1.1 = e)) as [->|Hn]; [rewrite lookup_insert; split; eauto|]. rewrite lookup_insert_ne, lookup_empty by exact Hn.
    split; [intros [? Ex]; discriminate Ex|]. intros [Hx|Hx]; [congruence|]. apply IH in Hx. destruct Hx as [? Hx]. discriminate Hx.
Qed.
Lemma put_claims_sum l : foldr (fun (x : gclaim) acc => x.1.1.2 + acc) 0 l = sum_map (put_claims l ∅) + overwritten l.
Proof.
  induction l as [|x l IH]; cbn [fold_left foldr overwritten]; [reflexivity|]. rewrite IH.
  pose proof (put_claims_in l x.1.1.1) as Hin. destruct (in_dec _ _ _) as [Hi|Hn].
  - assert (put_claims l (<[x.1.1.1 := x.1.1.2]> ∅) = put_claims l ∅) as ->; [|lia].
    apply map_eq. intros e. rewrite put_claims_at. destruct (put_claims l ∅ !! e) eqn:E; [reflexivity|].
    rewrite lookup_insert_ne, lookup_empty; [reflexivity|]. intros <-. apply Hin in Hi as [? Hi]. congruence.
  - assert (put_claims l (<[x.1.1.1 := x.1.1.2]> ∅) = <[x.1.1.1 := x.1.1.2]> (put_claims l ∅)) as ->.
    { apply map_eq. intros e. rewrite put_claims_at. destruct (decide (x.1.1.1 = e)) as [<-|Hne].
      - rewrite !lookup_insert. destruct (put_claims l ∅ !! _) eqn:E; [|reflexivity]. destruct Hn. apply Hin. eauto.
      - rewrite !lookup_insert_ne, lookup_empty by exact Hne. destruct (put_claims l ∅ !! e); reflexivity. }
    rewrite sum_insert; [lia|]. destruct (put_claims l ∅ !! _) eqn:E; [|reflexivity]. destruct Hn. apply Hin. eauto.
Qed.
Lemma overwritten_zero l : overwritten l = 0 <->
  forall l1 x l2, l = l1 ++ x :: l2 -> In x.1.1.1 (map (fun y : gclaim => y.1.1.1) l2) -> x.1.1.2 = 0.
Proof.
  induction l as [|x l IH]; cbn [overwritten].
  - split; [|reflexivity]. intros _ [|] ? ? E; discriminate E.
  - destruct (in_dec _ _ _) as [Hi|Hn].
    + split.
      * intros E l1 y l2 El Hy. destruct l1 as [|z l1]; cbn [app] in El; injection El as -> ->; [lia|]. apply IH with (2 := eq_refl); [lia|exact Hy].
      * intros H. rewrite (H [] x l eq_refl Hi). apply IH. intros l1 y l2 -> Hy. apply (H (x :: l1) y l2 eq_refl Hy).
    + split.
      * intros E l1 y l2 El Hy. destruct l1 as [|z l1]; cbn [app] in El; injection El as -> ->; [tauto|]. apply IH with (2 := eq_refl); [lia|exact Hy].
      * intros H. apply IH. intros l1 y l2 -> Hy. apply (H (x :: l1) y l2 eq_refl Hy).
Qed.

(** What is listed is what can be claimed and what was overwritten. So the total a chain starts with
    is what can be claimed exactly if nothing but zeros was overwritten, as with distinct addresses. *)
Theorem C105_total_against_open_claims : forall g,
  cl_total (rt_cl (genesis_state g)) = genesis_claims g /\
  genesis_claims g = open_claims (genesis_state g) + overwritten (g_claims g) /\
  (cl_total (rt_cl (genesis_state g)) = open_claims (genesis_state g) <->
    forall l1 x l2, g_claims g = l1 ++ x :: l2 -> In x.1.1.1 (map (fun y => y.1.1.1) l2) -> x.1.1.2 = 0) /\
  (List.NoDup (map (fun y => y.1.1.1) (g_claims g)) -> cl_total (rt_cl (genesis_state g)) = open_claims (genesis_state g)).
Proof.
  intros g. assert (genesis_claims g = open_claims (genesis_state g) + overwritten (g_claims g)) as E by apply put_claims_sum.
  assert (cl_total (rt_cl (genesis_state g)) = genesis_claims g) as Et.
  { unfold genesis_state, claims_genesis. cbn [rt_cl cl_total]. rewrite claims_genesis_total. reflexivity. }
  assert (cl_total (rt_cl (genesis_state g)) = open_claims (genesis_state g) <-> overwritten (g_claims g) = 0) as Eo by lia.
  split; [exact Et|]. split; [exact E|]. split; [rewrite Eo; apply overwritten_zero|].
  intros Hd. apply Eo, overwritten_zero. intros l1 x l2 El Hx. rewrite El, map_app in Hd. apply NoDup_remove_2 in Hd.
  destruct Hd. apply in_or_app. right. exact Hx.
Qed.
Print Assumptions C105_total_against_open_claims.
Example C105_overwriting : 
  let g := gen_cl [(eth 1, 5, None, None); (eth 2, 6, None, None); (eth 1, 7, None, None)] [] in
  overwritten (g_claims g) = 5 /\ open_claims (genesis_state g) = 13 /\ cl_total (rt_cl (genesis_state g)) = 18.
Proof. vm_compute. auto. Qed.

(** ** The order of the entries *)
Lemma split_at_perm {A} (l l' l1 : list A) x l2 : Permutation l l' -> l = l1 ++ x :: l2 -> exists k1 k2, l' = k1 ++ x :: k2.
Proof. intros HP ->. apply in_split, (Permutation_in _ HP), in_or_app. right. left. reflexivity. Qed.
Lemma last_nodup {A K V} `{Countable K} (f : A -> option (K * V)) l k v :
  List.NoDup (map fst (omap f l)) ->
  ((exists l1 x l2, l = l1 ++ x :: l2 /\ f x = Some (k, v) /\ forall y w, In y l2 -> f y <> Some (k, w)) <-> In (k, v) (omap f l)).
Proof.
  intros Hd. split.
  - intros (l1 & x & l2 & -> & E & _). apply elem_of_list_In, elem_of_list_omap. exists x. split; [|exact E]. apply elem_of_list_In, in_or_app. right. left. reflexivity.
  - intros Hi. apply elem_of_list_In, elem_of_list_omap in Hi as (x & Hx & E). apply elem_of_list_In, in_split in Hx as (l1 & l2 & ->).
    exists l1, x, l2. split; [reflexivity|]. split; [exact E|]. intros y w Hy Ey.
    rewrite omap_app in Hd. change (omap f (x :: l2)) with (match f x with Some z => z :: omap f l2 | None => omap f l2 end) in Hd.
    rewrite E, map_app in Hd. cbn [map fst] in Hd. apply NoDup_remove_2 in Hd. destruct Hd. apply in_or_app. right.
    apply in_map_iff. exists (k, w). split; [reflexivity|]. apply elem_of_list_In, elem_of_list_omap. exists y. split; [apply elem_of_list_In, Hy|exact Ey].
Qed.
Lemma same_fold {A K V} `{Countable K} (f : A -> option (K * V)) l l' : Permutation l l' -> List.NoDup (map fst (omap f l)) ->
  fold_left (put_last f) l (∅ : gmap K V) = fold_left (put_last f) l' ∅.
Proof.
  intros HP Hd. assert (Permutation (omap f l) (omap f l')) as HO by (rewrite HP; reflexivity).
  assert (List.NoDup (map fst (omap f l'))) as Hd' by (apply (Permutation_NoDup (Permutation_map fst HO)), Hd).
  apply map_eq. intros k. apply option_eq. intros v.
  etransitivity; [exact (last_wins_0 f l k v)|]. etransitivity; [|symmetry; exact (last_wins_0 f l' k v)].
  rewrite (last_nodup f l k v Hd), (last_nodup f l' k v Hd'). split; apply Permutation_in; [exact HO|symmetry; exact HO].
Qed.
Lemma all_kept {A K V} (f : A -> option (K * V)) (h : A -> K) l : (forall x, exists v, f x = Some (h x, v)) -> map fst (omap f l) = map h l.
Proof.
  intros E. induction l as [|x l IH]; [reflexivity|]. change (omap f (x :: l)) with (match f x with Some z => z :: omap f l | None => omap f l end).
  destruct (E x) as (v & Ex). rewrite Ex. cbn [map fst]. rewrite IH. reflexivity.
Qed.
Lemma sub_kept {A K V} (f : A -> option (K * V)) (h : A -> K) l : (forall x k v, f x = Some (k, v) -> k = h x) -> List.NoDup (map h l) -> List.NoDup (map fst (omap f l)).
Proof.
  intros E. induction l as [|x l IH]; intros Hd; [constructor|]. change (omap f (x :: l)) with (match f x with Some z => z :: omap f l | None => omap f l end).
  cbn [map] in Hd. apply NoDup_cons_iff in Hd as [Hn Hd]. destruct (f x) as [[k v]|] eqn:Ex; [|apply IH, Hd]. cbn [map fst]. constructor; [|apply IH, Hd].
  rewrite (E _ _ _ Ex). intros Hi. apply Hn. apply in_map_iff in Hi as ([k' w] & Ek & Hi). cbn [fst] in Ek. subst k'. apply elem_of_list_In, elem_of_list_omap in Hi as (y & Hy & Ey).
  apply in_map_iff. exists y. split; [symmetry; exact (E _ _ _ Ey)|apply elem_of_list_In, Hy].
Qed.

(** If no address is listed twice, no account is named twice and no address has two schedules, the
    order in which the entries are listed does not matter for the chain that starts. *)
Theorem C105_the_order_does_not_matter : forall g g',
  Permutation (g_claims g) (g_claims g') -> Permutation (g_vesting g) (g_vesting g') ->
  g_now g' = g_now g -> g_bal g' = g_bal g -> g_debug g' = g_debug g -> g_skip g' = g_skip g -> g_assets g' = g_assets g ->
  List.NoDup (map (fun x => x.1.1.1) (g_claims g)) -> List.NoDup (omap (fun x => x.1.2) (g_claims g)) -> List.NoDup (map fst (g_vesting g)) ->
  genesis_state g = genesis_state g' /\ forall c, build c g (bare g) = build c g' (bare g').
Proof.
  intros g g' HP HV E1 E2 E3 E4 E5 D1 D2 D3.
  assert (genesis_claims g = genesis_claims g') as Es.
  { unfold genesis_claims. clear -HP. induction HP; cbn [foldr]; lia. }
  assert (genesis_state g = genesis_state g') as E.
  { unfold genesis_state. rewrite E1, E2, E3, E4, E5. f_equal. unfold claims_genesis. f_equal.
    - refine (same_fold of_claims _ _ HP _). rewrite (all_kept _ (fun x : gclaim => x.1.1.1)); [exact D1|]. intros x. exists x.1.1.2. reflexivity.
    - rewrite !claims_genesis_total. exact (f_equal (N.add 0) Es).
    - refine (same_fold of_vesting _ _ HV _). rewrite (all_kept _ fst); [exact D3|]. intros x. exists x.2. reflexivity.
    - rewrite !(fold_ext (fun m (x : gclaim) => match x.2 with Some k => <[x.1.1.1 := k]> m | None => m end) (put_last of_signing)) by (intros ? [? [|]]; reflexivity).
      apply same_fold; [exact HP|]. apply (sub_kept _ (fun x : gclaim => x.1.1.1)); [|exact D1]. unfold of_signing. intros x k v Ex. destruct x.2; [|discriminate]. congruence.
    - rewrite !(fold_ext (fun m (x : gclaim) => match x.1.2 with Some a => <[a := x.1.1.1]> m | None => m end) (put_last of_preclaims)) by (intros ? [[? [|]] ?]; reflexivity).
      apply same_fold; [exact HP|]. assert (map fst (omap of_preclaims (g_claims g)) = omap (fun x => x.1.2) (g_claims g)) as ->; [|exact D2].
      generalize (g_claims g) as l. induction l as [|x l IH]; [reflexivity|].
      destruct x as [[[? ?] [a|]] ?]; [exact (f_equal (cons a) IH)|exact IH]. }
  split; [exact E|]. intros c. rewrite !C105_what_the_build_does, Es, E. reflexivity.
Qed.
Print Assumptions C105_the_order_does_not_matter.
(** With an address listed twice it does. *)
Example C105_order_matters :
  let a := (eth 1, 5, Some alice, Some StSaft) : gclaim in let b := (eth 1, 7, Some bob, Some StRegular) : gclaim in
  cl_claims (rt_cl (genesis_state (gen_cl [a; b] []))) !! eth 1 = Some 7 /\ cl_claims (rt_cl (genesis_state (gen_cl [b; a] []))) !! eth 1 = Some 5 /\
  genesis_state (gen_cl [a; (eth 2, 7, None, None)] []) = genesis_state (gen_cl [(eth 2, 7, None, None); a] []).
Proof. cbv zeta. split; [vm_compute; reflexivity|]. split; [vm_compute; reflexivity|].
  apply C105_the_order_does_not_matter; try reflexivity; [apply perm_swap| | |]; cbn; repeat constructor; cbn; intros []; try discriminate; auto.
Qed.

(** ** A total that wrapped around *)
Lemma claim_step_total c s x : (forall o w v vs st, x <> OCall o (CCl (ClMint w v vs st))) ->
  cl_total (rt_cl (step c s x)) + total claimed_ev (rt_ev (step c s x)) = cl_total (rt_cl s) + total claimed_ev (rt_ev s).
Proof.
  intros Hx. destruct (claims_step c s x) as [(Ec & Ee & _)|(o & k & -> & E)]; [rewrite Ec, Ee; reflexivity|].
  destruct k; cbn [cl_exec] in E.
  - apply claim_ok in E as (-> & sg & _ & _ & E). apply process_ok in E as (due & P1 & P2 & _ & _ & P5 & _ & P7 & _).
    rewrite P5, P7. cbn [cl_total]. rewrite total_cons, total_app. cbn [claimed_ev].
    destruct (paid c s dest due =? 0); cbn [total foldr claimed_ev]; lia.
  - exfalso. eapply Hx. reflexivity.
  - apply claim_attest_ok in E as (-> & sg & _ & _ & E). apply process_ok in E as (due & P1 & P2 & _ & _ & P5 & _ & P7 & _).
    rewrite P5, P7. cbn [cl_total]. rewrite total_cons, total_app. cbn [claimed_ev].
    destruct (paid c s dest due =? 0); cbn [total foldr claimed_ev]; lia.
  - apply attest_ev in E as (a & sg & due & -> & _ & _ & P1 & P2 & P5 & _ & P7).
    rewrite P5, P7. cbn [cl_total]. rewrite total_cons, total_app. cbn [claimed_ev].
    destruct (paid c s a due =? 0); cbn [total foldr claimed_ev]; lia.
  - apply move_ok in E as (_ & Es). rewrite Es. reflexivity.
Qed.

(** A chain without overflow checks whose listed claims (of distinct addresses) exceed the balance type starts; but
    as long as root does not mint, what is ever paid out is at most its wrapped total, which is less
    than what is claimable: some claimants end up with a refused claim. *)
Theorem C105_a_wrapped_total_cannot_pay_all : forall c g s, c_ovf c = false ->
  build c g (bare g) = Ok tt s -> List.NoDup (map (fun x => x.1.1.1) (g_claims g)) ->
  (open_claims s <= cl_total (rt_cl s) <-> genesis_claims g <= c_bal_max c) /\
  (c_bal_max c < genesis_claims g -> forall l, (forall o w v vs st, ~ In (OCall o (CCl (ClMint w v vs st))) l) ->
     total claimed_ev (rt_ev (run c s l)) + c_bal_max c < genesis_claims g).
Proof.
  intros c g s Ho Hb Hd. rewrite C105_what_the_build_does, Ho in Hb.
  destruct (C105_total_against_open_claims g) as (Et & Es & _ & Ed). specialize (Ed Hd).
  assert (forall l t, (forall o w v vs st, ~ In (OCall o (CCl (ClMint w v vs st))) l) ->
    cl_total (rt_cl (run c t l)) + total claimed_ev (rt_ev (run c t l)) = cl_total (rt_cl t) + total claimed_ev (rt_ev t)) as Hl.
  { intros l. induction l as [|x l IH]; intros t Hn; [reflexivity|]. cbn [run fold_left]. unfold run in IH. rewrite IH.
    - apply claim_step_total. intros o w v vs st ->. eapply Hn. left. reflexivity.
    - intros o w v vs st Hi. eapply Hn. right. exact Hi. }
  destruct (N.leb_spec (genesis_claims g) (c_bal_max c)) as [H|H]; injection Hb as <-.
  - split; [split; [auto|intros _; lia]|lia].
  - set (S := genesis_claims g) in *. set (M := c_bal_max c + 1) in *.
    assert (S mod M + M <= S) as Hm.
    { pose proof (N.mod_lt S M). pose proof (N.div_mod S M). assert (1 <= S / M) by (apply N.div_le_lower_bound; lia).
      assert (M * 1 <= M * (S / M)) by (apply N.mul_le_mono_l; lia). lia. }
    change (cl_total (rt_cl (with_total (S mod M) (genesis_state g)))) with (S mod M).
    change (open_claims (with_total (S mod M) (genesis_state g))) with (open_claims (genesis_state g)).
    split; [split; lia|]. intros _ l Hn. pose proof (Hl l (with_total (S mod M) (genesis_state g)) Hn) as E.
    change (cl_total (rt_cl (with_total (S mod M) (genesis_state g)))) with (S mod M) in E.
    change (total claimed_ev (rt_ev (with_total (S mod M) (genesis_state g)))) with 0 in E. lia.
Qed.
Print Assumptions C105_a_wrapped_total_cannot_pay_all.
Example C105_a_claim_that_is_never_paid :
  let g := gen_cl [(eth 1, 600, None, None); (eth 2, 450, None, None)] [] in let c := cfg_cl false 5 in
  match build c g (bare g) with
  | Ok _ s => (dispatch c NoneO (CCl (ClClaim alice (toy_sign c 1 alice []))) s).1 = Failed PotUnderflow /\
              (dispatch c NoneO (CCl (ClClaim bob (toy_sign c 2 bob []))) s).1 = Failed PotUnderflow /\ cl_total (rt_cl s) = 49
  | _ => False
  end.
Proof. cbv zeta. rewrite C105_what_the_build_does. vm_compute. auto. Qed.
(** With overflow checks, a chain that starts at all never refuses a claim for lack of funds. *)
Theorem C105_a_checked_start_can_pay_all : forall c g s, c_ovf c = true -> build c g (bare g) = Ok tt s ->
  genesis_claims g <= c_bal_max c /\ s = genesis_state g /\
  forall l, open_claims (run c s l) <= cl_total (rt_cl (run c s l)) /\
    forall o k, (dispatch c o (CCl k) (run c s l)).1 <> Failed PotUnderflow.
Proof.
  intros c g s Ho Hb. rewrite C105_what_the_build_does, Ho in Hb.
  destruct (N.leb_spec (genesis_claims g) (c_bal_max c)) as [H|H]; [|discriminate Hb]. injection Hb as <-.
  split; [exact H|]. split; [reflexivity|]. intros l. assert (no_wrap c g l) as Hw by (left; exact Ho). split.
  - apply (C43_claims_ledger c g l Hw).
  - intros o k. apply C43_pot_never_underflows, Hw.
Qed.
Print Assumptions C105_a_checked_start_can_pay_all.

(** ** Nothing else *)
Lemma put_last_some {A K V} `{Countable K} (f : A -> option (K * V)) l k : forall m : gmap K V,
  is_Some (fold_left (put_last f) l m !! k) <-> is_Some (m !! k) \/ exists x v, In x l /\ f x = Some (k, v).
Proof.
  induction l as [|x l IH]; intros m; cbn [fold_left].
  - split; [auto|]. intros [E|(x & v & [] & _)]; exact E.
  - rewrite IH. unfold put_last at 1. destruct (f x) as [[k' w]|] eqn:E; cbn [fst snd].
    + split.
      * intros [Hs|(y & v & Hy & Ey)]; [|right; exists y, v; split; [right; exact Hy|exact Ey]].
        destruct (decide (k' = k)) as [->|Hn]; [right; exists x, w; split; [left; reflexivity|exact E]|]. rewrite lookup_insert_ne in Hs by exact Hn. auto.
      * intros [Hs|(y & v & [<-|Hy] & Ey)]; [| |right; eauto].
        -- left. apply lookup_insert_is_Some'. auto.
        -- left. rewrite E in Ey. injection Ey as -> ->. rewrite lookup_insert. eauto.
    + split.
      * intros [Hs|(y & v & Hy & Ey)]; [auto|right; exists y, v; split; [right; exact Hy|exact Ey]].
      * intros [Hs|(y & v & [<-|Hy] & Ey)]; [auto|congruence|right; eauto].
Qed.
Lemma put_last_some_0 {A K V} `{Countable K} (f : A -> option (K * V)) l k :
  is_Some (fold_left (put_last f) l (∅ : gmap K V) !! k) <-> exists x v, In x l /\ f x = Some (k, v).
Proof. rewrite put_last_some, lookup_empty. split; [intros [[? E]|E]; [discriminate E|exact E]|auto]. Qed.
Theorem C105_nothing_else_is_stored : forall g y,
  held y (genesis_state g) <->
  (exists x, In x (g_claims g) /\
     (y = KClaims x.1.1.1 \/ (y = KSigning x.1.1.1 /\ x.2 <> None) \/ exists a, y = KPreclaims a /\ x.1.2 = Some a)) \/
  (exists x, In x (g_vesting g) /\ y = KVesting x.1).
Proof.
  intros g y.
  destruct y; cbn [held]; cbn [genesis_state rt_td rt_eb rt_sc rt_to rt_tx rt_ar td_bonds td_pending eb_status eb_config eb_exec to_rates to_data to_wl tx_sov tx_prox tx_tcb ar_loc ar_id];
    try (rewrite lookup_empty); try (split; [first [intros [? Ex]; discriminate Ex|intros []]|intros [(x & _ & [E|[[E _]|(a' & E & _)]])|(x & _ & E)]; discriminate E]).
  - etransitivity; [exact (put_last_some_0 of_claims (g_claims g) _)|]. unfold of_claims. split.
    + intros (x & v & Hx & [= <- <-]). eauto 6.
    + intros [(x & Hx & [E|[[E _]|(a' & E & _)]])|(x & _ & E)]; try discriminate E. injection E as ->. eauto.
  - etransitivity; [exact (put_last_some_0 of_vesting (g_vesting g) _)|]. unfold of_vesting. split.
    + intros (x & v & Hx & [= <- <-]). eauto 6.
    + intros [(x & Hx & [E|[[E _]|(a' & E & _)]])|(x & Hx & E)]; try discriminate E. injection E as ->. eauto.
  - cbn [genesis_state rt_cl claims_genesis cl_signing].
    rewrite (fold_ext _ (put_last of_signing)) by (intros ? [? [|]]; reflexivity).
    etransitivity; [exact (put_last_some_0 of_signing (g_claims g) _)|]. unfold of_signing. split.
    + intros (x & v & Hx & E). destruct x.2 eqn:Ex; [|discriminate]. injection E as <- <-. left. exists x. split; [exact Hx|]. right. left. split; [reflexivity|]. rewrite Ex. discriminate.
    + intros [(x & Hx & [E|[[E Hn]|(a' & E & _)]])|(x & _ & E)]; try discriminate E. injection E as ->. exists x. destruct x.2; [eauto|tauto].
  - cbn [genesis_state rt_cl claims_genesis cl_preclaims].
    rewrite (fold_ext _ (put_last of_preclaims)) by (intros ? [[? [|]] ?]; reflexivity).
    etransitivity; [exact (put_last_some_0 of_preclaims (g_claims g) _)|]. unfold of_preclaims. split.
    + intros (x & v & Hx & E). destruct x.1.2 eqn:Ex; [|discriminate]. injection E as -> <-. left. exists x. split; [exact Hx|]. right. right. eauto.
    + intros [(x & Hx & [E|[[E _]|(a' & E & Ex)]])|(x & _ & E)]; try discriminate E. injection E as ->. exists x, x.1.1.1. rewrite Ex. auto.
Qed.
Print Assumptions C105_nothing_else_is_stored.
Example C105_what_is_stored :
  entries (genesis_state (gen_cl [(eth 1, 5, Some alice, Some StSaft); (eth 2, 7, None, None)] [(eth 3, (4, 1, 0))])) =
  [KClaims (eth 1); KClaims (eth 2); KVesting (eth 3); KSigning (eth 1); KPreclaims alice].
Proof. vm_compute. reflexivity. Qed.
