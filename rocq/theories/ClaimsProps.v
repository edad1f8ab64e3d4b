(** * Properties of pallet claims: C43-C51. *)
From Coq Require Import String.
From Verif Require Import Base State Env TeerdaysModel TeerexBase SgxVerifyModel TeerexModel
  EnclaveBridgeModel SidechainModel TeeracleModel ClaimsModel AssetRegistryModel XcmTransactorModel
  Runtime Frame EnvFacts Ledger Events ClaimsProofs Examples.

(** ** Examples: a toy signature scheme that binds the message. A signature is the 20-byte address
    followed by the signed message; hashing is the identity. *)
Definition cfg_cl (ovf : bool) (ed : N) : cfg :=
  mkCfg ovf ed 1000 u32_max 1000 86400000 172800000 3 64
        (bytes_of_string "Pay TEERs to the account:"%string)
        (fun o => beq (match o with Signed a => a | _ => [] end) carol) (fun _ => false) (fun _ => false) 2267 2039 2039
        (fun b => b)
        (fun sig msg => if beq (dropN 20 sig) msg then Some (zeros 12 ++ takeN 20 sig) else None)
        (fun _ => inr []) sgx_permissive.
Definition eth (n : N) : bytes := replicate 20 n.
Definition toy_sign (c : cfg) (n : N) (dest text : bytes) : bytes := eth n ++ signable_message c (to_ascii_hex dest) text.
Definition gen_cl (l : list (bytes * N * option acct * option statement)) (vs : list (bytes * (N * N * N))) : genesis :=
  mkGenesis 5000 ∅ l vs false false ∅.
Definition do_claim (ovf : bool) (ed n : N) (dest : acct) : op :=
  OCall NoneO (CCl (ClClaim dest (toy_sign (cfg_cl ovf ed) n dest []))).
Definition do_mint (n v : N) : op := OCall Root (CCl (ClMint (eth n) v None None)).

(** ** C43 *)
(** Sum of all open claims *)
Definition open_claims (s : rt) : N := map_fold (fun _ v acc => v + acc) 0 (cl_claims (rt_cl s)).
(** Sum of all payouts announced by the event log *)
Definition claimed_ev (e : event) : N := match e with EvClaimed _ _ v => v | _ => 0 end.
(** Claims listed at genesis *)
Definition genesis_claims (g : genesis) : N := foldr (fun x acc => x.1.1.2 + acc) 0 (g_claims g).
(** Claims minted by successful calls of the history [l] *)
Definition mint_of (c : cfg) (s : rt) (x : op) : N :=
  match x with
  | OCall o (CCl (ClMint w v vs st)) => match (dispatch c o (CCl (ClMint w v vs st)) s).1 with Success => v | _ => 0 end
  | _ => 0
  end.
Fixpoint minted (c : cfg) (s : rt) (l : list op) : N :=
  match l with [] => 0 | x :: r => mint_of c s x + minted c (step c s x) r end.
Lemma minted_app c l1 l2 : forall s, minted c s (l1 ++ l2) = minted c s l1 + minted c (run c s l1) l2.
Proof. induction l1 as [|x l IH]; intros s; [reflexivity|]. cbn [app minted]. rewrite IH, run_cons. lia. Qed.

Definition sum_map (m : gmap bytes N) : N := map_fold (fun _ v acc => v + acc) 0 m.
Lemma sum_insert m k v : m !! k = None -> sum_map (<[k := v]> m) = v + sum_map m.
Proof. intros H. unfold sum_map. rewrite map_fold_insert_L; auto. intros. lia. Qed.
Lemma sum_delete m k : sum_map m = default 0 (m !! k) + sum_map (delete k m).
Proof.
  destruct (m !! k) as [v|] eqn:E; cbn [default]; unfold id.
  - rewrite <- (sum_insert (delete k m) k v) by apply lookup_delete. rewrite insert_delete; auto.
  - rewrite delete_notin by auto. reflexivity.
Qed.
Lemma sum_put m k v : sum_map (<[k := v]> m) + default 0 (m !! k) = v + sum_map m.
Proof.
  rewrite <- insert_delete_insert, sum_insert by apply lookup_delete. rewrite (sum_delete m k). lia.
Qed.
Lemma sum_move m old new : sum_map (move_key old new m) <= sum_map m.
Proof.
  unfold move_key. destruct (m !! old) as [v|] eqn:E; [|lia].
  pose proof (sum_put (delete old m) new v). rewrite (sum_delete m old), E. cbn [default]. unfold id. lia.
Qed.
Lemma claims_genesis_sum cl : forall m t, sum_map m <= t ->
  sum_map (fold_left (fun m x => <[x.1.1.1 := x.1.1.2]> m) cl m) <=
  fold_left (fun t x => t + x.1.1.2) (cl : list (bytes * N * option acct * option statement)) t.
Proof.
  induction cl as [|x cl IH]; intros m t H; cbn [fold_left]; [auto|]. apply IH.
  pose proof (sum_put m x.1.1.1 x.1.1.2). lia.
Qed.
Lemma claims_genesis_total (cl : list (bytes * N * option acct * option statement)) : forall t,
  fold_left (fun t x => t + x.1.1.2) cl t = t + foldr (fun x acc => x.1.1.2 + acc) 0 cl.
Proof. induction cl as [|x cl IH]; intros t; cbn [fold_left foldr]; [lia|]. rewrite IH. lia. Qed.

Lemma claims_step c s x : (rt_cl (step c s x) = rt_cl s /\ total claimed_ev (rt_ev (step c s x)) = total claimed_ev (rt_ev s) /\ mint_of c s x = 0) \/
  exists o k, x = OCall o (CCl k) /\ cl_exec c o k s = Ok tt (step c s x).
Proof.
  assert (forall evs, Forall (emitted_by x) evs -> (forall o k, x <> OCall o (CCl k)) -> total claimed_ev evs = 0) as Hev.
  { intros evs HF Hn. induction HF as [|e evs He HF IH]; [reflexivity|]. rewrite total_cons, IH.
    destruct e; cbn [claimed_ev]; try lia. exfalso. destruct x as [o k| | | | | | | | | |]; cbn in He; try contradiction.
    destruct k; try contradiction. exact (Hn o x eq_refl). }
  assert ((exists o k, x = OCall o (CCl k)) \/ ~ exists o k, x = OCall o (CCl k)) as [(o & k & ->)|Hn].
  { destruct x as [o k| | | | | | | | | |]; try (right; intros (? & ? & E); discriminate E).
    destruct k; try (right; intros (? & ? & E); discriminate E). left; eauto. }
  - destruct (step_call c s o (CCl k)) as [(s' & E & Es)|Es].
    + right. exists o, k. rewrite Es. auto.
    + destruct (run_call_cases (exec c o (CCl k)) s) as [(s' & E & Er)|[E1 E2]].
      * right. exists o, k. split; [auto|]. cbn [step]. unfold dispatch. rewrite Er. exact E.
      * left. rewrite Es. split; [auto|]. split; [auto|]. unfold mint_of. destruct k; auto.
        unfold dispatch. destruct (run_call _ s).1; auto; contradiction.
  - left. destruct (step_emits c s x) as (evs & Ee & HF).
    assert (forall o k, x <> OCall o (CCl k)) as Hn' by (intros o k ->; apply Hn; eauto).
    split; [|split].
    + apply (step_same c s x PCl). destruct x as [o k| | | | | | | | | |]; auto. destruct k; auto. exfalso. eapply Hn'; eauto.
    + rewrite Ee, total_app, (Hev _ HF Hn'). lia.
    + unfold mint_of. destruct x as [o k| | | | | | | | | |]; auto. destruct k; auto. exfalso. eapply Hn'; eauto.
Qed.

Lemma attest_ev c o t s s' : attest c o t s = Ok tt s' ->
  exists a signer due, o = Signed a /\ cl_preclaims (rt_cl s) !! a = Some signer /\ required_text s signer t /\
  cl_claims (rt_cl s) !! signer = Some due /\ due <= cl_total (rt_cl s) /\
  rt_cl s' = mkCl (delete signer (cl_claims (rt_cl s))) (cl_total (rt_cl s) - due) (delete signer (cl_vesting (rt_cl s)))
                  (delete signer (cl_signing (rt_cl s))) (delete a (cl_preclaims (rt_cl s))) /\
  (forall b, free s' b = free s b + if decide (b = a) then paid c s a due else 0) /\
  rt_ev s' = EvClaimed a signer due :: (if paid c s a due =? 0 then [] else [EvDeposit a due]) ++ rt_ev s.
Proof.
  intros H. apply attest_ok in H as (a & signer & s1 & -> & H1 & H2 & H3 & ->).
  apply process_ok in H3 as (due & P1 & P2 & P3 & P4 & P5 & P6 & P7 & _).
  exists a, signer, due. repeat (split; [auto; fail|]). split; [unfold upd_cl; cbn; rewrite P5; auto|]. split; [|auto].
  intros b. change (free (upd_cl ?f ?t) b) with (free t b). auto.
Qed.
(** No wrap-around of the total: overflow checks are on, or everything that was ever claimable fits
    the balance type *)
Definition no_wrap (c : cfg) (g : genesis) (l : list op) : Prop :=
  c_ovf c = true \/ genesis_claims g + minted c (genesis_state g) l <= c_bal_max c.
Theorem C43_claims_ledger : forall c g l, no_wrap c g l ->
  let s := run c (genesis_state g) l in
  cl_total (rt_cl s) + total claimed_ev (rt_ev s) = genesis_claims g + minted c (genesis_state g) l /\
  open_claims s <= cl_total (rt_cl s).
Proof.
  intros c g l. cbn zeta. change (open_claims ?s) with (sum_map (cl_claims (rt_cl s))).
  induction l as [|x l IH] using rev_ind; intros Hw.
  { cbn [run fold_left minted genesis_state rt_cl rt_ev cl_total cl_claims claims_genesis total foldr].
    rewrite claims_genesis_total. fold (genesis_claims g). split; [lia|].
    pose proof (claims_genesis_sum (g_claims g) ∅ 0) as H. rewrite claims_genesis_total in H.
    change (sum_map ∅) with 0 in H. fold (genesis_claims g) in H. lia. }
  unfold no_wrap in *. rewrite minted_app in Hw |- *. cbn [minted] in Hw |- *.
  assert (c_ovf c = true \/ genesis_claims g + minted c (genesis_state g) l <= c_bal_max c) as Hw' by (destruct Hw; [auto|right; lia]).
  destruct (IH Hw') as [E1 E2]. clear IH Hw'.
  rewrite run_snoc. set (s := run c (genesis_state g) l) in *.
  destruct (claims_step c s x) as [(Ec & Ee & Em)|(o & k & -> & E)].
  { rewrite Ec, Ee, Em. lia. }
  destruct k; cbn [cl_exec] in E; pose proof E as E0.
  - apply claim_ok in E as (-> & sg & _ & _ & E). apply process_ok in E as (due & P1 & P2 & _ & _ & P5 & _ & P7 & _).
    rewrite P5, P7. cbn [cl_total cl_claims mint_of]. rewrite total_cons, total_app. cbn [claimed_ev].
    rewrite (sum_delete _ sg), P1 in E2. cbn [default] in E2. unfold id in E2.
    destruct (paid c s dest due =? 0); cbn [total foldr claimed_ev]; lia.
  - apply mint_ok in E as (-> & t & Ht & Es).
    assert (mint_of c s (OCall Root (CCl (ClMint who value vs st))) = value) as Em.
    { unfold mint_of, dispatch, run_call. cbn [exec cl_exec]. rewrite E0. reflexivity. }
    rewrite Em in *. rewrite Es. unfold upd_cl. cbn [rt_cl rt_ev set_cl cl_total cl_claims].
    assert (t = cl_total (rt_cl s) + value) as ->.
    { destruct Ht as [[_ ->]|[H1 H2]]; [auto|]. destruct Hw as [Hw|Hw]; [congruence|]. lia. }
    pose proof (sum_put (cl_claims (rt_cl s)) who value). lia.
  - apply claim_attest_ok in E as (-> & sg & _ & _ & E). apply process_ok in E as (due & P1 & P2 & _ & _ & P5 & _ & P7 & _).
    rewrite P5, P7. cbn [cl_total cl_claims mint_of]. rewrite total_cons, total_app. cbn [claimed_ev].
    rewrite (sum_delete _ sg), P1 in E2. cbn [default] in E2. unfold id in E2.
    destruct (paid c s dest due =? 0); cbn [total foldr claimed_ev]; lia.
  - apply attest_ev in E as (a & sg & due & -> & _ & _ & P1 & P2 & P5 & _ & P7).
    rewrite P5, P7. cbn [cl_total cl_claims mint_of]. rewrite total_cons, total_app. cbn [claimed_ev].
    rewrite (sum_delete _ sg), P1 in E2. cbn [default] in E2. unfold id in E2.
    destruct (paid c s a due =? 0); cbn [total foldr claimed_ev]; lia.
  - apply move_ok in E as (_ & Es). rewrite Es. unfold upd_cl. cbn [rt_cl rt_ev set_cl cl_total cl_claims mint_of].
    pose proof (sum_move (cl_claims (rt_cl s)) old new). lia.
Qed.
Print Assumptions C43_claims_ledger.
Theorem C43_payouts_never_exceed_claims : forall c g l, no_wrap c g l ->
  total claimed_ev (rt_ev (run c (genesis_state g) l)) <= genesis_claims g + minted c (genesis_state g) l.
Proof. intros c g l H. destruct (C43_claims_ledger c g l H). lia. Qed.
Print Assumptions C43_payouts_never_exceed_claims.
(** No claim fails for lack of funds in the pot. *)
Theorem C43_pot_never_underflows : forall c g l o k, no_wrap c g l ->
  (dispatch c o (CCl k) (run c (genesis_state g) l)).1 <> Failed PotUnderflow.
Proof.
  intros c g l o k Hw. destruct (C43_claims_ledger c g l Hw) as [_ Hle]. set (s := run c (genesis_state g) l) in *.
  change (sum_map (cl_claims (rt_cl s)) <= cl_total (rt_cl s)) in Hle.
  assert (forall signer dest e s', process_claim c signer dest s = Err e s' -> e <> PotUnderflow) as HP.
  { intros signer dest e s' E ->. destruct (process_cases c signer dest s) as [(e & E' & Hc)|(due & _ & _ & _ & Hc)].
    - rewrite E in E'. inversion E'; subst. destruct Hc as [[? _]|[(_ & due & H1 & H2)|[? _]]]; try discriminate.
      rewrite (sum_delete _ signer), H1 in Hle. cbn [default] in Hle. unfold id in Hle. lia.
    - destruct Hc as [[Hc _]|(s'' & Hc)]; congruence. }
  unfold dispatch, run_call. destruct (exec c o (CCl k) s) as [| e s'|] eqn:E; cbn [fst]; try discriminate.
  intros H. inversion H; subst e. clear H. cbn [exec] in E. destruct k; cbn [cl_exec] in E.
  - apply claim_err in E as [[? _]|(_ & [[? _]|(sg & _ & [[? _]|(_ & E)])])]; try discriminate. exact (HP _ _ _ _ E eq_refl).
  - unfold mint_claim in E. apply bind_err_inv in E as [E|(u & s1 & _ & E)]; [destruct o; discriminate E|].
    apply bind_err_inv in E as [E|(t & s2 & _ & E)]; [discriminate E|].
    apply bind_err_inv in E as [E|(t' & s3 & _ & E)]; [|discriminate E].
    unfold plain_add in E. destruct (_ <=? _); [|destruct (c_ovf c)]; discriminate E.
  - apply claim_attest_err in E as [[? _]|(_ & [[? _]|(sg & _ & [[? _]|(_ & E)])])]; try discriminate. exact (HP _ _ _ _ E eq_refl).
  - apply attest_err in E as [[? _]|(a & _ & [[? _]|(sg & _ & [[? _]|(_ & E)])])]; try discriminate. exact (HP _ _ _ _ E eq_refl).
  - unfold move_claim in E. apply bind_err_inv in E as [E|(u & s1 & _ & E)]; [|discriminate E].
    apply ensure_err in E as (_ & E & _). discriminate.
Qed.
Print Assumptions C43_pot_never_underflows.
(** A claim is paid at most once: it is gone afterwards, and as long as nobody mints a claim for the
    address or moves one there, it cannot come back or be paid again. *)
Definition gives_claim (signer : bytes) (x : op) : Prop :=
  (exists o v vs st, x = OCall o (CCl (ClMint signer v vs st))) \/ (exists o old p, x = OCall o (CCl (ClMove old signer p))).
Lemma no_claim_step c s x signer : cl_claims (rt_cl s) !! signer = None -> ~ gives_claim signer x ->
  cl_claims (rt_cl (step c s x)) !! signer = None.
Proof.
  intros Hn Hx. destruct (cl_step c s x) as [E|(o & k & -> & E)]; [rewrite E; auto|].
  destruct k; cbn [cl_exec] in E.
  - apply claim_ok in E as (-> & sg & _ & _ & E). apply process_ok in E as (due & _ & _ & _ & _ & -> & _).
    cbn [cl_claims]. apply lookup_delete_None. auto.
  - apply mint_ok in E as (_ & t & _ & ->). cbn. destruct (decide (who = signer)) as [->|Hd].
    + exfalso. apply Hx. left. eauto.
    + rewrite lookup_insert_ne; auto.
  - apply claim_attest_ok in E as (-> & sg & _ & _ & E). apply process_ok in E as (due & _ & _ & _ & _ & -> & _).
    cbn [cl_claims]. apply lookup_delete_None. auto.
  - apply attest_ev in E as (a & sg & due & _ & _ & _ & _ & _ & -> & _). cbn [cl_claims]. apply lookup_delete_None. auto.
  - apply move_ok in E as (_ & ->). cbn [rt_cl upd_cl set_cl cl_claims]. unfold move_key.
    destruct (cl_claims (rt_cl s) !! old) as [v|]; [|auto].
    destruct (decide (new = signer)) as [->|Hd].
    + exfalso. apply Hx. right. eauto.
    + rewrite lookup_insert_ne by auto. apply lookup_delete_None. auto.
Qed.
(** The payouts of one operation: at most one, authorised by the call *)
(** [sig] is a signature under Ethereum address [signer] of the message naming [dest] and [text] *)
Definition eth_signed (c : cfg) (sig : bytes) (signer : bytes) (dest : acct) (text : bytes) : Prop :=
  exists pk, c_secp c sig (c_keccak c
    (25 :: bytes_of_string "Ethereum Signed Message:"%string ++ 10 ::
     decimal (lenN (c_prefix c ++ to_ascii_hex dest ++ text)) ++ c_prefix c ++ to_ascii_hex dest ++ text)) = Some pk /\
  signer = dropN 12 (c_keccak c pk).
Lemma eth_recover_signed c sig dest text signer :
  eth_recover c sig (to_ascii_hex dest) text = Some signer <-> eth_signed c sig signer dest text.
Proof.
  unfold eth_recover, eth_signed.
  assert (signable_message c (to_ascii_hex dest) text =
    25 :: bytes_of_string "Ethereum Signed Message:"%string ++ 10 ::
     decimal (lenN (c_prefix c ++ to_ascii_hex dest ++ text)) ++ c_prefix c ++ to_ascii_hex dest ++ text) as ->.
  { unfold signable_message, eth_prefix. rewrite !lenN_app, N.add_assoc. rewrite <- app_comm_cons, <- app_assoc. reflexivity. }
  split.
  - destruct (c_secp c sig _) as [pk|]; [|discriminate]. intros H. inversion H. eauto.
  - intros (pk & -> & ->). auto.
Qed.
Definition authorised (c : cfg) (s : rt) (o : origin) (k : cl_call) (dest : acct) (signer : bytes) : Prop :=
  match k with
  | ClClaim d sig => o = NoneO /\ d = dest /\ eth_signed c sig signer dest []
  | ClClaimAttest d sig text => o = NoneO /\ d = dest /\ eth_signed c sig signer dest text
  | ClAttest _ => o = Signed dest /\ cl_preclaims (rt_cl s) !! dest = Some signer
  | _ => False
  end.
Lemma payout c s o k : cl_exec c o k s = Ok tt (step c s (OCall o (CCl k))) ->
  let s' := step c s (OCall o (CCl k)) in
  (rt_ev s' = rt_ev s /\ rt_bal s' = rt_bal s) \/
  exists dest signer due, authorised c s o k dest signer /\
    cl_claims (rt_cl s) !! signer = Some due /\ cl_claims (rt_cl s') = delete signer (cl_claims (rt_cl s)) /\
    cl_total (rt_cl s') + due = cl_total (rt_cl s) /\
    cl_vesting (rt_cl s') = delete signer (cl_vesting (rt_cl s)) /\
    cl_signing (rt_cl s') = delete signer (cl_signing (rt_cl s)) /\
    (forall st, cl_signing (rt_cl s) !! signer = Some st ->
       match k with ClClaimAttest _ _ text | ClAttest text => text = to_text st | _ => False end) /\
    (forall a, free s' a = free s a + if decide (a = dest) then paid c s dest due else 0) /\
    rt_ev s' = EvClaimed dest signer due :: (if paid c s dest due =? 0 then [] else [EvDeposit dest due]) ++ rt_ev s.
Proof.
  cbn zeta. set (s' := step c s (OCall o (CCl k))). intros E. destruct k; cbn [cl_exec] in E.
  - apply claim_ok in E as (-> & sg & Hs & Hst & E). apply process_ok in E as (due & H1 & H2 & H3 & H4 & H5 & H6 & H7 & _).
    right. exists dest, sg, due. rewrite H5. cbn [authorised cl_claims cl_total cl_vesting cl_signing].
    apply eth_recover_signed in Hs. repeat (split; [auto; fail|]). split; [lia|]. repeat (split; [auto; fail|]). try (split; [congruence|]). auto.
  - left. apply mint_ok in E as (_ & t & _ & ->). auto.
  - apply claim_attest_ok in E as (-> & sg & Hs & Hst & E). apply process_ok in E as (due & H1 & H2 & H3 & H4 & H5 & H6 & H7 & _).
    right. exists dest, sg, due. rewrite H5. cbn [authorised cl_claims cl_total cl_vesting cl_signing].
    apply eth_recover_signed in Hs. repeat (split; [auto; fail|]). split; [lia|]. repeat (split; [auto; fail|]). try (split; [exact Hst|]). auto.
  - apply attest_ev in E as (a & sg & due & -> & Hp & Hst & H1 & H2 & H3 & H4 & H5).
    right. exists a, sg, due. rewrite H3. cbn [authorised cl_claims cl_total cl_vesting cl_signing].
    repeat (split; [auto; fail|]). split; [lia|]. repeat (split; [auto; fail|]). try (split; [exact Hst|]). auto.
  - left. apply move_ok in E as (_ & ->). auto.
Qed.
(** A claim event in a step comes from such a payout *)
Lemma claimed_step c s x evs dest signer due : rt_ev (step c s x) = evs ++ rt_ev s -> EvClaimed dest signer due ∈ evs ->
  exists o k, x = OCall o (CCl k) /\ cl_exec c o k s = Ok tt (step c s x) /\
  rt_ev (step c s x) = EvClaimed dest signer due :: (if paid c s dest due =? 0 then [] else [EvDeposit dest due]) ++ rt_ev s.
Proof.
  intros Hev Hin.
  assert (forall s', rt_ev s' = rt_ev s -> evs ++ rt_ev s = rt_ev s' -> False) as Hno.
  { intros s' H1 H2. rewrite H1 in H2. apply (f_equal length) in H2. rewrite app_length in H2.
    destruct evs; [inversion Hin|cbn in H2; lia]. }
  destruct (step_emits c s x) as (evs' & E' & HF). rewrite E' in Hev. apply app_inv_tail in Hev as <-.
  rewrite Forall_forall in HF. pose proof (HF _ Hin) as He.
  destruct x as [o k| | | | | | | | | |]; cbn in He; try contradiction. destruct k; try contradiction. clear He.
  exists o, x. split; [auto|].
  assert (cl_exec c o x s = Ok tt (step c s (OCall o (CCl x)))) as Hx.
  { destruct (step_call c s o (CCl x)) as [(s' & E & Es)|Es]; [rewrite Es; exact E|].
    exfalso. apply (Hno s); congruence. }
  split; [auto|]. destruct (payout c s o x Hx) as [[H1 _]|(d & sg & du & _ & _ & _ & _ & _ & _ & _ & _ & H1)].
  - exfalso. apply (Hno _ H1). auto.
  - rewrite H1. rewrite E' in H1. rewrite app_comm_cons in H1. apply app_inv_tail in H1 as ->.
    apply elem_of_cons in Hin as [Hin|Hin]; [inversion Hin; subst; auto|].
    destruct (_ =? 0); [inversion Hin|]. apply elem_of_list_singleton in Hin. discriminate.
Qed.
Theorem C43_paid_at_most_once : forall c s l dest signer due evs,
  cl_claims (rt_cl s) !! signer = None -> Forall (fun x => ~ gives_claim signer x) l ->
  rt_ev (run c s l) = evs ++ rt_ev s -> ~ EvClaimed dest signer due ∈ evs.
Proof.
  intros c s l dest signer due evs Hn HF. revert s evs Hn. induction HF as [|x l Hx HF IH]; intros s evs Hn Hev.
  { cbn in Hev. destruct evs as [|e evs]; [intros H; inversion H|]. exfalso.
    apply (f_equal length) in Hev. rewrite app_length in Hev. cbn in Hev. lia. }
  rewrite run_cons in Hev. destruct (step_emits c s x) as (e1 & E1 & F1).
  destruct (run_emits c l (step c s x)) as (e2 & E2 & F2).
  assert (evs = e2 ++ e1) as ->.
  { apply (app_inv_tail (rt_ev s)). rewrite <- app_assoc, <- E1, <- E2. auto. }
  intros Hin. apply elem_of_app in Hin as [Hin|Hin].
  { apply (IH (step c s x) e2); auto. apply no_claim_step; auto. }
  destruct (claimed_step c s x e1 dest signer due E1 Hin) as (o & k & -> & E & Ev).
  destruct (payout c s o k E) as [[H1 _]|(d & sg & du & _ & H1 & _ & _ & _ & _ & _ & _ & H2)].
  - rewrite H1 in Ev. apply (f_equal length) in Ev. cbn in Ev. rewrite app_length in Ev. lia.
  - rewrite Ev in H2. inversion H2; subst. congruence.
Qed.
Print Assumptions C43_paid_at_most_once.
(** After the payout the claim is gone and the total is lower by its amount. *)
Theorem C43_payout_consumes_the_claim : forall c s x dest signer due evs,
  rt_ev (step c s x) = evs ++ rt_ev s -> EvClaimed dest signer due ∈ evs ->
  cl_claims (rt_cl s) !! signer = Some due /\
  cl_claims (rt_cl (step c s x)) = delete signer (cl_claims (rt_cl s)) /\
  cl_total (rt_cl (step c s x)) + due = cl_total (rt_cl s) /\
  cl_vesting (rt_cl (step c s x)) = delete signer (cl_vesting (rt_cl s)) /\
  cl_signing (rt_cl (step c s x)) = delete signer (cl_signing (rt_cl s)).
Proof.
  intros c s x dest signer due evs Hev Hin.
  destruct (claimed_step c s x evs dest signer due Hev Hin) as (o & k & -> & E & Ev).
  destruct (payout c s o k E) as [[H1 _]|(d & sg & du & _ & H1 & H2 & H3 & H4 & H5 & _ & _ & H6)].
  - rewrite H1 in Ev. apply (f_equal length) in Ev. cbn in Ev. rewrite app_length in Ev. lia.
  - rewrite Ev in H6. inversion H6; subst. auto.
Qed.
Print Assumptions C43_payout_consumes_the_claim.
(** The total does not equal the open claims: minting twice for one address, or moving a claim onto
    an open one, keeps the lost claim in the total. *)
Theorem C43_total_equals_open_claims_refuted : exists c g,
  (let s := run c (genesis_state g) [do_mint 1 100; do_mint 1 70] in
   open_claims s = 70 /\ cl_total (rt_cl s) = 170) /\
  (let s := run c (genesis_state g) [do_mint 1 100; do_mint 2 70; OCall Root (CCl (ClMove (eth 1) (eth 2) None))] in
   open_claims s = 100 /\ cl_total (rt_cl s) = 170).
Proof. exists (cfg_cl true 5), (gen_cl [] []). vm_compute. auto. Qed.
Print Assumptions C43_total_equals_open_claims_refuted.
(** Without overflow checks the total can wrap, and then an open claim cannot be paid. *)
Theorem C43_wrapped_total_refuted : exists c g l,
  let s := run c (genesis_state g) l in
  c_ovf c = false /\ cl_claims (rt_cl s) !! eth 1 = Some 900 /\ cl_total (rt_cl s) < 900 /\
  (dispatch c NoneO (CCl (ClClaim alice (toy_sign c 1 alice []))) s).1 = Failed PotUnderflow.
Proof.
  exists (cfg_cl false 5), (gen_cl [] []), [do_mint 1 900; do_mint 2 200]. vm_compute. auto.
Qed.
Print Assumptions C43_wrapped_total_refuted.
(** A history with two payouts. *)
Definition history_claims : list op := [do_mint 1 100; do_claim true 5 1 alice; do_claim true 5 1 bob; do_mint 2 70; do_claim true 5 2 bob].
Example C43_example :
  let c := cfg_cl true 5 in let g := gen_cl [(eth 3, 30, None, None)] [] in
  let s := run c (genesis_state g) history_claims in
  no_wrap c g history_claims /\ total claimed_ev (rt_ev s) = 170 /\ cl_total (rt_cl s) = 30 /\ open_claims s = 30 /\
  genesis_claims g + minted c (genesis_state g) history_claims = 200 /\ free s alice = 100 /\ free s bob = 70 /\
  rt_ev s = [EvClaimed bob (eth 2) 70; EvDeposit bob 70; EvClaimed alice (eth 1) 100; EvDeposit alice 100].
Proof. split; [left; reflexivity|]. vm_compute. auto 10. Qed.

(** ** C44 *)
(** Whoever is paid was named: by the signature of the claim's Ethereum key over the message naming
    the paid account, or by the registered preclaim of the signing account. *)
Theorem C44_payout_goes_to_the_named_account : forall c s x dest signer due evs,
  rt_ev (step c s x) = evs ++ rt_ev s -> EvClaimed dest signer due ∈ evs ->
  exists o k, x = OCall o (CCl k) /\ authorised c s o k dest signer /\
  (forall a, free (step c s x) a = free s a + if decide (a = dest) then paid c s dest due else 0).
Proof.
  intros c s x dest signer due evs Hev Hin.
  destruct (claimed_step c s x evs dest signer due Hev Hin) as (o & k & -> & E & Ev).
  destruct (payout c s o k E) as [[H1 _]|(d & sg & du & H0 & H1 & H2 & H3 & H4 & H5 & _ & H7 & H6)].
  - rewrite H1 in Ev. apply (f_equal length) in Ev. cbn in Ev. rewrite app_length in Ev. lia.
  - rewrite Ev in H6. inversion H6; subst. eauto.
Qed.
Print Assumptions C44_payout_goes_to_the_named_account.
(** A claims call moves balances only together with such an event: no payout without a claim. *)
Theorem C44_no_payout_without_claim : forall c s o k,
  let s' := step c s (OCall o (CCl k)) in
  (exists dest signer due evs, rt_ev s' = evs ++ rt_ev s /\ EvClaimed dest signer due ∈ evs) \/
  (forall a, free s' a = free s a).
Proof.
  intros c s o k. cbn zeta. destruct (step_call c s o (CCl k)) as [(s1 & E & Es)|Es]; [|right; rewrite Es; auto].
  assert (cl_exec c o k s = Ok tt (step c s (OCall o (CCl k)))) as Hx by (rewrite Es; exact E).
  destruct (payout c s o k Hx) as [[_ H1]|(d & sg & du & _ & _ & _ & _ & _ & _ & _ & _ & H6)].
  - right. intros a. unfold free. rewrite H1. auto.
  - left. exists d, sg, du. eexists (_ :: _). split; [exact H6|]. left.
Qed.
Print Assumptions C44_no_payout_without_claim.
(** The amount arrives in full, unless it is below the existential deposit and the account is empty,
    or it does not fit the balance type. *)
Theorem C44_amount_arrives : forall c s dest due,
  free s dest <> 0 \/ c_ed c <= due -> free s dest + due <= c_bal_max c -> paid c s dest due = due.
Proof.
  intros c s dest due H1 H2. unfold paid.
  destruct (N.ltb_spec (c_bal_max c) (free s dest + due)); [lia|]. rewrite orb_false_r.
  destruct (N.eqb_spec (free s dest) 0), (N.ltb_spec due (c_ed c)); cbn [andb]; auto. lia.
Qed.
Print Assumptions C44_amount_arrives.
(** A small claim is consumed and pays nothing. *)
Theorem C44_small_claim_is_lost_refuted : exists c g l,
  let s := run c (genesis_state g) l in let r := dispatch c NoneO (CCl (ClClaim alice (toy_sign c 1 alice []))) s in
  cl_claims (rt_cl s) !! eth 1 = Some 4 /\ r.1 = Success /\ free r.2 alice = 0 /\
  cl_claims (rt_cl r.2) !! eth 1 = None /\ rt_ev r.2 = [EvClaimed alice (eth 1) 4].
Proof. exists (cfg_cl true 5), (gen_cl [] []), [do_mint 1 4]. vm_compute. auto 10. Qed.
Print Assumptions C44_small_claim_is_lost_refuted.
(** A signature for one account does not pay another one. *)
Example C44_negative : let c := cfg_cl true 5 in let s := run c (genesis_state (gen_cl [] [])) [do_mint 1 100] in
  (dispatch c NoneO (CCl (ClClaim bob (toy_sign c 1 alice []))) s).1 = Failed InvalidEthereumSignature /\
  (dispatch c NoneO (CCl (ClClaim alice (toy_sign c 1 alice []))) s).1 = Success /\
  (dispatch c (Signed alice) (CCl (ClClaim alice (toy_sign c 1 alice []))) s).1 = Failed BadOrigin.
Proof. vm_compute. auto. Qed.

(** ** C45 *)
(** A claim with a required statement is paid only by a call carrying exactly its text; with
    [claim_attest] the text is part of the signed message. *)
Theorem C45_statement_is_required : forall c s x dest signer due evs st,
  cl_signing (rt_cl s) !! signer = Some st ->
  rt_ev (step c s x) = evs ++ rt_ev s -> EvClaimed dest signer due ∈ evs ->
  (exists sig, x = OCall NoneO (CCl (ClClaimAttest dest sig (to_text st))) /\ eth_signed c sig signer dest (to_text st)) \/
  (x = OCall (Signed dest) (CCl (ClAttest (to_text st))) /\ cl_preclaims (rt_cl s) !! dest = Some signer).
Proof.
  intros c s x dest signer due evs st Hst Hev Hin.
  destruct (claimed_step c s x evs dest signer due Hev Hin) as (o & k & -> & E & Ev).
  destruct (payout c s o k E) as [[H1 _]|(d & sg & du & H0 & _ & _ & _ & _ & _ & H5 & _ & H6)].
  - rewrite H1 in Ev. apply (f_equal length) in Ev. cbn in Ev. rewrite app_length in Ev. lia.
  - rewrite Ev in H6. inversion H6; subst d sg du. specialize (H5 st Hst).
    destruct k; cbn [authorised] in H0; try contradiction.
    + subst text. destruct H0 as (-> & -> & H0). left. eauto.
    + subst text. destruct H0 as (-> & H0). right. auto.
Qed.
Print Assumptions C45_statement_is_required.
(** The requirement stays until the claim is paid, moved away or re-minted with another one:
    no other operation drops it. *)
Theorem C45_requirement_is_not_dropped : forall c s x signer st,
  cl_signing (rt_cl s) !! signer = Some st -> cl_signing (rt_cl (step c s x)) !! signer <> Some st ->
  (exists dest due evs, rt_ev (step c s x) = evs ++ rt_ev s /\ EvClaimed dest signer due ∈ evs) \/
  (exists v vs st', x = OCall Root (CCl (ClMint signer v vs (Some st')))) \/
  (exists o old new p, x = OCall o (CCl (ClMove old new p)) /\ (signer = old \/ signer = new) /\ (c_move_origin c o = true \/ o = Root)).
Proof.
  intros c s x signer st Hst Hn. destruct (cl_step c s x) as [E|(o & k & -> & E)]; [congruence|].
  destruct (payout c s o k E) as [[H1 _]|(d & sg & du & H0 & _ & _ & _ & _ & H4 & H5 & _ & H6)].
  - destruct k; cbn [cl_exec] in E.
    + apply claim_ok in E as (_ & sg & _ & _ & E). apply process_ok in E as (due & _ & _ & _ & _ & _ & _ & H7 & _).
      rewrite H1 in H7. apply (f_equal length) in H7. cbn in H7. rewrite app_length in H7. lia.
    + apply mint_ok in E as (-> & t & _ & Es). rewrite Es in Hn. cbn in Hn.
      destruct st0 as [st'|]; [|congruence]. destruct (decide (who = signer)) as [->|Hd]; [right; left; eauto|].
      rewrite lookup_insert_ne in Hn by auto. congruence.
    + apply claim_attest_ok in E as (_ & sg & _ & _ & E). apply process_ok in E as (due & _ & _ & _ & _ & _ & _ & H7 & _).
      rewrite H1 in H7. apply (f_equal length) in H7. cbn in H7. rewrite app_length in H7. lia.
    + apply attest_ev in E as (a & sg & due & _ & _ & _ & _ & _ & _ & _ & H7).
      rewrite H1 in H7. apply (f_equal length) in H7. cbn in H7. rewrite app_length in H7. lia.
    + apply move_ok in E as (Ho & Es). rewrite Es in Hn. unfold upd_cl, move_key in Hn. cbn [rt_cl set_cl cl_signing] in Hn.
      right. right. exists o, old, new, pre. split; [auto|]. split; [|auto].
      destruct (cl_signing (rt_cl s) !! old) as [st'|] eqn:Eo; [|congruence].
      destruct (decide (signer = new)); [auto|]. destruct (decide (signer = old)); [auto|].
      rewrite lookup_insert_ne, lookup_delete_ne in Hn by auto. congruence.
  - left. destruct (decide (sg = signer)) as [->|Hd].
    + exists d, du. eexists (_ :: _). split; [exact H6|]. left.
    + rewrite H4, lookup_delete_ne in Hn by auto. congruence.
Qed.
Print Assumptions C45_requirement_is_not_dropped.
Example C45_example : let c := cfg_cl true 5 in
  let s := genesis_state (gen_cl [(eth 1, 100, Some bob, Some StSaft)] []) in
  (dispatch c NoneO (CCl (ClClaim alice (toy_sign c 1 alice []))) s).1 = Failed InvalidStatement /\
  (dispatch c NoneO (CCl (ClClaimAttest alice (toy_sign c 1 alice (to_text StRegular)) (to_text StRegular))) s).1 = Failed InvalidStatement /\
  (dispatch c NoneO (CCl (ClClaimAttest alice (toy_sign c 1 alice []) (to_text StSaft))) s).1 = Failed InvalidEthereumSignature /\
  (dispatch c NoneO (CCl (ClClaimAttest alice (toy_sign c 1 alice (to_text StSaft)) (to_text StSaft))) s).1 = Success /\
  (dispatch c (Signed bob) (CCl (ClAttest (to_text StRegular))) s).1 = Failed InvalidStatement /\
  (dispatch c (Signed carol) (CCl (ClAttest (to_text StSaft))) s).1 = Failed SenderHasNoClaim /\
  (dispatch c (Signed bob) (CCl (ClAttest (to_text StSaft))) s).1 = Success.
Proof. vm_compute. auto 10. Qed.

(** ** C46 *)
(** The account an unsigned call wants to pay *)
Definition unsigned_dest (k : cl_call) (dest : acct) : Prop :=
  (exists sig, k = ClClaim dest sig) \/ (exists sig text, k = ClClaimAttest dest sig text).
Lemma pot_suffices c g l signer due : no_wrap c g l -> let s := run c (genesis_state g) l in
  cl_claims (rt_cl s) !! signer = Some due -> due <= cl_total (rt_cl s).
Proof.
  intros Hw. cbn zeta. intros H. destruct (C43_claims_ledger c g l Hw) as [_ Hle].
  change (open_claims ?s) with (sum_map (cl_claims (rt_cl s))) in Hle.
  rewrite (sum_delete _ signer), H in Hle. cbn [default] in Hle. unfold id in Hle. lia.
Qed.
Lemma validate_ok c s k tag : validate_unsigned c s k = inr tag ->
  exists dest signer due, unsigned_dest k dest /\ tag = provides_tag signer /\ cl_claims (rt_cl s) !! signer = Some due /\
  authorised c s NoneO k dest signer /\ cl_exec c NoneO k s = process_claim c signer dest s.
Proof.
  unfold validate_unsigned. destruct k; cbn [cl_exec]; try discriminate.
  - destruct (eth_recover c sig (to_ascii_hex dest) []) as [sg|] eqn:Er; [|discriminate].
    destruct (cl_claims (rt_cl s) !! sg) as [due|] eqn:Ec; [|discriminate].
    destruct (cl_signing (rt_cl s) !! sg) eqn:Es; [discriminate|]. intros H. inversion H.
    exists dest, sg, due. cbn [authorised]. rewrite <- eth_recover_signed. split; [left; eauto|]. repeat (split; [auto|]). apply claim_fw; auto.
  - destruct (eth_recover c sig (to_ascii_hex dest) text) as [sg|] eqn:Er; [|discriminate].
    destruct (cl_claims (rt_cl s) !! sg) as [due|] eqn:Ec; [|discriminate].
    destruct (cl_signing (rt_cl s) !! sg) as [st|] eqn:Es; [|discriminate].
    destruct (beq (to_text st) text) eqn:Eb; [|discriminate]. apply beq_true in Eb. intros H. inversion H.
    exists dest, sg, due. cbn [authorised]. rewrite <- eth_recover_signed. split; [right; eauto|]. repeat (split; [auto|]). apply claim_attest_fw; auto.
    intros st' E. congruence.
Qed.
Theorem C46_accepted_calls_dispatch : forall c g l k tag, no_wrap c g l ->
  let s := run c (genesis_state g) l in validate_unsigned c s k = inr tag ->
  exists dest signer, unsigned_dest k dest /\ authorised c s NoneO k dest signer /\ tag = provides_tag signer /\
  let r := (dispatch c NoneO (CCl k) s).1 in
  (r = Success \/
   r = Failed VestedBalanceExists /\ is_Some (cl_vesting (rt_cl s) !! signer) /\ has_vesting s dest = true \/
   r = Panicked /\ exists locked start, cl_vesting (rt_cl s) !! signer = Some (locked, 0, start) /\ locked <> 0).
Proof.
  intros c g l k tag Hw. cbn zeta. set (s := run c (genesis_state g) l). intros Hv.
  apply validate_ok in Hv as (dest & sg & due & Hd & -> & Hc & Ha & He).
  exists dest, sg. repeat (split; [auto|]). unfold dispatch, run_call. cbn [exec]. rewrite He.
  destruct (process_cases c sg dest s) as [(e & E & Hcases)|(due' & E1 & _ & E2 & Hcases)].
  - rewrite E. cbn [fst]. destruct Hcases as [[_ Hn]|[(_ & due' & H1 & H2)|(-> & H1 & H2)]].
    + congruence.
    + pose proof (pot_suffices c g l sg due' Hw H1). cbn zeta in *. subst s. lia.
    + right. left. auto.
  - destruct Hcases as [[-> Hz]|(s' & ->)]; cbn [fst]; auto.
Qed.
Print Assumptions C46_accepted_calls_dispatch.
(** Equal tags mean equal Ethereum addresses; of two accepted calls with one tag, executing one makes
    the other invalid. *)
Theorem C46_tags_identify_addresses : forall a b, provides_tag a = provides_tag b <-> a = b.
Proof. intros a b. unfold provides_tag. split; [|intros ->; auto]. intros H. inversion H as [H1]. auto. Qed.
Print Assumptions C46_tags_identify_addresses.
Theorem C46_same_tag_conflicts : forall c s k1 k2 tag,
  validate_unsigned c s k1 = inr tag -> validate_unsigned c s k2 = inr tag ->
  (dispatch c NoneO (CCl k1) s).1 = Success ->
  validate_unsigned c (dispatch c NoneO (CCl k1) s).2 k2 = inl VSignerHasNoClaim.
Proof.
  intros c s k1 k2 tag H1 H2 H3. apply validate_ok in H1 as (d1 & sg & due & _ & -> & _ & _ & He).
  assert (cl_claims (rt_cl (dispatch c NoneO (CCl k1) s).2) !! sg = None) as Hn.
  { destruct (dispatch c NoneO (CCl k1) s) as [r s'] eqn:H4. cbn [fst snd] in *. subst r. apply run_call_ok in H4. cbn [exec] in H4. rewrite He in H4. apply process_ok in H4 as (due' & _ & _ & _ & _ & E & _).
    rewrite E. apply lookup_delete. }
  revert H2. unfold validate_unsigned. destruct k2; try discriminate.
  - destruct (eth_recover c sig (to_ascii_hex dest) []) as [sg2|] eqn:Er; [|discriminate].
    destruct (cl_claims (rt_cl s) !! sg2); [|discriminate]. intros Ht.
    assert (sg2 = sg) as ->. { destruct (cl_signing (rt_cl s) !! sg2); [discriminate|]. apply C46_tags_identify_addresses. congruence. }
    rewrite Hn. auto.
  - destruct (eth_recover c sig (to_ascii_hex dest) text) as [sg2|] eqn:Er; [|discriminate].
    destruct (cl_claims (rt_cl s) !! sg2); [|discriminate]. intros Ht.
    assert (sg2 = sg) as ->.
    { destruct (cl_signing (rt_cl s) !! sg2) as [st|]; [|discriminate]. destruct (beq _ _); [|discriminate].
      apply C46_tags_identify_addresses. congruence. }
    rewrite Hn. auto.
Qed.
Print Assumptions C46_same_tag_conflicts.
(** The converse fails: [claim_attest] for a claim without statement dispatches but is not accepted. *)
Theorem C46_validation_is_complete_refuted : exists c g k,
  (dispatch c NoneO (CCl k) (genesis_state g)).1 = Success /\
  validate_unsigned c (genesis_state g) k = inl VInvalidStatement.
Proof.
  exists (cfg_cl true 5), (gen_cl [(eth 1, 100, None, None)] []).
  exists (ClClaimAttest alice (toy_sign (cfg_cl true 5) 1 alice (to_text StSaft)) (to_text StSaft)). vm_compute. auto.
Qed.
Print Assumptions C46_validation_is_complete_refuted.
Definition claim1 : cl_call := ClClaim alice (toy_sign (cfg_cl true 5) 1 alice []).
Example C46_example : let c := cfg_cl true 5 in
  (let s := genesis_state (gen_cl [(eth 1, 100, None, None)] []) in
   validate_unsigned c s claim1 = inr (provides_tag (eth 1)) /\ (dispatch c NoneO (CCl claim1) s).1 = Success) /\
  (let s := run c (genesis_state (gen_cl [(eth 1, 100, None, None)] [(eth 1, (100, 1, 0))])) [OMint alice 50; OAddVesting alice 20 1 0] in
   validate_unsigned c s claim1 = inr (provides_tag (eth 1)) /\ (dispatch c NoneO (CCl claim1) s).1 = Failed VestedBalanceExists).
Proof. vm_compute. auto. Qed.

(** ** C47 *)
Theorem C47_stale_preclaim_passes_and_fails : forall c s a signer text,
  cl_preclaims (rt_cl s) !! a = Some signer -> cl_claims (rt_cl s) !! signer = None -> cl_signing (rt_cl s) !! signer = None ->
  prevalidate s a (ClAttest text) = None /\
  dispatch c (Signed a) (CCl (ClAttest text)) s = (Failed SignerHasNoClaim, s).
Proof.
  intros c s a signer text H1 H2 H3. split; [cbn; rewrite H1, H3; auto|].
  unfold dispatch, run_call. cbn [exec cl_exec]. rewrite (attest_fw c a text s signer H1) by (intros st E; congruence).
  rewrite (bind_err _ _ s SignerHasNoClaim s); [auto|].
  unfold process_claim. rewrite (bind_fw _ _ s (cl_claims (rt_cl s) !! signer) s) by reflexivity. rewrite H2. reflexivity.
Qed.
Print Assumptions C47_stale_preclaim_passes_and_fails.
(** This goes on forever, unless an authorised call gives the address a claim or moves the preclaim. *)
Theorem C47_stale_preclaim_stays : forall c s l (a : acct) signer,
  cl_preclaims (rt_cl s) !! a = Some signer -> cl_claims (rt_cl s) !! signer = None -> cl_signing (rt_cl s) !! signer = None ->
  Forall (fun x => ~ gives_claim signer x /\ forall o new, x <> OCall o (CCl (ClMove signer new (Some a)))) l ->
  let s' := run c s l in
  cl_preclaims (rt_cl s') !! a = Some signer /\ cl_claims (rt_cl s') !! signer = None /\ cl_signing (rt_cl s') !! signer = None.
Proof.
  intros c s l a signer H1 H2 H3 HF. revert s H1 H2 H3. induction HF as [|x l [Hg Hm] HF IH]; intros s H1 H2 H3; [auto|].
  cbn zeta. rewrite run_cons. apply IH; clear IH HF.
  - destruct (cl_step c s x) as [E|(o & k & -> & E)]; [congruence|]. destruct k; cbn [cl_exec] in E.
    + apply claim_ok in E as (-> & sg & _ & _ & E). apply process_ok in E as (due & _ & _ & _ & _ & -> & _). auto.
    + apply mint_ok in E as (_ & t & _ & ->). auto.
    + apply claim_attest_ok in E as (-> & sg & _ & _ & E). apply process_ok in E as (due & _ & _ & _ & _ & -> & _). auto.
    + apply attest_ev in E as (b & sg & due & -> & Hp & _ & Hc & _ & -> & _). cbn [cl_preclaims].
      destruct (decide (b = a)) as [->|Hd]; [congruence|]. rewrite lookup_delete_ne; auto.
    + apply move_ok in E as (_ & ->). cbn [upd_cl rt_cl set_cl cl_preclaims]. destruct pre as [p|]; [|auto].
      destruct (cl_preclaims (rt_cl s) !! p) as [b|] eqn:Ep; [|auto]. destruct (beq b old) eqn:Eb; [|auto]. apply beq_true in Eb as ->.
      destruct (decide (p = a)) as [->|Hd]; [|rewrite lookup_insert_ne; auto].
      rewrite H1 in Ep. inversion Ep; subst. exfalso. eapply Hm. reflexivity.
  - apply no_claim_step; auto.
  - destruct (cl_step c s x) as [E|(o & k & -> & E)]; [congruence|]. destruct k; cbn [cl_exec] in E.
    + apply claim_ok in E as (-> & sg & _ & _ & E). apply process_ok in E as (due & _ & _ & _ & _ & -> & _). cbn [cl_signing]. apply lookup_delete_None. auto.
    + apply mint_ok in E as (_ & t & _ & ->). cbn. destruct st; [|auto]. destruct (decide (who = signer)) as [->|Hd].
      * exfalso. apply Hg. left. eauto.
      * rewrite lookup_insert_ne; auto.
    + apply claim_attest_ok in E as (-> & sg & _ & _ & E). apply process_ok in E as (due & _ & _ & _ & _ & -> & _). cbn [cl_signing]. apply lookup_delete_None. auto.
    + apply attest_ev in E as (b & sg & due & -> & Hp & _ & Hc & _ & -> & _). cbn [cl_signing]. apply lookup_delete_None. auto.
    + apply move_ok in E as (_ & ->). cbn [rt_cl upd_cl set_cl cl_signing]. unfold move_key.
      destruct (cl_signing (rt_cl s) !! old) as [v|]; [|auto]. destruct (decide (new = signer)) as [->|Hd].
      * exfalso. apply Hg. right. eauto.
      * rewrite lookup_insert_ne by auto. apply lookup_delete_None. auto.
Qed.
Print Assumptions C47_stale_preclaim_stays.
(** Where the claim exists, a prevalidated [attest] can only fail like a validated unsigned claim. *)
Theorem C47_prevalidated_attest_with_claim : forall c g l a text signer due, no_wrap c g l ->
  let s := run c (genesis_state g) l in
  prevalidate s a (ClAttest text) = None -> cl_preclaims (rt_cl s) !! a = Some signer -> cl_claims (rt_cl s) !! signer = Some due ->
  let r := (dispatch c (Signed a) (CCl (ClAttest text)) s).1 in
  (r = Success \/
   r = Failed VestedBalanceExists /\ is_Some (cl_vesting (rt_cl s) !! signer) /\ has_vesting s a = true \/
   r = Panicked /\ exists locked start, cl_vesting (rt_cl s) !! signer = Some (locked, 0, start) /\ locked <> 0).
Proof.
  intros c g l a text sg due Hw. cbn zeta. set (s := run c (genesis_state g) l). intros Hv Hp Hc.
  assert (required_text s sg text) as Hr.
  { intros st E. cbn in Hv. rewrite Hp, E in Hv. destruct (beq text (to_text st)) eqn:Eb; [|discriminate]. apply beq_true in Eb. auto. }
  unfold dispatch, run_call. cbn [exec cl_exec]. rewrite (attest_fw c a text s sg Hp Hr).
  destruct (process_cases c sg a s) as [(e & E & Hcases)|(due' & E1 & _ & E2 & Hcases)].
  - rewrite (bind_err _ _ _ _ _ E). cbn [fst]. destruct Hcases as [[_ Hn]|[(_ & due' & H1 & H2)|(-> & H1 & H2)]].
    + congruence.
    + pose proof (pot_suffices c g l sg due' Hw H1). cbn zeta in *. subst s. lia.
    + right. left. auto.
  - destruct Hcases as [[E Hz]|(s' & E)].
    + rewrite (bind_panic _ _ _ E). auto.
    + rewrite (bind_fw _ _ _ _ _ E). auto.
Qed.
Print Assumptions C47_prevalidated_attest_with_claim.
(** So prevalidation does not imply success; the bad state is reached by an ordinary claim. *)
Theorem C47_prevalidated_attest_succeeds_refuted : exists c g l a text,
  let s := run c (genesis_state g) l in
  reachable c g s /\ prevalidate s a (ClAttest text) = None /\
  dispatch c (Signed a) (CCl (ClAttest text)) s = (Failed SignerHasNoClaim, s).
Proof.
  exists (cfg_cl true 5), (gen_cl [(eth 1, 100, Some bob, None)] []), [do_claim true 5 1 alice], bob, [].
  cbn zeta. split; [eexists; reflexivity|]. apply (C47_stale_preclaim_passes_and_fails _ _ _ (eth 1)); vm_compute; auto.
Qed.
Print Assumptions C47_prevalidated_attest_succeeds_refuted.

(** ** C48 *)
(** Exactly when a call of the pallet panics. *)
Definition text_of (k : cl_call) : bytes := match k with ClClaimAttest _ _ t | ClAttest t => t | _ => [] end.
Theorem C48_panic_iff : forall c s o k,
  (dispatch c o (CCl k) s).1 = Panicked <->
  (exists dest signer due locked start, authorised c s o k dest signer /\
     (forall st, cl_signing (rt_cl s) !! signer = Some st -> text_of k = to_text st) /\
     cl_claims (rt_cl s) !! signer = Some due /\ due <= cl_total (rt_cl s) /\
     cl_vesting (rt_cl s) !! signer = Some (locked, 0, start) /\ locked <> 0 /\ has_vesting s dest = false) \/
  (exists who v vs st, k = ClMint who v vs st /\ o = Root /\ c_ovf c = true /\ c_bal_max c < cl_total (rt_cl s) + v).
Proof.
  assert (forall st, to_text st <> []) as Hne by (intros []; vm_compute; discriminate).
  intros c s o k.
  assert (forall signer dest, process_claim c signer dest s = Panic <-> exists due locked start,
    cl_claims (rt_cl s) !! signer = Some due /\ due <= cl_total (rt_cl s) /\
    cl_vesting (rt_cl s) !! signer = Some (locked, 0, start) /\ locked <> 0 /\ has_vesting s dest = false) as HP.
  { intros signer dest. split.
    - intros E. destruct (process_cases c signer dest s) as [(e & E' & _)|(due & H1 & H2 & H3 & Hc)]; [congruence|].
      destruct Hc as [(_ & l & st & Hv & Hl)|(s' & E')]; [|congruence]. exists due, l, st. repeat (split; [auto|]). apply H3. eauto.
    - intros (due & l & st & H1 & H2 & H3 & H4 & H5).
      destruct (process_cases c signer dest s) as [(e & E & Hc)|(due' & H1' & H2' & H3' & Hc)].
      + destruct Hc as [[_ Hc]|[(_ & d & Hc & Hl)|(_ & _ & Hc)]]; [congruence| |congruence].
        rewrite H1 in Hc. inversion Hc; subst. lia.
      + destruct Hc as [[Hc _]|(s' & E)]; [auto|]. apply process_ok in E as (d & _ & _ & _ & Hz & _). exfalso. eapply H4, Hz. eauto. }
  assert ((dispatch c o (CCl k) s).1 = Panicked <-> cl_exec c o k s = Panic) as ->.
  { unfold dispatch, run_call. cbn [exec]. destruct (cl_exec c o k s); cbn [fst]; split; intros H; auto; discriminate. }
  split.
  - intros E. destruct k; cbn [cl_exec text_of authorised] in *.
    + apply claim_panic in E as (-> & sg & Hs & Hst & E). apply HP in E as (due & l & st & E).
      left. exists dest, sg, due, l, st. rewrite <- eth_recover_signed. split; [auto|]. split; [congruence|auto].
    + right. exists who, value, vs, st. split; [auto|]. revert E. unfold mint_claim. destruct o; try discriminate.
      rewrite (bind_fw _ _ s tt s) by reflexivity. rewrite (bind_fw _ _ s (cl_total (rt_cl s)) s) by reflexivity.
      unfold plain_add. destruct (N.leb_spec (cl_total (rt_cl s) + value) (c_bal_max c)); [discriminate|].
      destruct (c_ovf c); [auto|discriminate].
    + apply claim_attest_panic in E as (-> & sg & Hs & Hst & E). apply HP in E as (due & l & st & E).
      left. exists dest, sg, due, l, st. rewrite <- eth_recover_signed. split; [auto|]. split; [exact Hst|auto].
    + apply attest_panic in E as (a & sg & -> & Hs & Hst & E). apply HP in E as (due & l & st & E).
      left. exists a, sg, due, l, st. split; [auto|]. split; [exact Hst|auto].
    + revert E. unfold move_claim. unfold bind, ensure. destruct (_ || _); discriminate.
  - intros [(dest & sg & due & l & st & Ha & Ht & E)|(who & v & vs & st & -> & -> & Ho & Hv)].
    + assert (process_claim c sg dest s = Panic) as E' by (apply HP; eauto).
      destruct k; cbn [cl_exec authorised text_of] in *; try contradiction.
      * destruct Ha as (-> & -> & Ha). apply eth_recover_signed in Ha. rewrite (claim_fw c dest sig s sg Ha); [auto|].
        destruct (cl_signing (rt_cl s) !! sg) as [x|] eqn:Ex; [|auto]. exfalso. specialize (Ht x eq_refl). exact (Hne x (eq_sym Ht)).
      * destruct Ha as (-> & -> & Ha). apply eth_recover_signed in Ha. rewrite (claim_attest_fw c dest sig text s sg Ha); auto.
      * destruct Ha as (-> & Ha). rewrite (attest_fw c dest text s sg Ha Ht). apply bind_panic. auto.
    + cbn [cl_exec]. unfold mint_claim. rewrite (bind_fw _ _ s tt s) by reflexivity.
      rewrite (bind_fw _ _ s (cl_total (rt_cl s)) s) by reflexivity. unfold plain_add.
      destruct (N.leb_spec (cl_total (rt_cl s) + v) (c_bal_max c)); [lia|]. rewrite Ho. reflexivity.
Qed.
Print Assumptions C48_panic_iff.
(** Both [mint_claim] and the genesis configuration can store such a schedule; the panicking call
    passes pool validation. *)
Theorem C48_validated_panic_is_reachable : exists c k,
  (exists l, let s := run c (genesis_state (gen_cl [] [])) l in
     validate_unsigned c s k = inr (provides_tag (eth 1)) /\ (dispatch c NoneO (CCl k) s).1 = Panicked) /\
  (exists g, validate_unsigned c (genesis_state g) k = inr (provides_tag (eth 1)) /\ (dispatch c NoneO (CCl k) (genesis_state g)).1 = Panicked).
Proof.
  exists (cfg_cl true 5), claim1. split.
  - exists [OCall Root (CCl (ClMint (eth 1) 100 (Some (50, 0, 0)) None))]. vm_compute. auto.
  - exists (gen_cl [(eth 1, 100, None, None)] [(eth 1, (50, 0, 0))]). vm_compute. auto.
Qed.
Print Assumptions C48_validated_panic_is_reachable.

(** ** C49 *)
Lemma move_key_spec {A} (old new : bytes) (m : gmap bytes A) : old <> new ->
  move_key old new m !! old = None /\
  move_key old new m !! new = (match m !! old with Some x => Some x | None => m !! new end) /\
  forall a : bytes, a <> old -> a <> new -> move_key old new m !! a = m !! a.
Proof.
  intros Hd. unfold move_key. destruct (m !! old) as [x|] eqn:E.
  - split; [rewrite lookup_insert_ne by auto; apply lookup_delete|]. split; [apply lookup_insert|].
    intros a H1 H2. rewrite lookup_insert_ne, lookup_delete_ne by auto. auto.
  - auto.
Qed.
Lemma move_key_id {A} (old : bytes) (m : gmap bytes A) : move_key old old m = m.
Proof. unfold move_key. destruct (m !! old) eqn:E; [|auto]. rewrite insert_delete_insert. apply insert_id. auto. Qed.
Theorem C49_move_claim : forall c s o old new pre,
  (c_move_origin c o = true \/ o = Root) ->
  let r := dispatch c o (CCl (ClMove old new pre)) s in let k := rt_cl s in let k' := rt_cl r.2 in
  r.1 = Success /\ cl_total k' = cl_total k /\ rt_bal r.2 = rt_bal s /\ rt_vest r.2 = rt_vest s /\ rt_ev r.2 = rt_ev s /\
  (old = new -> cl_claims k' = cl_claims k /\ cl_vesting k' = cl_vesting k /\ cl_signing k' = cl_signing k) /\
  (old <> new ->
     (cl_claims k' !! old = None /\ cl_vesting k' !! old = None /\ cl_signing k' !! old = None) /\
     (cl_claims k' !! new = (match cl_claims k !! old with Some x => Some x | None => cl_claims k !! new end) /\
      cl_vesting k' !! new = (match cl_vesting k !! old with Some x => Some x | None => cl_vesting k !! new end) /\
      cl_signing k' !! new = (match cl_signing k !! old with Some x => Some x | None => cl_signing k !! new end)) /\
     (forall a : bytes, a <> old -> a <> new ->
        cl_claims k' !! a = cl_claims k !! a /\ cl_vesting k' !! a = cl_vesting k !! a /\ cl_signing k' !! a = cl_signing k !! a)) /\
  (forall p : acct, cl_preclaims k' !! p =
     if decide (pre = Some p /\ cl_preclaims k !! p = Some old) then Some new else cl_preclaims k !! p).
Proof.
  intros c s o old new pre Ho. cbn zeta.
  assert (dispatch c o (CCl (ClMove old new pre)) s = (Success, (dispatch c o (CCl (ClMove old new pre)) s).2)) as Hs.
  { unfold dispatch, run_call. cbn [exec cl_exec]. unfold move_claim.
    rewrite (bind_fw _ _ s tt s); [reflexivity|]. unfold ensure.
    destruct Ho as [->| ->]; [reflexivity|]. rewrite orb_true_r. reflexivity. }
  assert (H1 := f_equal fst Hs). cbn [fst] in H1. split; [auto|].
  clear H1. destruct (dispatch c o (CCl (ClMove old new pre)) s) as [r s'] eqn:H1. cbn [snd] in *. inversion Hs; subst r.
  apply run_call_ok in H1. cbn [exec cl_exec] in H1. clear Hs.
  apply move_ok in H1 as (_ & ->). unfold upd_cl. cbn [rt_cl rt_bal rt_vest rt_ev set_cl cl_total cl_claims cl_vesting cl_signing cl_preclaims].
  repeat (split; [reflexivity|]). split; [intros ->; rewrite !move_key_id; auto|]. split.
  - intros Hd. destruct (move_key_spec old new (cl_claims (rt_cl s)) Hd) as (A1 & A2 & A3).
    destruct (move_key_spec old new (cl_vesting (rt_cl s)) Hd) as (B1 & B2 & B3).
    destruct (move_key_spec old new (cl_signing (rt_cl s)) Hd) as (C1 & C2 & C3). auto 10.
  - intros p. destruct pre as [q|].
    2:{ destruct (decide _) as [[E _]|]; [discriminate|auto]. }
    destruct (cl_preclaims (rt_cl s) !! q) as [b|] eqn:Eq.
    2:{ destruct (decide _) as [[E E']|]; [|auto]. inversion E; subst. congruence. }
    destruct (beq b old) eqn:Eb.
    + apply beq_true in Eb as ->. destruct (decide (Some q = Some p /\ _)) as [[E E']|Hn].
      * inversion E; subst. apply lookup_insert.
      * rewrite lookup_insert_ne; [auto|]. intros ->. apply Hn. auto.
    + destruct (decide _) as [[E E']|]; [|auto]. inversion E; subst. rewrite Eq in E'. inversion E'; subst.
      rewrite (proj2 (beq_true old old) eq_refl) in Eb. discriminate.
Qed.
Print Assumptions C49_move_claim.
Theorem C49_unauthorised_move_fails : forall c s o old new pre,
  c_move_origin c o = false -> o <> Root -> dispatch c o (CCl (ClMove old new pre)) s = (Failed BadOrigin, s).
Proof.
  intros c s o old new pre H1 H2. unfold dispatch, run_call. cbn [exec cl_exec]. unfold move_claim, bind, ensure. rewrite H1.
  destruct o; try contradiction; reflexivity.
Qed.
Print Assumptions C49_unauthorised_move_fails.
(** The moved claim can inherit a schedule that belonged to another claim. *)
Theorem C49_moved_claim_keeps_its_terms_refuted : exists c g l,
  let s := run c (genesis_state g) l in let r := dispatch c Root (CCl (ClMove (eth 1) (eth 2) None)) s in
  cl_claims (rt_cl s) !! eth 1 = Some 100 /\ cl_vesting (rt_cl s) !! eth 1 = None /\ cl_signing (rt_cl s) !! eth 1 = None /\
  cl_claims (rt_cl r.2) !! eth 2 = Some 100 /\ cl_vesting (rt_cl r.2) !! eth 2 = Some (70, 1, 0) /\
  cl_signing (rt_cl r.2) !! eth 2 = Some StSaft.
Proof.
  exists (cfg_cl true 5), (gen_cl [] []), [do_mint 1 100; OCall Root (CCl (ClMint (eth 2) 70 (Some (70, 1, 0)) (Some StSaft)))].
  vm_compute. auto 10.
Qed.
Print Assumptions C49_moved_claim_keeps_its_terms_refuted.
Example C49_example : let c := cfg_cl true 5 in
  let s := genesis_state (gen_cl [(eth 1, 100, Some bob, Some StSaft)] [(eth 1, (70, 1, 0))]) in
  let r := dispatch c (Signed carol) (CCl (ClMove (eth 1) (eth 2) (Some bob))) s in
  r.1 = Success /\ cl_claims (rt_cl r.2) !! eth 2 = Some 100 /\ cl_preclaims (rt_cl r.2) !! bob = Some (eth 2) /\
  (dispatch c (Signed alice) (CCl (ClMove (eth 1) (eth 2) (Some bob))) s).1 = Failed BadOrigin.
Proof. vm_compute. auto 10. Qed.

(** ** C50 *)
(** Bytes are below 256. *)
Notation octets := (Forall (fun b : N => b < 256)).
Lemma nibble_inj a b : a < 16 -> b < 16 -> nibble a = nibble b -> a = b.
Proof. unfold nibble. intros Ha Hb. destruct (N.ltb_spec a 10), (N.ltb_spec b 10); lia. Qed.
Lemma to_ascii_hex_cons b l : to_ascii_hex (b :: l) = nibble (b / 16) :: nibble (b mod 16) :: to_ascii_hex l.
Proof. reflexivity. Qed.
Theorem C50_hex_doubles_the_length : forall data, lenN (to_ascii_hex data) = 2 * lenN data.
Proof.
  induction data as [|b l IH]; [reflexivity|]. rewrite to_ascii_hex_cons. rewrite !lenN_cons. lia.
Qed.
Print Assumptions C50_hex_doubles_the_length.
Theorem C50_hex_injective : forall a b, octets a -> octets b -> to_ascii_hex a = to_ascii_hex b -> a = b.
Proof.
  induction a as [|x a IH]; intros [|y b] Ha Hb H; auto; rewrite ?to_ascii_hex_cons in H; try discriminate H.
  apply Forall_cons in Ha as [Hx Ha]. apply Forall_cons in Hb as [Hy Hb]. inversion H as [[H1 H2 H3]].
  apply nibble_inj in H1; [|apply N.div_lt_upper_bound; lia..]. apply nibble_inj in H2; [|apply N.mod_lt; lia..].
  f_equal; [|auto]. rewrite (N.div_mod x 16), (N.div_mod y 16) by lia. congruence.
Qed.
Print Assumptions C50_hex_injective.
(** The decimal number *)
Definition digits_value (l : bytes) : N := fold_left (fun acc d => 10 * acc + (d - 48)) l 0.
Lemma rev_digits_spec : forall f l, l < 2 ^ N.of_nat f ->
  Forall (fun d => 48 <= d <= 57) (rev_digits f l) /\
  foldr (fun d acc => 10 * acc + (d - 48)) 0 (rev_digits f l) = l /\
  l < 10 ^ lenN (rev_digits f l) /\
  (l <> 0 -> exists r d, rev_digits f l = r ++ [d] /\ d <> 48 /\ 10 ^ lenN r <= l).
Proof.
  induction f as [|f IH]; intros l Hl.
  { cbn in Hl. assert (l = 0) as -> by lia. cbn. repeat split; auto. contradiction. }
  cbn [rev_digits]. destruct (N.eqb_spec l 0) as [->|H0].
  { cbn. repeat split; auto. contradiction. }
  assert (l / 10 < 2 ^ N.of_nat f) as Hd.
  { apply N.div_lt_upper_bound; [lia|]. rewrite Nat2N.inj_succ, N.pow_succ_r' in Hl. lia. }
  destruct (IH _ Hd) as (H1 & H2 & H3 & H4).
  assert (l mod 10 < 10) as Hm by (apply N.mod_lt; lia). assert (l = 10 * (l / 10) + l mod 10) as Hdm by (apply N.div_mod; lia).
  split; [constructor; [lia|auto]|]. split; [cbn [foldr]; rewrite H2; lia|]. split.
  { rewrite lenN_cons. rewrite ?N.add_1_r, ?N.add_1_l, N.pow_succ_r'. lia. }
  intros _. destruct (N.eqb_spec (l / 10) 0) as [Ez|Ez].
  - assert (rev_digits f (l / 10) = []) as E. { rewrite Ez. destruct f; reflexivity. }
    rewrite E. exists [], (48 + l mod 10). split; [auto|]. split; [lia|]. rewrite lenN_nil, N.pow_0_r. lia.
  - destruct (H4 Ez) as (r & d & E & Hnz & Hle). rewrite E. exists (48 + l mod 10 :: r), d. split; [auto|]. split; [auto|].
    rewrite lenN_cons. rewrite ?N.add_1_r, ?N.add_1_l, N.pow_succ_r'. lia.
Qed.
Lemma size_bound l : l < 2 ^ N.of_nat (N.size_nat l).
Proof.
  assert (N.of_nat (N.size_nat l) = N.size l) as ->.
  { destruct l as [|p]; [reflexivity|]. cbn. induction p; cbn; lia. }
  apply N.size_gt.
Qed.
(** Digits only, no leading zero, exact value: the canonical decimal numeral (empty for 0). *)
Theorem C50_decimal_is_canonical : forall l,
  Forall (fun d => 48 <= d <= 57) (decimal l) /\ digits_value (decimal l) = l /\
  (forall d r, decimal l = d :: r -> d <> 48).
Proof.
  intros l. unfold decimal, digits_value. destruct (rev_digits_spec _ l (size_bound l)) as (H1 & H2 & H3 & H4).
  split; [apply Forall_rev; auto|]. split.
  - rewrite <- fold_left_rev_right, rev_involutive. exact H2.
  - intros d r E. destruct (N.eqb_spec l 0) as [->|H0]; [cbn in E; discriminate|].
    destruct (H4 H0) as (r' & d' & E' & Hd & _). rewrite E', rev_app_distr in E. cbn in E. inversion E; subst; auto.
Qed.
Print Assumptions C50_decimal_is_canonical.
Lemma decimal_len l : l <> 0 -> 10 ^ (lenN (decimal l) - 1) <= l < 10 ^ lenN (decimal l).
Proof.
  intros H0. destruct (rev_digits_spec _ l (size_bound l)) as (H1 & H2 & H3 & H4). destruct (H4 H0) as (r & d & E & _ & Hle).
  unfold decimal. assert (forall x : bytes, lenN (rev x) = lenN x) as HR by (intros x; unfold lenN; rewrite rev_length; auto).
  rewrite HR. split; [|auto]. rewrite E, lenN_app. replace (lenN r + lenN [d] - 1) with (lenN r); [auto|]. rewrite lenN_cons, lenN_nil. lia.
Qed.
Lemma decimal_mono a b : a < b -> lenN (decimal a) <= lenN (decimal b).
Proof.
  intros H. destruct (N.eqb_spec a 0) as [->|Ha]; [change (decimal 0) with (@nil N); rewrite lenN_nil; lia|].
  pose proof (decimal_len a Ha). pose proof (decimal_len b). assert (b <> 0) as Hb by lia. specialize (H1 Hb).
  destruct (N.leb_spec (lenN (decimal a)) (lenN (decimal b))) as [|Hlt]; [auto|].
  assert (10 ^ lenN (decimal b) <= 10 ^ (lenN (decimal a) - 1)) by (apply N.pow_le_mono_r; lia). lia.
Qed.
(** The signed message determines account and text, for accounts of one encoding length. *)
Definition message (c : cfg) (dest : acct) (text : bytes) : bytes :=
  25 :: bytes_of_string "Ethereum Signed Message:"%string ++ 10 ::
  decimal (lenN (c_prefix c ++ to_ascii_hex dest ++ text)) ++ c_prefix c ++ to_ascii_hex dest ++ text.
Lemma eth_signed_message c sig signer dest text : eth_signed c sig signer dest text <->
  exists pk, c_secp c sig (c_keccak c (message c dest text)) = Some pk /\ signer = dropN 12 (c_keccak c pk).
Proof. reflexivity. Qed.
Theorem C50_message_is_unambiguous : forall c d1 d2 t1 t2,
  octets d1 -> octets d2 -> lenN d1 = lenN d2 -> message c d1 t1 = message c d2 t2 -> d1 = d2 /\ t1 = t2.
Proof.
  intros c d1 d2 t1 t2 H1 H2 Hl H. unfold message in H. inversion H as [E]. clear H.
  set (b1 := c_prefix c ++ to_ascii_hex d1 ++ t1) in *. set (b2 := c_prefix c ++ to_ascii_hex d2 ++ t2) in *.
  assert (lenN b1 = lenN b2) as El.
  { pose proof (f_equal lenN E) as EL. rewrite !lenN_app in EL.
    destruct (N.lt_trichotomy (lenN b1) (lenN b2)) as [Hc|[Hc|Hc]]; [|auto|].
    - pose proof (decimal_mono _ _ Hc). lia.
    - pose proof (decimal_mono _ _ Hc). lia. }
  rewrite El in E. apply app_inv_head in E. subst b1 b2. apply app_inv_head in E.
  assert (length (to_ascii_hex d1) = length (to_ascii_hex d2)) as Ehl.
  { pose proof (C50_hex_doubles_the_length d1). pose proof (C50_hex_doubles_the_length d2). unfold lenN in *. lia. }
  apply app_inj_1 in E as [E1 E2]; [|auto]. split; [apply C50_hex_injective; auto|auto].
Qed.
Print Assumptions C50_message_is_unambiguous.
(** The length matters: accounts of different length could share a message with different texts. *)
Theorem C50_unambiguous_for_all_lengths_refuted : exists c d1 d2 t1 t2,
  octets d1 /\ octets d2 /\ d1 <> d2 /\ message c d1 t1 = message c d2 t2.
Proof.
  exists (cfg_cl true 5), [1; 2], [1], [], (to_ascii_hex [2]). vm_compute.
  split; [|split; [|split; [discriminate|auto]]]; repeat constructor.
Qed.
Print Assumptions C50_unambiguous_for_all_lengths_refuted.
(** Hence, under a collision-free hash and a signature scheme that ties a signature to one message, a
    signature authorises one destination and text only. *)
Theorem C50_signature_authorises_one_destination : forall c sig a1 a2 d1 d2 t1 t2,
  (forall x y, c_keccak c x = c_keccak c y -> x = y) ->
  (forall h1 h2, is_Some (c_secp c sig h1) -> is_Some (c_secp c sig h2) -> h1 = h2) ->
  octets d1 -> octets d2 -> lenN d1 = lenN d2 ->
  eth_signed c sig a1 d1 t1 -> eth_signed c sig a2 d2 t2 -> d1 = d2 /\ t1 = t2.
Proof.
  intros c sig a1 a2 d1 d2 t1 t2 Hk Hs O1 O2 Hl H1 H2. apply eth_signed_message in H1 as (p1 & H1 & _).
  apply eth_signed_message in H2 as (p2 & H2 & _). apply (C50_message_is_unambiguous c d1 d2 t1 t2 O1 O2 Hl). apply Hk, Hs; [exists p1; exact H1|exists p2; exact H2].
Qed.
Print Assumptions C50_signature_authorises_one_destination.
Example C50_example : let c := cfg_cl true 5 in
  decimal 105 = bytes_of_string "105"%string /\ to_ascii_hex [0; 171; 255] = bytes_of_string "00abff"%string /\
  lenN (c_prefix c ++ to_ascii_hex alice ++ to_text StSaft) <> 0 /\
  (forall x y, c_keccak c x = c_keccak c y -> x = y) /\
  (forall sig h1 h2, is_Some (c_secp c sig h1) -> is_Some (c_secp c sig h2) -> h1 = h2) /\
  eth_signed c (toy_sign c 1 alice []) (eth 1) alice [].
Proof.
  cbn zeta. split; [reflexivity|]. split; [reflexivity|]. split; [vm_compute; discriminate|]. split; [auto|]. split.
  - intros sig h1 h2. cbn [cfg_cl c_secp]. destruct (beq _ h1) eqn:E1; [|intros [? E]; discriminate].
    destruct (beq _ h2) eqn:E2; [|intros _ [? E]; discriminate]. apply beq_true in E1, E2. congruence.
  - exists (zeros 12 ++ eth 1). vm_compute. auto.
Qed.

(** ** C51 *)
(** The text without a leading "0x" *)
Definition stripped (base : bytes) : bytes := match base with 48 :: 120 :: r => r | _ => base end.
Definition is_hex (b : N) : Prop := 48 <= b <= 57 \/ 65 <= b <= 70 \/ 97 <= b <= 102.
Definition is_space (b : N) : Prop := b = 32 \/ b = 13 \/ b = 10 \/ b = 9.
Lemma hex_digit_spec b : (exists d, hex_digit b = Some d /\ d < 16 /\ is_hex b) \/ (hex_digit b = None /\ ~ is_hex b).
Proof.
  unfold hex_digit, is_hex.
  destruct (N.leb_spec 48 b), (N.leb_spec b 57), (N.leb_spec 65 b), (N.leb_spec b 70), (N.leb_spec 97 b), (N.leb_spec b 102);
  cbn [andb]; try lia; try (left; eexists; split; [reflexivity|lia]); right; (split; [reflexivity|lia]).
Qed.
Lemma hex_space_spec b : hex_space b = true <-> is_space b.
Proof. unfold hex_space, is_space. rewrite !orb_true_iff, !N.eqb_eq. tauto. Qed.
Lemma space_not_hex b : is_space b -> ~ is_hex b.
Proof. unfold is_space, is_hex. lia. Qed.
Lemma hex_digit_nibble n : n < 16 -> hex_digit (nibble n) = Some n.
Proof.
  intros H. unfold nibble, hex_digit. destruct (N.ltb_spec n 10).
  - destruct (N.leb_spec 48 (48 + n)), (N.leb_spec (48 + n) 57); cbn [andb]; try lia. f_equal. lia.
  - destruct (N.leb_spec 48 (97 - 10 + n)), (N.leb_spec (97 - 10 + n) 57); cbn [andb]; try lia;
    destruct (N.leb_spec 65 (97 - 10 + n)), (N.leb_spec (97 - 10 + n) 70); cbn [andb]; try lia;
    destruct (N.leb_spec 97 (97 - 10 + n)), (N.leb_spec (97 - 10 + n) 102); cbn [andb]; try lia. f_equal. lia.
Qed.
Lemma from_hex_hex a : octets a -> from_hex (to_ascii_hex a) None = Some a.
Proof.
  induction 1 as [|b l Hb HF IH]; [reflexivity|]. rewrite to_ascii_hex_cons. cbn [from_hex].
  rewrite hex_digit_nibble by (apply N.div_lt_upper_bound; lia). rewrite hex_digit_nibble by (apply N.mod_lt; lia).
  rewrite IH. f_equal. f_equal. symmetry. apply N.div_mod. lia.
Qed.
Lemma hex_not_prefix a : stripped (to_ascii_hex a) = to_ascii_hex a.
Proof.
  destruct a as [|b l]; [reflexivity|]. rewrite to_ascii_hex_cons. unfold stripped.
  assert (nibble (b mod 16) <> 120) as Hn.
  { unfold nibble. pose proof (N.mod_lt b 16). destruct (N.ltb_spec (b mod 16) 10); lia. }
  destruct (nibble (b / 16)) as [|p] eqn:E1; [reflexivity|].
  destruct (nibble (b mod 16)) as [|q] eqn:E2; [repeat (destruct p; try reflexivity)|].
  repeat (destruct p; try reflexivity). repeat (destruct q; try reflexivity). contradiction.
Qed.
Lemma deserialize_unfold base : eth_deserialize base =
  if negb (lenN (stripped base) =? 40) then PError else
  match from_hex (stripped base) None with
  | None => PError
  | Some raw => if lenN raw =? 20 then PAddress raw else PPanic
  end.
Proof. reflexivity. Qed.
Theorem C51_round_trip : forall a, octets a -> lenN a = 20 ->
  eth_deserialize (eth_serialize a) = PAddress a /\ eth_deserialize (to_ascii_hex a) = PAddress a.
Proof.
  intros a Ho Hl. rewrite !deserialize_unfold. change (stripped (eth_serialize a)) with (to_ascii_hex a).
  rewrite hex_not_prefix, C50_hex_doubles_the_length, Hl, from_hex_hex by auto. cbn [negb N.eqb].
  change (2 * 20 =? 40) with true. cbn [negb]. rewrite Hl. auto.
Qed.
Print Assumptions C51_round_trip.
Global Instance is_hex_dec b : Decision (is_hex b).
Proof. unfold is_hex. apply _. Defined.
(** What the hex library makes of a string *)
Definition count_hex (s : list N) : N := lenN (filter is_hex s).
Definition hi_len (hi : option N) : N := match hi with Some _ => 1 | None => 0 end.
Lemma from_hex_spec : forall s hi,
  match from_hex s hi with
  | Some raw => Forall (fun b => is_hex b \/ is_space b) s /\ 2 * lenN raw = count_hex s + hi_len hi
  | None => ~ (Forall (fun b => is_hex b \/ is_space b) s /\ exists n, count_hex s + hi_len hi = 2 * n)
  end.
Proof.
  induction s as [|b s IH]; intros hi.
  { cbn [from_hex]. destruct hi as [h|]; [|split; [constructor|reflexivity]]. intros [_ [n H]]. change (count_hex []) with 0 in H. cbn [hi_len] in H. lia. }
  cbn [from_hex]. unfold count_hex. rewrite filter_cons.
  destruct (hex_digit_spec b) as [(d & -> & _ & Hx)|[-> Hx]].
  - rewrite decide_True by auto. rewrite lenN_cons. fold (count_hex s). destruct hi as [h|].
    + specialize (IH None). destruct (from_hex s None) as [t|].
      * destruct IH as [H1 H2]. split; [constructor; auto|]. rewrite lenN_cons. cbn [hi_len] in *. lia.
      * intros [H1 [n H2]]. apply IH. inversion H1; subst. split; [auto|]. exists (n - 1). cbn [hi_len] in *. lia.
    + specialize (IH (Some d)). destruct (from_hex s (Some d)) as [t|].
      * destruct IH as [H1 H2]. split; [constructor; auto|]. cbn [hi_len] in *. lia.
      * intros [H1 [n H2]]. apply IH. inversion H1; subst. split; [auto|]. exists n. cbn [hi_len] in *. lia.
  - rewrite decide_False by auto. fold (count_hex s). destruct (hex_space b) eqn:Es.
    + apply hex_space_spec in Es. specialize (IH hi). destruct (from_hex s hi) as [t|].
      * destruct IH as [H1 H2]. split; [constructor; auto|auto].
      * intros [H1 H2]. apply IH. inversion H1; subst. auto.
    + intros [H1 _]. inversion H1 as [|? ? [Hb|Hb]]; subst; [contradiction|]. apply hex_space_spec in Hb. congruence.
Qed.
Lemma count_hex_le s : count_hex s <= lenN s.
Proof. unfold count_hex, lenN. pose proof (filter_length is_hex s). lia. Qed.
Lemma count_hex_all s : count_hex s = lenN s <-> Forall is_hex s.
Proof.
  induction s as [|b s IH]; [cbn; split; auto|]. unfold count_hex. rewrite filter_cons. pose proof (count_hex_le s).
  unfold count_hex in *. destruct (decide (is_hex b)) as [Hd|Hd]; rewrite !lenN_cons.
  - split; intros H1; [constructor; [auto|apply IH; lia]|inversion H1; subst; apply IH in H4; lia].
  - split; intros H1; [lia|inversion H1; contradiction].
Qed.
(** Exactly which texts parse, which panic and which are rejected. *)
Theorem C51_parses_iff : forall base,
  (exists a, eth_deserialize base = PAddress a) <-> lenN (stripped base) = 40 /\ Forall is_hex (stripped base).
Proof.
  intros base. rewrite deserialize_unfold. set (s := stripped base). destruct (N.eqb_spec (lenN s) 40) as [El|El]; cbn [negb].
  2:{ split; [intros [a H]; discriminate|intros [H _]; contradiction]. }
  pose proof (from_hex_spec s None) as H. destruct (from_hex s None) as [raw|]; cbn [hi_len] in H.
  - destruct H as [H1 H2]. destruct (N.eqb_spec (lenN raw) 20) as [Er|Er].
    + split; [|eauto]. intros _. split; [auto|]. apply count_hex_all. lia.
    + split; [intros [a Ha]; discriminate|]. intros [_ H3]. apply count_hex_all in H3. lia.
  - split; [intros [a Ha]; discriminate|]. intros [_ H3]. exfalso. apply H. split.
    + eapply Forall_impl; [exact H3|]. auto.
    + apply count_hex_all in H3. exists 20. lia.
Qed.
Print Assumptions C51_parses_iff.
(** Which address a text means: the one whose hex digits are the text's in lower case *)
Definition lower (b : N) : N := if (65 <=? b) && (b <=? 90) then b + 32 else b.
Lemma hex_digit_lower b : hex_digit (lower b) = hex_digit b.
Proof.
  unfold lower. destruct (N.leb_spec 65 b), (N.leb_spec b 90); cbn [andb]; try reflexivity. unfold hex_digit.
  destruct (N.leb_spec 48 b), (N.leb_spec b 57), (N.leb_spec 65 b), (N.leb_spec b 70), (N.leb_spec 97 b), (N.leb_spec b 102); cbn [andb]; try lia;
  destruct (N.leb_spec 48 (b + 32)), (N.leb_spec (b + 32) 57), (N.leb_spec 65 (b + 32)), (N.leb_spec (b + 32) 70),
    (N.leb_spec 97 (b + 32)), (N.leb_spec (b + 32) 102); cbn [andb]; try lia; try reflexivity; f_equal; lia.
Qed.
Lemma hex_space_lower b : hex_space (lower b) = hex_space b.
Proof.
  unfold lower. destruct (N.leb_spec 65 b), (N.leb_spec b 90); cbn [andb]; try reflexivity.
  apply eq_true_iff_eq. rewrite !hex_space_spec. unfold is_space. lia.
Qed.
Lemma from_hex_lower s : forall hi, from_hex (map lower s) hi = from_hex s hi.
Proof.
  induction s as [|b s IH]; intros hi; [reflexivity|]. cbn [map from_hex]. rewrite hex_digit_lower, hex_space_lower.
  destruct (hex_digit b); [destruct hi|]; rewrite ?IH; auto.
Qed.
Lemma lower_digit b d : hex_digit b = Some d -> lower b = nibble d /\ d < 16.
Proof.
  unfold hex_digit, lower, nibble.
  destruct (N.leb_spec 48 b), (N.leb_spec b 57), (N.leb_spec 65 b), (N.leb_spec b 70), (N.leb_spec 97 b), (N.leb_spec b 102), (N.leb_spec b 90);
  cbn [andb]; intros [= <-]; try lia; match goal with |- context [?x <? 10] => destruct (N.ltb_spec x 10) end; lia.
Qed.
Lemma from_hex_text s : Forall is_hex s -> forall raw, from_hex s None = Some raw -> map lower s = to_ascii_hex raw /\ octets raw.
Proof.
  intros Hs. remember (length s) as n eqn:En. revert s En Hs. induction n as [n IH] using lt_wf_ind. intros s En Hs raw H.
  destruct s as [|b1 s]; [injection H as <-; split; [reflexivity|constructor]|]. cbn [from_hex] in H.
  inversion Hs as [|? ? H1 Hs1]; subst. destruct (hex_digit_spec b1) as [(d1 & E1 & _ & _)|[_ ?]]; [|contradiction]. rewrite E1 in H.
  destruct s as [|b2 s]; [discriminate|]. cbn [from_hex] in H. inversion Hs1 as [|? ? H2 Hs2]; subst.
  destruct (hex_digit_spec b2) as [(d2 & E2 & _ & _)|[_ ?]]; [|contradiction]. rewrite E2 in H.
  destruct (from_hex s None) as [t|] eqn:Et; [|discriminate]. injection H as <-.
  destruct (IH (length s) ltac:(cbn; lia) s eq_refl Hs2 t Et) as [Hm Ho].
  apply lower_digit in E1 as [E1 L1], E2 as [E2 L2]. cbn [map]. rewrite Hm, E1, E2, to_ascii_hex_cons. split.
  - rewrite (N.mul_comm 16 d1), N.div_add_l, N.div_small, N.add_0_r by lia. rewrite N.add_comm, N.mod_add, N.mod_small by lia. reflexivity.
  - constructor; [lia|exact Ho].
Qed.
Theorem C51_letter_case_does_not_matter : forall base a,
  eth_deserialize base = PAddress a <-> map lower (stripped base) = to_ascii_hex a /\ octets a /\ lenN a = 20.
Proof.
  intros base a. split.
  - intros H. assert (exists b, eth_deserialize base = PAddress b) as He by eauto. apply C51_parses_iff in He as [Hl Hx].
    rewrite deserialize_unfold in H. destruct (negb _); [discriminate|]. destruct (from_hex (stripped base) None) as [raw|] eqn:E; [|discriminate].
    destruct (N.eqb_spec (lenN raw) 20) as [Er|]; [|discriminate]. injection H as <-.
    destruct (from_hex_text _ Hx _ E). auto.
  - intros (Hm & Ho & Hl). rewrite deserialize_unfold.
    assert (lenN (stripped base) = 40) as ->.
    { transitivity (lenN (map lower (stripped base))); [unfold lenN; rewrite map_length; reflexivity|]. rewrite Hm, C50_hex_doubles_the_length, Hl. reflexivity. }
    cbn [negb N.eqb]. change (40 =? 40) with true. cbn [negb]. rewrite <- from_hex_lower, Hm, from_hex_hex by auto. rewrite Hl. reflexivity.
Qed.
Print Assumptions C51_letter_case_does_not_matter.
Theorem C51_panics_iff : forall base,
  eth_deserialize base = PPanic <->
  lenN (stripped base) = 40 /\ Forall (fun b => is_hex b \/ is_space b) (stripped base) /\
  Exists is_space (stripped base) /\ exists n, count_hex (stripped base) = 2 * n.
Proof.
  intros base. rewrite deserialize_unfold. set (s := stripped base). destruct (N.eqb_spec (lenN s) 40) as [El|El]; cbn [negb].
  2:{ split; [discriminate|intros [H _]; contradiction]. }
  pose proof (from_hex_spec s None) as H. destruct (from_hex s None) as [raw|]; cbn [hi_len] in H.
  - destruct H as [H1 H2]. destruct (N.eqb_spec (lenN raw) 20) as [Er|Er].
    + split; [discriminate|]. intros (_ & _ & H3 & _). exfalso.
      assert (Forall is_hex s) as H4 by (apply count_hex_all; lia). rewrite Forall_forall in H4.
      apply Exists_exists in H3 as (b & Hb & Hs). exact (space_not_hex b Hs (H4 b Hb)).
    + split; [|auto]. intros _. split; [auto|]. split; [auto|]. split; [|exists (lenN raw); lia].
      destruct (decide (Forall is_hex s)) as [H3|H3]; [apply count_hex_all in H3; lia|].
      apply not_Forall_Exists in H3; [|apply _]. apply Exists_exists in H3 as (b & Hb & Hn). apply Exists_exists. exists b.
      split; [auto|]. rewrite Forall_forall in H1. destruct (H1 b Hb); [contradiction|auto].
  - split; [discriminate|]. intros (_ & H1 & _ & n & H2). exfalso. apply H. split; [auto|]. exists n. lia.
Qed.
Print Assumptions C51_panics_iff.
Theorem C51_wrong_length_or_character_is_rejected : forall base,
  lenN (stripped base) <> 40 \/ Exists (fun b => ~ is_hex b /\ ~ is_space b) (stripped base) ->
  eth_deserialize base = PError.
Proof.
  intros base H. destruct (eth_deserialize base) as [a| |] eqn:E; [|auto|].
  - assert (exists a, eth_deserialize base = PAddress a) as He by eauto. apply C51_parses_iff in He as [H1 H2].
    destruct H as [H|H]; [contradiction|]. apply Exists_exists in H as (b & Hb & Hn & _). rewrite Forall_forall in H2. contradiction (Hn (H2 b Hb)).
  - apply C51_panics_iff in E as (H1 & H2 & _). destruct H as [H|H]; [contradiction|].
    apply Exists_exists in H as (b & Hb & Hn & Hs). rewrite Forall_forall in H2. destruct (H2 b Hb); contradiction.
Qed.
Print Assumptions C51_wrong_length_or_character_is_rejected.
Theorem C51_parser_never_panics_refuted : exists base, lenN base = 42 /\ eth_deserialize base = PPanic.
Proof. exists (bytes_of_string "0x0011223344556677889900112233445566778  9"%string). vm_compute. auto. Qed.
Print Assumptions C51_parser_never_panics_refuted.
Example C51_example :
  eth_deserialize (bytes_of_string "0x00112233445566778899001122334455667788Fe"%string) =
    PAddress [0;17;34;51;68;85;102;119;136;153;0;17;34;51;68;85;102;119;136;254] /\
  eth_deserialize (bytes_of_string "00112233445566778899001122334455667788fg"%string) = PError /\
  eth_deserialize (bytes_of_string "0x001122"%string) = PError.
Proof. vm_compute. auto. Qed.
