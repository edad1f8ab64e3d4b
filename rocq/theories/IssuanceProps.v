(** * Where the money is: statements of account, total issuance, the cap on supply. C88. *)
From Verif Require Import Base State Env TeerdaysModel TeerexBase SgxVerifyModel TeerexModel
  EnclaveBridgeModel SidechainModel TeeracleModel ClaimsModel AssetRegistryModel XcmTransactorModel
  Runtime Frame EnvFacts BridgeProofs Ledger Events TeerdaysProofs TeerdaysProps ClaimsProofs ClaimsProps ErrorProps Examples.

(** ** Observables *)
(** The total issuance of pallet-balances: the sum of all balances *)
Definition issuance (s : rt) : N := map_fold (fun _ v acc => v + acc) 0 (b_free (rt_bal s)).
(** Tokens that a log says came into being, and tokens it says were destroyed (fees, burns, dust) *)
Definition created_ev (e : event) : N := match e with EvDeposit _ v => v | _ => 0 end.
Definition destroyed_ev (e : event) : N := match e with EvWithdraw _ v | EvDust _ v => v | _ => 0 end.
(** What the rest of the runtime mints (rewards, treasury, ...) *)
Definition env_mint (x : op) : N := match x with OMint _ v => v | _ => 0 end.
Definition env_mints (l : list op) : N := foldr (fun x acc => env_mint x + acc) 0 l.
(** Everything bonded, everything unbonding *)
Definition all_bonded (s : rt) : N := map_fold (fun _ b acc => bd_value b + acc) 0 (td_bonds (rt_td s)).
Definition all_unbonding (s : rt) : N := map_fold (fun _ p acc => p.2 + acc) 0 (td_pending (rt_td s)).

(** ** Sums over maps *)
Lemma issuance_sum s : issuance s = sum_map (v_free s).
Proof. reflexivity. Qed.
Lemma sum_zero m : (forall k, default 0 (m !! k) = 0) -> sum_map m = 0.
Proof.
  induction m as [|k v m Hk IH] using map_ind; intros H; [reflexivity|].
  rewrite sum_insert by auto. rewrite IH.
  - specialize (H k). rewrite lookup_insert in H. cbn in H. lia.
  - intros j. specialize (H j). destruct (decide (j = k)) as [->|Hn]; [rewrite Hk; auto|].
    rewrite lookup_insert_ne in H; auto.
Qed.
Lemma sum_le m1 m2 m : (forall k, default 0 (m1 !! k) + default 0 (m2 !! k) <= default 0 (m !! k)) ->
  sum_map m1 + sum_map m2 <= sum_map m.
Proof.
  revert m1 m2. induction m as [|k v m Hk IH] using map_ind; intros m1 m2 H.
  - rewrite (sum_zero m1), (sum_zero m2); [cbn; lia| |]; intros k; specialize (H k); rewrite lookup_empty in H; cbn in H; lia.
  - rewrite sum_insert by auto. rewrite (sum_delete m1 k), (sum_delete m2 k).
    assert (sum_map (delete k m1) + sum_map (delete k m2) <= sum_map m) as HI.
    { apply IH. intros j. destruct (decide (j = k)) as [->|Hn]; [rewrite !lookup_delete; cbn; lia|].
      rewrite !lookup_delete_ne by auto. specialize (H j). rewrite lookup_insert_ne in H by auto. auto. }
    specialize (H k). rewrite lookup_insert in H. cbn in H. lia.
Qed.
Lemma sum_ext m1 m2 : (forall k, default 0 (m1 !! k) = default 0 (m2 !! k)) -> sum_map m1 = sum_map m2.
Proof.
  intros H. apply N.le_antisymm.
  - pose proof (sum_le m1 ∅ m2). rewrite <- (N.add_0_r (sum_map m1)). apply H0. intros k. rewrite lookup_empty, H. cbn. lia.
  - pose proof (sum_le m2 ∅ m1). rewrite <- (N.add_0_r (sum_map m2)). apply H0. intros k. rewrite lookup_empty, H. cbn. lia.
Qed.
(** Changing one entry changes the sum by that much *)
Lemma sum_change m m' a x : (forall k, default 0 (m' !! k) = if decide (k = a) then x else default 0 (m !! k)) ->
  sum_map m' + default 0 (m !! a) = sum_map m + x.
Proof.
  intros H. rewrite (sum_ext m' (<[a := x]> m)); [rewrite sum_put; lia|].
  intros k. rewrite H. destruct (decide (k = a)) as [->|]; [rewrite lookup_insert|rewrite lookup_insert_ne]; auto.
Qed.
Lemma issuance_change s s' a x : (forall b, free s' b = if decide (b = a) then x else free s b) ->
  issuance s' + free s a = issuance s + x.
Proof. intros H. rewrite !issuance_sum. apply sum_change. exact H. Qed.
Lemma free_le_issuance s a : free s a <= issuance s.
Proof. rewrite issuance_sum, (sum_delete _ a). apply N.le_add_r. Qed.
Lemma two_le_issuance s a b : a <> b -> free s a + free s b <= issuance s.
Proof.
  intros Hn. rewrite issuance_sum, (sum_delete _ a), (sum_delete (delete a _) b).
  rewrite lookup_delete_ne by auto. apply N.add_le_mono_l, N.le_add_r.
Qed.
Lemma issuance_same s s' : v_free s' = v_free s -> issuance s' = issuance s.
Proof. rewrite !issuance_sum. intros ->. reflexivity. Qed.

(** ** Every operation balances *)
Definition conserved (k d : N) (s : rt) : Prop :=
  issuance s + total destroyed_ev (rt_ev s) + d = k + total created_ev (rt_ev s).
Lemma dust_total c a v :
  total created_ev (dust_event c a v) = 0 /\ total destroyed_ev (dust_event c a v) + after_dust c v = v.
Proof.
  unfold dust_event, after_dust. destruct (N.ltb_spec v (c_ed c)); cbn [andb]; [|split; auto].
  destruct (N.eqb_spec v 0) as [->|]; cbn; split; auto; lia.
Qed.
Lemma issuance_transfer c src dst v s u s' : transfer c src dst v s = Ok u s' ->
  (issuance s' = issuance s /\ rt_ev s' = rt_ev s) \/
  (v <> 0 /\ v <= free s src /\ issuance s' + (free s src - v) = issuance s + after_dust c (free s src - v) /\
   rt_ev s' = EvTransfer src dst v :: dust_event c src (free s src - v) ++ rt_ev s).
Proof.
  intros H. apply transfer_ok in H as [(_ & ->)|(Hv & Hn & Hf & _ & _ & _ & HF & HE)]; [auto|]. right.
  repeat (split; [auto; fail|]). split; [|exact HE]. set (s1 := put_free src (after_dust c (free s src - v)) s).
  assert (issuance s1 + free s src = issuance s + after_dust c (free s src - v)) as H1.
  { apply issuance_change. intros b. unfold s1. rewrite free_put_free. repeat case_decide; congruence. }
  assert (issuance s' + free s1 dst = issuance s1 + (free s dst + v)) as H2.
  { apply issuance_change. intros b. rewrite HF. unfold s1. rewrite free_put_free. repeat case_decide; congruence. }
  assert (free s1 dst = free s dst) as H3 by (unfold s1; rewrite free_put_free; case_decide; congruence).
  lia.
Qed.
Lemma con_transfer k d c src dst v : keepsP (conserved k d) (transfer c src dst v).
Proof.
  intros s u s' Hs H. apply issuance_transfer in H as [[H1 H2]|(Hv & Hf & H1 & H2)]; unfold conserved in *; rewrite H2; [lia|].
  rewrite !total_cons, !total_app. destruct (dust_total c src (free s src - v)) as [-> H3]. cbn [created_ev destroyed_ev]. lia.
Qed.
Lemma con_deposit k d c b v : keepsP (conserved k d) (deposit_creating c b v).
Proof.
  intros s u s' Hs H. apply deposit_ok in H as [(-> & _)|(Hv & _ & _ & HF & HE)]; [auto|].
  apply issuance_change in HF. unfold conserved in *. rewrite HE, !total_cons. cbn [created_ev destroyed_ev]. lia.
Qed.
Lemma con_withdraw k d c b v : keepsP (conserved k d) (withdraw c b v).
Proof.
  intros s u s' Hs H. apply withdraw_ok in H as [(_ & ->)|(Hv & Hsp & HF & HE)]; [auto|].
  pose proof (spendable_le c s b). apply issuance_change in HF. unfold conserved in *.
  rewrite HE, !total_cons, !total_app. destruct (dust_total c b (free s b - v)) as [-> H3]. cbn [created_ev destroyed_ev]. lia.
Qed.
Lemma con_view k d s s' : v_free s' = v_free s -> rt_ev s' = rt_ev s -> conserved k d s -> conserved k d s'.
Proof. intros H1 H2. unfold conserved. rewrite (issuance_same _ _ H1), H2. auto. Qed.
Lemma con_deposit_event k d e : created_ev e = 0 -> destroyed_ev e = 0 -> keepsP (conserved k d) (deposit_event e).
Proof.
  intros H1 H2. apply keepsP_modify. intros s. unfold conserved. change (rt_ev (add_ev e s)) with (e :: rt_ev s).
  change (issuance (add_ev e s)) with (issuance s). rewrite !total_cons, H1, H2. lia.
Qed.
Ltac con := first
  [ apply con_transfer | apply con_deposit | apply con_withdraw
  | apply con_deposit_event; reflexivity
  | apply (keepsP_modify (conserved _ _)); intros ? Hb; refine (con_view _ _ _ _ _ _ Hb);
    [cbn; repeat case_match; reflexivity|cbn; repeat case_match; reflexivity]
  | keepsP_step ].
Lemma conserved_step k d c s x : conserved k d s -> conserved k d (step c s x).
Proof.
  intros Hs. destruct (op_may_write x PFree || op_may_write x PEvents) eqn:HW.
  2: { bools. refine (con_view k d s _ _ _ Hs); [exact (step_same c s x PFree H)|exact (step_same c s x PEvents H0)]. }
  destruct x as [o y| | | | | | | | | |]; try discriminate HW; cbn [step].
  2-4: apply run_call_keepsP; [con|exact Hs].
  unfold dispatch. apply run_call_keepsP; [|exact Hs]. destruct y as [x|x|x|x|x|x|x|x]; cbn [exec]; destruct x.
  all: cbn [td_exec eb_exec_call sc_exec to_exec tx_exec cl_exec ar_exec xt_exec].
  all: unfold td_bond, td_bond_extra, td_unbond, td_update_other, td_withdraw_unbonded, try_withdraw_unbonded, do_update_teerdays,
    invoke, confirm_processed, shield_funds, unshield_funds, publish_hash, update_shard_config, purge, get_enclave_and_touch,
    get_config, touch_shard, confirm_sidechain, finalize_block,
    add_to_whitelist, remove_from_whitelist, update_oracle, update_exchange_rate,
    register_sgx_enclave, reg_ias, reg_dcap, reg_skip, ensure_within_24h, add_enclave,
    unregister_sovereign, unregister_proxied, register_quoting_enclave, verify_quoting_enclave,
    register_tcb_info, verify_tcb_info, set_security_flags,
    claim, mint_claim, claim_attest, attest, move_claim, process_claim, add_vesting_schedule, write_vesting, vest, set_lock, remove_lock,
    register_asset, unregister_asset, send_swap_ump,
    ensure_signed, ensure_root, ensure_none, ensure_signed_or_root, get_sovereign_enclave.
  all: repeat con.
Qed.
Lemma conserved_here s : conserved (issuance s + total destroyed_ev (rt_ev s)) (total created_ev (rt_ev s)) s.
Proof. unfold conserved. lia. Qed.

(** ** C88 *)
(** The log is a complete statement of every account: what the account had at genesis plus what was
    paid in is what it has now plus what it sent, paid in fees and lost as dust. *)
Theorem C88_every_account_has_a_statement : forall c g l a,
  let s := run c (genesis_state g) l in
  free s a + total (sent_ev a) (rt_ev s) + total (fee_ev a) (rt_ev s) + total (dust_ev a) (rt_ev s)
  = default 0 (g_bal g !! a) + total (in_ev a) (rt_ev s).
Proof. intros c g l a. exact (balanced_run a c g l). Qed.
Print Assumptions C88_every_account_has_a_statement.
(** Over any stretch of history the issuance changes by exactly what the new events created minus
    what they destroyed. *)
Theorem C88_issuance_follows_the_log : forall c s l,
  exists evs, rt_ev (run c s l) = evs ++ rt_ev s /\
  issuance (run c s l) + total destroyed_ev evs = issuance s + total created_ev evs.
Proof.
  intros c s l. destruct (run_emits c l s) as (evs & E & _). exists evs. split; [exact E|].
  assert (conserved (issuance s + total destroyed_ev (rt_ev s)) (total created_ev (rt_ev s)) (run c s l)) as H.
  { apply run_inv'; [intros; apply conserved_step; auto|apply conserved_here]. }
  unfold conserved in H. rewrite E, !total_app in H. lia.
Qed.
Print Assumptions C88_issuance_follows_the_log.

(** The account from which a call pays: the caller who shields, the vault which is unshielded *)
Definition pays_from (o : origin) (k : call) (src : acct) : Prop :=
  match k with
  | CEb (EbShield _ _ _) => o = Signed src
  | CEb (EbUnshield sh _ _ _) => src = vault sh
  | _ => False
  end.
(** What a single call does to the issuance *)
Lemma call_issuance c o k s : let s' := (dispatch c o k s).2 in
  issuance s' = issuance s \/
  (exists x dest signer due, k = CCl x /\ authorised c s o x dest signer /\ cl_claims (rt_cl s) !! signer = Some due /\
     cl_total (rt_cl s') + due = cl_total (rt_cl s) /\ issuance s' = issuance s + due) \/
  (exists src w evs, pays_from o k src /\ rt_ev s' = evs ++ rt_ev s /\ EvDust src w ∈ evs /\ w < c_ed c /\ issuance s' + w = issuance s).
Proof.
  cbn zeta. destruct (may_write k PFree) eqn:HW.
  2: { left. apply issuance_same. exact (dispatch_same c o k s PFree HW). }
  unfold dispatch. destruct (run_call_cases (exec c o k) s) as [(s' & E & ->)|[_ ->]]; [|auto]. cbn [snd].
  destruct k as [x|x|x|x|x|x|x|x]; try discriminate HW; cbn [exec] in E.
  - (* enclave bridge *)
    assert (forall src dst v t t', transfer c src dst v t = Ok tt t' -> issuance t = issuance s -> rt_ev t = rt_ev s ->
      issuance t' = issuance s \/ exists w, rt_ev t' = EvTransfer src dst v :: EvDust src w :: rt_ev s /\ w < c_ed c /\ issuance t' + w = issuance s) as HT.
    { intros src dst v t t' H H1 H2. apply issuance_transfer in H as [[H3 _]|(Hv & Hf & H3 & H4)]; [left; lia|].
      unfold after_dust, dust_event in *. destruct (N.ltb_spec (free t src - v) (c_ed c)); cbn [andb] in H4; [|left; lia].
      destruct (N.eqb_spec (free t src - v) 0); cbn [negb app] in H4; [left; lia|].
      right. exists (free t src - v). rewrite H4, H2. repeat split; auto. lia. }
    destruct x; cbn [eb_exec_call] in E.
    3: { apply shield_ok in E as (a & s1 & -> & H & ->).
         destruct (HT _ _ _ _ _ H eq_refl eq_refl) as [H1|(w & H1 & H2 & H3)]; [left; exact H1|right; right].
         exists a, w, [EvShieldFunds shard benef amount; EvTransfer a (vault shard) amount; EvDust a w]. split; [reflexivity|]. change (rt_ev (add_ev ?e ?t)) with (e :: rt_ev t). rewrite H1.
         split; [reflexivity|]. split; [set_solver|]. split; [exact H2|exact H3]. }
    3: { apply unshield_ok in E as (a & e & -> & _ & _ & H).
         assert (v_free (touched shard a (fingerprint e) s) = v_free s /\ rt_ev (touched shard a (fingerprint e) s) = rt_ev s) as [T1 T2].
         { split; [apply (touched_other _ v_free); auto|apply (touched_other _ rt_ev); auto]. }
         destruct H as [(_ & s1 & H & ->)|(n & n1 & _ & _ & _ & ->)].
         - destruct (HT _ _ _ _ _ H (issuance_same _ _ T1) T2) as [H1|(w & H1 & H2 & H3)]; [left; exact H1|right; right].
           exists (vault shard), w, [EvUnshieldedFunds shard benef amount; EvTransfer (vault shard) benef amount; EvDust (vault shard) w].
           split; [reflexivity|].
           change (rt_ev (put_exec ?h ?n (add_ev ?e (put_exec ?h2 ?n2 ?t)))) with (e :: rt_ev t). rewrite H1.
           split; [reflexivity|]. split; [set_solver|]. split; [exact H2|exact H3].
         - left. exact (issuance_same _ _ T1). }
    all: left; apply issuance_same.
    all: match type of E with ?m _ = Ok _ _ => assert (pres v_free m) as HP by
      (unfold invoke, confirm_processed, publish_hash, update_shard_config, purge, get_enclave_and_touch,
        get_config, touch_shard, ensure_signed, ensure_root, ensure_signed_or_root, get_sovereign_enclave; pres_tac) end.
    all: exact (HP _ _ _ E).
  - (* claims *)
    assert (step c s (OCall o (CCl x)) = s') as Es.
    { cbn [step]. unfold dispatch, run_call. cbn [exec]. rewrite E. reflexivity. }
    assert (cl_exec c o x s = Ok tt (step c s (OCall o (CCl x)))) as E' by (rewrite Es; exact E).
    destruct (payout c s o x E') as [[_ H1]|(d & sg & due & H0 & H1 & _ & H3 & _ & _ & _ & H4 & _)]; rewrite Es in *.
    { left. unfold issuance. rewrite H1. reflexivity. }
    assert (issuance s' + free s d = issuance s + (free s d + paid c s d due)) as HI.
    { apply issuance_change. intros b. rewrite H4. destruct (decide (b = d)) as [->|]; lia. }
    unfold paid in HI. destruct (_ || _); [left; lia|]. right; left. exists x, d, sg, due.
    repeat split; auto. lia.
Qed.
(** Only a paid-out claim creates tokens, exactly its amount, taken out of the pot. *)
Theorem C88_only_claims_create_tokens : forall c o k s,
  let s' := (dispatch c o k s).2 in issuance s < issuance s' ->
  exists x dest signer due, k = CCl x /\ authorised c s o x dest signer /\
  cl_claims (rt_cl s) !! signer = Some due /\ cl_total (rt_cl s') + due = cl_total (rt_cl s) /\
  issuance s' = issuance s + due.
Proof.
  intros c o k s. cbn zeta. intros H. destruct (call_issuance c o k s) as [E|[E|(src & w & evs & _ & _ & _ & _ & E)]]; [lia|exact E|lia].
Qed.
Print Assumptions C88_only_claims_create_tokens.
(** Only shielding and unshielding can destroy tokens, and only the dust of the paying account. *)
Theorem C88_calls_destroy_only_dust : forall c o k s,
  let s' := (dispatch c o k s).2 in issuance s' < issuance s ->
  exists src w evs, pays_from o k src /\ rt_ev s' = evs ++ rt_ev s /\ EvDust src w ∈ evs /\ w < c_ed c /\ issuance s' + w = issuance s.
Proof.
  intros c o k s. cbn zeta. intros H. destruct (call_issuance c o k s) as [E|[(x & d & sg & due & _ & _ & _ & _ & E)|E]]; [lia|lia|exact E].
Qed.
Print Assumptions C88_calls_destroy_only_dust.

(** ** The cap on supply *)
Lemma mint_of_pot c s x : (rt_cl (step c s x) = rt_cl s) \/ exists o k, x = OCall o (CCl k).
Proof.
  destruct (op_may_write x PCl) eqn:HW; [right|left; exact (step_same c s x PCl HW)].
  destruct x as [o k| | | | | | | | | |]; try discriminate HW. destruct k; try discriminate HW. eauto.
Qed.
(** Circulating tokens and the claims pot together grow only by minting *)
Lemma supply_step c s x : c_ovf c = true \/ cl_total (rt_cl s) + mint_of c s x <= c_bal_max c ->
  issuance (step c s x) + cl_total (rt_cl (step c s x)) <= issuance s + cl_total (rt_cl s) + mint_of c s x + env_mint x.
Proof.
  intros Hw. destruct (mint_of_pot c s x) as [Hc|(o & k & ->)].
  - rewrite Hc. destruct (op_may_write x PFree) eqn:HW.
    2: { rewrite (issuance_same _ _ (step_same c s x PFree HW)). lia. }
    destruct x as [o k| | | | | | | | | |]; try discriminate HW; cbn [env_mint step].
    1: { destruct (call_issuance c o k s) as [E|[(x & d & sg & due & _ & _ & _ & E1 & E2)|(src & w & evs & _ & _ & _ & _ & E)]].
      - cbn [step] in Hc. rewrite E. lia.
      - cbn [step] in Hc. rewrite Hc in E1. rewrite E2. lia.
      - lia. }
    1: { destruct (run_call_cases (transfer c src dst v) s) as [(s' & E & ->)|[_ ->]]; [|cbn; lia]. cbn [snd].
         apply issuance_transfer in E as [[E _]|(_ & _ & E & _)]; [lia|]. pose proof (after_dust_le c (free s src - v)). lia. }
    1: { destruct (run_call_cases (deposit_creating c a v) s) as [(s' & E & ->)|[_ ->]]; [|cbn; lia]. cbn [snd].
         apply deposit_ok in E as [(-> & _)|(_ & _ & _ & E & _)]; [lia|]. apply issuance_change in E. lia. }
    1: { destruct (run_call_cases (withdraw c a v) s) as [(s' & E & ->)|[_ ->]]; [|cbn; lia]. cbn [snd].
         apply withdraw_ok in E as [(_ & ->)|(_ & _ & E & _)]; [lia|]. apply issuance_change in E.
         pose proof (after_dust_le c (free s a - v)). lia. }
  - cbn [step env_mint]. destruct (call_issuance c o (CCl k) s) as [E|[(x & d & sg & due & _ & _ & _ & E1 & E2)|(src & w & evs & [] & _)]].
    2: { rewrite E2. lia. }
    rewrite E. unfold dispatch. destruct (run_call_cases (exec c o (CCl k)) s) as [(s' & E1 & Er)|[_ ->]]; [|lia].
    rewrite Er. cbn [snd]. cbn [exec] in E1. destruct k; cbn [cl_exec] in E1.
    + apply claim_ok in E1 as (-> & sg & _ & _ & E1). apply process_ok in E1 as (due & P1 & P2 & _ & _ & P5 & _). rewrite P5. cbn. lia.
    + pose proof E1 as E0. apply mint_ok in E1 as (-> & t & Ht & Es).
      assert (mint_of c s (OCall Root (CCl (ClMint who value vs st))) = value) as Em.
      { unfold mint_of, dispatch, run_call. cbn [exec cl_exec]. rewrite E0. reflexivity. }
      rewrite Em in *. rewrite Es. cbn. destruct Ht as [Ht|Ht]; lia.
    + apply claim_attest_ok in E1 as (-> & sg & _ & _ & E1). apply process_ok in E1 as (due & P1 & P2 & _ & _ & P5 & _). rewrite P5. cbn. lia.
    + apply attest_ev in E1 as (a & sg & due & -> & _ & _ & P1 & P2 & P5 & _). rewrite P5. cbn. lia.
    + apply move_ok in E1 as (_ & ->). cbn. lia.
Qed.

Lemma env_mints_app l1 l2 : env_mints (l1 ++ l2) = env_mints l1 + env_mints l2.
Proof. induction l1 as [|x l IH]; [reflexivity|]. unfold env_mints in *. cbn [app foldr]. rewrite IH. lia. Qed.
(** The supply is capped: circulating tokens plus the claims pot never exceed what was there at
    genesis, what was minted as claims and what the rest of the runtime minted. *)
Definition supply_cap (c : cfg) (g : genesis) (l : list op) : N :=
  issuance (genesis_state g) + genesis_claims g + minted c (genesis_state g) l + env_mints l.
Theorem C88_supply_is_capped : forall c g l, no_wrap c g l ->
  let s := run c (genesis_state g) l in
  issuance s + cl_total (rt_cl s) <= supply_cap c g l /\ issuance s + open_claims s <= supply_cap c g l.
Proof.
  intros c g l. cbn zeta. unfold supply_cap. intros Hw.
  assert (issuance (run c (genesis_state g) l) + cl_total (rt_cl (run c (genesis_state g) l)) <=
          issuance (genesis_state g) + genesis_claims g + minted c (genesis_state g) l + env_mints l) as H.
  2: { destruct (C43_claims_ledger c g l Hw) as [_ Ho]. lia. }
  induction l as [|x l IH] using rev_ind.
  { cbn [run fold_left minted env_mints foldr]. destruct (C43_claims_ledger c g [] Hw) as [Ho _]. cbn in Ho. cbn. lia. }
  unfold no_wrap in Hw. rewrite minted_app in Hw |- *. cbn [minted] in Hw |- *. rewrite env_mints_app. cbn [env_mints foldr].
  rewrite run_snoc. set (s := run c (genesis_state g) l) in *.
  assert (no_wrap c g l) as Hw1 by (unfold no_wrap; destruct Hw; [auto|right; lia]).
  specialize (IH Hw1). destruct (C43_claims_ledger c g l Hw1) as [Ht _]. fold s in Ht.
  pose proof (supply_step c s x) as Hs.
  assert (c_ovf c = true \/ cl_total (rt_cl s) + mint_of c s x <= c_bal_max c) as Hc by (destruct Hw; [auto|right; lia]).
  specialize (Hs Hc). lia.
Qed.
Print Assumptions C88_supply_is_capped.
(** If the cap fits the balance type, no payment ever fails for overflow ... *)
Theorem C88_nothing_overflows_below_the_cap : forall c g l o x, no_wrap c g l -> supply_cap c g l <= c_bal_max c ->
  (dispatch c o (CEb x) (run c (genesis_state g) l)).1 <> Failed ArithmeticOverflow.
Proof.
  intros c g l o x Hw Hc. destruct (C88_supply_is_capped c g l Hw) as [Hs _]. set (s := run c (genesis_state g) l) in *.
  assert (issuance s <= c_bal_max c) as Hi by lia. intros H.
  pose proof (proj1 (C70_bridge_answers c g l o x (Failed ArithmeticOverflow)) H) as Ha. fold s in Ha.
  assert (forall src dst v r, answers (transfer_demands c s src dst v ++ r) (Failed ArithmeticOverflow) -> answers r (Failed ArithmeticOverflow)) as HT.
  { intros src dst v r. unfold transfer_demands. cbn [app answers or_err].
    intros [[H1 Hx]|[_ Hx]]; [|discriminate]. destruct Hx as [[_ Hx]|[_ Hx]]; [|discriminate].
    destruct Hx as [[_ [[_ Hx]|[_ Hx]]]|[Hn _]]; [exact Hx|discriminate|]. exfalso. apply Hn.
    destruct (decide (src = dst)) as [->|Hd]; [auto|]. destruct H1 as [H1|[H1|H1]]; auto.
    pose proof (two_le_issuance s src dst Hd). right; right. lia. }
  assert (forall sh a r, answers (operator_demands s sh a ++ r) (Failed ArithmeticOverflow) -> answers r (Failed ArithmeticOverflow)) as HO.
  { intros sh a r. unfold operator_demands. cbn [app answers or_err]. intros [[_ [[_ [[_ Hx]|[_ Hx]]]|[_ Hx]]]|[_ Hx]]; auto; discriminate. }
  destruct x; cbn [eb_demands] in Ha; cbn [answers or_err] in Ha; (destruct Ha as [[_ Ha]|[_ Ha]]; [|discriminate]).
  all: destruct o as [|a|]; try (cbn in Ha; discriminate).
  all: repeat match type of Ha with
       | answers (operator_demands _ _ _) _ => rewrite <- (app_nil_r (operator_demands _ _ _)) in Ha; apply HO in Ha
       | answers (transfer_demands _ _ _ _ _) _ => rewrite <- (app_nil_r (transfer_demands _ _ _ _ _)) in Ha; apply HT in Ha
       | answers (operator_demands _ _ _ ++ _) _ => apply HO in Ha
       | answers ((if ?d then _ else _) ++ _) _ => destruct d
       | answers (transfer_demands _ _ _ _ _ ++ _) _ => apply HT in Ha
       | _ => progress cbn [answers or_err or_panic app] in Ha
       | _ \/ _ => destruct Ha as [[_ Ha]|[_ Ha]]
       end; try discriminate.
Qed.
Print Assumptions C88_nothing_overflows_below_the_cap.
(** ... and a paid-out claim that is not smaller than the existential deposit, or goes to an existing
    account, arrives in full. *)
Theorem C88_claims_arrive_in_full : forall c g l x dest signer due evs, no_wrap c g l -> supply_cap c g l <= c_bal_max c ->
  let s := run c (genesis_state g) l in
  rt_ev (step c s x) = evs ++ rt_ev s -> EvClaimed dest signer due ∈ evs -> free s dest <> 0 \/ c_ed c <= due ->
  free (step c s x) dest = free s dest + due /\ issuance (step c s x) = issuance s + due.
Proof.
  intros c g l x dest signer due evs Hw Hc. cbn zeta. destruct (C88_supply_is_capped c g l Hw) as [Hs _].
  set (s := run c (genesis_state g) l) in *. intros Hev Hin Hd.
  destruct (C44_payout_goes_to_the_named_account c s x dest signer due evs Hev Hin) as (o & k & -> & _ & HF).
  destruct (C43_payout_consumes_the_claim c s _ dest signer due evs Hev Hin) as (_ & _ & Ht & _).
  pose proof (free_le_issuance s dest).
  rewrite (C44_amount_arrives c s dest due Hd) in HF by lia.
  split; [rewrite HF; case_decide; [auto|contradiction]|].
  assert (issuance (step c s (OCall o (CCl k))) + free s dest = issuance s + (free s dest + due)) as HI; [|lia].
  apply issuance_change. intros b. rewrite HF. repeat case_decide; subst; try congruence; lia.
Qed.
Print Assumptions C88_claims_arrive_in_full.

(** ** Stakes *)
(** As long as nobody bonds while unbonding, everything bonded and unbonding is backed by existing tokens. *)
Lemma sum_fmap {A} (f : A -> N) (m : gmap acct A) : map_fold (fun _ b acc => f b + acc) 0 m = sum_map (f <$> m).
Proof.
  induction m as [|k b m Hk IH] using map_ind; [reflexivity|].
  rewrite map_fold_insert_L; [|intros; lia|auto]. rewrite fmap_insert, IH. symmetry. apply sum_insert.
  rewrite lookup_fmap. change (f <$> m !! k = None). rewrite Hk. reflexivity.
Qed.
Lemma stakes_backed s : fully_locked s -> lock_covered s -> all_bonded s + all_unbonding s <= issuance s.
Proof.
  intros H2 H3. unfold all_bonded, all_unbonding. rewrite (sum_fmap bd_value), (sum_fmap snd).
  apply sum_le. intros a. specialize (H2 a). specialize (H3 a).
  refine (N.le_trans _ (bonded s a + unbonding s a) _ _ (N.le_trans _ _ _ H2 H3)).
  apply N.eq_le_incl, f_equal2.
  - transitivity (default 0 (bd_value <$> bond_of s a)); [|unfold bonded; destruct (bond_of s a); reflexivity].
    unfold bond_of. rewrite <- lookup_fmap. reflexivity.
  - transitivity (default 0 (snd <$> pending_of s a)); [|unfold unbonding; destruct (pending_of s a); reflexivity].
    unfold pending_of. rewrite <- lookup_fmap. reflexivity.
Qed.
Theorem C88_stakes_are_backed : forall c g l, careful c (genesis_state g) l ->
  let s := run c (genesis_state g) l in all_bonded s + all_unbonding s <= issuance s.
Proof.
  intros c g l Hc. cbn zeta.
  destruct (careful_run c (genesis_state g) l (locks_wf_genesis g) (fully_locked_genesis g) (lock_covered_genesis g) Hc) as (_ & H2 & H3).
  exact (stakes_backed _ H2 H3).
Qed.
Print Assumptions C88_stakes_are_backed.
(** In general they are not: bonding while unbonding lets the same tokens count twice. *)
Theorem C88_stakes_are_backed_refuted : exists c g l,
  let s := run c (genesis_state g) l in issuance s < all_bonded s + all_unbonding s.
Proof.
  exists cfg0, (gen0 [alice; bob]),
    [call_td alice (TdBond 900); ONextBlock 6000; call_td alice (TdUnbond 900);
     call_td alice (TdBond 10); OTransfer alice bob 900; call_td bob (TdBond 1900)].
  vm_compute. reflexivity.
Qed.
Print Assumptions C88_stakes_are_backed_refuted.

(** A history in which claims are paid, lost and open, funds are shielded with dust, fees are paid. *)
Definition sh7 : bytes := acc 7.
Definition history_money : list op :=
  [do_mint 1 100; do_claim true 5 1 alice; do_mint 2 3; do_claim true 5 2 bob; OMint carol 50;
   OCall (Signed carol) (CEb (EbShield sh7 [1] 47)); OFee alice 10; do_mint 3 30; OTransfer alice bob 20].
Example C88_example :
  let c := cfg_cl true 5 in let g := gen_cl [(eth 3, 30, None, None)] [] in
  let s := run c (genesis_state g) history_money in
  no_wrap c g history_money /\ supply_cap c g history_money = 213 /\ issuance s = 137 /\
  total created_ev (rt_ev s) = 150 /\ total destroyed_ev (rt_ev s) = 13 /\ cl_total (rt_cl s) = 60 /\
  (free s alice, free s bob, free s carol, free s (vault sh7)) = (70, 20, 0, 47) /\
  total (in_ev alice) (rt_ev s) = 100 /\ total (sent_ev alice) (rt_ev s) = 20 /\ total (fee_ev alice) (rt_ev s) = 10 /\
  total (dust_ev carol) (rt_ev s) = 3 /\ supply_cap c g history_money <= c_bal_max c.
Proof. split; [left; reflexivity|]. vm_compute. repeat split; discriminate. Qed.
Example C88_stakes_example : careful cfg0 (genesis_state (gen0 [alice; bob])) hist1 /\
  let s := run cfg0 (genesis_state (gen0 [alice; bob])) hist1 in
  (all_bonded s, all_unbonding s, issuance s) = (300, 150, 2000).
Proof. split; [exact (proj1 C01_example)|]. vm_compute. reflexivity. Qed.
