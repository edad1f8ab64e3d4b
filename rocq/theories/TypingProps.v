(** * C82: storage never leaves the ranges of its types *)
From Coq Require Import String.
From Verif Require Import Base State Env TeerdaysModel TeerexBase SgxVerifyModel TeerexModel
  EnclaveBridgeModel SidechainModel TeeracleModel ClaimsModel AssetRegistryModel XcmTransactorModel
  MigrationsModel Runtime Frame EnvFacts Panic TeerdaysProofs BridgeProofs SidechainProps TeeracleProps SgxProofs SgxProps
  TeerexProofs ClaimsProofs XcmProps RuntimeProps AttestationProps AcceptProps EffectProps
  ScaleModel ScaleProofs StorageModel StorageProps EncodingProps Examples.

(** ** What is assumed: the values of the Rust types *)
(** The configuration: number types that hold the limits, oracles that return values of their Rust
    types (bytes, arrays of the stated lengths, u16 and i64 numbers, vectors SCALE can count) *)
Record cfg_typed (y : layout) (c : cfg) : Prop := mkCfgTyped {
  ct_bal : c_bal_max c < 256 ^ N.of_nat (w_bal (ly_w y));
  ct_blk : c_blk_max c < 256 ^ N.of_nat (w_blk (ly_w y));
  ct_wl : c_max_wl c <= u32_max;
  ct_b64 : forall b x, or_b64 (c_sgx c) b = Some x -> wf_bytes x;
  ct_identity : forall b e, or_json_identity (c_sgx c) b = Some e ->
    (ei_issue e <= Z.of_N i64_max /\ ei_next e <= Z.of_N i64_max)%Z /\
    wt (c_arr 4) (ei_misc e) /\ wt (c_arr 4) (ei_misc_mask e) /\ wt (c_arr 16) (ei_attr e) /\
    wt (c_arr 16) (ei_attr_mask e) /\ wt (c_arr 32) (ei_mrsigner e) /\ ei_prodid e <= u16_max /\
    Forall (fun l => l.1 <= u16_max) (ei_levels e) /\ lenN (ei_levels e) <= u32_max;
  ct_tcb : forall b e, or_json_tcb (c_sgx c) b = Some e ->
    (tj_issue e <= Z.of_N i64_max /\ tj_next e <= Z.of_N i64_max)%Z /\ wt (c_arr 6) (tj_fmspc e) /\
    Forall (fun l => wt (c_arr 16) l.1.1 /\ l.1.2 <= u16_max) (tj_levels e) /\ lenN (tj_levels e) <= u32_max }.
(** An operation: calls with decodable arguments, signed by 32-byte accounts *)
Definition op_typed (y : layout) (x : op) : Prop :=
  match x with
  | OCall o k => wt (c_call y ix0) k /\ (forall a, o = Signed a -> wt c_acct a)
  | _ => True
  end.
(** The genesis configuration *)
Definition genesis_typed (y : layout) (g : genesis) : Prop :=
  g_now g <= u64_max /\
  Forall (fun x => wt (c_arr 20) x.1.1.1 /\ wt (c_le (w_bal (ly_w y))) x.1.1.2 /\
                   (forall a, x.1.2 = Some a -> wt c_acct a)) (g_claims g) /\
  fold_left (fun t x => t + x.1.1.2) (g_claims g) 0 < 256 ^ N.of_nat (w_bal (ly_w y)) /\
  Forall (fun x => wt (c_arr 20) x.1 /\ wt (c_vesting (ly_w y)) x.2) (g_vesting g).

(** ** The typed states *)
Definition map_typed {K V} `{Countable K} (kc : codec K) (vc : codec V) (m : gmap K V) : Prop :=
  forall k v, m !! k = Some v -> wt kc k /\ wt vc v.
Section WithLayout.
Context (y : layout).
Notation w := (ly_w y).
Definition clock_typed (s : rt) : Prop := rt_now s <= u64_max /\ rt_blk s < 256 ^ N.of_nat (w_blk w).
Definition td_typed (t : td_store) : Prop :=
  map_typed c_acct (c_bond w) (td_bonds t) /\ map_typed c_acct (c_pending w) (td_pending t).
Definition eb_typed (t : eb_store) : Prop :=
  map_typed c_hash (c_bvec 10 (c_sstat w)) (eb_status t) /\ map_typed c_hash (c_uscfg w) (eb_config t) /\
  map_typed c_hash (c_le 8) (eb_exec t).
Definition to_typed (t : to_store) : Prop :=
  map_typed (c_pair c_bytes c_bytes) (c_le 8) (to_rates t) /\
  map_typed (c_pair c_bytes c_bytes) (c_bvec (ly_max_blob y) (c_le 1)) (to_data t) /\
  map_typed c_bytes (c_vec c_hash) (to_wl t).
Definition tx_typed (t : tx_store) : Prop :=
  map_typed c_acct c_enclave (tx_sov t) /\ map_typed c_eaddr c_enclave (tx_prox t) /\ wt c_qenclave (tx_qe t) /\
  map_typed (c_arr 6) c_tcb_info (tx_tcb t).
Definition cl_typed (t : cl_store) : Prop :=
  map_typed (c_arr 20) (c_le (w_bal w)) (cl_claims t) /\ cl_total t < 256 ^ N.of_nat (w_bal w) /\
  map_typed (c_arr 20) (c_vesting w) (cl_vesting t) /\ map_typed (c_arr 20) c_statement (cl_signing t) /\
  map_typed c_acct (c_arr 20) (cl_preclaims t).
Definition reg_typed (s : rt) : Prop :=
  map_typed (c_le (w_aid w)) (c_location (ly_xcm y)) (ar_loc (rt_ar s)) /\
  map_typed (c_location (ly_xcm y)) (c_le (w_aid w)) (ar_id (rt_ar s)).
Record typed (s : rt) : Prop := mkTyped {
  t_clock : clock_typed s; t_td : td_typed (rt_td s); t_eb : eb_typed (rt_eb s);
  t_sc : map_typed c_hash c_sconf (rt_sc s); t_to : to_typed (rt_to s); t_tx : tx_typed (rt_tx s);
  t_cl : cl_typed (rt_cl s); t_reg : reg_typed s }.

Lemma typed_set {K V} `{Countable K} kc vc (m m' : gmap K V) k o : map_typed kc vc m ->
  entry_set m m' k o -> (forall v, o = Some v -> wt kc k /\ wt vc v) -> map_typed kc vc m'.
Proof.
  intros T E V1 a v L. rewrite E in L. destruct (decide (a = k)) as [->|]; [apply V1, L|apply T, L].
Qed.
Lemma typed_insert {K V} `{Countable K} kc vc (m : gmap K V) k v : map_typed kc vc m -> wt kc k -> wt vc v ->
  map_typed kc vc (<[k := v]> m).
Proof. intros T A B. eapply typed_set; [eauto|apply entry_insert|]. intros x [= <-]. auto. Qed.
Lemma typed_delete {K V} `{Countable K} kc vc (m : gmap K V) k : map_typed kc vc m -> map_typed kc vc (delete k m).
Proof. intros T. eapply typed_set; [eauto|apply entry_delete|]. discriminate. Qed.
Lemma typed_empty {K V} `{Countable K} (kc : codec K) (vc : codec V) : map_typed kc vc (∅ : gmap K V).
Proof. intros k v E. rewrite lookup_empty in E. discriminate. Qed.
Lemma le8 n : wt (c_le 8) n <-> n <= u64_max.
Proof. cbn [wt c_le]. change (256 ^ N.of_nat 8) with (u64_max + 1). lia. Qed.
Lemma le2 n : wt (c_le 2) n <-> n <= u16_max.
Proof. cbn [wt c_le]. change (256 ^ N.of_nat 2) with (u16_max + 1). lia. Qed.
Lemma plain_add_range {S E} ovf mx a b (s : S) n s' : @plain_add S E ovf mx a b s = Ok n s' -> n <= mx.
Proof.
  unfold plain_add, ret, panic. destruct (N.leb_spec (a + b) mx); [intros [= <- _]; auto|].
  destruct ovf; [discriminate|]. intros [= <- _]. pose proof (N.mod_lt (a + b) (mx + 1)). lia.
Qed.

(** *** TEERdays *)
Lemma accrued_typed c b t : cfg_typed y c -> bd_tt (bond_update c b t) < 256 ^ N.of_nat (w_bal w).
Proof.
  intros C. pose proof (ct_bal _ _ C). unfold bond_update. cbn [bd_tt]. unfold sat_add. lia.
Qed.
Lemma td_stays c o k s s' : cfg_typed y c -> wt (c_td_call w) k -> (forall a, o = Signed a -> wt c_acct a) ->
  clock_typed s -> td_typed (rt_td s) -> td_exec c o k s = Ok tt s' -> td_typed (rt_td s').
Proof.
  intros C K O [NW _] [TB TP] H. pose proof (ct_bal _ _ C) as CB.
  assert (BT : forall v t z, v < 256 ^ N.of_nat (w_bal w) -> t <= u64_max -> z < 256 ^ N.of_nat (w_bal w) ->
    wt (c_bond w) (mkBond v t z)).
  { intros v t z A B D. cbn [wt c_bond c_iso c_pair fst snd bd_value bd_last bd_tt]. split; [auto|]. split; [|auto]. now apply le8. }
  assert (BV : forall a b, td_bonds (rt_td s) !! a = Some b -> wt c_acct a /\ bd_value b < 256 ^ N.of_nat (w_bal w)).
  { intros a b E. destruct (TB _ _ E) as [A B]. split; auto. apply B. }
  destruct k; cbn [td_exec] in H; cbn [wt c_td_call c_case c_compact] in K.
  - apply bond_ok in H as (a & -> & _ & _ & H1 & H2 & _). split; rewrite ?H1, ?H2; auto.
    apply typed_insert; auto. apply BT; try lia.
  - apply bond_extra_ok in H as (a & b & -> & Hb & _ & _ & H1 & H2 & _). cbv zeta in *. split; rewrite ?H1, ?H2; auto.
    apply typed_insert; auto. apply BT; auto using accrued_typed. unfold sat_add. lia.
  - apply unbond_ok in H as (a & b & due & -> & Hb & _ & _ & D & H1 & H2 & _). cbv zeta in *.
    destruct (BV _ _ Hb) as [WA WV]. split; rewrite ?H1, ?H2.
    + destruct (_ <? _); [now apply typed_delete|]. apply typed_insert; auto. apply BT; auto; [lia|]. unfold sat_mul. lia.
    + apply typed_insert; auto. split; [|cbn [snd wt c_le]; lia]. apply le8. cbn [fst].
      destruct D as [[D ->]|(_ & _ & ->)]; auto. pose proof (N.mod_lt (rt_now s + c_unlock c) (u64_max + 1)). lia.
  - apply update_other_ok in H as (a & b & -> & Hb & H1 & H2 & _). split; rewrite ?H1, ?H2; auto.
    destruct (BV _ _ Hb) as [WA WV]. apply typed_insert; auto. apply BT; auto. exact (accrued_typed c b (rt_now s) C).
  - apply withdraw_unbonded_ok in H as (a & due & amt & -> & Hp & _ & H1 & H2 & _). split; rewrite ?H1, ?H2; auto.
    now apply typed_delete.
Qed.

(** *** Enclave bridge and sidechain *)
Lemma unshield_counter c o sh b v h s u s' : unshield_funds c o sh b v h s = Ok u s' ->
  exists n, eb_exec (rt_eb s') !! h = Some n /\ n <= u64_max.
Proof.
  unfold unshield_funds. intros H.
  apply bind_ok in H as (a & s1 & _ & H). apply bind_ok in H as (blk & s2 & _ & H).
  apply bind_ok in H as (el & s3 & _ & H). apply bind_ok in H as (dn & s4 & _ & H).
  apply bind_ok in H as (u1 & s5 & _ & H). apply bind_ok in H as (n & s6 & _ & H).
  apply bind_ok in H as (n1 & s7 & P & H). unfold modify in H. injection H as _ <-.
  exists n1. split; [apply lookup_insert|]. eapply plain_add_range, P.
Qed.
Lemma status_typed s sh a e : clock_typed s -> eb_typed (rt_eb s) -> tx_typed (rt_tx s) ->
  tx_sov (rt_tx s) !! a = Some e ->
  lenN (touch_list (mkSstat a (fingerprint e) (rt_blk s)) (status_of s sh)) <= max_signers ->
  wt (c_bvec 10 (c_sstat w)) (touch_list (mkSstat a (fingerprint e) (rt_blk s)) (status_of s sh)).
Proof.
  intros [_ TB] (TS & _) (TX & _) E L. destruct (TX _ _ E) as [WA WE].
  assert (wt c_hash (fingerprint e)) as WF by apply WE.
  assert (wt (c_sstat w) (mkSstat a (fingerprint e) (rt_blk s))) as WN by (split; [auto|split; auto]).
  assert (Forall (wt (c_sstat w)) (status_of s sh)) as WL.
  { unfold status_of. destruct (eb_status (rt_eb s) !! sh) as [l|] eqn:El; cbn [default]; [|constructor].
    destruct (TS _ _ El) as [_ [[F _] _]]. exact F. }
  split; [|exact L]. split; [|unfold max_signers, u32_max in *; lia].
  destruct (touch_list_cases (mkSstat a (fingerprint e) (rt_blk s)) (status_of s sh)) as [(_ & l1 & z & l2 & El & _ & _ & ->)|[_ ->]].
  - rewrite El in WL. apply Forall_app in WL as [W1 W2]. apply Forall_app. split; [auto|]. inversion W2; subst. constructor; auto.
  - apply Forall_app. split; [auto|]. constructor; auto.
Qed.
Lemma uscfg_typed a p t : wt c_scfg a -> wt (c_opt c_scfg) p -> wt (c_opt (c_le (w_blk w))) t -> wt (c_uscfg w) (mkUscfg a p t).
Proof. intros A B D. exact (conj A (conj B D)). Qed.
Lemma upgraded_typed u b : wt (c_uscfg w) u -> wt (c_uscfg w) (upgraded u b).
Proof.
  intros W. unfold upgraded. destruct (uc_pending u) as [p|] eqn:Ep; auto. destruct (uc_at u) as [t|] eqn:Et; auto.
  destruct (t <=? b); auto. apply uscfg_typed; try exact I. destruct W as (_ & W & _). cbn [fst snd] in W. rewrite Ep in W. exact W.
Qed.
Lemma touched_typed s sh a e : clock_typed s -> eb_typed (rt_eb s) -> tx_typed (rt_tx s) ->
  wt c_hash sh -> tx_sov (rt_tx s) !! a = Some e ->
  lenN (touch_list (mkSstat a (fingerprint e) (rt_blk s)) (status_of s sh)) <= max_signers ->
  eb_typed (rt_eb (touched sh a (fingerprint e) s)).
Proof.
  intros T1 T2 T3 WS E L. pose proof (status_typed s sh a e T1 T2 T3 E L) as W. destruct T2 as (TS & TC & TE).
  split; [rewrite touched_status; now apply typed_insert|]. split; [|rewrite touched_exec; auto].
  eapply typed_set; [exact TC|apply (touched_enacted sh a (fingerprint e) s); reflexivity|].
  intros u' Eu. destruct (eb_config (rt_eb s) !! sh) as [u|] eqn:El; [|discriminate Eu].
  cbn in Eu. injection Eu as <-. split; [auto|]. apply upgraded_typed, (TC _ _ El).
Qed.
Lemma eb_stays c o k s s' : cfg_typed y c -> wt (c_eb_call w) k -> (forall a, o = Signed a -> wt c_acct a) ->
  clock_typed s -> tx_typed (rt_tx s) -> eb_typed (rt_eb s) -> eb_exec_call c o k s = Ok tt s' -> eb_typed (rt_eb s').
Proof.
  intros C K O T1 T3 T2 H. pose proof (ct_blk _ _ C) as CB.
  destruct k; cbn [eb_exec_call] in H; cbn [wt c_eb_call c_case c_pair fst snd] in K.
  - unfold invoke in H. inv_rt H. exact T2.
  - apply confirm_processed_ok in H as (a & e & -> & [He _] & L & ->). cbn [rt_eb add_ev].
    apply touched_typed; auto. apply K.
  - apply shield_ok in H as (a & s1 & -> & H1 & ->). apply eb_transfer in H1 as [E _]. cbn [rt_eb add_ev]. rewrite E. auto.
  - pose proof (unshield_counter _ _ _ _ _ _ _ _ _ H) as (n' & En & Ln).
    apply unshield_ok in H as (a & e & -> & [He _] & L & H).
    destruct K as (WS & WB & WV & WH).
    pose proof (touched_typed s shard a e T1 T2 T3 WS He L) as (A & B & D).
    destruct H as [(_ & s1 & H1 & ->)|(n & n1 & _ & _ & _ & ->)].
    + apply eb_transfer in H1 as [E _]. unfold put_exec in *. cbn [rt_eb set_eb eb_exec eb_status eb_config add_ev] in *.
      rewrite E in *. split; [auto|]. split; [auto|]. rewrite insert_insert. apply typed_insert; auto. now apply le8.
    + unfold put_exec in *. cbn [rt_eb set_eb eb_exec eb_status eb_config add_ev] in *.
      rewrite lookup_insert in En. injection En as ->.
      split; [auto|]. split; [auto|]. apply typed_insert; auto. now apply le8.
  - apply publish_ok in H as (a & e & -> & He & _ & _ & L & ->).
    pose proof (status_typed s (fingerprint e) a e T1 T2 T3 He L) as W.
    destruct T2 as (TS & TC & TE). destruct T3 as (TX & _). destruct (TX _ _ He) as [WA WE].
    unfold put_status. cbn [rt_eb set_eb eb_exec eb_status eb_config add_ev].
    split; [|split; auto]. apply typed_insert; auto. apply WE.
  - destruct K as (WS & WN & WD).
    assert (WC : wt (c_uscfg w) (new_config c s shard new delay)).
    { unfold new_config. rewrite in_force_upgraded. destruct (eb_config (rt_eb s) !! shard) as [u|] eqn:El; cbn [fmap option_fmap option_map].
      - destruct T2 as (_ & TC & _). destruct (upgraded_typed u (rt_blk s) (proj2 (TC _ _ El))) as [W1 _].
        apply uscfg_typed; [exact W1|exact WN|]. cbn [wt c_opt c_le]. lia.
      - apply uscfg_typed; [exact WN|exact I|exact I]. }
    apply update_config_ok in H as [(-> & ->)|(a & e & -> & He & _ & L & ->)].
    + unfold put_config. cbn [rt_eb set_eb eb_exec eb_status eb_config add_ev]. destruct T2 as (TS & TC & TE).
      split; [auto|]. split; [|auto]. apply typed_insert; auto.
    + pose proof (status_typed s shard a e T1 T2 T3 He L) as W. destruct T2 as (TS & TC & TE).
      unfold put_config, put_status. cbn [rt_eb set_eb eb_exec eb_status eb_config add_ev].
      split; [now apply typed_insert|]. split; [|auto]. apply typed_insert; auto.
  - apply purge_ok in H as (-> & l & El & ->). destruct T2 as (TS & TC & TE).
    unfold put_status. cbn [rt_eb set_eb eb_exec eb_status eb_config add_ev]. split; [|split; auto].
    destruct (TS _ _ El) as [W [[F L] L']]. apply typed_insert; auto.
    assert (lenN (filter (fun x => ss_signer x <> subject) l) <= lenN l) as LL.
    { unfold lenN. pose proof (filter_length (fun x => ss_signer x <> subject) l). lia. }
    split; [|cbn in *; lia]. split; [|cbn in *; lia]. apply Forall_forall. intros x Hx.
    apply elem_of_list_filter in Hx as [_ Hx]. rewrite Forall_forall in F. now apply F.
Qed.
Lemma sc_stays o k s s' : wt c_sc_call k -> (forall a, o = Signed a -> wt c_acct a) ->
  typed s -> sc_exec o k s = Ok tt s' -> eb_typed (rt_eb s') /\ map_typed c_hash c_sconf (rt_sc s').
Proof.
  intros K O T H. destruct k as [sh anc cand]. cbn [sc_exec] in H. cbn [wt c_sc_call c_case c_pair fst snd] in K.
  destruct K as (WS & _ & WC).
  apply confirm_sidechain_ok in H as (a & e & first & r & -> & [He _] & _ & L & H).
  pose proof (touched_typed s sh a e (t_clock _ T) (t_eb _ T) (t_tx _ T) WS He L) as W.
  destruct H as [(_ & ->)|(_ & _ & ->)].
  - split; auto. rewrite (touched_other _ rt_sc) by auto. apply T.
  - cbn [rt_eb rt_sc add_ev set_sc]. split; auto. apply typed_insert; auto. apply T.
Qed.

(** *** Oracle *)
Lemma to_stays c o k s s' : cfg_typed y c -> wt (c_to_call (ly_max_blob y)) k ->
  to_typed (rt_to s) -> to_exec c o k s = Ok tt s' -> to_typed (rt_to s').
Proof.
  intros C K (TR & TD & TW) H. pose proof (ct_wl _ _ C) as CW.
  destruct k; cbn [to_exec] in H; cbn [wt c_to_call c_case c_pair fst snd] in K.
  - apply add_wl_ok in H as (_ & _ & _ & L & ->). destruct K as [WS WF]. split; [auto|]. split; [auto|].
    apply typed_insert; auto. split; [|unfold lenN in *; rewrite app_length; cbn [length]; lia].
    apply Forall_app. split; [|constructor; auto].
    unfold whitelist. destruct (to_wl (rt_to s) !! src) as [l|] eqn:E; cbn [default]; [|constructor]. apply (TW _ _ E).
  - apply remove_wl_ok in H as (_ & E & ->). destruct K as [WS WF]. split; [auto|]. split; [auto|].
    unfold whitelist in *. destruct (to_wl (rt_to s) !! src) as [l|] eqn:El; cbn [default] in *; [|now apply elem_of_nil in E].
    destruct (TW _ _ El) as [_ [F L]]. apply typed_insert; auto. unfold id in *.
    pose proof (filter_length (fun m => m <> fp) l) as FL. split; [|unfold lenN in *; cbn in *; lia].
    apply Forall_forall. intros x Hx. apply elem_of_list_filter in Hx as [_ Hx]. rewrite Forall_forall in F. now apply F.
  - apply update_oracle_ok in H as (a & e & _ & _ & _ & _ & _ & _ & ->). destruct K as (W1 & W2 & W3).
    split; [auto|]. split; [|auto]. apply typed_insert; auto. split; auto.
  - apply update_rate_ok in H as (a & e & _ & _ & _ & _ & ->). destruct K as (W1 & W2 & W3).
    split; [|split; auto]. destruct v as [[|r]|]; cbn [nonzero put_rate rt_to set_to to_rates];
      first [now apply typed_delete|apply typed_insert; [auto|split; auto|exact W3]].
Qed.

(** *** Attestation *)
Lemma wf_take n (l : bytes) : wf_bytes l -> wf_bytes (takeN n l).
Proof. unfold wf_bytes, takeN. apply Forall_take. Qed.
Lemma wf_drop n (l : bytes) : wf_bytes l -> wf_bytes (dropN n l).
Proof. unfold wf_bytes, dropN. apply Forall_drop. Qed.
Lemma wf_zeros n : wf_bytes (zeros n).
Proof. unfold wf_bytes, zeros. apply Forall_replicate. lia. Qed.
Lemma wf_app (a b : bytes) : wf_bytes (a ++ b) <-> wf_bytes a /\ wf_bytes b.
Proof. apply Forall_app. Qed.
Lemma arr_zeros k : wt (c_arr k) (zeros (N.of_nat k)).
Proof. split; [apply wf_zeros|]. unfold zeros. rewrite replicate_length. lia. Qed.
Lemma arr_sub off k (l : bytes) : wf_bytes l -> off + N.of_nat k <= lenN l -> wt (c_arr k) (sub_ off (N.of_nat k) l).
Proof.
  intros W L. split; [apply wf_take, wf_drop, W|]. unfold sub_.
  pose proof (lenN_takeN (N.of_nat k) (dropN off l)) as E. rewrite lenN_dropN in E.
  unfold lenN in *. change (length (takeN (N.of_nat k) (dropN off l)) = k). lia.
Qed.
Lemma enclave_typed rd mre mrs t u bm m st : wt (c_arr 64) rd -> wt (c_arr 32) mre -> wt (c_arr 32) mrs -> t <= u64_max ->
  (forall x, u = Some x -> wt c_bytes x) -> wt c_enclave (mkEnclave rd mre mrs t u bm m st).
Proof.
  intros A B D T U.
  assert (wt (c_opt c_bytes) u) as U' by (destruct u; [now apply U|exact I]).
  assert (wt c_build_mode bm) as M1 by (destruct bm; exact I).
  assert (wt c_att_method m) as M2 by (destruct m; exact I).
  assert (wt c_sgx_status st) as M3 by (destruct st; exact I).
  apply le8 in T. exact (conj A (conj B (conj D (conj T (conj U' (conj M1 (conj M2 M3))))))).
Qed.
Lemma attested_typed c s a proof m e u : cfg_typed y c -> clock_typed s -> wt c_acct a -> wf_bytes proof ->
  (forall x, u = Some x -> wt c_bytes x) -> attested c s a proof m e -> wt c_enclave (with_url e u).
Proof.
  intros C [NW _] WA WP WU A.
  assert (forall rd mre mrs t bm mm st, with_url (new_enclave rd mre mrs t bm st mm) u = mkEnclave rd mre mrs t u bm mm st) as EU
    by (destruct u; reflexivity).
  destruct A as [r V T _ _|p fm tcb r ref st V _ _ _|p _ _]; rewrite EU.
  - apply C66_ias_report_accepted_iff_genuine in V as (rep & j & time & secs & stt & body & quote & header & rb & rest & _ & _ & _ & _ & _ & _ & _ & Q & -> & _ & L & -> & -> & -> & _).
    apply (ct_b64 _ _ C) in Q. rewrite !wf_app in Q.
    destruct Q as (_ & WB & _).
    apply enclave_typed; [apply (arr_sub 320 64)|apply (arr_sub 64 32)|apply (arr_sub 128 32)|lia|exact WU]; try exact WB; rewrite L; vm_compute; discriminate.
  - apply verify_dcap_iff in V as (q & (_ & L & _) & -> & _ & ->). cbn [parts_report vr_report_data vr_mr_enclave vr_mr_signer vr_timestamp].
    unfold parts_bytes in WP. rewrite !wf_app in WP.
    destruct WP as (_ & WB & _).
    apply enclave_typed; [apply (arr_sub 320 64)|apply (arr_sub 64 32)|apply (arr_sub 128 32)|lia|exact WU]; try exact WB; rewrite L; vm_compute; discriminate.
  - destruct WA as [WA LA]. apply enclave_typed; [| | |exact NW|exact WU].
    + split; [apply wf_app; split; [auto|apply wf_zeros]|]. rewrite app_length. unfold zeros, lenN in *. rewrite replicate_length. lia.
    + destruct (N.leb_spec 32 (lenN proof)); [|apply (arr_zeros 32)]. split; [now apply wf_take|].
      pose proof (lenN_takeN 32 proof) as E. unfold lenN in *. change (length (takeN 32 proof) = 32%nat). lia.
    + apply (arr_zeros 32).
Qed.
Lemma qe_typed q : q_issue q <= u64_max -> q_next q <= u64_max -> wt (c_arr 4) (q_misc q) -> wt (c_arr 4) (q_misc_mask q) ->
  wt (c_arr 16) (q_attr q) -> wt (c_arr 16) (q_attr_mask q) -> wt (c_arr 32) (q_mrsigner q) -> q_prodid q <= u16_max ->
  Forall (fun x => x <= u16_max) (q_tcb q) -> lenN (q_tcb q) <= u32_max -> wt c_qenclave q.
Proof.
  intros A B D E F G H I J K. rewrite <- le8 in A, B. rewrite <- le2 in I.
  assert (wt (c_vec (c_le 2)) (q_tcb q)) as V. { split; [|exact K]. eapply Forall_impl; [exact J|]. intros x. apply le2. }
  exact (conj A (conj B (conj D (conj E (conj F (conj G (conj H (conj I V)))))))).
Qed.
Lemma tx_stays c o k s s' : cfg_typed y c -> wt c_tx_call k -> (forall a, o = Signed a -> wt c_acct a) ->
  clock_typed s -> tx_typed (rt_tx s) -> tx_exec c o k s = Ok tt s' -> tx_typed (rt_tx s').
Proof.
  intros C K O T1 (TS & TP & TQ & TT) H. destruct k; cbn [tx_exec] in H; cbn [wt c_tx_call c_case c_pair fst snd] in K.
  - apply TeerexProofs.register_ok in H as (a & e & -> & A & _ & LP & _ & ->). destruct K as (WP & WU & _).
    assert (wf_bytes proof) as WP' by (apply WP).
    assert (wt c_enclave (with_url e url)) as W.
    { eapply attested_typed; eauto. intros x ->. exact WU. }
    unfold store_enclave. destruct (is_proxied (with_url e url)).
    + split; [auto|]. split; [|split; auto]. apply typed_insert; auto.
      destruct W as (W1 & W2 & _). split; [split; [exact W2|auto]|].
      cbn [snd wt c_any_signer c_case]. destruct W1 as [W1 L1].
      split; [split|].
      * apply Forall_app. split; [exact W1|]. repeat constructor.
      * unfold lenN. rewrite app_length. unfold u32_max. cbn [fst snd en_report_data] in L1. rewrite L1. vm_compute. discriminate.
      * unfold lenN. rewrite app_length. cbn [fst snd en_report_data] in L1. rewrite L1. vm_compute. discriminate.
    + split; [|split; [|split]; auto]. apply typed_insert; auto.
  - apply unreg_sov_ok in H as (a & e & _ & _ & _ & ->). split; [now apply typed_delete|auto].
  - apply unreg_prox_ok in H as (b & e & _ & _ & _ & ->). split; [auto|]. split; [now apply typed_delete|auto].
  - assert (dispatch c o (CTx (TxRegisterQe id sig chain)) s = (Success, s')) as H' by (apply dispatch_iff; exact H).
    apply C38_quoting_enclave_is_stored_as_documented in H' as (a & d & q & _ & [_ J] & _ & _ & _ & _ & Q1 & Q2 & Q3 & Q4 & Q5 & Q6 & Q7 & Q8 & Q9 & ->).
    apply (ct_identity _ _ C) in J as ([J1 J2] & J3 & J4 & J5 & J6 & J7 & J8 & J9 & J10).
    split; [auto|]. split; [auto|]. split; [|auto]. cbn [rt_tx after_qe add_ev set_tx tx_qe].
    apply qe_typed; rewrite ?Q3, ?Q4, ?Q5, ?Q6, ?Q7, ?Q8, ?Q9; auto; try (unfold i64_max, u64_max in *; lia).
    + apply Forall_map. exact J9.
    + unfold lenN. rewrite map_length. exact J10.
  - assert (dispatch c o (CTx (TxRegisterTcb info sig chain)) s = (Success, s')) as H' by (apply dispatch_iff; exact H).
    apply C38_tcb_info_is_stored_as_documented in H' as (a & d & q & _ & [_ J] & _ & _ & _ & _ & Q1 & Q2 & Q3 & ->).
    apply (ct_tcb _ _ C) in J as ([J1 J2] & J3 & J4 & J5).
    split; [auto|]. split; [auto|]. split; [auto|]. cbn [rt_tx after_tcb add_ev set_tx tx_tcb].
    apply typed_insert; auto.
    assert (ti_issue q <= u64_max /\ ti_next q <= u64_max) as [A B] by (unfold i64_max, u64_max in *; lia).
    rewrite <- le8 in A, B.
    assert (wt (c_vec c_tcb_level) (ti_levels q)) as V.
    { split.
      - rewrite <- Q3 in J4. apply Forall_map in J4. eapply Forall_impl; [exact J4|]. intros lv [W1 W2]. cbn [fst snd] in W1, W2.
        rewrite <- le2 in W2. assert (wt c_tcb_status (tl_status lv)) as W3 by (destruct (tl_status lv); exact I).
        exact (conj W1 (conj W2 W3)).
      - rewrite <- Q3 in J5. unfold lenN in *. rewrite map_length in J5. exact J5. }
    exact (conj A (conj B V)).
  - apply set_flags_ok in H as (_ & ->). split; auto.
Qed.

(** *** Claims and asset registry *)
Lemma move_typed {V} (vc : codec V) (old new : bytes) (m : gmap bytes V) : wt (c_arr 20) new ->
  map_typed (c_arr 20) vc m -> map_typed (c_arr 20) vc (move_key old new m).
Proof.
  intros W T. unfold move_key. destruct (m !! old) as [x|] eqn:E; auto.
  apply typed_insert; auto; [now apply typed_delete|]. apply (T _ _ E).
Qed.
Lemma mint_total c o who v vs st s s' : mint_claim c o who v vs st s = Ok tt s' -> cl_total (rt_cl s') <= c_bal_max c.
Proof.
  unfold mint_claim. intros H. apply bind_ok in H as (u & s1 & H1 & H). apply ensure_root_ok in H1 as [-> ->].
  apply bind_ok in H as (t & s1 & H1 & H). apply gets_ok in H1 as [-> ->].
  apply bind_ok in H as (t' & s1 & P & H). unfold modify in H. injection H as <-.
  cbn. eapply plain_add_range, P.
Qed.
Lemma process_stays c signer dest s s' : cl_typed (rt_cl s) -> process_claim c signer dest s = Ok tt s' -> cl_typed (rt_cl s').
Proof.
  intros (TC & TT & TV & TS & TP) H. apply process_ok in H as (due & _ & _ & _ & _ & -> & _).
  split; [now apply typed_delete|]. split; [cbn; lia|]. split; [now apply typed_delete|]. split; [now apply typed_delete|auto].
Qed.
Lemma cl_stays c o k s s' : cfg_typed y c -> wt (c_cl_call w) k ->
  cl_typed (rt_cl s) -> cl_exec c o k s = Ok tt s' -> cl_typed (rt_cl s').
Proof.
  intros C K T H. pose proof (ct_bal _ _ C) as CB. destruct k; cbn [cl_exec] in H; cbn [wt c_cl_call c_case c_pair fst snd] in K.
  - apply claim_ok in H as (_ & sg & _ & _ & H). eapply process_stays; eauto.
  - pose proof (mint_total _ _ _ _ _ _ _ _ H) as L. destruct T as (TC & TT & TV & TS & TP).
    destruct K as (W1 & W2 & W3 & W4). apply mint_ok in H as (_ & t & _ & ->). cbn in L.
    split; [apply typed_insert; auto|]. split; [cbn; lia|]. split; [destruct vs; cbn; auto; apply typed_insert; auto|].
    split; [destruct st; cbn; auto; apply typed_insert; auto|auto].
  - apply claim_attest_ok in H as (_ & sg & _ & _ & H). eapply process_stays; eauto.
  - apply attest_ok in H as (a & sg & s1 & _ & _ & _ & H & ->). apply process_stays in H as (TC & TT & TV & TS & TP); auto.
    split; [auto|]. split; [auto|]. split; [auto|]. split; [auto|]. cbn. now apply typed_delete.
  - apply move_ok in H as (_ & ->). destruct T as (TC & TT & TV & TS & TP). destruct K as (W1 & W2 & W3).
    split; [now apply move_typed|]. split; [auto|]. split; [now apply move_typed|]. split; [now apply move_typed|].
    cbn. destruct pre as [p|]; auto. destruct (cl_preclaims (rt_cl s) !! p) as [b|] eqn:E; auto. destruct (beq b old); auto.
    apply typed_insert; auto.
Qed.
Lemma ar_stays c o k s s' : wt (c_ar_call w (ly_xcm y)) k -> reg_typed s -> ar_exec c o k s = Ok tt s' -> reg_typed s'.
Proof.
  intros K [T1 T2] H. destruct k; cbn [ar_exec] in H; cbn [wt c_ar_call c_case c_pair fst snd] in K.
  - apply register_ok in H as (_ & _ & _ & _ & ->). destruct K as [W1 W2]. split; cbn; apply typed_insert; auto.
  - apply unregister_ok in H as (_ & l & _ & ->). split; cbn; apply typed_delete; auto.
Qed.

(** *** Histories *)
Lemma step_typed c s x : cfg_typed y c -> op_typed y x -> typed s -> typed (step c s x).
Proof.
  intros C X T.
  assert (KEEP : (forall p, p ∈ [PClock; PTd; PEb; PSc; PTo; PTx; PCl; PReg] -> same p s (step c s x)) -> typed (step c s x)).
  { intros E.
    assert (forall p, p ∈ [PClock; PTd; PEb; PSc; PTo; PTx; PCl; PReg] -> same p s (step c s x)) as E' by exact E.
    pose proof (E PClock ltac:(set_solver)) as E1. pose proof (E PTd ltac:(set_solver)) as E2.
    pose proof (E PEb ltac:(set_solver)) as E3. pose proof (E PSc ltac:(set_solver)) as E4.
    pose proof (E PTo ltac:(set_solver)) as E5. pose proof (E PTx ltac:(set_solver)) as E6.
    pose proof (E PCl ltac:(set_solver)) as E7. pose proof (E PReg ltac:(set_solver)) as E8.
    cbn [same] in *. unfold v_clock, v_reg in *. injection E1 as E1 E1'. injection E8 as E8 E8'.
    destruct T as [[A B] D F G H I J [K L]].
    split; unfold clock_typed, reg_typed; rewrite ?E1, ?E1', ?E2, ?E3, ?E4, ?E5, ?E6, ?E7, ?E8, ?E8'; auto. }
  destruct x as [o k|d| | | | | | | | | ]; try (apply KEEP; intros p Hp; apply step_same; cbn [op_may_write];
    repeat (apply elem_of_cons in Hp as [->|Hp]; [reflexivity|]); now apply elem_of_nil in Hp).
  - destruct X as [K O]. destruct (run_call_cases (exec c o k) s) as [(s' & E & R)|[_ R]].
    2:{ cbn [step]. unfold dispatch. rewrite R. exact T. }
    cbn [step]. unfold dispatch. rewrite R. cbn [snd].
    assert (FR : forall p, may_write k p = false -> same p s s').
    { intros p Hp. exact (exec_keeps c o k p Hp s tt s' E). }
    assert (FC : clock_typed s').
    { assert (same PClock s s') as Q by (apply FR; destruct k; reflexivity). cbn in Q. unfold v_clock in Q. injection Q as Q1 Q2.
      unfold clock_typed. rewrite Q1, Q2. apply T. }
    destruct T as [T1 T2 T3 T4 T5 T6 T7 T8].
    destruct k as [k|k|k|k|k|k|k|k]; cbn [exec] in E; cbn [wt c_call c_case] in K.
    all: split; [exact FC|..].
    all: try (match goal with
      | |- td_typed _ => pose proof (FR PTd eq_refl) as Q; cbn [same] in Q; rewrite Q; exact T2
      | |- eb_typed _ => pose proof (FR PEb eq_refl) as Q; cbn [same] in Q; rewrite Q; exact T3
      | |- map_typed _ _ (rt_sc _) => pose proof (FR PSc eq_refl) as Q; cbn [same] in Q; rewrite Q; exact T4
      | |- to_typed _ => pose proof (FR PTo eq_refl) as Q; cbn [same] in Q; rewrite Q; exact T5
      | |- tx_typed _ => pose proof (FR PTx eq_refl) as Q; cbn [same] in Q; rewrite Q; exact T6
      | |- cl_typed _ => pose proof (FR PCl eq_refl) as Q; cbn [same] in Q; rewrite Q; exact T7
      | |- reg_typed _ => pose proof (FR PReg eq_refl) as Q; cbn [same] in Q; unfold v_reg in Q; injection Q as Q Q';
                          unfold reg_typed; rewrite Q, Q'; exact T8
      end).
    + apply (td_stays c o k s s'); auto.
    + apply (eb_stays c o k s s'); auto.
    + apply (sc_stays o k s s'); auto using mkTyped.
    + apply (sc_stays o k s s'); auto using mkTyped.
    + apply (to_stays c o k s s'); auto.
    + apply (tx_stays c o k s s'); auto.
    + apply (cl_stays c o k s s'); auto.
    + apply (ar_stays c o k s s'); auto.
  - cbn [step]. unfold next_block. destruct (N.leb_spec (rt_blk s + 1) (c_blk_max c)) as [L|]; [|exact T].
    pose proof (ct_blk _ _ C). destruct T as [[T0 T1] T2 T3 T4 T5 T6 T7 T8]. split; auto. split; cbn; lia.
Qed.
Lemma typed_fold {A K V} `{Countable K} (kc : codec K) (vc : codec V) (f : A -> option (K * V)) l m :
  map_typed kc vc m -> Forall (fun x => forall k v, f x = Some (k, v) -> wt kc k /\ wt vc v) l ->
  map_typed kc vc (fold_left (fun m x => match f x with Some (k, v) => <[k := v]> m | None => m end) l m).
Proof.
  intros T F. revert m T. induction F as [|x l Hx F IH]; intros m T; cbn [fold_left]; auto. apply IH.
  destruct (f x) as [[k v]|]; auto. destruct (Hx k v eq_refl). now apply typed_insert.
Qed.
Lemma fold_left_ext {A B} (f g : A -> B -> A) l : (forall a b, f a b = g a b) -> forall a, fold_left f l a = fold_left g l a.
Proof. intros E. induction l as [|b l IH]; intros a; cbn [fold_left]; auto. rewrite E. apply IH. Qed.
Lemma genesis_is_typed g : genesis_typed y g -> typed (genesis_state g).
Proof.
  intros (G1 & G2 & G3 & G4).
  split; cbn [genesis_state rt_td rt_eb rt_sc rt_to rt_tx rt_cl]; unfold td_typed, eb_typed, to_typed, tx_typed, reg_typed, clock_typed;
    cbn [rt_now rt_blk rt_ar ar_loc ar_id td_bonds td_pending eb_status eb_config eb_exec to_rates to_data to_wl tx_sov tx_prox tx_qe tx_tcb].
  - split; [auto|]. apply N.neq_0_lt_0, N.pow_nonzero. lia.
  - split; apply typed_empty.
  - split; [|split]; apply typed_empty.
  - apply typed_empty.
  - split; [|split]; apply typed_empty.
  - split; [apply typed_empty|]. split; [apply typed_empty|]. split; [|apply typed_empty].
    apply qe_typed; try apply (arr_zeros 4); try apply (arr_zeros 16); try apply (arr_zeros 32); try constructor; cbn; try lia; vm_compute; discriminate.
  - unfold cl_typed, claims_genesis. cbn [cl_claims cl_total cl_vesting cl_signing cl_preclaims]. split; [|split; [auto|split; [|split]]].
    + refine (typed_fold _ _ (fun x : bytes * N * option acct * option statement => Some (x.1.1.1, x.1.1.2)) _ ∅ _ _); [apply typed_empty|]. eapply Forall_impl; [exact G2|]. intros x (A & B & _) k v [= <- <-]. auto.
    + refine (typed_fold _ _ (fun x : bytes * (N * N * N) => Some (x.1, x.2)) _ ∅ _ _); [apply typed_empty|]. eapply Forall_impl; [exact G4|]. intros x [A B] k v [= <- <-]. auto.
    + rewrite (fold_left_ext _ (fun m x => match (fun x : bytes * N * option acct * option statement => (fun s => (x.1.1.1, s)) <$> x.2) x with Some (k, v) => <[k := v]> m | None => m end))
        by (intros a [[[? ?] ?] [?|]]; reflexivity).
      apply typed_fold; [apply typed_empty|]. eapply Forall_impl; [exact G2|]. intros [[[x1 x2] x3] [st|]] (A & _) k v [= <- <-]. split; [exact A|]. destruct st; exact I.
    + rewrite (fold_left_ext _ (fun m x => match (fun x : bytes * N * option acct * option statement => (fun s => (s, x.1.1.1)) <$> x.1.2) x with Some (k, v) => <[k := v]> m | None => m end))
        by (intros a [[[? ?] [?|]] ?]; reflexivity).
      apply typed_fold; [apply typed_empty|]. eapply Forall_impl; [exact G2|]. intros [[[x1 x2] [a|]] x4] (A & _ & B) k v [= <- <-]. auto.
  - split; apply typed_empty.
Qed.
End WithLayout.

(** ** C82 *)
(** In every state a history of typed operations reaches, every key and every value is one of its Rust
    type, and numbers have not grown out of theirs. *)
Theorem C82_storage_stays_typed : forall y c g l, cfg_typed y c -> genesis_typed y g -> Forall (op_typed y) l ->
  typed y (run c (genesis_state g) l).
Proof.
  intros y c g l C G L. apply (run_inv c (typed y) (op_typed y)); [|now apply genesis_is_typed|exact L].
  intros s x T X. now apply step_typed.
Qed.
Print Assumptions C82_storage_stays_typed.

(** Everything the pallets have in storage can be read back: each key is the encoding of a key of its
    type, each value decodes to itself, nothing is taken for absent. *)
Lemma typed_disk y s v : typed y s -> v <= u16_max -> disk_wt y (mkDisk s v ∅ 0 ∅ false).
Proof.
  intros [_ [D1 D2] (E1 & E2 & E3) S (O1 & O2 & O3) (X1 & X2 & X3 & X4) (L1 & L2 & L3 & L4 & L5) [R1 R2]] V.
  assert (forall K V' (EK : EqDecision K) (CK : Countable K) kc vc (m : gmap K V') k d, map_typed kc vc m -> wt vc d -> wt vc (default d (m !! k))) as DEF.
  { intros K V' EK CK kc vc m k d T W. destruct (m !! k) eqn:E; cbn; auto. apply (T _ _ E). }
  assert (forall K V' (EK : EqDecision K) (CK : Countable K) (kc : codec K) (vc : codec V') (m : gmap K V') k d, map_typed kc vc m ->
    Some (default d (m !! k)) <> Some d -> wt kc k) as DEFK.
  { intros K V' EK CK kc vc m k d T N. destruct (m !! k) eqn:E; cbn in N; [apply (T _ _ E)|congruence]. }
  assert (forall K V' (EK : EqDecision K) (CK : Countable K) (kc : codec K) (vc : codec V') (m : gmap K V') k, map_typed kc vc m ->
    m !! k <> None -> wt kc k) as OPT.
  { intros K V' EK CK kc vc m k T N. destruct (m !! k) eqn:E; [apply (T _ _ E)|congruence]. }
  intros k. split.
  - destruct k; cbn [entry val_default key_wt dk_rt dk_version dk_v0_registry dk_v0_count dk_v0_index dk_v0_debug val_of]; intros N; try exact I.
    all: try (match goal with T : map_typed _ _ _ |- _ => solve [exact (OPT _ _ _ _ _ _ _ _ T N)] end).
    all: try (match goal with T : map_typed _ _ _ |- _ => solve [exact (DEFK _ _ _ _ _ _ _ _ _ T N)] end).
    all: exfalso; apply N; rewrite ?lookup_empty; reflexivity.
  - destruct k; cbn [entry val_codec key_wt dk_rt dk_version dk_v0_registry dk_v0_count dk_v0_index dk_v0_debug val_of]; intros W z Z.
    all: try (match goal with T : map_typed _ _ _ |- _ => solve [exact (proj2 (T _ _ Z))] end).
    all: try (injection Z as <-).
    all: try exact X3; try exact L2; try (destruct (tx_allow_debug _); exact I); try (destruct (tx_allow_skip _); exact I); try exact I.
    all: try (match goal with T : map_typed _ _ _ |- _ => solve [apply (DEF _ _ _ _ _ _ _ _ _ T); first [apply le8; lia|split; [split; [constructor|]|]; vm_compute; discriminate|split; [constructor|]; vm_compute; discriminate|split; [split; [constructor|]|]; cbn; lia]] end).
    all: rewrite ?lookup_empty in *; try discriminate.
    all: cbn; try (apply le8; lia); try (apply le2; exact V); try (apply le8; vm_compute; discriminate).
    apply (DEF _ _ _ _ _ _ _ _ _ O2). split; [split; [constructor|]|]; apply N.le_0_l.
Qed.
Theorem C82_storage_is_always_readable : forall y c g l version, sane y -> cfg_typed y c -> genesis_typed y g ->
  Forall (op_typed y) l -> version <= u16_max ->
  let x := mkDisk (run c (genesis_state g) l) version ∅ 0 ∅ false in
  (forall k v, entry k x = Some v -> entry k x <> val_default k ->
     key_wt y k /\ dec (val_codec y k) (enc (val_codec y k) v) = Some (v, [])) /\
  holds y (image y x) x.
Proof.
  intros y c g l version S C G L V x.
  assert (disk_wt y x) as D by (apply typed_disk; [now apply C82_storage_stays_typed|exact V]).
  split; [|now apply C80_every_state_is_stored].
  intros k v E N. destruct (D k) as [D1 D2]. specialize (D1 N). split; [exact D1|]. specialize (D2 D1 v E).
  pose proof (law_rt _ (lawful_val y k S) v [] D2) as R. now rewrite app_nil_r in R.
Qed.
Print Assumptions C82_storage_is_always_readable.

(** ** Example: oracles that refuse what is not of its type *)
Definition is_bytes (b : bytes) : bool := forallb (fun x => x <? 256) b.
Definition sgx_typed : sgx_oracles :=
  mkSgx (fun _ => zeros 32) (fun b => if is_bytes b then Some b else None) (fun _ => true)
        (fun _ _ t => t <? 1000000) (fun _ _ => true) (fun _ _ _ => true) (fun _ _ _ => true) (fun _ _ _ => true)
        (fun _ => Some [(oid_sgx_ext, ext_demo)])
        (fun d => match d with
                  | [i; n; svn] => if is_bytes d then Some (mkIdentity str_QE 2 (Z.of_N i) (1000 * Z.of_N n) (zeros 4) (zeros 4)
                      (zeros 16) (zeros 16) (zeros 32) 1 [(svn, TUpToDate); (2, TRevoked)]) else None
                  | _ => None end)
        (fun d => match d with
                  | [i; n; svn] => if is_bytes d then Some (mkTcbJson str_SGX 3 (Z.of_N i) (1000 * Z.of_N n) [0;144;110;161;0;0]
                      [(replicate 16 svn, svn, TUpToDate); (replicate 16 0, 0, TOutOfDate)]) else None
                  | _ => None end)
        (fun d => Some (mkIas (Some (takeN 8 d)) (Some str_OK) (Some (dropN 8 d))))
        (fun t => Some (Z.of_N (le_val t))).
Definition cfg_t : cfg :=
  let d := cfg0 in
  mkCfg (c_ovf d) (c_ed d) (c_bal_max d) (c_blk_max d) (c_unlock d) (c_day d) (c_renewal d) (c_max_wl d) (c_max_blob d) (c_prefix d)
        (c_move_origin d) (c_asset_origin d) (c_swap_origin d) (c_shell_id d) (c_integritee_id d) (c_own_para d) (c_keccak d)
        (c_secp d) (c_router d) sgx_typed.
Lemma is_bytes_wf b : is_bytes b = true -> wf_bytes b.
Proof.
  unfold is_bytes, wf_bytes. induction b as [|x b IH]; cbn; [constructor|]. intros H. apply andb_true_iff in H as [H1 H2].
  constructor; [now apply N.ltb_lt|auto].
Qed.
Lemma replicate_wf k x : x < 256 -> wt (c_arr k) (replicate k x).
Proof. intros L. split; [apply Forall_replicate; exact L|apply replicate_length]. Qed.
Lemma cfg_t_typed : cfg_typed layout0 cfg_t.
Proof.
  split.
  - reflexivity.
  - reflexivity.
  - vm_compute. discriminate.
  - intros b x H. cbn in H. destruct (is_bytes b) eqn:E; [|discriminate]. injection H as <-. now apply is_bytes_wf.
  - intros b e H. cbn in H. destruct b as [|i [|n [|svn [|]]]]; try discriminate H.
    destruct (is_bytes [i; n; svn]) eqn:E; [|discriminate]. injection H as <-. apply is_bytes_wf in E.
    inversion E as [|? ? E1 E']; subst. inversion E' as [|? ? E2 E'']; subst. inversion E'' as [|? ? E3 _]; subst.
    cbn [ei_issue ei_next ei_misc ei_misc_mask ei_attr ei_attr_mask ei_mrsigner ei_prodid ei_levels].
    split; [unfold i64_max; lia|]. split; [apply (arr_zeros 4)|]. split; [apply (arr_zeros 4)|]. split; [apply (arr_zeros 16)|].
    split; [apply (arr_zeros 16)|]. split; [apply (arr_zeros 32)|]. split; [vm_compute; discriminate|].
    split; [|vm_compute; discriminate]. constructor; [cbn; unfold u16_max; lia|]. constructor; [vm_compute; discriminate|constructor].
  - intros b e H. cbn in H. destruct b as [|i [|n [|svn [|]]]]; try discriminate H.
    destruct (is_bytes [i; n; svn]) eqn:E; [|discriminate]. injection H as <-. apply is_bytes_wf in E.
    inversion E as [|? ? E1 E']; subst. inversion E' as [|? ? E2 E'']; subst. inversion E'' as [|? ? E3 _]; subst.
    cbn [tj_issue tj_next tj_fmspc tj_levels]. split; [unfold i64_max; lia|].
    split; [split; [apply is_bytes_wf; reflexivity|reflexivity]|]. split; [|vm_compute; discriminate].
    constructor; [split; [now apply (replicate_wf 16)|cbn; unfold u16_max; lia]|].
    constructor; [split; [now apply (replicate_wf 16)|vm_compute; discriminate]|constructor].
Qed.
Definition gen_t : genesis :=
  mkGenesis 5000 (list_to_map [(alice, 1000); (bob, 1000)]) [(replicate 20 7, 50, Some bob, Some StSaft)]
            [(replicate 20 7, (50, 5, 1))] false true (list_to_map [(4, 1)]).
Definition hist_t : list op :=
  [OCall (Signed carol) (CTx (TxRegisterQe [100; 9; 7] (zeros 64) pem_demo));
   OCall (Signed carol) (CTx (TxRegisterTcb [100; 9; 11] (zeros 64) pem_demo));
   OCall (Signed alice) (CTx (TxRegister (quote_demo (acc 77) alice 0) (Some [119; 115]) (MDcap false)));
   OCall (Signed bob) (CTx (TxRegister (acc 77) None (MSkip true)));
   call_td alice (TdBond 500); ONextBlock 600; call_td alice (TdUnbond 100);
   call_eb alice (EbUpdateConfig (acc 9) (mkScfg (acc 77) (Some 3) (Some [bob]) false) 5);
   call_sc alice (ScConfirm (acc 9) None (mkSconf 1 (acc 5)));
   OCall Root (CTo (ToAdd [99] (acc 77)));
   OCall (Signed alice) (CTo (ToUpdateRate [99] [84; 69] (Some 4294967296)));
   OCall (Signed alice) (CTo (ToUpdateOracle [119] [99] [1; 2; 3]));
   OCall Root (CCl (ClMint (replicate 20 8) 70 None (Some StRegular)));
   OCall Root (CAr (ArRegister 4 (mkLoc 1 [JParachain 2015])))].
Ltac typed_tac := repeat match goal with
  | |- _ /\ _ => split
  | |- True => exact I
  | |- wf_bytes _ => apply is_bytes_wf; vm_compute; reflexivity
  | |- Forall (fun b => b < 256) _ => apply is_bytes_wf; vm_compute; reflexivity
  | |- Forall (wt (c_le 1)) _ => apply is_bytes_wf; vm_compute; reflexivity
  | |- Forall _ [] => constructor
  | |- Forall _ (_ :: _) => constructor
  | |- (_ <= _)%N => vm_compute; discriminate
  | |- (_ < _)%N => vm_compute; reflexivity
  | |- _ = _ => vm_compute; reflexivity
  | |- Forall _ (snd _) => progress cbn [fst snd loc_interior loc_parents]
  | |- forall a, Some _ = Some a -> _ => intros ? [= <-]
  | |- forall a, Signed _ = Signed a -> _ => intros ? [= <-]
  | |- forall a, Root = Signed a -> _ => discriminate
  | |- _ => progress hnf
  end.
Lemma hist_t_typed : Forall (op_typed layout0) hist_t.
Proof. unfold hist_t. typed_tac. Qed.
Lemma gen_t_typed : genesis_typed layout0 gen_t.
Proof. split; [vm_compute; discriminate|]. split; [|split; [reflexivity|]]; (constructor; [|constructor]); cbn [fst snd]; typed_tac. Qed.
Example C82_example : typed layout0 (run cfg_t (genesis_state gen_t) hist_t).
Proof. apply C82_storage_stays_typed; [apply cfg_t_typed|apply gen_t_typed|apply hist_t_typed]. Qed.
(** none of the calls fails; the store then has an entry for each of the values, and they read back *)
Fixpoint statuses (c : cfg) (s : rt) (l : list op) : list status :=
  match l with
  | [] => []
  | x :: r => match x with OCall o k => [(dispatch c o k s).1] | _ => [] end ++ statuses c (step c s x) r
  end.
Example C82_example_calls : Forall (eq Success) (statuses cfg_t (genesis_state gen_t) hist_t).
Proof. vm_compute. repeat constructor. Qed.
Example C82_example_store :
  let d := image layout0 (mkDisk (run cfg_t (genesis_state gen_t) hist_t) 3 ∅ 0 ∅ false) in
  size d = 26%nat /\ read layout0 (KBonds alice) d = Some (mkBond 400 5600 240000) /\
  read layout0 (KPending alice) d = Some (6600, 100) /\
  read layout0 (KAssetId (mkLoc 1 [JParachain 2015])) d = Some 4 /\ read layout0 (KTotal) d = Some 120 /\
  read layout0 (KPreclaims bob) d = Some (replicate 20 7).
Proof. vm_compute. auto 10. Qed.
