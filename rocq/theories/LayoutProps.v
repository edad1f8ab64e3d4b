(** * C85: the bytes of stored values and calls, spelled out *)
From Coq Require Import String.
From Verif Require Import Base State Env TeerdaysModel TeerexBase SgxVerifyModel TeerexModel
  EnclaveBridgeModel SidechainModel TeeracleModel ClaimsModel AssetRegistryModel XcmTransactorModel
  MigrationsModel Runtime ErrorProps ScaleModel ScaleProofs StorageModel StorageProps EncodingProps Examples.

(** ** The encodings a second time, as plain byte strings *)
(** [k] bytes of [n], the least significant first *)
Definition num (k : nat) (n : N) : bytes := map (fun i => n / 256 ^ N.of_nat i mod 256) (seq 0 k).
(** compact: the two low bits of the first byte tell how many bytes there are *)
Definition compact (n : N) : bytes :=
  if n <? 2 ^ 6 then [4 * n]
  else if n <? 2 ^ 14 then [4 * (n mod 64) + 1; n / 64]
  else if n <? 2 ^ 30 then [4 * (n mod 64) + 2; n / 2 ^ 6 mod 256; n / 2 ^ 14 mod 256; n / 2 ^ 22]
  else let k := N.max 4 (N.log2 n / 8 + 1) in [4 * (k - 4) + 3] ++ num (N.to_nat k) n.
Definition seqb {A} (f : A -> bytes) (l : list A) : bytes := compact (N.of_nat (length l)) ++ flat_map f l.
Definition blob (b : bytes) : bytes := compact (N.of_nat (length b)) ++ b.
Definition flag (b : bool) : bytes := if b then [1] else [0].
Definition optb {A} (f : A -> bytes) (o : option A) : bytes := match o with Some x => [1] ++ f x | None => [0] end.

(** primitives/teerex/src/lib.rs:31-43, 86-94, 123-132 *)
Definition b_build_mode (m : build_mode) : bytes := match m with MDebug => [0] | MProduction => [1] end.
Definition b_method (m : att_method) : bytes :=
  match m with MSkip false => [0; 0] | MSkip true => [0; 1] | MIas => [1] | MDcap false => [2; 0] | MDcap true => [2; 1] end.
Definition b_status (x : sgx_status) : bytes :=
  match x with StInvalid => [0] | StOk => [1] | StGroupOutOfDate => [2] | StGroupRevoked => [3] | StConfigurationNeeded => [4] end.
Definition b_tcb_status (x : tcb_status) : bytes :=
  match x with
  | TUnknown => [0] | TUpToDate => [1] | TSWHardeningNeeded => [2] | TConfigurationAndSWHardeningNeeded => [3]
  | TOutOfDate => [4] | TOutOfDateConfigurationNeeded => [5] | TRevoked => [6]
  end.
(** primitives/teerex/src/lib.rs:134-137, 190-200 *)
Definition b_enclave (e : enclave) : bytes :=
  [0] ++ en_report_data e ++ en_mr_enclave e ++ en_mr_signer e ++ num 8 (en_timestamp e) ++ optb blob (en_url e) ++
  b_build_mode (en_build_mode e) ++ b_method (en_method e) ++ b_status (en_status e).
(** primitives/teerex/src/lib.rs:258-260, 270-284 *)
Definition b_qe (q : qenclave) : bytes :=
  num 8 (q_issue q) ++ num 8 (q_next q) ++ q_misc q ++ q_misc_mask q ++ q_attr q ++ q_attr_mask q ++ q_mrsigner q ++
  num 2 (q_prodid q) ++ seqb (num 2) (q_tcb q).
(** primitives/teerex/src/lib.rs:324-328, 358-364 *)
Definition b_tcb_info (t : tcb_info) : bytes :=
  num 8 (ti_issue t) ++ num 8 (ti_next t) ++
  seqb (fun l => tl_cpusvn l ++ num 2 (tl_pcesvn l) ++ b_tcb_status (tl_status l)) (ti_levels t).
(** teerex/src/migrations.rs:8-17 *)
Definition b_enclave_v0 (e : enclave_v0) : bytes :=
  let '(pubkey, (mr, (ts, (url, mode)))) := e in pubkey ++ mr ++ num 8 ts ++ blob url ++ b_build_mode mode.
(** primitives/common/src/lib.rs:58-62, primitives/teerex/src/lib.rs:393-398 *)
Definition b_signer (x : any_signer) : bytes := match x with inl b => [0] ++ blob b | inr b => [1; 0] ++ b end.
Definition b_eaddr (a : eaddr) : bytes := a.1.1 ++ a.1.2 ++ b_signer a.2.
Section Runtime.
Context (y : layout) (ix : N -> N).
Notation bal := (num (w_bal (ly_w y))).
Notation blk := (num (w_blk (ly_w y))).
Notation aid := (num (w_aid (ly_w y))).
(** primitives/enclave-bridge/src/lib.rs:32-38, 41-51, 64-72 *)
Definition b_sstat (x : sstat) : bytes := ss_signer x ++ ss_fp x ++ blk (ss_last x).
Definition b_scfg (x : scfg) : bytes :=
  sc_fp x ++ optb (num 4) (sc_max_instances x) ++ optb (seqb (fun a => a)) (sc_authorities x) ++ flag (sc_maintenance x).
Definition b_uscfg (x : uscfg) : bytes := b_scfg (uc_active x) ++ optb b_scfg (uc_pending x) ++ optb blk (uc_at x).
(** primitives/sidechain/src/lib.rs:27-33 *)
Definition b_sconf (x : sconf) : bytes := num 8 (sn_number x) ++ sn_hash x.
(** primitives/teerdays/src/lib.rs:6-12 *)
Definition b_bond (x : bond) : bytes := bal (bd_value x) ++ num 8 (bd_last x) ++ bal (bd_tt x).
(** primitives/claims/src/lib.rs:51-69 *)
Definition b_statement (x : statement) : bytes := match x with StRegular => [0] | StSaft => [1] end.
(** claims/src/lib.rs:132 *)
Definition b_vesting (x : N * N * N) : bytes := bal x.1.1 ++ bal x.1.2 ++ blk x.2.
(** staging-xcm v4 *)
Definition b_junction (j : junction) : bytes :=
  let net n := optb (enc (x_net (ly_xcm y))) n in
  match j with
  | JParachain i => [0] ++ compact i
  | JAccountId32 n b => [1] ++ net n ++ b
  | JAccountIndex64 n i => [2] ++ net n ++ compact i
  | JAccountKey20 n b => [3] ++ net n ++ b
  | JPalletInstance i => [4; i]
  | JGeneralIndex i => [5] ++ compact i
  | JGeneralKey l b => [6; l] ++ b
  | JOnlyChild => [7]
  | JPlurality i p => [8] ++ enc (x_body (ly_xcm y)) i ++ enc (x_part (ly_xcm y)) p
  | JGlobalConsensus n => [9] ++ enc (x_net (ly_xcm y)) n
  end.
Definition b_location (l : location) : bytes :=
  [loc_parents l; N.of_nat (length (loc_interior l))] ++ flat_map b_junction (loc_interior l).

Definition value_bytes (k : skey) : val_of k -> bytes :=
  match k return val_of k -> bytes with
  | KSov _ | KProx _ => b_enclave
  | KQe => b_qe
  | KTcb _ => b_tcb_info
  | KDebug | KSkip | KV0Debug => flag
  | KV0Registry _ => b_enclave_v0
  | KV0Count | KV0Index _ | KExec _ | KRates _ _ => num 8
  | KVersion => num 2
  | KStatus _ => seqb b_sstat
  | KConfig _ => b_uscfg
  | KLatest _ => b_sconf
  | KData _ _ => blob
  | KWhitelist _ => seqb (fun h => h)
  | KBonds _ => b_bond
  | KPending _ => fun x => num 8 x.1 ++ bal x.2
  | KClaims _ | KTotal => bal
  | KVesting _ => b_vesting
  | KSigning _ => b_statement
  | KPreclaims _ => fun e => e
  | KAssetLoc _ => b_location
  | KAssetId _ => aid
  end.
(** pallet index, call index, arguments *)
Definition call_bytes (k : call) : bytes :=
  match k with
  | CTd x => [ix 0] ++ match x with        (* teerdays/src/lib.rs:171-295 *)
      | TdBond v => [0] ++ compact v
      | TdBondExtra v => [1] ++ compact v
      | TdUnbond v => [2] ++ compact v
      | TdUpdateOther a => [3] ++ a
      | TdWithdrawUnbonded => [4]
      end
  | CEb x => [ix 1] ++ match x with        (* enclave-bridge/src/lib.rs:160-415 *)
      | EbInvoke sh ct => [0] ++ sh ++ blob ct
      | EbConfirm sh bh n root => [1] ++ sh ++ bh ++ blk n ++ root
      | EbShield sh acc v => [2] ++ sh ++ blob acc ++ bal v
      | EbUnshield sh a v h => [3] ++ sh ++ a ++ bal v ++ h
      | EbPublish h ts d => [4] ++ h ++ seqb (fun t => t) ts ++ blob d
      | EbUpdateConfig sh cf d => [5] ++ sh ++ b_scfg cf ++ blk d
      | EbPurge sh a => [6] ++ sh ++ a
      end
  | CSc (ScConfirm sh anc cand) =>         (* sidechain/src/lib.rs:91-98 *)
      [ix 2] ++ [0] ++ sh ++ optb b_sconf anc ++ b_sconf cand
  | CTo x => [ix 3] ++ match x with        (* teeracle/src/lib.rs:148-226 *)
      | ToAdd src m => [0] ++ blob src ++ m
      | ToRemove src m => [1] ++ blob src ++ m
      | ToUpdateOracle name src d => [2] ++ blob name ++ blob src ++ blob d
      | ToUpdateRate src pr r => [3] ++ blob src ++ blob pr ++ optb (num 8) r
      end
  | CTx x => [ix 4] ++ match x with        (* teerex/src/lib.rs:293-544 *)
      | TxRegister p u m => [0] ++ blob p ++ optb blob u ++ b_method m
      | TxUnregisterSovereign a => [1] ++ a
      | TxUnregisterProxied a => [2] ++ b_eaddr a
      | TxRegisterQe d s ch => [3] ++ blob d ++ blob s ++ blob ch
      | TxRegisterTcb d s ch => [4] ++ blob d ++ blob s ++ blob ch
      | TxSetFlags d s => [5] ++ flag d ++ flag s
      end
  | CCl x => [ix 5] ++ match x with        (* claims/src/lib.rs:213-365 *)
      | ClClaim d sig => [0] ++ d ++ sig
      | ClMint e v vs st => [1] ++ e ++ bal v ++ optb b_vesting vs ++ optb b_statement st
      | ClClaimAttest d sig t => [2] ++ d ++ sig ++ blob t
      | ClAttest t => [3] ++ blob t
      | ClMove old new pre => [4] ++ old ++ new ++ optb (fun a => a) pre
      end
  | CAr x => [ix 6] ++ match x with        (* asset-registry/src/lib.rs:97-132 *)
      | ArRegister i l => [0] ++ aid i ++ b_location l
      | ArUnregister i => [1] ++ aid i
      end
  | CXt (XtSwap a b wg f) =>               (* xcm-transactor/src/lib.rs:125-133 *)
      [ix 7] ++ [0] ++ num 4 a ++ num 4 b ++ compact wg.1 ++ compact wg.2 ++ num 16 f
  end.
(** What follows the prefix of the item in a key *)
Definition hashed (b : bytes) : bytes := ly_blake y b ++ b.
Definition key_bytes (k : skey) : bytes :=
  match k with
  | KSov a | KV0Index a | KBonds a | KPending a => hashed a
  | KProx a => hashed (b_eaddr a)
  | KTcb f => hashed f
  | KV0Registry n => hashed (num 8 n)
  | KStatus h | KConfig h | KExec h | KLatest h => hashed h
  | KRates pr src => hashed (blob pr) ++ hashed (blob src)
  | KData name src => hashed (blob name) ++ hashed (blob src)
  | KWhitelist src => hashed (blob src)
  | KClaims e | KVesting e | KSigning e => e
  | KPreclaims a => a
  | KAssetLoc i => hashed (aid i)
  | KAssetId l => hashed (b_location l)
  | KQe | KDebug | KSkip | KV0Count | KV0Debug | KVersion | KTotal => []
  end.
End Runtime.

(** ** They are the encodings of the model *)
Lemma num_le k n : le_bytes k n = num k n.
Proof.
  unfold num. revert n. induction k as [|k IH]; intros n; [reflexivity|]. cbn [le_bytes seq map].
  f_equal; [now rewrite N.pow_0_r, N.div_1_r|]. rewrite IH, <- seq_shift, map_map. apply map_ext. intros i.
  rewrite Nat2N.inj_succ, N.pow_succ_r', N.div_div by (try apply N.pow_nonzero; lia). reflexivity.
Qed.
Lemma n_bytes_spec f k n : n < 256 ^ N.of_nat (k + f) -> (n_bytes f k n = k \/ 256 ^ N.of_nat (n_bytes f k n - 1) <= n /\ (k < n_bytes f k n)%nat) /\
  n < 256 ^ N.of_nat (n_bytes f k n).
Proof.
  revert k. induction f as [|f IH]; intros k H; cbn [n_bytes]; [rewrite Nat.add_0_r in H; auto|].
  destruct (N.ltb_spec n (256 ^ N.of_nat k)); [auto|].
  destruct (IH (S k)) as [[E|[E1 E2]] E3]; [replace (S k + f)%nat with (k + S f)%nat by lia; auto| |].
  - rewrite E in *. split; [right; split; [|lia]|auto]. replace (S k - 1)%nat with k by lia. auto.
  - split; [right; split; [auto|lia]|auto].
Qed.
Lemma log_bytes n k : n <> 0 -> 256 ^ (k - 1) <= n -> n < 256 ^ k -> k <> 0 -> N.log2 n / 8 + 1 = k.
Proof.
  intros Hn H1 H2 Hk. change 256 with (2 ^ 8) in *. rewrite <- !N.pow_mul_r in *.
  apply N.log2_le_pow2 in H1; [|lia]. apply N.log2_lt_pow2 in H2; [|lia].
  assert (N.log2 n / 8 = k - 1) as ->; [|lia]. symmetry. apply (N.div_unique _ _ _ (N.log2 n - 8 * (k - 1))); lia.
Qed.
Lemma compact_spec mx n : (4 <= mx)%nat -> n < 256 ^ N.of_nat mx -> enc_compact mx n = compact n.
Proof.
  intros Hm H. unfold enc_compact, compact.
  change (2 ^ 6) with 64. change (2 ^ 14) with 16384. change (2 ^ 30) with 1073741824. change (2 ^ 22) with 4194304.
  destruct (N.ltb_spec n 64); [reflexivity|].
  destruct (N.ltb_spec n 16384).
  { cbn [le_bytes]. pose proof (N.div_mod n 64 ltac:(lia)) as D. pose proof (N.mod_lt n 64 ltac:(lia)).
    set (q := n / 64) in *. set (r := n mod 64) in *. assert (q < 256) by lia.
    assert (4 * n + 1 = (4 * r + 1) + q * 256) as E by lia. rewrite E.
    rewrite N.mod_add, N.div_add by lia. rewrite (N.mod_small (4 * r + 1)), (N.div_small (4 * r + 1)), N.add_0_l, N.mod_small by lia. reflexivity. }
  destruct (N.ltb_spec n 1073741824).
  { cbn [le_bytes]. pose proof (N.div_mod n 64 ltac:(lia)) as D. pose proof (N.mod_lt n 64 ltac:(lia)).
    change 16384 with (64 * 256). change 4194304 with (64 * 256 * 256). rewrite <- !N.div_div by lia.
    set (q := n / 64) in *. set (r := n mod 64) in *.
    assert (4 * n + 2 = (4 * r + 2) + q * 256) as E by lia. rewrite E.
    rewrite N.mod_add, N.div_add by lia. rewrite (N.mod_small (4 * r + 2)), (N.div_small (4 * r + 2)), N.add_0_l by lia.
    repeat f_equal. apply N.mod_small. rewrite N.div_div by lia. apply N.div_lt_upper_bound; lia. }
  set (k := n_bytes (mx - 4) 4 n).
  assert (N.max 4 (N.log2 n / 8 + 1) = N.of_nat k) as ->.
  { destruct (n_bytes_spec (mx - 4) 4 n) as [[E|[E1 E2]] E3]; [replace (4 + (mx - 4))%nat with mx by lia; auto| |]; fold k in E3.
    - fold k in E. rewrite E in *. change (256 ^ N.of_nat 4) with (2 ^ 32) in E3. apply N.log2_lt_pow2 in E3; [|lia].
      assert (N.log2 n / 8 < 4) by (apply N.div_lt_upper_bound; lia). lia.
    - fold k in E1, E2. assert (N.log2 n / 8 + 1 = N.of_nat k) as ->; [|lia].
      apply log_bytes; [lia| |auto|lia]. replace (N.of_nat k - 1) with (N.of_nat (k - 1)) by lia. auto. }
  rewrite Nat2N.id, num_le. cbn [app]. f_equal. lia.
Qed.
Lemma flat_enc {A} (a : codec A) (f : A -> bytes) l : Forall (fun x => enc a x = f x) l -> enc_seq a l = flat_map f l.
Proof. unfold enc_seq. induction 1 as [|x l H HF IH]; [reflexivity|]. cbn. rewrite H, IH. reflexivity. Qed.
Lemma vec_spec {A} (a : codec A) (f : A -> bytes) l : lenN l <= u32_max -> Forall (fun x => enc a x = f x) l ->
  enc (c_vec a) l = seqb f l.
Proof.
  intros H HF. cbn [c_vec enc]. unfold seqb. rewrite compact_spec; [|lia|].
  - rewrite (flat_enc _ f) by auto. reflexivity.
  - unfold u32_max in H. change (256 ^ N.of_nat 4) with (2 ^ 32). lia.
Qed.
Lemma byte_num b : b < 256 -> num 1 b = [b].
Proof. intros H. cbn. rewrite N.div_1_r, N.mod_small by auto. reflexivity. Qed.
Lemma blob_spec b : wt c_bytes b -> enc c_bytes b = blob b.
Proof.
  intros [H1 H2]. unfold c_bytes. rewrite (vec_spec _ (fun x => [x])); [|auto|].
  - unfold seqb, blob. f_equal. clear. induction b as [|x b IH]; [reflexivity|]. cbn. now rewrite IH.
  - eapply Forall_impl; [exact H1|]. intros x Hx. cbn. rewrite N.mod_small; [reflexivity|exact Hx].
Qed.
Lemma opt_spec {A} (a : codec A) (f : A -> bytes) o : (forall x, o = Some x -> enc a x = f x) -> enc (c_opt a) o = optb f o.
Proof. destruct o as [x|]; [|reflexivity]. intros H. cbn. rewrite (H x) by reflexivity. reflexivity. Qed.
Lemma wt_opt {A} (a : codec A) o x : wt (c_opt a) o -> o = Some x -> wt a x.
Proof. intros H ->. exact H. Qed.
Lemma le_spec k n : enc (c_le k) n = num k n.
Proof. apply num_le. Qed.
Lemma le_all k (l : list N) : Forall (fun x => enc (c_le k) x = num k x) l.
Proof. apply Forall_forall. intros. apply le_spec. Qed.
Lemma arr_all k (l : list bytes) : Forall (fun x => enc (c_arr k) x = x) l.
Proof. apply Forall_forall. reflexivity. Qed.
Lemma bool_spec b : enc c_bool b = flag b.
Proof. destruct b; reflexivity. Qed.
Lemma pair_spec {A B} (a : codec A) (b : codec B) x z : enc (c_pair a b) (x, z) = enc a x ++ enc b z.
Proof. reflexivity. Qed.
Lemma mode_spec m : enc c_build_mode m = b_build_mode m.
Proof. destruct m; reflexivity. Qed.
Lemma method_spec m : enc c_att_method m = b_method m.
Proof. destruct m as [[]| |[]]; reflexivity. Qed.
Lemma status_spec m : enc c_sgx_status m = b_status m.
Proof. destruct m; reflexivity. Qed.
Lemma tcb_status_spec m : enc c_tcb_status m = b_tcb_status m.
Proof. destruct m; reflexivity. Qed.
Lemma statement_spec m : enc c_statement m = b_statement m.
Proof. destruct m; reflexivity. Qed.
Lemma enclave_spec e : wt c_enclave e -> enc c_enclave e = b_enclave e.
Proof.
  intros W. change (enc c_enclave e) with (0 :: enc c_sgx_enclave e). unfold c_sgx_enclave. cbn [c_iso enc].
  rewrite !pair_spec, mode_spec, method_spec, status_spec, le_spec.
  rewrite (opt_spec _ blob); [reflexivity|]. intros x E. apply blob_spec.
  change (wt c_enclave e) with (wt c_sgx_enclave e) in W. unfold c_sgx_enclave in W. cbn [c_iso wt c_pair fst snd] in W.
  destruct W as (_ & _ & _ & _ & W & _). exact (wt_opt _ _ _ W E).
Qed.
Lemma qe_spec q : wt c_qenclave q -> enc c_qenclave q = b_qe q.
Proof.
  intros W. unfold c_qenclave. cbn [c_iso enc]. rewrite !pair_spec, !le_spec.
  rewrite (vec_spec _ (num 2)); [reflexivity| |apply le_all].
  unfold c_qenclave in W. cbn [c_iso wt c_pair fst snd c_vec] in W. apply W.
Qed.
Lemma tcb_info_spec t : wt c_tcb_info t -> enc c_tcb_info t = b_tcb_info t.
Proof.
  intros W. unfold c_tcb_info. cbn [c_iso enc]. rewrite !pair_spec, !le_spec.
  unfold b_tcb_info. do 2 f_equal. apply vec_spec.
  - unfold c_tcb_info in W. cbn [c_iso wt c_pair fst snd c_vec] in W. apply W.
  - apply Forall_forall. intros l _. unfold c_tcb_level. cbn [c_iso enc]. rewrite !pair_spec, le_spec, tcb_status_spec. reflexivity.
Qed.
Lemma enclave_v0_spec e : wt c_enclave_v0 e -> enc c_enclave_v0 e = b_enclave_v0 e.
Proof.
  intros W. destruct e as (a & b & c & d & e). 
  change (enc c_enclave_v0 (a, (b, (c, (d, e))))) with (a ++ b ++ le_bytes 8 c ++ enc c_bytes d ++ enc c_build_mode e).
  rewrite num_le, mode_spec, blob_spec; [reflexivity|].
  cbn [c_enclave_v0 wt c_pair fst snd] in W. apply W.
Qed.
Lemma bvec_blob mx b : wt (c_bvec mx (c_le 1)) b -> enc (c_bvec mx (c_le 1)) b = blob b.
Proof. intros [W _]. apply (blob_spec b W). Qed.
Lemma signer_spec x : wt c_any_signer x -> enc c_any_signer x = b_signer x.
Proof.
  destruct x as [b|b]; intros W; [|reflexivity].
  change (enc c_any_signer (inl b)) with (0 :: enc (c_bvec 66 (c_le 1)) b). rewrite bvec_blob; [reflexivity|exact W].
Qed.
Lemma eaddr_spec a : wt c_eaddr a -> enc c_eaddr a = b_eaddr a.
Proof.
  destruct a as [[h a] g]. intros [W1 W2]. change (enc c_eaddr (h, a, g)) with ((h ++ a) ++ enc c_any_signer g). rewrite signer_spec by exact W2.
  unfold b_eaddr. cbn [fst snd]. now rewrite <- app_assoc.
Qed.
Section Specs.
Context (y : layout) (ix : N -> N).
Lemma sstat_spec x : enc (c_sstat (ly_w y)) x = b_sstat y x.
Proof. unfold c_sstat. cbn [c_iso enc]. rewrite !pair_spec, le_spec. reflexivity. Qed.
Lemma scfg_spec x : wt c_scfg x -> enc c_scfg x = b_scfg x.
Proof.
  intros W. unfold c_scfg in *. cbn [c_iso enc wt c_pair fst snd] in *. rewrite bool_spec.
  rewrite (opt_spec _ (num 4)) by (intros; apply le_spec). rewrite (opt_spec _ (seqb (fun a => a))); [reflexivity|].
  intros l E. destruct W as (_ & _ & W & _). apply (wt_opt _ _ _ W) in E. apply vec_spec; [apply E|apply arr_all].
Qed.
Lemma uscfg_spec x : wt (c_uscfg (ly_w y)) x -> enc (c_uscfg (ly_w y)) x = b_uscfg y x.
Proof.
  intros W. unfold c_uscfg in *. cbn [c_iso enc wt] in *. rewrite !pair_spec. destruct W as (W1 & W2 & _). cbn [fst snd] in *.
  rewrite scfg_spec by exact W1. rewrite (opt_spec _ b_scfg) by (intros z E; apply scfg_spec, (wt_opt _ _ _ W2 E)).
  rewrite (opt_spec _ (num (w_blk (ly_w y)))) by (intros; apply le_spec). reflexivity.
Qed.
Lemma sconf_spec x : enc c_sconf x = b_sconf x.
Proof. unfold c_sconf. cbn [c_iso enc]. rewrite !pair_spec, le_spec. reflexivity. Qed.
Lemma bond_spec x : enc (c_bond (ly_w y)) x = b_bond y x.
Proof. unfold c_bond. cbn [c_iso enc]. rewrite !pair_spec, !le_spec. reflexivity. Qed.
Lemma vesting_spec x : enc (c_vesting (ly_w y)) x = b_vesting y x.
Proof. destruct x as [[a b] c]. unfold c_vesting. rewrite !pair_spec, !le_spec. unfold b_vesting. cbn [fst snd]. now rewrite <- app_assoc. Qed.
Lemma net_spec (n : option N) : enc (c_opt (x_net (ly_xcm y))) n = optb (enc (x_net (ly_xcm y))) n.
Proof. apply opt_spec. auto. Qed.
Lemma case_hit {A B} tg (a : codec A) (inj : A -> B) prj rest x z : prj x = Some z -> enc (c_case tg a inj prj rest) x = tg :: enc a z.
Proof. cbn. intros ->. reflexivity. Qed.
Lemma case_miss {A B} tg (a : codec A) (inj : A -> B) prj rest x : prj x = None -> enc (c_case tg a inj prj rest) x = enc rest x.
Proof. cbn. intros ->. reflexivity. Qed.
End Specs.
Ltac variant := repeat (rewrite case_miss by reflexivity); erewrite case_hit by reflexivity.
Section Specs2.
Context (y : layout) (ix : N -> N).
Lemma junction_spec j : wt (c_junction (ly_xcm y)) j -> enc (c_junction (ly_xcm y)) j = b_junction y j.
Proof.
  intros W. unfold c_junction. destruct j; cbn [wt c_junction c_case c_pair fst snd] in W; unfold b_junction; variant; rewrite ?pair_spec, ?net_spec; cbn [app]; try reflexivity.
  - cbn [c_compact enc]. rewrite compact_spec; [reflexivity|lia|exact W].
  - cbn [c_compact enc]. rewrite compact_spec; [reflexivity|lia|apply W].
  - rewrite le_spec, byte_num; [reflexivity|exact W].
  - cbn [c_compact enc]. rewrite compact_spec; [reflexivity|lia|exact W].
  - rewrite le_spec, byte_num; [reflexivity|apply W].
Qed.
Lemma location_spec l : wt (c_location (ly_xcm y)) l -> enc (c_location (ly_xcm y)) l = b_location y l.
Proof.
  intros [W1 [W2 W3]]. cbn [fst snd] in *. unfold c_location. cbn [c_iso enc]. rewrite pair_spec, le_spec, byte_num by exact W1.
  cbn [c_count enc]. rewrite (flat_enc _ (b_junction y)); [reflexivity|].
  eapply Forall_impl; [exact W2|]. intros j. apply junction_spec.
Qed.
(** Storage holds exactly these bytes, under exactly these keys. *)
Theorem C85_values_are_stored_as_these_bytes : forall k v, wt (val_codec y k) v -> enc (val_codec y k) v = value_bytes y k v.
Proof.
  intros k v W. destruct k; cbn [val_codec value_bytes val_of] in *; try apply le_spec.
  - apply enclave_spec, W.
  - apply enclave_spec, W.
  - apply qe_spec, W.
  - apply tcb_info_spec, W.
  - apply bool_spec.
  - apply bool_spec.
  - apply enclave_v0_spec, W.
  - apply bool_spec.
  - destruct W as [W _]. apply vec_spec; [apply W|]. apply Forall_forall. intros x _. apply sstat_spec.
  - apply uscfg_spec, W.
  - apply sconf_spec.
  - eapply bvec_blob, W.
  - apply vec_spec; [apply W|apply arr_all].
  - apply bond_spec.
  - destruct v as [d b]. unfold c_pending. rewrite pair_spec, !le_spec. reflexivity.
  - apply vesting_spec.
  - apply statement_spec.
  - reflexivity.
  - apply location_spec, W.
Qed.
Theorem C85_keys_are_these_bytes : forall k, key_wt y k -> key_tail y k = key_bytes y k.
Proof.
  intros k W. destruct k; cbn [key_tail key_bytes key_wt] in *; try reflexivity; unfold blake_concat, hashed.
  - now rewrite eaddr_spec by exact W.
  - now rewrite le_spec.
  - destruct W as [W1 W2]. now rewrite !blob_spec by assumption.
  - destruct W as [W1 W2]. now rewrite !blob_spec by assumption.
  - now rewrite blob_spec by exact W.
  - now rewrite le_spec.
  - now rewrite location_spec by exact W.
Qed.
Theorem C85_calls_are_these_bytes : compactable (ly_w y) -> forall k, wt (c_call y ix) k -> enc (c_call y ix) k = call_bytes y ix k.
Proof.
  intros Wd k W. unfold c_call. destruct k as [x|x|x|x|x|x|x|x]; variant; cbn [call_bytes]; cbn [app]; f_equal;
    cbn [wt c_call c_case] in W.
  - unfold c_td_call in *. destruct x; cbn [wt c_case c_compact] in W; variant; cbn [app]; try reflexivity; cbn [c_compact enc];
      (rewrite compact_spec; [reflexivity|apply Wd|exact W]).
  - unfold c_eb_call, c_request in *. destruct x; cbn [wt c_case c_pair fst snd] in W; variant; cbn [app]; rewrite ?pair_spec, ?le_spec; try reflexivity; f_equal.
    + now rewrite blob_spec by apply W.
    + now rewrite blob_spec by apply W.
    + rewrite blob_spec by apply W. now rewrite (vec_spec _ (fun t => t)) by (try apply W; apply arr_all).
    + rewrite scfg_spec by apply W. reflexivity.
  - unfold c_sc_call in *. destruct x. variant. rewrite !pair_spec, (opt_spec _ b_sconf) by (intros; apply sconf_spec).
    now rewrite sconf_spec.
  - unfold c_to_call in *. destruct x; cbn [wt c_case c_pair fst snd] in W; variant; cbn [app]; rewrite ?pair_spec; f_equal.
    + now rewrite blob_spec by apply W.
    + now rewrite blob_spec by apply W.
    + rewrite !blob_spec by apply W. now rewrite bvec_blob by apply W.
    + rewrite !blob_spec by apply W. now rewrite (opt_spec _ (num 8)) by (intros; apply le_spec).
  - unfold c_tx_call in *. destruct x; cbn [wt c_case c_pair fst snd] in W; variant; cbn [app]; rewrite ?pair_spec; f_equal.
    + rewrite blob_spec by apply W. rewrite method_spec, (opt_spec _ blob); [reflexivity|].
      intros u E. apply blob_spec. destruct W as (_ & W & _). exact (wt_opt _ _ _ W E).
    + now rewrite eaddr_spec by apply W.
    + now rewrite !blob_spec by apply W.
    + now rewrite !blob_spec by apply W.
    + now rewrite !bool_spec.
  - unfold c_cl_call in *. destruct x; cbn [wt c_case c_pair fst snd] in W; variant; cbn [app]; rewrite ?pair_spec; try reflexivity; f_equal.
    + rewrite le_spec, (opt_spec _ (b_vesting y)) by (intros; apply vesting_spec).
      now rewrite (opt_spec _ b_statement) by (intros; apply statement_spec).
    + now rewrite blob_spec by apply W.
    + now rewrite blob_spec by apply W.
  - unfold c_ar_call in *. destruct x; cbn [wt c_case c_pair fst snd] in W; variant; cbn [app]; rewrite ?pair_spec, ?le_spec; f_equal.
    now rewrite location_spec by apply W.
  - unfold c_xt_call in *. destruct x as [a b [w1 w2] f]. cbn [wt c_case c_pair fst snd] in W. variant. rewrite !pair_spec, !le_spec.
    cbn [c_compact enc]. cbn [fst snd]. rewrite !compact_spec by (try apply W; lia). cbn [app]. rewrite <- app_assoc. reflexivity.
Qed.
End Specs2.
Print Assumptions C85_values_are_stored_as_these_bytes.
Print Assumptions C85_keys_are_these_bytes.
Print Assumptions C85_calls_are_these_bytes.

(** ** Size of the entries of asset-registry *)
(** asset-registry is the one pallet with bounded storage; its weights are computed from the largest
    possible entry, 622 bytes for both maps (asset-registry/src/weights.rs:61-65). The bound holds if
    network ids take at most 41 bytes ([ByFork]), body ids 6 and body parts 11, as in staging-xcm v4. *)
Definition xcm_sizes (x : xcm_codecs) : Prop :=
  (forall n, wt (x_net x) n -> (length (enc (x_net x) n) <= 41)%nat) /\
  (forall n, wt (x_body x) n -> (length (enc (x_body x) n) <= 6)%nat) /\
  (forall n, wt (x_part x) n -> (length (enc (x_part x) n) <= 11)%nat).
Lemma n_bytes_le f k n : (n_bytes f k n <= k + f)%nat.
Proof. revert k. induction f as [|f IH]; intros k; cbn [n_bytes]; [lia|]. destruct (_ <? _); [lia|]. pose proof (IH (S k)). lia. Qed.
Lemma le_len k n : length (le_bytes k n) = k.
Proof. revert n. induction k; intros n; cbn; auto. Qed.
Lemma compact_len mx n : (4 <= mx)%nat -> (length (enc_compact mx n) <= S mx)%nat.
Proof.
  intros H. unfold enc_compact. destruct (_ <? _); [cbn; lia|]. destruct (_ <? _); [cbn; lia|]. destruct (_ <? _); [cbn; lia|].
  cbn [length]. rewrite le_len. pose proof (n_bytes_le (mx - 4) 4 n). lia.
Qed.
Lemma junction_len x j : xcm_sizes x -> wt (c_junction x) j -> (length (enc (c_junction x) j) <= 75)%nat.
Proof.
  intros (S1 & S2 & S3) W. unfold c_junction.
  assert (forall n, wt (c_opt (x_net x)) n -> (length (enc (c_opt (x_net x)) n) <= 42)%nat) as So.
  { intros [n|] Wn; cbn; [|lia]. pose proof (S1 n Wn). lia. }
  destruct j; cbn [wt c_junction c_case c_pair fst snd] in W; variant; rewrite ?pair_spec; cbn [length]; rewrite ?app_length.
  - pose proof (compact_len 4 id ltac:(lia)). cbn [c_compact enc]. lia.
  - destruct W as [W1 [_ W2]]. pose proof (So _ W1). cbn [c_arr enc]. rewrite W2. lia.
  - destruct W as [W1 W2]. pose proof (So _ W1). pose proof (compact_len 8 index ltac:(lia)). cbn [c_compact enc]. lia.
  - destruct W as [W1 [_ W2]]. pose proof (So _ W1). cbn [c_arr enc]. rewrite W2. lia.
  - cbn [c_le enc]. rewrite le_len. lia.
  - pose proof (compact_len 16 i ltac:(lia)). cbn [c_compact enc]. lia.
  - destruct W as [_ [_ W2]]. cbn [c_le c_arr enc]. rewrite le_len, W2. lia.
  - cbn. lia.
  - destruct W as [W1 W2]. pose proof (S2 _ W1). pose proof (S3 _ W2). lia.
  - pose proof (S1 _ W). lia.
Qed.
Lemma location_len x l : xcm_sizes x -> wt (c_location x) l -> (length (enc (c_location x) l) <= 602)%nat.
Proof.
  intros Hs [_ [W2 W3]]. cbn [fst snd] in *. unfold c_location. cbn [c_iso enc]. rewrite pair_spec. cbn [c_le c_count enc].
  rewrite app_length, le_len. cbn [length].
  assert (length (enc_seq (c_junction x) (loc_interior l)) <= 75 * length (loc_interior l))%nat.
  { clear W3. unfold enc_seq. induction W2 as [|j js W HF IH]; [cbn; lia|]. cbn [map concat length].
    rewrite app_length. pose proof (junction_len x j Hs W). lia. }
  assert (length (loc_interior l) <= 8)%nat by (unfold lenN in W3; lia). lia.
Qed.
Theorem C85_asset_registry_entries_fit : forall y, sane y -> w_aid (ly_w y) = 4%nat -> xcm_sizes (ly_xcm y) ->
  (forall i l, key_wt y (KAssetLoc i) -> wt (val_codec y (KAssetLoc i)) l ->
     (length (key_tail y (KAssetLoc i)) + length (enc (val_codec y (KAssetLoc i)) l) <= 622)%nat) /\
  (forall l i, key_wt y (KAssetId l) -> wt (val_codec y (KAssetId l)) i ->
     (length (key_tail y (KAssetId l)) + length (enc (val_codec y (KAssetId l)) i) <= 622)%nat).
Proof.
  intros y S A X. split.
  - intros i l K W.
    assert (length (enc (val_codec y (KAssetLoc i)) l) <= 602)%nat by exact (location_len _ _ X W).
    cbn [key_tail]. unfold blake_concat. rewrite app_length, (sane_blake _ S). cbn [c_le enc]. rewrite le_len, A. lia.
  - intros l i K W.
    assert (length (enc (val_codec y (KAssetId l)) i) = 4)%nat as -> by (rewrite <- A; apply le_len).
    cbn [key_tail]. unfold blake_concat. rewrite app_length, (sane_blake _ S).
    pose proof (location_len _ _ X K). lia.
Qed.
Print Assumptions C85_asset_registry_entries_fit.
(** The entry stored for a location on another chain's pallet is far smaller; the bound is reached by
    eight accounts with the longest network id. *)
Definition layout_wide : layout :=
  mkLayout widths0 (mkXcmCodecs (c_le 41) (c_le 6) (c_le 11)) (ly_name layout0) (ly_blake layout0) 4096.
Example C85_example_sizes : sane layout_wide /\ xcm_sizes (ly_xcm layout_wide) /\
  (let y := layout_wide in let l := mkLoc 1 (replicate 8 (JAccountId32 (Some 7) (zeros 32))) in
   wt (c_location (ly_xcm y)) l /\
   (length (key_tail y (KAssetLoc 3)) + length (enc (val_codec y (KAssetLoc 3)) l) = 622)%nat /\
   (length (key_tail y (KAssetLoc 3)) + length (enc (val_codec y (KAssetLoc 3)) (mkLoc 1 [JParachain 2000; JPalletInstance 5])) = 27)%nat).
Proof.
  split; [|split; [|split; [|split; reflexivity]]].
  - destruct layout0_sane as [H1 H2 H3 H4]. constructor; auto. split; [apply lawful_le|split; apply lawful_le].
  - repeat split; intros n _; cbn [ly_xcm layout_wide x_net x_body x_part c_le enc]; rewrite le_len; lia.
  - cbn [wt c_location c_iso c_pair fst snd loc_parents loc_interior c_count c_le]. split; [vm_compute; reflexivity|].
    split; [|vm_compute; discriminate]. apply Forall_replicate. cbn [wt c_junction c_case c_pair fst snd c_opt c_arr].
    split; [vm_compute; reflexivity|]. split; [|reflexivity]. unfold wf_bytes. repeat constructor.
Qed.
(** The bytes of a bond and of a call *)
Example C85_example_bytes :
  enc (val_codec layout0 (KBonds alice)) (mkBond 1000 258 7) =
    [232; 3; 0; 0; 0; 0; 0; 0; 0; 0; 0; 0; 0; 0; 0; 0; 2; 1; 0; 0; 0; 0; 0; 0; 7; 0; 0; 0; 0; 0; 0; 0; 0; 0; 0; 0; 0; 0; 0; 0] /\
  call_bytes layout0 ix0 (CTd (TdBond 1000)) = [50; 0; 161; 15] /\
  call_bytes layout0 ix0 (CTd (TdUnbond (10 ^ 12))) = [50; 2; 7; 0; 16; 165; 212; 232] /\
  call_bytes layout0 ix0 (CTo (ToUpdateRate [65] [66; 67] (Some 1))) = [53; 3; 4; 65; 8; 66; 67; 1; 1; 0; 0; 0; 0; 0; 0; 0].
Proof. vm_compute. repeat split. Qed.
