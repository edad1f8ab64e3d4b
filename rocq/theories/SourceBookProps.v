(** * C113: the book of an oracle entry
    The whitelist of a data source, the rate stored for a trading pair and the blob stored under a name
    by that source, and every answer to a call about these, are computed here by a small book fed with
    nothing but these calls and the measurement under which the caller was registered at that moment.
    The whole chain agrees with that book in every history: other sources, pairs, names, pallets and
    the passing of time do not matter. *)
From Coq Require Import String.
From Verif Require Import Base State Env TeerdaysModel TeerexBase SgxVerifyModel TeerexModel
  EnclaveBridgeModel SidechainModel TeeracleModel ClaimsModel AssetRegistryModel XcmTransactorModel
  Runtime Frame EnvFacts StorageModel Footprint FootprintProps Examples TeeracleProps.

(** ** The book *)
Record obook := mkObook {
  k_allowed : list bytes;      (* whitelisted measurements *)
  k_rate : option N;           (* of the pair *)
  k_blob : option bytes        (* under the name *)
}.
Inductive act := AAllow (fp : bytes) | AForbid (fp : bytes) | ARate (v : option N) | ABlob (b : bytes).
Record line := Act { l_by : origin; l_measured : option bytes; l_act : act }.

Section Rules.
Context (c : cfg) (src pair name : bytes).
(** The first failing demand, if any *)
Definition demand (ok : bool) (e : error) (rest : option error) : option error := if ok then rest else Some e.
Definition may_write (m : option bytes) (B : obook) : bool :=
  match m with Some f => bool_decide (f ∈ k_allowed B) | None => false end.
Definition refusal (x : line) (B : obook) : option error :=
  match l_act x, l_by x with
  | AAllow fp, Root =>                                                  (* teeracle/src/lib.rs:150-167 *)
      demand (lenN src <=? 40) DataSourceStringTooLong $
      demand (negb (bool_decide (fp ∈ k_allowed B))) FingerprintAlreadyWhitelisted $
      demand (lenN (k_allowed B) <? c_max_wl c) FingerprintWhitelistOverflow None
  | AForbid fp, Root =>                                                 (* 170-185 *)
      demand (bool_decide (fp ∈ k_allowed B)) FingerprintNotWhitelisted None
  | ABlob b, Signed _ =>                                                (* 189-216 *)
      demand (if l_measured x then true else false) EnclaveIsNotRegistered $
      demand (may_write (l_measured x) B) FingerprintNotWhitelisted $
      demand (lenN name <=? 40) OracleDataNameStringTooLong $
      demand (lenN src <=? 40) DataSourceStringTooLong $
      demand (lenN b <=? c_max_blob c) OracleBlobTooBig None
  | ARate _, Signed _ =>                                                (* 220-255 *)
      demand (if l_measured x then true else false) EnclaveIsNotRegistered $
      demand (lenN pair <=? 11) TradingPairStringTooLong $
      demand (may_write (l_measured x) B) FingerprintNotWhitelisted None
  | _, _ => Some BadOrigin
  end.
Definition enter_line (k : act) (B : obook) : obook :=
  match k with
  | AAllow fp => mkObook (k_allowed B ++ [fp]) (k_rate B) (k_blob B)
  | AForbid fp => mkObook (List.filter (fun y => negb (bool_decide (y = fp))) (k_allowed B)) (k_rate B) (k_blob B)
  | ARate v => mkObook (k_allowed B) (match v with Some 0 => None | _ => v end) (k_blob B)
  | ABlob b => mkObook (k_allowed B) (k_rate B) (Some b)
  end.
Fixpoint keep_entry (B : obook) (l : list line) : list status * obook :=
  match l with
  | [] => ([], B)
  | x :: r =>
      match refusal x B with
      | Some e => let '(rs, B') := keep_entry B r in (Failed e :: rs, B')
      | None => let '(rs, B') := keep_entry (enter_line (l_act x) B) r in (Success :: rs, B')
      end
  end.
End Rules.

(** ** What the chain shows of that *)
Definition obook_of (s : rt) (src pair name : bytes) : obook :=
  mkObook (default [] (to_wl (rt_to s) !! src)) (to_rates (rt_to s) !! (pair, src)) (to_data (rt_to s) !! (name, src)).
Definition measured (s : rt) (o : origin) : option bytes :=
  match o with Signed a => en_mr_enclave <$> tx_sov (rt_tx s) !! a | _ => None end.
Definition about (src pair name : bytes) (x : op) : option (origin * act) :=
  let only_if (b : bool) o k := if b then Some (o, k) else None in
  match x with
  | OCall o (CTo (ToAdd s fp)) => only_if (bool_decide (s = src)) o (AAllow fp)
  | OCall o (CTo (ToRemove s fp)) => only_if (bool_decide (s = src)) o (AForbid fp)
  | OCall o (CTo (ToUpdateRate s p v)) => only_if (bool_decide (s = src /\ p = pair)) o (ARate v)
  | OCall o (CTo (ToUpdateOracle n s b)) => only_if (bool_decide (s = src /\ n = name)) o (ABlob b)
  | _ => None
  end.
Fixpoint odiary (c : cfg) (src pair name : bytes) (s : rt) (l : list op) : list line :=
  match l with
  | [] => []
  | x :: r =>
      match about src pair name x with
      | Some (o, k) => [Act o (measured s o) k]
      | None => []
      end ++ odiary c src pair name (step c s x) r
  end.
Fixpoint answers (c : cfg) (src pair name : bytes) (s : rt) (l : list op) : list status :=
  match l with
  | [] => []
  | x :: r => (match about src pair name x with Some _ => [ends c s x] | None => [] end) ++ answers c src pair name (step c s x) r
  end.

(** ** Proofs *)
Lemma own_op c s src pair name x o k : about src pair name x = Some (o, k) ->
  (ends c s x, obook_of (step c s x) src pair name) =
  match refusal c src pair name (Act o (measured s o) k) (obook_of s src pair name) with
  | Some e => (Failed e, obook_of s src pair name)
  | None => (Success, enter_line k (obook_of s src pair name))
  end.
Proof.
  intros Hx. destruct x as [o' k'| | | | | | | | | |]; try discriminate Hx. unfold ends. rewrite step_act. cbn [op_act].
  destruct k' as [| | |[s' fp|s' fp|n s' b|s' p v]| | | |]; try discriminate Hx; cbn [about] in Hx;
    (case_bool_decide as Hd; [|discriminate Hx]); injection Hx as <- <-; cbn [exec to_exec].
  - subst s'. destruct o' as [|a|]; try reflexivity. unfold refusal. cbn [l_act l_by]. unfold demand. cbn [obook_of k_allowed].
    unfold add_to_whitelist, run_call, bind, ensure_root, ensure, gets, is_whitelisted, whitelist, ret, fail, max_source_len, modify, deposit_event.
    destruct (lenN src <=? 40); [|reflexivity]. case_bool_decide; cbn [negb]; [reflexivity|].
    destruct (_ <? c_max_wl c); [|reflexivity]. unfold obook_of, put_wl. cbn. rewrite lookup_insert. reflexivity.
  - subst s'. destruct o' as [|a|]; try reflexivity. unfold refusal. cbn [l_act l_by]. unfold demand. cbn [obook_of k_allowed].
    unfold remove_from_whitelist, run_call, bind, ensure_root, ensure, gets, is_whitelisted, whitelist, ret, fail, modify, deposit_event.
    case_bool_decide; [|reflexivity]. unfold obook_of, put_wl. cbn. rewrite lookup_insert. cbn. do 2 f_equal.
    generalize (default [] (to_wl (rt_to s) !! src)). clear. intros l. induction l as [|y r IH]; [reflexivity|]. rewrite filter_cons. cbn [List.filter]. rewrite IH. repeat case_decide; case_bool_decide; cbn; tauto || reflexivity.
  - destruct Hd as [-> ->]. destruct o' as [|a|]; try reflexivity. unfold refusal. cbn [l_act l_by l_measured measured].
    unfold update_oracle, get_sovereign_enclave, run_call, bind, ensure_signed, ok_or, ensure, gets, is_whitelisted, whitelist, ret, fail, max_source_len, max_name_len, modify, deposit_event.
    destruct (tx_sov (rt_tx s) !! a) as [e|]; [|reflexivity]. cbn [fmap option_fmap option_map]. unfold demand, may_write. change fingerprint with en_mr_enclave. cbn [obook_of k_allowed].
    case_bool_decide; [|reflexivity]. destruct (lenN name <=? 40); [|reflexivity]. destruct (lenN src <=? 40); [|reflexivity]. destruct (lenN b <=? c_max_blob c); [|reflexivity].
    unfold obook_of, put_data. cbn. rewrite lookup_insert. reflexivity.
  - destruct Hd as [-> ->]. destruct o' as [|a|]; try reflexivity. unfold refusal. cbn [l_act l_by l_measured measured].
    unfold update_exchange_rate, get_sovereign_enclave, run_call, bind, ensure_signed, ok_or, ensure, gets, is_whitelisted, whitelist, ret, fail, max_pair_len, modify, deposit_event.
    destruct (tx_sov (rt_tx s) !! a) as [e|]; [|reflexivity]. cbn [fmap option_fmap option_map]. unfold demand, may_write. change fingerprint with en_mr_enclave. cbn [obook_of k_allowed].
    destruct (lenN pair <=? 11); [|reflexivity]. case_bool_decide; [|reflexivity].
    destruct v as [[|q]|]; unfold obook_of, put_rate; cbn; rewrite ?lookup_insert, ?lookup_delete; reflexivity.
Qed.
Ltac members H := repeat first
  [ apply elem_of_nil in H; contradiction | apply elem_of_cons in H as [H|H]; [try discriminate H|] | apply elem_of_app in H as [H|H] ].
(** Anything else *)
Lemma other_op c s src pair name x : about src pair name x = None -> obook_of (step c s x) src pair name = obook_of s src pair name.
Proof.
  intros Hx. destruct (C86_operations_change_only_their_writes c x s) as [F _].
  assert (forall y, y ∈ op_writes c x s -> y <> XE (KWhitelist src) /\ y <> XE (KRates pair src) /\ y <> XE (KData name src)) as H.
  2: { assert (forall y, ~ (y <> XE (KWhitelist src) /\ y <> XE (KRates pair src) /\ y <> XE (KData name src)) -> same_at y s (step c s x)) as F' by (intros y Hy; apply F; auto).
       unfold obook_of. rewrite <- (F' (XE (KWhitelist src))), <- (F' (XE (KRates pair src))), <- (F' (XE (KData name src))) by tauto. reflexivity. }
  intros y Hy. destruct x as [o k| | | | | | | | | |]; cbn [op_writes] in Hy; try (members Hy; subst y; repeat split; discriminate).
  unfold writes in Hy. destruct k as [[]|[]|[]|[]|[| | | | |]|[]|[]|[]]; destruct o; cbn [writes_signed writes_root writes_none writes_other] in Hy; unfold opt, shard_writes, claim_writes, plain_claim_writes in Hy;
    repeat (case_match; try discriminate); members Hy; subst y; try (repeat split; discriminate); cbn [about] in Hx.
  all: case_bool_decide as Hd; [discriminate Hx|]; repeat split; intros [=]; subst; tauto.
Qed.
Lemma run_entry c src pair name l : forall s,
  keep_entry c src pair name (obook_of s src pair name) (odiary c src pair name s l) =
  (answers c src pair name s l, obook_of (run c s l) src pair name).
Proof.
  induction l as [|x l IH]; intros s; [reflexivity|]. rewrite run_cons. cbn [odiary answers]. specialize (IH (step c s x)).
  destruct (about src pair name x) as [[o k]|] eqn:Ha.
  - pose proof (own_op c s src pair name x o k Ha) as E. cbn [app keep_entry].
    destruct (refusal _ _ _ _ _ _) as [e|]; pose proof (f_equal fst E) as E1; pose proof (f_equal snd E) as E2; cbn [fst snd] in E1, E2; cbn [l_act]; rewrite E2 in IH; rewrite IH, E1; reflexivity.
  - rewrite (other_op _ _ _ _ _ _ Ha) in IH. exact IH.
Qed.

(** ** The theorems *)
(** From any state on, the book kept from the diary gives all answers and the entries *)
Theorem C113_an_oracle_entry_keeps_its_own_book : forall c s l src pair name,
  keep_entry c src pair name (obook_of s src pair name) (odiary c src pair name s l) =
  (answers c src pair name s l, obook_of (run c s l) src pair name).
Proof. intros c s l src pair name. apply run_entry. Qed.
Print Assumptions C113_an_oracle_entry_keeps_its_own_book.
(** Hence chains in which it had the same diary treat it alike, whatever else happened *)
Theorem C113_others_do_not_matter_to_an_oracle_entry : forall c g1 g2 l1 l2 src pair name,
  odiary c src pair name (genesis_state g1) l1 = odiary c src pair name (genesis_state g2) l2 ->
  answers c src pair name (genesis_state g1) l1 = answers c src pair name (genesis_state g2) l2 /\
  obook_of (run c (genesis_state g1) l1) src pair name = obook_of (run c (genesis_state g2) l2) src pair name.
Proof.
  intros c g1 g2 l1 l2 src pair name Hd. pose proof (run_entry c src pair name l1 (genesis_state g1)) as E1. pose proof (run_entry c src pair name l2 (genesis_state g2)) as E2.
  change (obook_of (genesis_state g1) src pair name) with (obook_of (genesis_state g2) src pair name) in E1. rewrite Hd, E2 in E1.
  split; [exact (eq_sym (f_equal fst E1))|exact (eq_sym (f_equal snd E1))].
Qed.
Print Assumptions C113_others_do_not_matter_to_an_oracle_entry.
(** What a reader sees: the rate is the one last accepted from an enclave that was whitelisted then,
    0 if that was a deletion or there was none; taking an enclave off the whitelist does not take back
    what it wrote *)
Fixpoint last_rate (c : cfg) (src pair name : bytes) (B : obook) (l : list line) (r : N) : N :=
  match l with
  | [] => r
  | x :: l' =>
      match refusal c src pair name x B with
      | Some _ => last_rate c src pair name B l' r
      | None => last_rate c src pair name (enter_line (l_act x) B) l' (match l_act x with ARate v => default 0 v | _ => r end)
      end
  end.
Theorem C113_the_rate_is_the_last_accepted_one : forall c g l src pair name,
  exchange_rate (run c (genesis_state g) l) pair src =
  last_rate c src pair name (mkObook [] None None) (odiary c src pair name (genesis_state g) l) 0.
Proof.
  intros c g l src pair name. pose proof (run_entry c src pair name l (genesis_state g)) as E.
  assert (forall d B, last_rate c src pair name B d (default 0 (k_rate B)) = default 0 (k_rate (keep_entry c src pair name B d).2)) as H.
  { induction d as [|x d IH]; intros B; [reflexivity|]. cbn [last_rate keep_entry]. destruct (refusal _ _ _ _ _ _) as [e|].
    - rewrite IH. destruct (keep_entry _ _ _ _ B d). reflexivity.
    - specialize (IH (enter_line (l_act x) B)). destruct (keep_entry _ _ _ _ (enter_line _ _) d). cbn [snd] in *. rewrite <- IH. f_equal. destruct (l_act x) as [| |[[|q]|]|]; reflexivity. }
  change (obook_of (genesis_state g) src pair name) with (mkObook [] None None) in E.
  specialize (H (odiary c src pair name (genesis_state g) l) (mkObook [] None None)). change (default 0 (k_rate (mkObook [] None None))) with 0 in H. rewrite H, E. reflexivity.
Qed.
Print Assumptions C113_the_rate_is_the_last_accepted_one.

(** ** A concrete case *)
(** Alice's enclave is whitelisted, writes, is taken off the list, and is refused; what it wrote stays.
    In the second chain Bob's enclave writes for the same pair under another source meanwhile *)
Definition src113 : bytes := [67; 71].
Definition rate113 (a : acct) (s : bytes) (v : N) : op := OCall (Signed a) (CTo (ToUpdateRate s [1] (Some v))).
Definition list113 (s : bytes) (n : N) : op := OCall Root (CTo (ToAdd s (acc n))).
Definition quiet113 : list op :=
  [register alice (acc 9); rate113 alice src113 4; list113 src113 9; rate113 alice src113 5; OCall (Signed alice) (CTo (ToUpdateOracle [2] src113 [8]));
   OCall Root (CTo (ToRemove src113 (acc 9))); rate113 alice src113 6].
Definition busy113 : list op :=
  [register bob (acc 8); list113 [68] 8; register alice (acc 9); rate113 alice src113 4; list113 src113 9; rate113 bob [68] 7; rate113 alice src113 5;
   ONextBlock 6; OCall (Signed alice) (CTo (ToUpdateRate src113 [3] (Some 1))); OCall (Signed alice) (CTo (ToUpdateOracle [2] src113 [8]));
   OCall Root (CTo (ToRemove src113 (acc 9))); call_td bob (TdBond 20); rate113 alice src113 6].
Example C113_example : let s := genesis_state (gen0 [alice; bob]) in
  odiary cfg0 src113 [1] [2] s quiet113 = odiary cfg0 src113 [1] [2] s busy113 /\
  answers cfg0 src113 [1] [2] s busy113 =
    [Failed FingerprintNotWhitelisted; Success; Success; Success; Success; Failed FingerprintNotWhitelisted] /\
  obook_of (run cfg0 s busy113) src113 [1] [2] = mkObook [] (Some 5) (Some [8]) /\
  obook_of (run cfg0 s busy113) [68] [1] [2] = mkObook [acc 8] (Some 7) None.
Proof. vm_compute. repeat split; reflexivity. Qed.
