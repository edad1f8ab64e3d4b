(** * Model of the [Serialize] side of teerex/sgx-verify/src/collateral.rs, and of the values of these
    types with all their fields ([SgxVerifyModel] and [CollateralModel] keep only what is used). *)
From Coq Require Import String.
From Verif Require Import Base State SgxVerifyModel CollateralModel TextModel.

(** ** Writers of the libraries (versions as in [TextModel]) *)
(** serde_json: decimal digits *)
Fixpoint dec_go (fuel : nat) (n : N) : bytes :=
  match fuel with
  | O => []
  | S f => if n <? 10 then [48 + n] else dec_go f (n / 10) ++ [48 + n mod 10]
  end.
Definition dec (n : N) : bytes := dec_go (S (N.to_nat (N.log2 n))) n.
(** serde_json: quotes, backslashes and control characters are escaped *)
Definition hex_lower (n : N) : N := if n <? 10 then 48 + n else 87 + n.
Definition escape1 (c : N) : bytes :=
  if c =? 34 then [92; 34] else if c =? 92 then [92; 92]
  else if c =? 8 then [92; 98] else if c =? 12 then [92; 102] else if c =? 10 then [92; 110]
  else if c =? 13 then [92; 114] else if c =? 9 then [92; 116]
  else if c <? 32 then [92; 117; 48; 48; hex_lower (c / 16); hex_lower (c mod 16)]
  else [c].
Definition escapes (s : bytes) : bool := existsb (fun c => (c =? 34) || (c =? 92) || (c <? 32)) s.
Definition json_string (s : bytes) : bytes := 34 :: flat_map escape1 s ++ [34].
(** [serde_json::to_vec]; [JFloat] does not occur in what is written *)
Fixpoint json_print (j : json) : bytes :=
  match j with
  | JNull => s_null
  | JBool b => if b then s_true else s_false
  | JInt z => if (z <? 0)%Z then 45 :: dec (Z.to_N (- z)) else dec (Z.to_N z)
  | JFloat => []
  | JStr s _ => json_string s
  | JArr [] => [91; 93]
  | JArr (x :: r) => 91 :: json_print x ++ flat_map (fun y => 44 :: json_print y) r ++ [93]
  | JObj [] => [123; 125]
  | JObj (x :: r) =>
      123 :: json_string x.1 ++ 58 :: json_print x.2
      ++ flat_map (fun y => 44 :: json_string y.1 ++ 58 :: json_print y.2) r ++ [125]
  end.

(** chrono: [w] digits *)
Fixpoint pad (w : nat) (n : N) : bytes :=
  match w with O => [] | S w' => pad w' (n / 10) ++ [48 + n mod 10] end.
(** [DateTime<Utc>::serialize]: RFC 3339 with as many groups of three decimals as needed *)
Definition write_nanos (n : N) : bytes :=
  if n =? 0 then []
  else if n mod 1000000 =? 0 then 46 :: pad 3 (n / 1000000)
  else if n mod 1000 =? 0 then 46 :: pad 6 (n / 1000)
  else 46 :: pad 9 n.
Definition write_date (t : instant) : bytes :=
  let '(y, m, d) := civil_of_days (i_secs t / 86400) in
  let s := Z.to_N (i_secs t mod 86400) in
  let leap := 1000000000 <=? i_nanos t in
  pad 4 (Z.to_N y) ++ 45 :: pad 2 (Z.to_N m) ++ 45 :: pad 2 (Z.to_N d) ++ 84 ::
  pad 2 (s / 3600) ++ 58 :: pad 2 (s / 60 mod 60) ++ 58 :: pad 2 (if leap then s mod 60 + 1 else s mod 60) ++
  write_nanos (if leap then i_nanos t - 1000000000 else i_nanos t) ++ [90].

(** ** The values *)
(** collateral.rs:46-57 [TcbLevel], with [Tcb] of lines 33-36 *)
Record level_v := mkLevelV { lv_svn : N; lv_date : instant; lv_status : tcb_status; lv_adv : option (list bytes) }.
(** collateral.rs:59-67 [TcbComponent] *)
Record component_v := mkCompV { cv_svn : N; cv_category : option bytes; cv_type : option bytes }.
(** collateral.rs:75-86 [TcbLevelFull], with [TcbFull] of lines 69-73 *)
Record full_v := mkFullV {
  fv_components : list component_v; fv_pcesvn : N; fv_date : instant; fv_status : tcb_status;
  fv_adv : option (list bytes) }.
(** collateral.rs:88-113 [EnclaveIdentity] *)
Record identity_v := mkIdentityV {
  iv_id : bytes; iv_version : N; iv_issue : instant; iv_next : instant; iv_eval : N;
  iv_misc : bytes; iv_misc_mask : bytes; iv_attr : bytes; iv_attr_mask : bytes; iv_mrsigner : bytes;
  iv_prodid : N; iv_levels : list level_v }.
(** collateral.rs:165-179 [TcbInfo] *)
Record tcb_v := mkTcbV {
  tv_id : bytes; tv_version : N; tv_issue : instant; tv_next : instant; tv_fmspc : bytes;
  tv_pce : bytes; tv_type : N; tv_eval : N; tv_levels : list full_v }.

(** ** Writers: [derive(Serialize)] with [rename_all = "camelCase"] and [skip_serializing_if] *)
Definition w_str (s : bytes) : json := JStr s (escapes s).
Definition w_num (n : N) : json := JInt (Z.of_N n).
Definition w_date (t : instant) : json := w_str (write_date t).
(** collateral.rs:115-120 *)
Definition w_hex (b : bytes) : json := w_str (serialize_to_hex b).
Definition w_status (st : tcb_status) : json :=
  w_str (match st with
         | TUnknown => asc "Unknown" | TUpToDate => asc "UpToDate" | TSWHardeningNeeded => asc "SWHardeningNeeded"
         | TConfigurationAndSWHardeningNeeded => asc "ConfigurationAndSWHardeningNeeded"
         | TOutOfDate => asc "OutOfDate" | TOutOfDateConfigurationNeeded => asc "OutOfDateConfigurationNeeded"
         | TRevoked => asc "Revoked"
         end).
Definition w_skip (k : bytes) (o : option json) : list (bytes * json) :=
  match o with Some j => [(k, j)] | None => [] end.
Definition w_adv (o : option (list bytes)) : list (bytes * json) :=
  w_skip (asc "advisoryIDs") (option_map (fun l => JArr (map w_str l)) o).
Definition w_level (v : level_v) : json :=
  JObj ([(asc "tcb", JObj [(asc "isvsvn", w_num (lv_svn v))]); (asc "tcbDate", w_date (lv_date v));
         (asc "tcbStatus", w_status (lv_status v))] ++ w_adv (lv_adv v)).
Definition w_component (v : component_v) : json :=
  JObj ((asc "svn", w_num (cv_svn v)) :: w_skip (asc "category") (option_map w_str (cv_category v))
        ++ w_skip (asc "type") (option_map w_str (cv_type v))).
Definition w_full (v : full_v) : json :=
  JObj ([(asc "tcb", JObj [(asc "sgxtcbcomponents", JArr (map w_component (fv_components v)));
                           (asc "pcesvn", w_num (fv_pcesvn v))]);
         (asc "tcbDate", w_date (fv_date v)); (asc "tcbStatus", w_status (fv_status v))] ++ w_adv (fv_adv v)).
Definition w_identity (v : identity_v) : json :=
  JObj [(asc "id", w_str (iv_id v)); (asc "version", w_num (iv_version v)); (asc "issueDate", w_date (iv_issue v));
        (asc "nextUpdate", w_date (iv_next v)); (asc "tcbEvaluationDataNumber", w_num (iv_eval v));
        (asc "miscselect", w_hex (iv_misc v)); (asc "miscselectMask", w_hex (iv_misc_mask v));
        (asc "attributes", w_hex (iv_attr v)); (asc "attributesMask", w_hex (iv_attr_mask v));
        (asc "mrsigner", w_hex (iv_mrsigner v)); (asc "isvprodid", w_num (iv_prodid v));
        (asc "tcbLevels", JArr (map w_level (iv_levels v)))].
Definition w_tcb (v : tcb_v) : json :=
  JObj [(asc "id", w_str (tv_id v)); (asc "version", w_num (tv_version v)); (asc "issueDate", w_date (tv_issue v));
        (asc "nextUpdate", w_date (tv_next v)); (asc "fmspc", w_hex (tv_fmspc v)); (asc "pceId", w_str (tv_pce v));
        (asc "tcbType", w_num (tv_type v)); (asc "tcbEvaluationDataNumber", w_num (tv_eval v));
        (asc "tcbLevels", JArr (map w_full (tv_levels v)))].
(** [serde_json::to_vec] *)
Definition identity_text (v : identity_v) : bytes := json_print (w_identity v).
Definition tcb_text (v : tcb_v) : bytes := json_print (w_tcb v).

(** ** Readers that keep all fields *)
Definition r_date (j : json) : option instant := match d_str j with Some s => rfc3339 s | None => None end.
Definition r_level (j : json) : option level_v :=
  match struct_ [asc "tcb"; asc "tcbDate"; asc "tcbStatus"; asc "advisoryIDs"] j with
  | Some [Some t; Some d; Some s; a] =>
      match d_tcb t, r_date d, d_status s, d_option (d_list d_str) a with
      | Some svn, Some dt, Some st, Some adv => Some (mkLevelV svn dt st adv)
      | _, _, _, _ => None
      end
  | _ => None
  end.
Definition r_component (j : json) : option component_v :=
  match struct_ [asc "svn"; asc "category"; asc "type"] j with
  | Some [Some v; c; t] =>
      match d_uint 256 v, d_option d_str c, d_option d_str t with
      | Some svn, Some ca, Some ty => Some (mkCompV svn ca ty)
      | _, _, _ => None
      end
  | _ => None
  end.
Definition r_tcb_full (j : json) : option (list component_v * N) :=
  match struct_ [asc "sgxtcbcomponents"; asc "pcesvn"] j with
  | Some [Some c; Some p] =>
      match d_list r_component c, d_uint 65536 p with
      | Some cs, Some pcesvn => if lenN cs =? 16 then Some (cs, pcesvn) else None
      | _, _ => None
      end
  | _ => None
  end.
Definition r_full (j : json) : option full_v :=
  match struct_ [asc "tcb"; asc "tcbDate"; asc "tcbStatus"; asc "advisoryIDs"] j with
  | Some [Some t; Some d; Some s; a] =>
      match r_tcb_full t, r_date d, d_status s, d_option (d_list d_str) a with
      | Some x, Some dt, Some st, Some adv => Some (mkFullV x.1 x.2 dt st adv)
      | _, _, _, _ => None
      end
  | _ => None
  end.
Definition r_identity (j : json) : option identity_v :=
  match struct_ identity_fields j with
  | Some [Some j1; Some j2; Some j3; Some j4; Some j5; Some j6; Some j7; Some j8; Some j9; Some j10; Some j11; Some j12] =>
      match d_str j1, d_uint 65536 j2, r_date j3, r_date j4, d_uint 65536 j5, d_hex 4 j6 with
      | Some id, Some ver, Some issue, Some next, Some ev, Some misc =>
          match d_hex 4 j7, d_hex 16 j8, d_hex 16 j9, d_hex 32 j10, d_uint 65536 j11, d_list r_level j12 with
          | Some mm, Some attr, Some am, Some mr, Some prod, Some levels =>
              Some (mkIdentityV id ver issue next ev misc mm attr am mr prod levels)
          | _, _, _, _, _, _ => None
          end
      | _, _, _, _, _, _ => None
      end
  | _ => None
  end.
Definition r_tcb (j : json) : option tcb_v :=
  match struct_ tcb_fields j with
  | Some [Some j1; Some j2; Some j3; Some j4; Some j5; Some j6; Some j7; Some j8; Some j9] =>
      match d_str j1, d_uint 256 j2, r_date j3, r_date j4, d_hex 6 j5 with
      | Some id, Some ver, Some issue, Some next, Some fm =>
          match d_str j6, d_uint 65536 j7, d_uint 65536 j8, d_list r_full j9 with
          | Some pce, Some ty, Some ev, Some levels => Some (mkTcbV id ver issue next fm pce ty ev levels)
          | _, _, _, _ => None
          end
      | _, _, _, _, _ => None
      end
  | _ => None
  end.
(** [serde_json::from_slice] *)
Definition identity_of_text (b : bytes) : option identity_v :=
  match json_parse b with Some j => r_identity j | None => None end.
Definition tcb_of_text (b : bytes) : option tcb_v :=
  match json_parse b with Some j => r_tcb j | None => None end.

(** What the rest of the code uses of the values *)
Definition level_used (v : level_v) : N * tcb_status := (lv_svn v, lv_status v).
Definition full_used (v : full_v) : bytes * N * tcb_status :=
  (map cv_svn (fv_components v), fv_pcesvn v, fv_status v).
Definition identity_used (v : identity_v) : enclave_identity :=
  mkIdentity (iv_id v) (iv_version v) (millis (iv_issue v)) (millis (iv_next v)) (iv_misc v) (iv_misc_mask v)
             (iv_attr v) (iv_attr_mask v) (iv_mrsigner v) (iv_prodid v) (map level_used (iv_levels v)).
Definition tcb_used (v : tcb_v) : tcb_info_json :=
  mkTcbJson (tv_id v) (tv_version v) (millis (tv_issue v)) (millis (tv_next v)) (tv_fmspc v) (map full_used (tv_levels v)).

(** ** collateral.rs:225-237 [TcbInfoSigned], [EnclaveIdentitySigned]: what Intel's service returns *)
Definition w_signed (k : bytes) (j : json) (sig : bytes) : json := JObj [(k, j); (asc "signature", w_str sig)].
Definition r_signed {A} (k : bytes) (f : json -> option A) (j : json) : option (A * bytes) :=
  match struct_ [k; asc "signature"] j with
  | Some [Some a; Some s] => match f a, d_str s with Some v, Some sig => Some (v, sig) | _, _ => None end
  | _ => None
  end.
Definition s_tcb_info : bytes := asc "tcbInfo".
Definition s_enclave_identity : bytes := asc "enclaveIdentity".
(** base64::encode (used off chain to write certificates) *)
Definition b64_char (n : N) : N :=
  if n <? 26 then 65 + n else if n <? 52 then 71 + n else if n <? 62 then n - 4 else if n =? 62 then 43 else 47.
Fixpoint b64_encode (l : bytes) : bytes :=
  match l with
  | [] => []
  | [a] => [b64_char (a / 4); b64_char (16 * (a mod 4)); b64_pad; b64_pad]
  | [a; b] => [b64_char (a / 4); b64_char (16 * (a mod 4) + b / 16); b64_char (4 * (b mod 16)); b64_pad]
  | a :: b :: c :: r =>
      b64_char (a / 4) :: b64_char (16 * (a mod 4) + b / 16) :: b64_char (4 * (b mod 16) + c / 64)
      :: b64_char (c mod 64) :: b64_encode r
  end.
