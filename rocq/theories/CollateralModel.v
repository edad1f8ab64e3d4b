(** * Model of the JSON readers of sgx-verify: the [Deserialize] implementations of
    teerex/sgx-verify/src/collateral.rs and the field access of [parse_report].

    The text is read by serde_json (outside /repo) into [json]; what is modelled here is which
    documents the derived implementations turn into which values. All failures of these functions
    are mapped to one error by their callers, hence [option]. *)
From Coq Require Import String.
From Verif Require Import Base State.

(** A JSON text as serde_json reads it. [JStr s esc]: the string [s]; [esc] tells whether the text
    has an escape sequence, in which case the string is a copy and not a slice of the input.
    [JInt]: a literal without fraction and exponent that fits 64 bits; [JFloat]: any other number.
    Objects keep their entries in the order of the text, with duplicates. *)
Inductive json :=
  | JNull | JBool (b : bool) | JInt (z : Z) | JFloat | JStr (s : bytes) (esc : bool)
  | JArr (l : list json) | JObj (l : list (bytes * json)).

Definition asc (s : String.string) : bytes := bytes_of_string s.

(** [derive(Deserialize)] on a struct, with serde_json: an object in which no known field occurs
    twice (unknown fields are skipped), or an array with one element per field, in the order of
    declaration. [None] stands for an absent field. *)
Definition entries (k : bytes) (l : list (bytes * json)) : list json :=
  omap (fun e => if beq e.1 k then Some e.2 else None) l.
Definition struct_ (names : list bytes) (j : json) : option (list (option json)) :=
  match j with
  | JObj l => mapM (fun k => match entries k l with [] => Some None | [v] => Some (Some v) | _ => None end) names
  | JArr l => if (List.length l =? List.length names)%nat then Some (map Some l) else None
  | _ => None
  end.

(** [String], and [DateTime<Utc>] before the date is read: any string *)
Definition d_str (j : json) : option bytes := match j with JStr s _ => Some s | _ => None end.
(** [&str]: a string that can be borrowed from the input *)
Definition d_borrowed (j : json) : option bytes := match j with JStr s false => Some s | _ => None end.
(** [u8], [u16]: an integer below [bound] *)
Definition d_uint (bound : N) (j : json) : option N :=
  match j with
  | JInt z => if (0 <=? z)%Z && (z <? Z.of_N bound)%Z then Some (Z.to_N z) else None
  | _ => None
  end.
(** [hex::decode] (outside /repo): pairs of digits of either case *)
Definition hex_value (b : N) : option N :=
  if (48 <=? b) && (b <=? 57) then Some (b - 48)
  else if (65 <=? b) && (b <=? 70) then Some (b - 55)
  else if (97 <=? b) && (b <=? 102) then Some (b - 87)
  else None.
Fixpoint hex_decode (s : bytes) : option bytes :=
  match s with
  | [] => Some []
  | a :: b :: r =>
      match hex_value a, hex_value b, hex_decode r with
      | Some h, Some l, Some t => Some (16 * h + l :: t)
      | _, _, _ => None
      end
  | [_] => None
  end.
(** collateral.rs:122-129 [deserialize_from_hex] *)
Definition d_hex (n : N) (j : json) : option bytes :=
  match d_borrowed j with
  | None => None
  | Some s => match hex_decode s with
              | None => None
              | Some h => if lenN h =? n then Some h else None
              end
  end.
(** collateral.rs:115-120 [serialize_to_hex]: upper case *)
Definition hex_upper (n : N) : N := if n <? 10 then 48 + n else 55 + n.
Fixpoint serialize_to_hex (l : bytes) : bytes :=
  match l with [] => [] | b :: r => hex_upper (b / 16) :: hex_upper (b mod 16) :: serialize_to_hex r end.

Definition d_list {A} (f : json -> option A) (j : json) : option (list A) :=
  match j with JArr l => mapM f l | _ => None end.
(** [Option<T>]: absent or [null] is [None] *)
Definition d_option {A} (f : json -> option A) (x : option json) : option (option A) :=
  match x with
  | None | Some JNull => Some None
  | Some j => match f j with Some a => Some (Some a) | None => None end
  end.

(** primitives/teerex/src/lib.rs:110-132 [TcbStatus]: the name of a variant, as a string or as an
    object [{name: null}] (both accepted by serde_json for a variant without content) *)
Definition status_names : list (bytes * tcb_status) :=
  [(asc "Unknown", TUnknown); (asc "UpToDate", TUpToDate); (asc "SWHardeningNeeded", TSWHardeningNeeded);
   (asc "ConfigurationAndSWHardeningNeeded", TConfigurationAndSWHardeningNeeded); (asc "OutOfDate", TOutOfDate);
   (asc "OutOfDateConfigurationNeeded", TOutOfDateConfigurationNeeded); (asc "Revoked", TRevoked)].
Definition status_of_name (s : bytes) : option tcb_status :=
  match List.find (fun x => beq x.1 s) status_names with Some x => Some x.2 | None => None end.
Definition d_status (j : json) : option tcb_status :=
  match j with
  | JStr s _ => status_of_name s
  | JObj [(s, JNull)] => status_of_name s
  | _ => None
  end.

Section WithDates.
(** chrono's reading of a [DateTime<Utc>], as milliseconds since the epoch *)
Context (date : bytes -> option Z).
Definition d_date (j : json) : option Z := match d_str j with Some s => date s | None => None end.

(** collateral.rs:33-36 [Tcb] *)
Definition d_tcb (j : json) : option N :=
  match struct_ [asc "isvsvn"] j with Some [Some v] => d_uint 65536 v | _ => None end.
(** collateral.rs:46-57 [TcbLevel]; the date and the advisories are read but used nowhere *)
Definition d_level (j : json) : option (N * tcb_status) :=
  match struct_ [asc "tcb"; asc "tcbDate"; asc "tcbStatus"; asc "advisoryIDs"] j with
  | Some [Some t; Some d; Some s; a] =>
      match d_tcb t, d_date d, d_status s, d_option (d_list d_str) a with
      | Some svn, Some _, Some st, Some _ => Some (svn, st)
      | _, _, _, _ => None
      end
  | _ => None
  end.
(** collateral.rs:59-67 [TcbComponent] *)
Definition d_component (j : json) : option N :=
  match struct_ [asc "svn"; asc "category"; asc "type"] j with
  | Some [Some v; c; t] =>
      match d_uint 256 v, d_option d_str c, d_option d_str t with
      | Some svn, Some _, Some _ => Some svn
      | _, _, _ => None
      end
  | _ => None
  end.
(** collateral.rs:69-73 [TcbFull]; the components are an array of exactly 16 *)
Definition d_tcb_full (j : json) : option (bytes * N) :=
  match struct_ [asc "sgxtcbcomponents"; asc "pcesvn"] j with
  | Some [Some c; Some p] =>
      match d_list d_component c, d_uint 65536 p with
      | Some svns, Some pcesvn => if lenN svns =? 16 then Some (svns, pcesvn) else None
      | _, _ => None
      end
  | _ => None
  end.
(** collateral.rs:75-86 [TcbLevelFull] *)
Definition d_level_full (j : json) : option (bytes * N * tcb_status) :=
  match struct_ [asc "tcb"; asc "tcbDate"; asc "tcbStatus"; asc "advisoryIDs"] j with
  | Some [Some t; Some d; Some s; a] =>
      match d_tcb_full t, d_date d, d_status s, d_option (d_list d_str) a with
      | Some x, Some _, Some st, Some _ => Some (x, st)
      | _, _, _, _ => None
      end
  | _ => None
  end.

(** collateral.rs:88-113 [EnclaveIdentity] *)
Definition identity_fields : list bytes :=
  [asc "id"; asc "version"; asc "issueDate"; asc "nextUpdate"; asc "tcbEvaluationDataNumber"; asc "miscselect";
   asc "miscselectMask"; asc "attributes"; asc "attributesMask"; asc "mrsigner"; asc "isvprodid"; asc "tcbLevels"].
Definition identity_of_json (j : json) : option enclave_identity :=
  match struct_ identity_fields j with
  | Some [Some j1; Some j2; Some j3; Some j4; Some j5; Some j6; Some j7; Some j8; Some j9; Some j10; Some j11; Some j12] =>
      match d_str j1, d_uint 65536 j2, d_date j3, d_date j4, d_uint 65536 j5, d_hex 4 j6 with
      | Some id, Some ver, Some issue, Some next, Some _, Some misc =>
          match d_hex 4 j7, d_hex 16 j8, d_hex 16 j9, d_hex 32 j10, d_uint 65536 j11, d_list d_level j12 with
          | Some mm, Some attr, Some am, Some mr, Some prod, Some levels =>
              Some (mkIdentity id ver issue next misc mm attr am mr prod levels)
          | _, _, _, _, _, _ => None
          end
      | _, _, _, _, _, _ => None
      end
  | _ => None
  end.
(** collateral.rs:165-179 [TcbInfo] *)
Definition tcb_fields : list bytes :=
  [asc "id"; asc "version"; asc "issueDate"; asc "nextUpdate"; asc "fmspc"; asc "pceId"; asc "tcbType";
   asc "tcbEvaluationDataNumber"; asc "tcbLevels"].
Definition tcb_of_json (j : json) : option tcb_info_json :=
  match struct_ tcb_fields j with
  | Some [Some j1; Some j2; Some j3; Some j4; Some j5; Some j6; Some j7; Some j8; Some j9] =>
      match d_str j1, d_uint 256 j2, d_date j3, d_date j4, d_hex 6 j5 with
      | Some id, Some ver, Some issue, Some next, Some fm =>
          match d_str j6, d_uint 65536 j7, d_uint 65536 j8, d_list d_level_full j9 with
          | Some _, Some _, Some _, Some levels => Some (mkTcbJson id ver issue next fm levels)
          | _, _, _, _ => None
          end
      | _, _, _, _, _ => None
      end
  | _ => None
  end.
End WithDates.

(** sgx-verify/src/lib.rs:711-716,734,747 [Value] and indexing with a string: [Null] for a missing
    field and for anything that is not an object; of several entries the last one counts (they
    overwrite each other when the [Value] is built) *)
Definition value_at (k : bytes) (j : json) : json :=
  match j with
  | JObj l => match last (entries k l) with Some v => v | None => JNull end
  | _ => JNull
  end.
Definition ias_of_json (j : json) : ias_json :=
  mkIas (d_str (value_at (asc "timestamp") j)) (d_str (value_at (asc "isvEnclaveQuoteStatus") j))
        (d_str (value_at (asc "isvEnclaveQuoteBody") j)).

(** The oracles of sgx-verify whose JSON readers are the above, on top of a reader of JSON texts *)
Definition reads_json (parse : bytes -> option json) (date : bytes -> option Z) (o : sgx_oracles) : Prop :=
  (forall b, or_json_identity o b = match parse b with Some j => identity_of_json date j | None => None end) /\
  (forall b, or_json_tcb o b = match parse b with Some j => tcb_of_json date j | None => None end) /\
  (forall b, or_json_ias o b = match parse b with Some j => Some (ias_of_json j) | None => None end).
