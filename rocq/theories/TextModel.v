(** * The text formats sgx-verify reads, as functions that compute.

    Elsewhere JSON texts, base64, dates, X.509 and hashes are oracles (arbitrary functions). Here are
    definitions of them, after the crates pinned in /repo/Cargo.lock (serde_json 1.0.114, base64
    0.13.1, chrono 0.4.31, x509-cert 0.1.1; their source is not in /repo), with which the model can be run on the
    documents in /repo/teerex/sgx-verify/test-data. Only RSA and
    ECDSA stay open. *)
From Coq Require Import String.
From Verif Require Import Base State SgxVerifyModel CollateralModel.

(** ** base64::decode (sgx-verify/src/lib.rs:528,748; netscape_comment.rs:57-60): the standard
    alphabet; padding may be missing but nothing may follow it; the unused bits of the last symbol
    must be 0 *)
Definition b64_value (b : N) : option N :=
  if in_rng 65 90 b then Some (b - 65)
  else if in_rng 97 122 b then Some (b - 71)
  else if in_rng 48 57 b then Some (b + 4)
  else if b =? 43 then Some 62
  else if b =? 47 then Some 63
  else None.
Definition b64_pad : N := 61.
Definition b64_two (a b : N) : option bytes :=
  match b64_value a, b64_value b with
  | Some x, Some y => if y mod 16 =? 0 then Some [4 * x + y / 16] else None
  | _, _ => None
  end.
Definition b64_three (a b c : N) : option bytes :=
  match b64_value a, b64_value b, b64_value c with
  | Some x, Some y, Some z =>
      if z mod 4 =? 0 then Some [4 * x + y / 16; 16 * (y mod 16) + z / 4] else None
  | _, _, _ => None
  end.
Definition b64_four (a b c d : N) : option bytes :=
  match b64_value a, b64_value b, b64_value c, b64_value d with
  | Some x, Some y, Some z, Some w => Some [4 * x + y / 16; 16 * (y mod 16) + z / 4; 64 * (z mod 4) + w]
  | _, _, _, _ => None
  end.
Fixpoint b64_decode (l : bytes) : option bytes :=
  match l with
  | [] => Some []
  | [_] => None
  | [a; b] => b64_two a b
  | [a; b; c] => if c =? b64_pad then b64_two a b else b64_three a b c
  | [a; b; c; d] =>
      if d =? b64_pad then if c =? b64_pad then b64_two a b else b64_three a b c
      else b64_four a b c d
  | a :: b :: c :: d :: r =>
      match b64_four a b c d, b64_decode r with
      | Some x, Some y => Some (x ++ y)
      | _, _ => None
      end
  end.

(** ** JSON texts: [serde_json::from_slice] (sgx-verify/src/lib.rs:492,509,711)

    Simplification: what follows the key of a skipped field is read as strictly as everything else
    (serde_json skips such values without checking numbers for range and strings for UTF-8, and to
    any depth). *)
Fixpoint utf8_valid (l : bytes) : bool :=
  match l with
  | [] => true
  | b0 :: r0 =>
      if b0 <? 128 then utf8_valid r0
      else if in_rng 194 223 b0 then
        match r0 with b1 :: r1 => cont b1 && utf8_valid r1 | _ => false end
      else if in_rng 224 239 b0 then
        match r0 with b1 :: b2 :: r2 => second_ok b0 b1 && cont b2 && utf8_valid r2 | _ => false end
      else if in_rng 240 244 b0 then
        match r0 with
        | b1 :: b2 :: b3 :: r3 => second_ok b0 b1 && cont b2 && cont b3 && utf8_valid r3
        | _ => false
        end
      else false
  end.

(** space, newline, carriage return, tab *)
Definition is_ws (c : N) : bool := (c =? 32) || (c =? 10) || (c =? 13) || (c =? 9).
Fixpoint skip_ws (l : bytes) : bytes :=
  match l with c :: r => if is_ws c then skip_ws r else l | [] => [] end.

Definition hex4 (a b c d : N) : option N :=
  match hex_value a, hex_value b, hex_value c, hex_value d with
  | Some x, Some y, Some z, Some w => Some (4096 * x + 256 * y + 16 * z + w)
  | _, _, _, _ => None
  end.
(** the characters after a backslash, except u *)
Definition simple_escape (c : N) : option N :=
  if c =? 34 then Some 34 else if c =? 92 then Some 92 else if c =? 47 then Some 47
  else if c =? 98 then Some 8 else if c =? 102 then Some 12 else if c =? 110 then Some 10
  else if c =? 114 then Some 13 else if c =? 116 then Some 9 else None.
(** The rest of a string after the opening quote: its bytes, whether it has an escape sequence, and
    what follows the closing quote. Surrogates must come in pairs. *)
Fixpoint str_tail (l : bytes) : option (bytes * bool * bytes) :=
  match l with
  | [] => None
  | c :: r =>
      if c =? 34 then Some ([], false, r)
      else if c =? 92 then
        match r with
        | [] => None
        | e :: r1 =>
            if e =? 117 then
              match r1 with
              | h1 :: h2 :: h3 :: h4 :: r2 =>
                  match hex4 h1 h2 h3 h4 with
                  | None => None
                  | Some n =>
                      if in_rng 56320 57343 n then None
                      else if in_rng 55296 56319 n then
                        match r2 with
                        | b :: u :: g1 :: g2 :: g3 :: g4 :: r3 =>
                            match hex4 g1 g2 g3 g4 with
                            | None => None
                            | Some m =>
                                if (b =? 92) && (u =? 117) && in_rng 56320 57343 m then
                                  match str_tail r3 with
                                  | Some (s, _, t) =>
                                      Some (utf8_enc1 (65536 + 1024 * (n - 55296) + (m - 56320)) ++ s, true, t)
                                  | None => None
                                  end
                                else None
                            end
                        | _ => None
                        end
                      else
                        match str_tail r2 with
                        | Some (s, _, t) => Some (utf8_enc1 n ++ s, true, t)
                        | None => None
                        end
                  end
              | _ => None
              end
            else
              match simple_escape e with
              | None => None
              | Some x =>
                  match str_tail r1 with
                  | Some (s, _, t) => Some (x :: s, true, t)
                  | None => None
                  end
              end
        end
      else if c <? 32 then None
      else match str_tail r with
           | Some (s, e, t) => Some (c :: s, e, t)
           | None => None
           end
  end.
Definition json_str (l : bytes) : option (bytes * bool * bytes) :=
  match str_tail l with
  | Some (s, e, t) => if utf8_valid s then Some (s, e, t) else None
  | None => None
  end.

Definition is_digit (c : N) : bool := in_rng 48 57 c.
Fixpoint digits (l : bytes) : bytes * bytes :=
  match l with
  | c :: r => if is_digit c then let '(d, t) := digits r in (c :: d, t) else ([], l)
  | [] => ([], [])
  end.
Definition dec_val (l : bytes) : N := fold_left (fun n c => 10 * n + (c - 48)) l 0.
(** fraction and exponent: digits of the fraction, exponent, rest *)
Definition frac_part (l : bytes) : option (bytes * bytes) :=
  match l with
  | c :: r => if c =? 46 then match digits r with ([], _) => None | (d, t) => Some (d, t) end else Some ([], l)
  | [] => Some ([], [])
  end.
Definition exp_part (l : bytes) : option (option Z * bytes) :=
  match l with
  | c :: r =>
      if (c =? 101) || (c =? 69) then
        let '(neg, r) := match r with
                         | s :: r' => if s =? 45 then (true, r') else if s =? 43 then (false, r') else (false, r)
                         | [] => (false, r)
                         end in
        match digits r with
        | ([], _) => None
        | (d, t) => Some (Some (if neg then - Z.of_N (dec_val d) else Z.of_N (dec_val d))%Z, t)
        end
      else Some (None, l)
  | [] => Some (None, [])
  end.
(** whether [n * 10 ^ e] is beyond the doubles (up to rounding at the boundary) *)
Definition too_big (n : N) (e : Z) : bool :=
  if n =? 0 then false
  else if (e <? 0)%Z then (Z.of_N n / 10 ^ (- e) >=? 2 ^ 1024)%Z
  else if (400 <? e)%Z then true
  else (Z.of_N n * 10 ^ e >=? 2 ^ 1024)%Z.
Definition number (neg : bool) (l : bytes) : option (json * bytes) :=
  match digits l with
  | ([], _) => None
  | ((c :: more) as d, t) =>
      if (c =? 48) && negb (List.length more =? 0)%nat then None else
      match frac_part t with
      | None => None
      | Some (f, t1) =>
          match exp_part t1 with
          | None => None
          | Some (x, t2) =>
              let n := dec_val d in
              match f, x with
              | [], None =>
                  if neg then
                    Some (if (n =? 0) || (2 ^ 63 <? n) then JFloat else JInt (- Z.of_N n), t2)
                  else Some (if n <? 2 ^ 64 then JInt (Z.of_N n) else JFloat, t2)
              | _, _ =>
                  let e := match x with Some e => e | None => 0%Z end in
                  if too_big (dec_val (d ++ f)) (e - Z.of_nat (List.length f)) then None else Some (JFloat, t2)
              end
          end
      end
  end.

Definition s_null : bytes := asc "null".
Definition s_true : bytes := asc "true".
Definition s_false : bytes := asc "false".
Definition literal (w : bytes) (j : json) (l : bytes) : option (json * bytes) :=
  if is_prefix w l then Some (j, drop (List.length w) l) else None.

(** [depth]: what remains of the limit of 128 nested arrays and objects; [fuel] bounds the number of
    nested calls and never runs out in [json_parse] *)
Fixpoint json_value (fuel : nat) (depth : N) (l : bytes) {struct fuel} : option (json * bytes) :=
  match fuel with
  | O => None
  | S f =>
      match skip_ws l with
      | [] => None
      | c :: r =>
          if c =? 34 then
            match json_str r with Some (s, e, t) => Some (JStr s e, t) | None => None end
          else if c =? 91 then
            if depth <=? 1 then None else
            match skip_ws r with
            | [] => None
            | c2 :: r2 =>
                if c2 =? 93 then Some (JArr [], r2)
                else match json_elems f (depth - 1) r with Some (v, t) => Some (JArr v, t) | None => None end
            end
          else if c =? 123 then
            if depth <=? 1 then None else
            match skip_ws r with
            | [] => None
            | c2 :: r2 =>
                if c2 =? 125 then Some (JObj [], r2)
                else match json_members f (depth - 1) r with Some (v, t) => Some (JObj v, t) | None => None end
            end
          else if c =? 110 then literal s_null JNull (c :: r)
          else if c =? 116 then literal s_true (JBool true) (c :: r)
          else if c =? 102 then literal s_false (JBool false) (c :: r)
          else if c =? 45 then number true r
          else if is_digit c then number false (c :: r)
          else None
      end
  end
with json_elems (fuel : nat) (depth : N) (l : bytes) {struct fuel} : option (list json * bytes) :=
  match fuel with
  | O => None
  | S f =>
      match json_value f depth l with
      | None => None
      | Some (v, t) =>
          match skip_ws t with
          | c :: r =>
              if c =? 93 then Some ([v], r)
              else if c =? 44 then
                match json_elems f depth r with Some (vs, u) => Some (v :: vs, u) | None => None end
              else None
          | [] => None
          end
      end
  end
with json_members (fuel : nat) (depth : N) (l : bytes) {struct fuel} : option (list (bytes * json) * bytes) :=
  match fuel with
  | O => None
  | S f =>
      match skip_ws l with
      | q :: r =>
          if q =? 34 then
            match json_str r with
            | None => None
            | Some (k, _, t) =>
                match skip_ws t with
                | c :: r1 =>
                    if c =? 58 then
                      match json_value f depth r1 with
                      | None => None
                      | Some (v, t1) =>
                          match skip_ws t1 with
                          | c2 :: r2 =>
                              if c2 =? 125 then Some ([(k, v)], r2)
                              else if c2 =? 44 then
                                match json_members f depth r2 with
                                | Some (vs, u) => Some ((k, v) :: vs, u)
                                | None => None
                                end
                              else None
                          | [] => None
                          end
                      end
                    else None
                | [] => None
                end
            end
          else None
      | [] => None
      end
  end.
Definition json_parse (l : bytes) : option json :=
  match json_value (S (2 * List.length l)) 128 l with
  | Some (j, t) => match skip_ws t with [] => Some j | _ => None end
  | None => None
  end.

(** ** Dates (chrono): seconds since the epoch and nanoseconds; the latter exceed 10^9 in a leap
    second. Only years 0 to 9999 and the format of RFC 3339 (chrono also accepts, for instance,
    extra spaces). *)
Record instant := mkInstant { i_secs : Z; i_nanos : N }.
(** [DateTime::timestamp_millis] *)
Definition millis (t : instant) : Z := (i_secs t * 1000 + Z.of_N (i_nanos t / 1000000))%Z.

(** days between 1970-01-01 and a date of the Gregorian calendar, and back; years start in March
    here *)
Definition days_of_civil (y m d : Z) : Z :=
  (let y := if m <=? 2 then y - 1 else y in
   let yoe := y mod 400 in
   let doy := (153 * ((m + 9) mod 12) + 2) / 5 + d - 1 in
   y / 400 * 146097 + (yoe * 365 + yoe / 4 - yoe / 100 + doy) - 719468)%Z.
Definition civil_of_days (n : Z) : Z * Z * Z :=
  (let n := n + 719468 in
   let doe := n mod 146097 in
   let c := Z.min (doe / 36524) 3 in
   let doc := doe - c * 36524 in
   let q := doc / 1461 in
   let doq := doc - q * 1461 in
   let yq := Z.min (doq / 365) 3 in
   let doy := doq - yq * 365 in
   let mp := (5 * doy + 2) / 153 in
   let m := if mp <? 10 then mp + 3 else mp - 9 in
   let y := n / 146097 * 400 + 100 * c + 4 * q + yq in
   (if m <=? 2 then y + 1 else y, m, doy - (153 * mp + 2) / 5 + 1))%Z.

(** exactly [w] digits *)
Fixpoint fixed_digits (w : nat) (acc : N) (l : bytes) : option (N * bytes) :=
  match w with
  | O => Some (acc, l)
  | S w' => match l with
            | c :: r => if is_digit c then fixed_digits w' (10 * acc + (c - 48)) r else None
            | [] => None
            end
  end.
Definition expect (f : N -> bool) (l : bytes) : option bytes :=
  match l with c :: r => if f c then Some r else None | [] => None end.
(** the digits after the point count nine places; more are ignored *)
Fixpoint nanos_of (places : nat) (l : bytes) : N :=
  match places with
  | O => 0
  | S p => match l with c :: r => (c - 48) * 10 ^ N.of_nat p + nanos_of p r | [] => 0 end
  end.
Definition fraction (l : bytes) : option (N * bytes) :=
  match l with
  | c :: r => if c =? 46 then match digits r with ([], _) => None | (d, t) => Some (nanos_of 9 d, t) end
              else Some (0, l)
  | [] => Some (0, [])
  end.
Notation "'olet' x := m 'in' k" := (match m with Some x => k | None => None end)
  (at level 200, x pattern, m at level 100, k at level 200, right associativity).
(** date and time without offset; the day must exist in its month *)
Definition naive_datetime (sep : N -> bool) (l : bytes) : option (instant * bytes) :=
  olet (y, l) := fixed_digits 4 0 l in
  olet l := expect (N.eqb 45) l in
  olet (mo, l) := fixed_digits 2 0 l in
  olet l := expect (N.eqb 45) l in
  olet (d, l) := fixed_digits 2 0 l in
  olet l := expect sep l in
  olet (h, l) := fixed_digits 2 0 l in
  olet l := expect (N.eqb 58) l in
  olet (mi, l) := fixed_digits 2 0 l in
  olet l := expect (N.eqb 58) l in
  olet (s, l) := fixed_digits 2 0 l in
  olet (f, l) := fraction l in
  let n := days_of_civil (Z.of_N y) (Z.of_N mo) (Z.of_N d) in
  if bool_decide (civil_of_days n = (Z.of_N y, Z.of_N mo, Z.of_N d)) && (h <? 24) && (mi <? 60) && (s <=? 60) then
    let sec := if s =? 60 then 59 else s in
    Some (mkInstant (n * 86400 + Z.of_N (h * 3600 + mi * 60 + sec)) (if s =? 60 then f + 1000000000 else f), l)
  else None.
(** seconds east of Greenwich *)
Definition offset (l : bytes) : option (Z * bytes) :=
  match l with
  | c :: r =>
      if (c =? 90) || (c =? 122) then Some (0%Z, r)
      else if (c =? 43) || (c =? 45) then
        olet (h, l) := fixed_digits 2 0 r in
        olet l := expect (N.eqb 58) l in
        olet (m, l) := fixed_digits 2 0 l in
        if (h <? 24) && (m <? 60) then
          let s := Z.of_N (h * 3600 + m * 60) in Some (if c =? 45 then (- s)%Z else s, l)
        else None
      else None
  | [] => None
  end.
(** [DateTime<Utc>::deserialize] on the string (collateral.rs:50,79,93,94,169,170) *)
Definition rfc3339 (l : bytes) : option instant :=
  olet (t, l) := naive_datetime (fun c => (c =? 84) || (c =? 116) || (c =? 32)) l in
  olet (z, l) := offset l in
  match l with [] => Some (mkInstant (i_secs t - z) (i_nanos t)) | _ => None end.
Definition date_millis (l : bytes) : option Z := match rfc3339 l with Some t => Some (millis t) | None => None end.
(** sgx-verify/src/lib.rs:718-719: [%Y-%m-%dT%H:%M:%S%.f%z] on the string followed by "+0000" *)
Definition ias_seconds (l : bytes) : option Z :=
  olet (t, l) := naive_datetime (N.eqb 84) l in
  match l with [] => Some (i_secs t) | _ => None end.

(** ** SHA-256 (ring) *)
Definition w32 (n : N) : N := N.land n 4294967295.
Definition rotr (k x : N) : N := N.lor (N.shiftr x k) (w32 (N.shiftl x (32 - k))).
Definition sha_k : list N :=
  [1116352408; 1899447441; 3049323471; 3921009573; 961987163; 1508970993; 2453635748; 2870763221;
   3624381080; 310598401; 607225278; 1426881987; 1925078388; 2162078206; 2614888103; 3248222580;
   3835390401; 4022224774; 264347078; 604807628; 770255983; 1249150122; 1555081692; 1996064986;
   2554220882; 2821834349; 2952996808; 3210313671; 3336571891; 3584528711; 113926993; 338241895;
   666307205; 773529912; 1294757372; 1396182291; 1695183700; 1986661051; 2177026350; 2456956037;
   2730485921; 2820302411; 3259730800; 3345764771; 3516065817; 3600352804; 4094571909; 275423344;
   430227734; 506948616; 659060556; 883997877; 958139571; 1322822218; 1537002063; 1747873779;
   1955562222; 2024104815; 2227730452; 2361852424; 2428436474; 2756734187; 3204031479; 3329325298].
Definition sha_init : list N :=
  [1779033703; 3144134277; 1013904242; 2773480762; 1359893119; 2600822924; 528734635; 1541459225].
Definition be_word (a b c d : N) : N := 16777216 * a + 65536 * b + 256 * c + d.
Fixpoint be_words (l : bytes) : list N :=
  match l with a :: b :: c :: d :: r => be_word a b c d :: be_words r | _ => [] end.
(** the schedule: the last 16 words, newest first *)
Definition next_word (w : list N) : N :=
  let x := nth 1 w 0 in let y := nth 14 w 0 in
  let s1 := N.lxor (N.lxor (rotr 17 x) (rotr 19 x)) (N.shiftr x 10) in
  let s0 := N.lxor (N.lxor (rotr 7 y) (rotr 18 y)) (N.shiftr y 3) in
  w32 (s1 + nth 6 w 0 + s0 + nth 15 w 0).
Definition sha_round (st : list N) (k w : N) : list N :=
  match st with
  | [a; b; c; d; e; f; g; h] =>
      let s1 := N.lxor (N.lxor (rotr 6 e) (rotr 11 e)) (rotr 25 e) in
      let ch := N.lxor (N.land e f) (N.land (N.lxor e 4294967295) g) in
      let t1 := h + s1 + ch + k + w in
      let s0 := N.lxor (N.lxor (rotr 2 a) (rotr 13 a)) (rotr 22 a) in
      let maj := N.lxor (N.lxor (N.land a b) (N.land a c)) (N.land b c) in
      [w32 (t1 + s0 + maj); a; b; c; w32 (d + t1); e; f; g]
  | _ => st
  end.
(** [pend]: words of the block not yet used; then the schedule is extended *)
Fixpoint sha_rounds (ks pend last : list N) (st : list N) : list N :=
  match ks with
  | [] => st
  | k :: ks' =>
      match pend with
      | w :: p => sha_rounds ks' p (w :: last) (sha_round st k w)
      | [] => let w := next_word last in sha_rounds ks' [] (w :: take 15 last) (sha_round st k w)
      end
  end.
Fixpoint sha_blocks (fuel : nat) (ws : list N) (st : list N) : list N :=
  match fuel with
  | O => st
  | S f => match ws with
           | [] => st
           | _ => let out := sha_rounds sha_k (take 16 ws) [] st in
                  sha_blocks f (drop 16 ws) (zip_with (fun x y => w32 (x + y)) st out)
           end
  end.
Definition be_bytes (n : nat) (v : N) : bytes :=
  map (fun i => N.land (N.shiftr v (8 * N.of_nat i)) 255) (rev (seq 0 n)).
Definition sha_pad (l : bytes) : bytes :=
  l ++ 128 :: zeros ((119 - lenN l mod 64) mod 64) ++ be_bytes 8 (8 * lenN l).
Definition sha256 (l : bytes) : bytes :=
  let p := sha_pad l in
  concat (map (be_bytes 4) (sha_blocks (List.length p) (be_words p) sha_init)).

(** ** X.509 certificates, as far as they are read (RFC 5280) *)
(** one DER element: tag, contents, rest; lengths of up to three bytes, in their shortest form *)
Definition der (l : bytes) : option (N * bytes * bytes) :=
  let body (tag n : N) (l : bytes) := if n <=? lenN l then Some (tag, takeN n l, dropN n l) else None in
  match l with
  | tag :: n :: r =>
      if n <? 128 then body tag n r
      else if n =? 129 then
        match r with a :: r' => if a <? 128 then None else body tag a r' | _ => None end
      else if n =? 130 then
        match r with a :: b :: r' => if a =? 0 then None else body tag (256 * a + b) r' | _ => None end
      else if n =? 131 then
        match r with a :: b :: c :: r' => if a =? 0 then None else body tag (65536 * a + 256 * b + c) r' | _ => None end
      else None
  | _ => None
  end.
Definition der_tag (tag : N) (l : bytes) : option (bytes * bytes) :=
  olet (t, c, r) := der l in if t =? tag then Some (c, r) else None.
(** an element with the tag if there is one *)
Definition der_opt (tag : N) (l : bytes) : option (option bytes * bytes) :=
  match l with
  | t :: _ => if t =? tag then olet (c, r) := der_tag tag l in Some (Some c, r) else Some (None, l)
  | [] => Some (None, [])
  end.
(** [Extension]: OID, optional BOOLEAN, OCTET STRING *)
Definition extension (l : bytes) : option (bytes * bytes) :=
  olet (oid, l) := der_tag 6 l in
  olet (_, l) := der_opt 1 l in
  olet (v, l) := der_tag 4 l in
  match l with [] => Some (oid, v) | _ => None end.
Fixpoint extension_list (fuel : nat) (l : bytes) : option (list (bytes * bytes)) :=
  match fuel with
  | O => None
  | S f => match l with
           | [] => Some []
           | _ => olet (c, r) := der_tag 48 l in
                  olet e := extension c in
                  olet es := extension_list f r in Some (e :: es)
           end
  end.
Record certificate := mkCert {
  ce_tbs : bytes;                       (* the signed part, with tag and length *)
  ce_issuer : bytes; ce_validity : bytes; ce_subject : bytes; ce_spki : bytes;
  ce_exts : list (bytes * bytes);       (* OID, value *)
  ce_sig : bytes }.
Definition x509 (l : bytes) : option certificate :=
  olet (c, rest) := der_tag 48 l in
  olet (tbs, c1) := der_tag 48 c in
  olet (_, c2) := der_tag 48 c1 in
  olet (sig, c3) := der_tag 3 c2 in
  olet (_, t) := der_opt 160 tbs in
  olet (_, t) := der_tag 2 t in
  olet (_, t) := der_tag 48 t in
  olet (issuer, t) := der_tag 48 t in
  olet (validity, t) := der_tag 48 t in
  olet (subject, t) := der_tag 48 t in
  olet (spki, t) := der_tag 48 t in
  olet (_, t) := der_opt 129 t in
  olet (_, t) := der_opt 130 t in
  olet (ext, t) := der_opt 163 t in
  match rest, c3, t, sig with
  | [], [], [], 0 :: sig =>
      olet exts := match ext with
                   | None => Some []
                   | Some e => olet (s, r) := der_tag 48 e in
                               match r with [] => extension_list (S (List.length s)) s | _ => None end
                   end in
      Some (mkCert (take (List.length c - List.length c1) c) issuer validity subject spki exts sig)
  | _, _, _, _ => None
  end.
Definition x509_extensions (l : bytes) : option (list (bytes * bytes)) :=
  match x509 l with Some c => Some (ce_exts c) | None => None end.

(** UTCTime and GeneralizedTime, in seconds since the epoch *)
Definition der_seconds (y : N) (l : bytes) : option Z :=
  olet (mo, l) := fixed_digits 2 0 l in
  olet (d, l) := fixed_digits 2 0 l in
  olet (h, l) := fixed_digits 2 0 l in
  olet (mi, l) := fixed_digits 2 0 l in
  olet (s, l) := fixed_digits 2 0 l in
  let n := days_of_civil (Z.of_N y) (Z.of_N mo) (Z.of_N d) in
  if bool_decide (civil_of_days n = (Z.of_N y, Z.of_N mo, Z.of_N d)) && (h <? 24) && (mi <? 60) && (s <? 60)
     && beq l [90]
  then Some (n * 86400 + Z.of_N (h * 3600 + mi * 60 + s))%Z else None.
Definition der_time (l : bytes) : option (Z * bytes) :=
  olet (tag, c, r) := der l in
  if tag =? 23 then
    olet (y, c) := fixed_digits 2 0 c in
    olet t := der_seconds (if 50 <=? y then 1900 + y else 2000 + y) c in Some (t, r)
  else if tag =? 24 then
    olet (y, c) := fixed_digits 4 0 c in
    olet t := der_seconds y c in Some (t, r)
  else None.
Definition valid_at (t : Z) (c : certificate) : bool :=
  match der_time (ce_validity c) with
  | Some (a, l) => match der_time l with
                   | Some (b, []) => (a <=? t)%Z && (t <=? b)%Z
                   | _ => false
                   end
  | None => false
  end.
(** the cA flag of the extension 2.5.29.19 *)
Definition is_ca (c : certificate) : bool :=
  match List.find (fun e => beq e.1 [85; 29; 19]) (ce_exts c) with
  | Some e => match der_tag 48 e.2 with
              | Some (x, []) => match der_opt 1 x with Some (Some [255], _) => true | _ => false end
              | _ => false
              end
  | None => false
  end.
(** [webpki::EndEntityCert::verify_for_usage]: a path to a trust anchor (subject and key): names,
    signatures, validity, cA flags. Not checked here: key usages, path lengths, name constraints,
    unknown critical extensions (none of which occur in the test documents in a way that matters). *)
Section Chain.
Context (signed : bytes -> bytes -> bytes -> bool).   (* key info, data, signature *)
Context (roots : list (bytes * bytes)).
Fixpoint path (fuel : nat) (t : Z) (ca : bool) (inter : list certificate) (c : certificate) : bool :=
  match fuel with
  | O => false
  | S f =>
      valid_at t c && Bool.eqb (is_ca c) ca &&
      (existsb (fun r => beq r.1 (ce_issuer c) && signed r.2 (ce_tbs c) (ce_sig c)) roots
       || existsb (fun i => beq (ce_subject i) (ce_issuer c) && signed (ce_spki i) (ce_tbs c) (ce_sig c)
                            && path f t true inter i) inter)
  end.
Definition chain_ok (leaf : bytes) (inter : list bytes) (t : N) : bool :=
  match x509 leaf, mapM x509 inter with
  | Some c, Some is => path 7 (Z.of_N t) false is c
  | _, _ => false
  end.
End Chain.

(** ** The trust anchors of sgx-verify/src/lib.rs:389-457: subject and key *)
Definition ias_roots : list (bytes * bytes) := [([49;11;48;9;6;3;85;4;6;19;2;85;83;49;11;48;9;6;3;85;4;8;12;2;67;65;49;20;48;18;6;3;85;4;7;12;11;83;
   97;110;116;97;32;67;108;97;114;97;49;26;48;24;6;3;85;4;10;12;17;73;110;116;101;108;32;67;111;114;
   112;111;114;97;116;105;111;110;49;48;48;46;6;3;85;4;3;12;39;73;110;116;101;108;32;83;71;88;32;65;
   116;116;101;115;116;97;116;105;111;110;32;82;101;112;111;114;116;32;83;105;103;110;105;110;103;
   32;67;65],
  [48;13;6;9;42;134;72;134;247;13;1;1;1;5;0;3;130;1;143;0;48;130;1;138;2;130;1;129;0;159;60;100;126;
   181;119;60;187;81;45;39;50;192;215;65;94;187;85;160;250;158;222;46;100;145;153;230;130;29;185;16;
   213;49;119;55;9;119;70;106;106;94;71;134;204;210;221;235;212;20;157;106;47;99;37;82;157;209;12;
   201;135;55;176;119;156;26;7;226;156;71;161;174;0;73;72;71;108;72;159;69;165;161;93;122;200;236;
   198;172;198;69;173;180;61;135;103;157;245;156;9;59;197;162;233;105;108;84;120;84;27;151;158;117;
   75;87;57;20;190;85;211;47;244;192;157;223;39;33;153;52;205;153;5;39;179;249;46;215;143;191;41;36;
   106;190;203;113;36;14;243;156;45;113;7;180;71;84;90;127;251;16;235;6;10;104;169;133;128;33;158;
   54;145;9;82;104;56;146;214;165;226;168;8;3;25;62;64;117;49;64;78;54;179;21;98;55;153;170;130;80;
   116;64;151;84;162;223;232;245;175;213;254;99;30;31;194;175;56;8;144;111;40;167;144;217;221;159;
   224;96;147;155;18;87;144;197;128;93;3;125;245;106;153;83;27;150;222;105;222;51;237;34;108;193;32;
   125;16;66;181;201;171;127;64;79;199;17;192;254;71;105;251;149;120;177;220;14;196;105;234;26;37;
   224;255;153;20;136;110;242;105;155;35;91;180;132;125;214;255;64;182;6;230;23;7;147;194;251;152;
   179;20;88;127;156;253;37;115;98;223;234;177;11;59;210;217;118;115;161;164;189;68;196;83;170;244;
   127;193;242;211;208;243;132;247;74;6;248;156;8;159;13;166;205;183;252;238;232;201;130;26;142;84;
   242;92;4;22;209;140;70;131;154;95;128;18;251;221;61;199;77;37;98;121;173;194;192;213;90;255;111;
   6;34;66;93;27;2;3;1;0;1])].
Definition dcap_roots : list (bytes * bytes) := [([49;26;48;24;6;3;85;4;3;12;17;73;110;116;101;108;32;83;71;88;32;82;111;111;116;32;67;65;49;26;48;24;
   6;3;85;4;10;12;17;73;110;116;101;108;32;67;111;114;112;111;114;97;116;105;111;110;49;20;48;18;6;
   3;85;4;7;12;11;83;97;110;116;97;32;67;108;97;114;97;49;11;48;9;6;3;85;4;8;12;2;67;65;49;11;48;9;
   6;3;85;4;6;19;2;85;83],
  [48;19;6;7;42;134;72;206;61;2;1;6;8;42;134;72;206;61;3;1;7;3;66;0;4;11;169;196;192;192;200;97;147;
   163;254;35;214;176;44;218;16;168;187;212;232;142;72;180;69;133;97;163;110;112;85;37;245;103;145;
   142;46;220;136;228;13;134;11;208;204;78;226;106;172;201;136;229;5;169;83;85;140;69;63;107;9;4;
   174;115;148])].

(** ** The oracles with the above. What remains open: RSA and ECDSA, as functions of the key (the
    contents of SubjectPublicKeyInfo, or the point), the data and the signature. *)
Definition text_oracles (rsa ecdsa ecdsa_fixed : bytes -> bytes -> bytes -> bool) : sgx_oracles :=
  let by_cert (v : bytes -> bytes -> bytes -> bool) (cert data sig : bytes) :=
    match x509 cert with Some c => v (ce_spki c) data sig | None => false end in
  mkSgx sha256 b64_decode (fun c => match x509 c with Some _ => true | None => false end)
    (chain_ok ecdsa dcap_roots) (fun c t => chain_ok rsa ias_roots c [] t)
    (by_cert ecdsa) (by_cert rsa) ecdsa_fixed
    x509_extensions
    (fun b => match json_parse b with Some j => identity_of_json date_millis j | None => None end)
    (fun b => match json_parse b with Some j => tcb_of_json date_millis j | None => None end)
    (fun b => match json_parse b with Some j => Some (ias_of_json j) | None => None end)
    ias_seconds.
