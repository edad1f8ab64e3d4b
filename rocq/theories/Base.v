(** * Base: outcome monad, bounded arithmetic, byte strings.

    Nothing in this file is specific to a pallet. *)
From Coq Require Export NArith ZArith Lia ZifyBool ZifyN ZifyNat.
From stdpp Require Export base gmap numbers option.
From stdpp Require Export list.
From Coq Require Ascii String.

Global Open Scope N_scope.
Arguments N.add : simpl never.
Arguments N.sub : simpl never.
Arguments N.mul : simpl never.
Arguments N.div : simpl never.
Arguments N.modulo : simpl never.
Arguments N.pow : simpl never.
Arguments N.min : simpl never.
Arguments N.max : simpl never.
Arguments N.land : simpl never.
Arguments N.leb : simpl never.
Arguments N.ltb : simpl never.
Arguments N.eqb : simpl never.
Arguments N.to_nat : simpl never.
Arguments N.of_nat : simpl never.

(** A byte string. Every account id, hash, shard identifier, key, name and URL of the
    code base ([Vec<u8>], [[u8; n]], [H256], [AccountId32]) is modelled as the list of its
    bytes. SIMPLIFIED: bytes are not restricted to [0..255] and array lengths are not part
    of the type; theorems that need this say so. *)
Definition bytes := list N.

(** Account ids ([T::AccountId]), identified with their SCALE encoding. In the runtimes that
    use these pallets this is [AccountId32], whose encoding is its 32 bytes. *)
Definition acct := bytes.

(** Result of running a piece of runtime code: a value and the new storage, a
    [DispatchError] together with the storage as the code left it, or a panic. *)
Inductive outcome (S E A : Type) : Type :=
| Ok (a : A) (s : S)
| Err (e : E) (s : S)
| Panic.
Arguments Ok {S E A} a s.
Arguments Err {S E A} e s.
Arguments Panic {S E A}.

Definition M (S E A : Type) : Type := S -> outcome S E A.

Definition ret {S E A} (a : A) : M S E A := fun s => Ok a s.
Definition bind {S E A B} (m : M S E A) (k : A -> M S E B) : M S E B :=
  fun s => match m s with
           | Ok a s' => k a s'
           | Err e s' => Err e s'
           | Panic => Panic
           end.
(** [return Err(e)] / [?] on an error *)
Definition fail {S E A} (e : E) : M S E A := fun s => Err e s.
Definition panic {S E A} : M S E A := fun _ => Panic.
Definition gets {S E A} (f : S -> A) : M S E A := fun s => Ok (f s) s.
Definition modify {S E} (f : S -> S) : M S E unit := fun s => Ok tt (f s).
(** [ensure!(b, e)] *)
Definition ensure {S E} (b : bool) (e : E) : M S E unit :=
  if b then ret tt else fail e.
(** [opt.ok_or(e)?] *)
Definition ok_or {S E A} (o : option A) (e : E) : M S E A :=
  match o with Some a => ret a | None => fail e end.

Notation "'let!' x := m 'in' k" := (bind m (fun x => k))
  (at level 200, x pattern, m at level 100, k at level 200, right associativity).
Notation "'do!' m 'in' k" := (bind m (fun _ => k))
  (at level 200, m at level 100, k at level 200, right associativity).

(** ** Bounded unsigned arithmetic; [mx] is the largest value of the type. *)
(** [a.saturating_add(b)] *)
Definition sat_add (mx a b : N) : N := N.min (a + b) mx.
(** [a.saturating_mul(b)] *)
Definition sat_mul (mx a b : N) : N := N.min (a * b) mx.
(** [a.saturating_sub(b)] is [a - b]: subtraction on [N] truncates at 0. *)
Definition sat_sub (a b : N) : N := a - b.
(** Plain [a + b]: panics on overflow if the runtime is compiled with overflow checks
    ([ovf = true]), wraps around otherwise (release profile; the workspace's Cargo.toml sets
    neither). *)
Definition plain_add {S E} (ovf : bool) (mx a b : N) : M S E N :=
  if a + b <=? mx then ret (a + b)
  else if ovf then panic else ret ((a + b) mod (mx + 1)).

Definition u16_max : N := 65535.
Definition u32_max : N := 4294967295.
Definition u64_max : N := 18446744073709551615.
Definition i64_max : N := 9223372036854775807.

(** ** Byte string helpers *)
Definition lenN {A} (l : list A) : N := N.of_nat (length l).
Definition takeN {A} (n : N) (l : list A) : list A := take (N.to_nat n) l.
Definition dropN {A} (n : N) (l : list A) : list A := drop (N.to_nat n) l.
Definition zeros (n : N) : bytes := replicate (N.to_nat n) 0.
(** [data.get(off .. off + len)] *)
Definition get_range {A} (off len : N) (l : list A) : option (list A) :=
  if off + len <=? lenN l then Some (takeN len (dropN off l)) else None.
(** [x == y] on byte strings *)
Definition beq (x y : bytes) : bool := bool_decide (x = y).

(** The bytes of an ASCII string literal *)
Definition bytes_of_string (s : String.string) : bytes :=
  map Ascii.N_of_ascii (String.list_ascii_of_string s).

(** Little- and big-endian values of a byte string *)
Fixpoint le_val (l : bytes) : N :=
  match l with [] => 0 | b :: r => b + 256 * le_val r end.
Definition be_val (l : bytes) : N := le_val (rev l).
(** [n] as [k] little-endian bytes *)
Fixpoint le_bytes (k : nat) (n : N) : bytes :=
  match k with O => [] | S k' => (n mod 256) :: le_bytes k' (n / 256) end.

(** All bytes are below 256 *)
Definition wf_bytes (l : bytes) : Prop := Forall (fun b => b < 256) l.

(** ** Facts about the monad used by all proofs *)
Lemma bind_ok {S E A B} (m : M S E A) (k : A -> M S E B) s b s' :
  bind m k s = Ok b s' -> exists a s1, m s = Ok a s1 /\ k a s1 = Ok b s'.
Proof. unfold bind. destruct (m s); intros; try discriminate. eauto. Qed.

Lemma gets_ok {S E A} (f : S -> A) (s s' : S) a : @gets S E A f s = Ok a s' -> a = f s /\ s' = s.
Proof. unfold gets. intros H. inversion H. auto. Qed.

Lemma ensure_ok {S E} (b : bool) (e : E) (s s' : S) u :
  ensure b e s = Ok u s' -> b = true /\ s' = s.
Proof. unfold ensure, ret, fail. destruct b; intros H; inversion H; auto. Qed.

Lemma ok_or_ok {S E A} (o : option A) (e : E) (s s' : S) a :
  ok_or o e s = Ok a s' -> o = Some a /\ s' = s.
Proof. unfold ok_or, ret, fail. destruct o; intros H; inversion H; auto. Qed.

Lemma plain_add_ok {S E} ovf mx a b (s s' : S) r :
  @plain_add S E ovf mx a b s = Ok r s' ->
  s' = s /\ ((a + b <= mx /\ r = a + b) \/ (mx < a + b /\ ovf = false /\ r = (a + b) mod (mx + 1))).
Proof.
  unfold plain_add, ret, panic. destruct (N.leb_spec (a + b) mx).
  - intros E1; inversion E1; auto.
  - destruct ovf; intros E1; inversion E1; split; auto.
Qed.

(** Split a successful monadic run into its steps. *)
Ltac inv_ok H :=
  match type of H with
  | bind _ _ _ = Ok _ _ =>
      let a := fresh "a" in let s1 := fresh "s" in let H1 := fresh "H" in
      apply bind_ok in H; destruct H as (a & s1 & H1 & H); cbn beta in H;
      inv_ok H1; inv_ok H
  | ensure _ _ _ = Ok _ _ => apply ensure_ok in H; destruct H as [H ?]; subst
  | ok_or _ _ _ = Ok _ _ => apply ok_or_ok in H; destruct H as [H ?]; subst
  | gets _ _ = Ok _ _ => unfold gets in H; inversion H; subst; clear H
  | modify _ _ = Ok _ _ => unfold modify in H; inversion H; subst; clear H
  | ret _ _ = Ok _ _ => unfold ret in H; inversion H; subst; clear H
  | fail _ _ = Ok _ _ => unfold fail in H; discriminate H
  | panic _ = Ok _ _ => unfold panic in H; discriminate H
  | Ok _ _ = Ok _ _ => inversion H; subst; clear H
  | Err _ _ = Ok _ _ => discriminate H
  | Panic = Ok _ _ => discriminate H
  | _ => idtac
  end.

Lemma beq_true x y : beq x y = true <-> x = y.
Proof. unfold beq. apply bool_decide_eq_true. Qed.
Lemma beq_false x y : beq x y = false <-> x <> y.
Proof. unfold beq. apply bool_decide_eq_false. Qed.
Lemma beq_refl x : beq x x = true.
Proof. apply beq_true; auto. Qed.

Lemma lenN_app {A} (x y : list A) : lenN (x ++ y) = lenN x + lenN y.
Proof. unfold lenN. rewrite app_length. lia. Qed.
Lemma lenN_takeN {A} n (l : list A) : lenN (takeN n l) = N.min n (lenN l).
Proof. unfold lenN, takeN. rewrite take_length. lia. Qed.
Lemma lenN_dropN {A} n (l : list A) : lenN (dropN n l) = lenN l - n.
Proof. unfold lenN, dropN. rewrite drop_length. lia. Qed.
Lemma lenN_nil {A} : lenN (@nil A) = 0.
Proof. reflexivity. Qed.
Lemma lenN_cons {A} (x : A) l : lenN (x :: l) = 1 + lenN l.
Proof. unfold lenN. cbn. lia. Qed.
Lemma lenN_zeros n : lenN (zeros n) = n.
Proof. unfold lenN, zeros. rewrite replicate_length. lia. Qed.
