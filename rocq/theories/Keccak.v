(** * Keccak-256, computed

    The model leaves the hash function a parameter ([c_keccak]); this is the real one
    ([sp_io::hashing::keccak_256], outside /repo: The Keccak reference, 3.0, with rate 1088,
    capacity 512 and the original padding), so that the claims pallet can be run on real messages. *)
From Coq Require Import String.
From Verif Require Import Base State CollateralModel TextModel TestData.

Definition lane_mask : N := 18446744073709551615.
Definition rotl (x n : N) : N :=
  N.lor (N.land (N.shiftl x n) lane_mask) (N.shiftr x (64 - n)).
Definition lane (a : list N) (i : nat) : N := nth i a 0.

(** theta *)
Definition column (a : list N) (x : nat) : N :=
  N.lxor (lane a x) (N.lxor (lane a (x + 5)) (N.lxor (lane a (x + 10)) (N.lxor (lane a (x + 15)) (lane a (x + 20))))).
Definition theta (a : list N) : list N :=
  let c := map (column a) (seq 0 5) in
  let d := map (fun x => N.lxor (lane c (Nat.modulo (x + 4) 5)) (rotl (lane c (Nat.modulo (x + 1) 5)) 1)) (seq 0 5) in
  map (fun i => N.lxor (lane a i) (lane d (Nat.modulo i 5))) (seq 0 25).
(** rho and pi: where each lane comes from and by how much it is rotated *)
Definition rho_pi_table : list (nat * N) :=
  [(0%nat, 0); (6%nat, 44); (12%nat, 43); (18%nat, 21); (24%nat, 14);
   (3%nat, 28); (9%nat, 20); (10%nat, 3); (16%nat, 45); (22%nat, 61);
   (1%nat, 1); (7%nat, 6); (13%nat, 25); (19%nat, 8); (20%nat, 18);
   (4%nat, 27); (5%nat, 36); (11%nat, 10); (17%nat, 15); (23%nat, 56);
   (2%nat, 62); (8%nat, 55); (14%nat, 39); (15%nat, 41); (21%nat, 2)].
Definition rho_pi (a : list N) : list N := map (fun t => rotl (lane a t.1) t.2) rho_pi_table.
(** chi, on each row of five *)
Fixpoint chi (rows : nat) (a : list N) : list N :=
  match rows, a with
  | S k, p :: q :: r :: s :: t :: rest =>
      let f x y z := N.lxor x (N.land (N.lxor y lane_mask) z) in
      f p q r :: f q r s :: f r s t :: f s t p :: f t p q :: chi k rest
  | _, _ => []
  end.
(** iota *)
Definition iota (rc : N) (a : list N) : list N :=
  match a with x :: r => N.lxor x rc :: r | [] => [] end.
Definition round_constants : list N :=
  [1; 32898; 9223372036854808714; 9223372039002292224; 32907; 2147483649; 9223372039002292353;
   9223372036854808585; 138; 136; 2147516425; 2147483658; 2147516555; 9223372036854775947;
   9223372036854808713; 9223372036854808579; 9223372036854808578; 9223372036854775936; 32778;
   9223372039002259466; 9223372039002292353; 9223372036854808704; 2147483649; 9223372039002292232].
Definition keccak_f (a : list N) : list N :=
  fold_left (fun a rc => iota rc (chi 5 (rho_pi (theta a)))) round_constants a.

(** Absorbing blocks of 136 bytes *)
Fixpoint lanes (n : nat) (b : bytes) : list N :=
  match n with O => [] | S k => le_val (take 8 b) :: lanes k (drop 8 b) end.
Fixpoint xor_into (a b : list N) : list N :=
  match a, b with x :: a, y :: b => N.lxor x y :: xor_into a b | _, [] => a | [], _ => [] end.
Fixpoint absorb (n : nat) (b : bytes) (a : list N) : list N :=
  match n with O => a | S k => absorb k (drop 136 b) (keccak_f (xor_into a (lanes 17 b))) end.
Definition pad (b : bytes) : bytes :=
  let n := Nat.sub 136 (Nat.modulo (length b) 136) in
  b ++ (if Nat.eqb n 1 then [129] else 1 :: replicate (n - 2) 0 ++ [128]).
Definition keccak256 (b : bytes) : bytes :=
  let p := pad b in
  take 32 (flat_map (le_bytes 8) (absorb (Nat.div (length p) 136) p (replicate 25 0))).

(** Known answers *)
Example keccak_empty :
  keccak256 [] = hx "c5d2460186f7233c927e7db2dcc703c0e500b653ca82273b7bfad8045d85a470".
Proof. vm_compute. reflexivity. Qed.
Example keccak_abc :
  keccak256 (asc "abc") = hx "4e03657aea45a94fc7d47ba826c8d667c0d1e6e33a64a036ec44f58fa12d6c45".
Proof. vm_compute. reflexivity. Qed.
