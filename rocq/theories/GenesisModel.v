(** * The genesis builds of teerex and claims, statement by statement
    [Runtime.genesis_state] gives the state a chain starts in directly, with the exact sum of the
    listed claims as total. Here the two [BuildGenesisConfig::build] functions of the workspace are
    run on the storage that the rest of the runtime has prepared, including what plain addition does
    to a sum beyond the balance type. No other pallet of the workspace has a genesis build.
    Left out: the parsing of the chain specification. *)
From Verif Require Import Base State Env TeerdaysModel TeerexBase SgxVerifyModel TeerexModel
  EnclaveBridgeModel SidechainModel TeeracleModel ClaimsModel AssetRegistryModel XcmTransactorModel
  Runtime.

(** [iter().for_each(f)] *)
Fixpoint for_each {A} (f : A -> RM unit) (l : list A) : RM unit :=
  match l with [] => ret tt | x :: r => do! f x in for_each f r end.
(** [iter().fold(a, f)] with an [f] that may panic *)
Fixpoint fold_m {A B} (f : B -> A -> RM B) (l : list A) (b : B) : RM B :=
  match l with [] => ret b | x :: r => let! b' := f b x in fold_m f r b' end.
(** [iter().filter_map(f)] *)
Definition filter_map {A B} (f : A -> option B) (l : list A) : list B := omap f l.

(** An entry of [GenesisConfig::claims]: address, value, account it is pre-claimed for, statement *)
Definition gclaim : Type := bytes * N * option acct * option statement.

(** teerex/src/lib.rs:277-283 [build] *)
Definition teerex_build (debug skip : bool) : RM unit :=
  do! modify (fun s => let t := rt_tx s in set_tx (mkTx (tx_sov t) (tx_prox t) (tx_qe t) (tx_tcb t) debug (tx_allow_skip t)) s) in
  modify (fun s => let t := rt_tx s in set_tx (mkTx (tx_sov t) (tx_prox t) (tx_qe t) (tx_tcb t) (tx_allow_debug t) skip) s).

(** claims/src/lib.rs:151-182 [build] *)
Definition claims_build (c : cfg) (claims : list gclaim) (vesting : list (bytes * (N * N * N))) : RM unit :=
  (* 155-157 *)
  do! for_each (fun x => modify (upd_cl (fun k =>
        mkCl (<[x.1 := x.2]> (cl_claims k)) (cl_total k) (cl_vesting k) (cl_signing k) (cl_preclaims k))))
      (map (fun x : gclaim => (x.1.1.1, x.1.1.2)) claims) in
  (* 159-163 *)
  let! t := fold_m (fun acc (x : gclaim) => plain_add (c_ovf c) (c_bal_max c) acc x.1.1.2) claims 0 in
  do! modify (upd_cl (fun k => mkCl (cl_claims k) t (cl_vesting k) (cl_signing k) (cl_preclaims k))) in
  (* 165-167 *)
  do! for_each (fun x => modify (upd_cl (fun k =>
        mkCl (cl_claims k) (cl_total k) (<[x.1 := x.2]> (cl_vesting k)) (cl_signing k) (cl_preclaims k)))) vesting in
  (* 169-174 *)
  do! for_each (fun x => modify (upd_cl (fun k =>
        mkCl (cl_claims k) (cl_total k) (cl_vesting k) (<[x.1 := x.2]> (cl_signing k)) (cl_preclaims k))))
      (filter_map (fun x : gclaim => match x.2 with Some s => Some (x.1.1.1, s) | None => None end) claims) in
  (* 176-180 *)
  for_each (fun x => modify (upd_cl (fun k =>
        mkCl (cl_claims k) (cl_total k) (cl_vesting k) (cl_signing k) (<[x.1 := x.2]> (cl_preclaims k)))))
      (filter_map (fun x : gclaim => match x.1.2 with Some i => Some (i, x.1.1.1) | None => None end) claims).

(** The storage before: balances, clock and assets as the other pallets set them up, the storage of
    the workspace's pallets empty (an absent flag reads false) *)
Definition bare (g : genesis) : rt :=
  mkRt (g_now g) 0 (mkBal (g_bal g) ∅) ∅ (mkTd ∅ ∅) (mkEb ∅ ∅ ∅) ∅ (mkTo ∅ ∅ ∅)
       (mkTx ∅ ∅ qe_default ∅ false false) (mkCl ∅ 0 ∅ ∅ ∅) (mkAr ∅ ∅ (g_assets g)) [] [].
Definition build (c : cfg) (g : genesis) : RM unit :=
  do! teerex_build (g_debug g) (g_skip g) in claims_build c (g_claims g) (g_vesting g).
