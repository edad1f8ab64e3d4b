(** * Runtime: dispatch of calls, histories, genesis. *)
From Verif Require Import Base State Env TeerdaysModel TeerexBase SgxVerifyModel TeerexModel
  EnclaveBridgeModel SidechainModel TeeracleModel ClaimsModel AssetRegistryModel XcmTransactorModel.

(** A call of any pallet of /repo *)
Inductive call :=
| CTd (x : td_call) | CEb (x : eb_call) | CSc (x : sc_call) | CTo (x : to_call)
| CTx (x : tx_call) | CCl (x : cl_call) | CAr (x : ar_call) | CXt (x : xt_call).

Definition exec (c : cfg) (o : origin) (k : call) : RM unit :=
  match k with
  | CTd x => td_exec c o x
  | CEb x => eb_exec_call c o x
  | CSc x => sc_exec o x
  | CTo x => to_exec c o x
  | CTx x => tx_exec c o x
  | CCl x => cl_exec c o x
  | CAr x => ar_exec c o x
  | CXt x => xt_exec c o x
  end.

(** What FRAME makes of a body: the call macro wraps it in [with_storage_layer], so an error rolls
    back all writes; a panic aborts the extrinsic. *)
Inductive status := Success | Failed (e : error) | Panicked.
Definition run_call (m : RM unit) (s : rt) : status * rt :=
  match m s with
  | Ok _ s' => (Success, s')
  | Err e _ => (Failed e, s)
  | Panic => (Panicked, s)
  end.
Definition dispatch (c : cfg) (o : origin) (k : call) (s : rt) : status * rt := run_call (exec c o k) s.

(** ** Histories *)
(** An operation is a call, a new block, or something other parts of the runtime do: balance
    transfers, minting, fees, creation and destruction of assets, vesting, locks of other pallets. *)
Inductive op :=
| OCall (o : origin) (k : call)
| ONextBlock (delta : N)
| OTransfer (src dst : acct) (v : N)
| OMint (a : acct) (v : N)
| OFee (a : acct) (v : N)
| OVest (a : acct)
| OAddVesting (a : acct) (locked per_block start : N)
| OLock (a : acct) (id v : N)
| OUnlock (a : acct) (id : N)
| OCreateAsset (id min : N)
| ODestroyAsset (id : N).

(** pallet_timestamp: the clock does not go back and stays within u64; frame_system: the block
    number grows by one *)
Definition next_block (c : cfg) (delta : N) (s : rt) : rt :=
  if rt_blk s + 1 <=? c_blk_max c
  then set_clock (N.max (rt_now s) (N.min (rt_now s + delta) u64_max)) (rt_blk s + 1) s else s.

Definition step (c : cfg) (s : rt) (x : op) : rt :=
  match x with
  | OCall o k => (dispatch c o k s).2
  | ONextBlock d => next_block c d s
  | OTransfer a b v => (run_call (transfer c a b v) s).2
  | OMint a v => (run_call (deposit_creating c a v) s).2
  | OFee a v => (run_call (withdraw c a v) s).2
  | OVest a => (run_call (vest a) s).2
  | OAddVesting a l pb st => (run_call (do! add_vesting_schedule a l pb st in ret tt) s).2
  | OLock a i v => (run_call (set_lock (LOther i) a v) s).2
  | OUnlock a i => (run_call (remove_lock (LOther i) a) s).2
  | OCreateAsset i m =>
      set_ar (mkAr (ar_loc (rt_ar s)) (ar_id (rt_ar s)) (<[i := m]> (ar_assets (rt_ar s)))) s
  | ODestroyAsset i =>
      set_ar (mkAr (ar_loc (rt_ar s)) (ar_id (rt_ar s)) (delete i (ar_assets (rt_ar s)))) s
  end.
Definition run (c : cfg) (s : rt) (l : list op) : rt := fold_left (step c) l s.

(** ** Genesis *)
Record genesis := mkGenesis {
  g_now : N;
  g_bal : gmap acct N;
  g_claims : list (bytes * N * option acct * option statement);
  g_vesting : list (bytes * (N * N * N));
  g_debug : bool; g_skip : bool;        (* teerex/src/lib.rs:268-283 *)
  g_assets : gmap N N }.
(** [SgxQuotingEnclave::default()], primitives/teerex/src/lib.rs:269 *)
Definition qe_default : qenclave :=
  mkQe 0 0 (zeros 4) (zeros 4) (zeros 16) (zeros 16) (zeros 32) 0 [].
Definition genesis_state (g : genesis) : rt :=
  mkRt (g_now g) 0 (mkBal (g_bal g) ∅) ∅ (mkTd ∅ ∅) (mkEb ∅ ∅ ∅) ∅ (mkTo ∅ ∅ ∅)
       (mkTx ∅ ∅ qe_default ∅ (g_debug g) (g_skip g))
       (claims_genesis (g_claims g) (g_vesting g))
       (mkAr ∅ ∅ (g_assets g)) [] [].

(** States reachable from a genesis *)
Definition reachable (c : cfg) (g : genesis) (s : rt) : Prop := exists l, s = run c (genesis_state g) l.
