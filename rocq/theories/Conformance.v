(** * Running the unit tests of /repo in the model

    A test is a list of lines: set the clock, set the block number, dispatch a call and compare the
    outcome, look at the state, write storage directly. [test] tells whether all lines hold. Events
    are read from the log, which unlike [System::events] is never cleared. *)
From Coq Require Import String.
From Verif Require Import Base State Env TeerdaysModel TeerexBase SgxVerifyModel TeerexModel
  EnclaveBridgeModel SidechainModel TeeracleModel ClaimsModel AssetRegistryModel XcmTransactorModel
  Runtime Examples CollateralModel TextModel TestData.

#[global] Instance sgx_error_dec : EqDecision sgx_error. Proof. solve_decision. Defined.
#[global] Instance error_dec : EqDecision error. Proof. solve_decision. Defined.
#[global] Instance enclave_dec : EqDecision enclave. Proof. solve_decision. Defined.
#[global] Instance qenclave_dec : EqDecision qenclave. Proof. solve_decision. Defined.
#[global] Instance tcb_level_dec : EqDecision tcb_level. Proof. solve_decision. Defined.
#[global] Instance tcb_info_dec : EqDecision tcb_info. Proof. solve_decision. Defined.
#[global] Instance bond_dec : EqDecision bond. Proof. solve_decision. Defined.
#[global] Instance event_dec : EqDecision event. Proof. solve_decision. Defined.

Inductive line :=
| At (t : N)
| BlockNr (n : N)
| Ok_ (o : origin) (k : call)                     (* assert_ok! *)
| Err_ (o : origin) (k : call)                    (* assert!(….is_err()) *)
| ErrIs (o : origin) (k : call) (e : error)       (* assert_err!, assert_noop! *)
| Check (b : rt -> bool)
| Env (x : op)
| Put (f : rt -> rt)
| RunOk (m : RM unit).                            (* assert_ok! on a function that is no call *)

Fixpoint test (c : cfg) (l : list line) (s : rt) : bool :=
  match l with
  | [] => true
  | At t :: l => test c l (set_clock t (rt_blk s) s)
  | BlockNr n :: l => test c l (set_clock (rt_now s) n s)
  | Ok_ o k :: l => match dispatch c o k s with (Success, s) => test c l s | _ => false end
  | Err_ o k :: l => match dispatch c o k s with (Failed _, s) => test c l s | _ => false end
  | ErrIs o k e :: l => match dispatch c o k s with
                        | (Failed e', s) => bool_decide (e = e') && test c l s
                        | _ => false
                        end
  | Check b :: l => b s && test c l s
  | Env x :: l => test c l (step c s x)
  | Put f :: l => test c l (f s)
  | RunOk m :: l => match m s with Ok _ s => test c l s | _ => false end
  end.

(** [System::events().iter().any(..)] *)
Definition event_in (e : event) : line := Check (fun s => existsb (fun x => bool_decide (x = e)) (rt_ev s)).
Definition event_not_in (e : event) : line := Check (fun s => negb (existsb (fun x => bool_decide (x = e)) (rt_ev s))).
(** [assert_eq!(System::events().last(), ..)] *)
Definition event_last (e : event) : line := Check (fun s => match rt_ev s with x :: _ => bool_decide (x = e) | [] => false end).

(** sp_keyring: the public keys of the development accounts *)
Definition k_alice : acct := hx "d43593c715fdd31c61141abd04a99fd6822c8558854ccde39a5684e7a56da27d".
Definition k_bob : acct := hx "8eaf04151687736326c9fea17e25fc5287613693c912909cb226aa4794f26a48".
Definition k_charlie : acct := hx "90b5ab205c6974c9ea841be688864633dc9ca8a357843eeacf2314649965fe22".
Definition k_eve : acct := hx "e659a7a1628cdd93febc04a4e0646ea20e9f5f0ce097d9a05290d4a9e054df4e".
Definition k_ferdie : acct := hx "1cbd2d43530a44705ad088af313e18f80b53ef16b36177cd4b77b846f2a5f07c".
(** test-utils: [URL] *)
Definition url : bytes := asc "ws://127.0.0.1:9991".
