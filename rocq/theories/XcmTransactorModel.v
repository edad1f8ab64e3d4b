(** * Model of pallet xcm-transactor (xcm-transactor/src/lib.rs) and primitives/xcm-transactor. *)
From Verif Require Import Base State.

(** primitives/xcm-transactor/src/lib.rs:56-83, 95-97: SCALE encoding of
    RelayRuntimeCall::Registrar(Swap { this, other }); both feature sets use index 70 *)
Definition swap_call (this other : N) : bytes := 70 :: 3 :: le_bytes 4 this ++ le_bytes 4 other.

(** primitives/xcm-transactor/src/lib.rs:99-119 [construct_transact_xcm] *)
Definition construct_xcm (own : N) (call : bytes) (w : N * N) (fee : N) : list xcm_inst :=
  [ XWithdrawAsset (mkLoc 1 []) fee;
    XBuyExecution (mkLoc 1 []) fee;
    XTransact w call;
    XRefundSurplus;
    XDepositAsset (mkLoc 1 [JParachain own]) ].

(** xcm-transactor/src/lib.rs:94-106 [From<SendError>] *)
Definition send_error_map (e : send_error) : error :=
  match e with
  | SENotApplicable => XUnreachable
  | SETransport => XTransport
  | SEUnroutable => XUnroutable
  | SEDestinationUnsupported => XDestinationUnsupported
  | SEFees => XFeesNotMet
  | SEOther => XXcmSendError
  end.

(** xcm-transactor/src/lib.rs:127-156 [send_swap_ump]; the router either fails or queues the message
    to the parent and returns its hash *)
Definition send_swap_ump (c : cfg) (o : origin) (self other : N) (w : N * N) (fee : N) : RM unit :=
  do! ensure (c_swap_origin c o) BadOrigin in
  do! ensure (negb (self =? other)) SwapIdsEqual in
  do! ensure ((self =? c_shell_id c) || (self =? c_integritee_id c)) InvalidSwapIds in
  do! ensure ((other =? c_shell_id c) || (other =? c_integritee_id c)) InvalidSwapIds in
  let msg := construct_xcm (c_own_para c) (swap_call self other) w fee in
  match c_router c msg with
  | inl e => fail (send_error_map e)
  | inr h =>
      do! modify (fun s => set_out (msg :: rt_out s) s) in
      do! deposit_event (EvSentXcm h) in
      deposit_event (EvSwapTransactSent self other)
  end.

Inductive xt_call := XtSwap (self other : N) (w : N * N) (fee : N).
Definition xt_exec (c : cfg) (o : origin) (x : xt_call) : RM unit :=
  match x with XtSwap a b w f => send_swap_ump c o a b w f end.
