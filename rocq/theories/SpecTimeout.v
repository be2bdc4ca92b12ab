(** * SpecTimeout: programs that wait for the answer of some of their calls only for a while
    (tokio::time::timeout, select), and what they do at a service. *)
From Verif Require Import Base Text Win Errors Common Reply Ntlm Prog Client Spec SpecReply SpecMsg Api SpecCall Flow SpecRemote SpecDrop.
Open Scope N_scope.

(** [TTry]: the call may be given up; then the program continues with [None] *)
Inductive tprog (A : Type) : Type :=
| TRet (a : A)
| TCall (R : Type) (c : call R) (k : ans R -> tprog A)
| TTry (R : Type) (c : call R) (k : option (ans R) -> tprog A)
| TStop.   (* panics, or runs for ever *)
Arguments TRet {A} a.
Arguments TStop {A}.
Arguments TCall {A R} c k.
Arguments TTry {A R} c k.

Section Times.
Variable Sv : Type.
Variable react : Sv -> bytes -> reaction Sv.
Variable E : env.
Notation world := (world cifs Sv).

(** the future of the call is dropped, but neither in the middle of writing the request nor in
    the middle of reading a message (for these see C51 and C70) *)
Definition given_up {R} (c : call R) (w v : world) : Prop :=
  exists fuel f, dropped react (exec E fuel c) w v /\ request (exec E fuel c) (cl w) = Some f
  /\ (left_unsent w v
      \/ exists w1 s, asked react w f w1 /\ rx w1 = s ++ rx v /\ frames s /\ v = leaving w1 (rx v)).
(** [p], run from [w], makes [n] calls, some of which it gives up, and returns [a] *)
Inductive times {A} : tprog A -> world -> nat -> A -> world -> Prop :=
| t_ret a w : times (TRet a) w 0 a w
| t_call R (c : call R) k w fuel r w1 n a w' : run react (exec E fuel c) w = Done r w1 ->
    times (k r) w1 n a w' -> times (TCall c k) w (S n) a w'
| t_done R (c : call R) k w fuel r w1 n a w' : run react (exec E fuel c) w = Done r w1 ->
    times (k (Some r)) w1 n a w' -> times (TTry c k) w (S n) a w'
| t_given_up R (c : call R) k w v n a w' : given_up c w v ->
    times (k None) v n a w' -> times (TTry c k) w (S n) a w'.
End Times.
Arguments given_up {Sv} react E {R} c w v.
Arguments times {Sv} react E {A} p w n a w'.

(** the same directly at the service: a call that is given up has been carried out (once), or not *)
Fixpoint tlocal {St} (B : service St) (who : N) {A} (p : tprog A) (st : St) (a : A) (st' : St) : Prop :=
  match p with
  | TRet b => a = b /\ st' = st
  | TStop => False
  | TCall c k => let (r, st1) := B _ who (op_of c) st in tlocal B who (k (returned r)) st1 a st'
  | TTry c k =>
      let (r, st1) := B _ who (op_of c) st in
      tlocal B who (k (Some (returned r))) st1 a st'
      \/ tlocal B who (k None) st1 a st'   (* carried out, but the answer is lost *)
      \/ tlocal B who (k None) st a st'    (* not carried out *)
  end.

(** whatever is given up, every call made has arguments that can be sent *)
Definition sendable {R} (unicode : bool) (c : call R) : Prop := typed c /\ unambiguous c /\ fits_request unicode c.
Fixpoint sensible {St} (B : service St) (who : N) (unicode : bool) {A} (p : tprog A) (st : St) : Prop :=
  match p with
  | TRet _ | TStop => True
  | TCall c k => sendable unicode c /\ let (r, st1) := B _ who (op_of c) st in sensible B who unicode (k (returned r)) st1
  | TTry c k =>
      sendable unicode c /\ let (r, st1) := B _ who (op_of c) st in
      sensible B who unicode (k (Some (returned r))) st1 /\ sensible B who unicode (k None) st1 /\ sensible B who unicode (k None) st
  end.

(** the server sends no replies to requests it has not got: what it sends in answer to the request
    [id] is of no concern to a client waiting for a later one *)
Definition prompt {Sv} (react : Sv -> bytes -> reaction Sv) : Prop :=
  forall s R (c : call R) (unicode : bool) who id p words data,
  typed c -> unambiguous c -> len p <= 65618 -> smb_parts p words data [] ->
  request_header p (opcode c) (if unicode then 0xc843 else 0x4843) (op_tid c) who id ->
  asks unicode c p words data ->
  forall s' inc t, react s (session_message p) = Accept s' inc t -> forall id', id < id' -> skipped id' inc.

(** it sends, besides the reply to a request, no replies to others at all *)
Definition exact_replies {Sv} (react : Sv -> bytes -> reaction Sv) : Prop :=
  forall s R (c : call R) (unicode : bool) who id p words data,
  typed c -> unambiguous c -> len p <= 65618 -> smb_parts p words data [] ->
  request_header p (opcode c) (if unicode then 0xc843 else 0x4843) (op_tid c) who id ->
  asks unicode c p words data ->
  forall s' inc t, react s (session_message p) = Accept s' inc t -> forall id', id' <> id -> skipped id' inc.
(** [times], but at most [limit] calls are given up in a row, [g] of them already *)
Inductive steady {Sv} (react : Sv -> bytes -> reaction Sv) (E : env) (limit : N) {A} :
  tprog A -> world cifs Sv -> N -> A -> world cifs Sv -> Prop :=
| s_ret a w g : steady react E limit (TRet a) w g a w
| s_call R (c : call R) k w g fuel r w1 a w' : run react (exec E fuel c) w = Done r w1 ->
    steady react E limit (k r) w1 0 a w' -> steady react E limit (TCall c k) w g a w'
| s_done R (c : call R) k w g fuel r w1 a w' : run react (exec E fuel c) w = Done r w1 ->
    steady react E limit (k (Some r)) w1 0 a w' -> steady react E limit (TTry c k) w g a w'
| s_given_up R (c : call R) k w g v a w' : given_up react E c w v -> g < limit ->
    steady react E limit (k None) v (g + 1) a w' -> steady react E limit (TTry c k) w g a w'.

(** a program of calls tried: whichever of its calls is given up, it is given up *)
Fixpoint attempt {A B} (f : flow A) (k : option (ans A) -> tprog B) : tprog B :=
  match f with
  | FRet a => k (Some a)
  | FCall c g => TTry c (fun r => match r with None => k None | Some r => attempt (g r) k end)
  | _ => TStop
  end.
(** tried up to [j] times, until it is not given up *)
Fixpoint retry (j : nat) {A} (f : flow A) : tprog (option (ans A)) :=
  match j with
  | O => TRet None
  | S j => attempt f (fun r => match r with Some a => TRet (Some a) | None => retry j f end)
  end.
(** the program of calls [f], run from [w], comes to the call [c], in [v] *)
Inductive comes_to {Sv} (react : Sv -> bytes -> reaction Sv) (E : env) (fuel : nat) {A} : flow A -> world cifs Sv ->
  forall R, call R -> world cifs Sv -> Prop :=
| comes_now R (c : call R) k w : comes_to react E fuel (FCall c k) w R c w
| comes_later R (c : call R) k w r w1 Q (d : call Q) v : run react (exec E fuel c) w = Done r w1 ->
    comes_to react E fuel (k r) w1 Q d v -> comes_to react E fuel (FCall c k) w Q d v.
