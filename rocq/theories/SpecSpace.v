(** * SpecSpace: any server, any program that writes whole frames, over bounded buffers (C119) *)
From Verif Require Import Base Text Win Errors Common Reply Ntlm Prog Client Spec SpecReply SpecMsg Api SpecCall Flow SpecRemote SpecPool SpecPipe.
Open Scope N_scope.

(** the server takes every frame and keeps the connection; it may answer with any bytes, or none *)
Definition keeps_open {Sv} (react : Sv -> bytes -> reaction Sv) : Prop :=
  forall s f, a_frame f -> exists s' inc, react s f = Accept s' inc Open.
(** the program writes whole frames only *)
Fixpoint frames_only {A} (p : prog cifs A) : Prop :=
  match p with
  | Ret _ | Panicked | OutOfFuel => True
  | Get k => forall c, frames_only (k c)
  | Put _ k => frames_only k
  | Read _ k => forall r, frames_only (k r)
  | Write f k => a_frame f /\ forall r, frames_only (k r)
  end.
(** the client is about to run [p]; the server has [o] to say before it is asked anything *)
Definition afresh {Sv A} (p : prog cifs (ans A)) (c : cifs) (s : Sv) (o : bytes) : line Sv A := mk_line p c 0 [] [] [] s o [].
(** what the server does with frames, one after the other *)
Inductive serves {Sv} (react : Sv -> bytes -> reaction Sv) : Sv -> list bytes -> Sv -> bytes -> Prop :=
| sv_none s : serves react s [] s []
| sv_one s f s1 inc l s2 out : react s f = Accept s1 inc Open -> serves react s1 l s2 out ->
    serves react s (f :: l) s2 (inc ++ out).
(** what a run is when the program has got to [p] with the world [w] *)
Definition ended_as {Sv A} (p : prog cifs A) (w : world cifs Sv) (o : outcome cifs Sv A) : Prop :=
  match p with
  | Ret a => o = Done a w
  | Panicked => o = Crashed w
  | OutOfFuel => o = Starved w
  | _ => False
  end.
(** what [open] runs on a connection (Client.open): by port 139 the session is asked for first *)
Definition opening (E : env) (fuel : nat) (session : bool) (a : auth) : prog cifs (ans unit) :=
  if session then do! _ := create_session SMBSERVER (a_workstation a) in setup_connection E fuel else setup_connection E fuel.
(** whenever the program writes, it has read all there is *)
Fixpoint reads_first {Sv A} (react : Sv -> bytes -> reaction Sv) (p : prog cifs A) (w : world cifs Sv) : Prop :=
  match p with
  | Ret _ | Panicked | OutOfFuel => True
  | Get k => reads_first react (k (cl w)) w
  | Put c k => reads_first react k (mk_world c (srv w) (rx w) (tl w) (tx w))
  | Read n k => n <= len (rx w) ->
      reads_first react (k (Got (take n (rx w)))) (mk_world (cl w) (srv w) (drop n (rx w)) (tl w) (tx w))
  | Write f k => rx w = [] /\ forall s inc, react (srv w) f = Accept s inc Open ->
      reads_first react (k None) (mk_world (cl w) s inc Open (tx w ++ [f]))
  end.
(** the server answers a frame with one frame, or not at all, and keeps the connection *)
Definition answers_once {Sv} (react : Sv -> bytes -> reaction Sv) : Prop :=
  forall s f, a_frame f -> exists s' inc, react s f = Accept s' inc Open /\ (inc = [] \/ a_frame inc).
