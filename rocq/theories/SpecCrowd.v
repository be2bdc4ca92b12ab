(** * SpecCrowd: several clients at one server, each over a connection of its own that holds
    only so many bytes at a time in each direction (C118). *)
From Verif Require Import Base Text Win Errors Common Reply Ntlm Prog Client Spec SpecReply SpecMsg Api SpecCall Flow SpecRemote SpecPool SpecPipe.
Open Scope N_scope.

(** connection [y] at a server in state [s] *)
Definition hosted {Sv A} (s : Sv) (y : line Sv A) : line Sv A :=
  mk_line (y_prog y) (y_cl y) (y_sent y) (y_got y) (y_up y) (y_in y) s (y_out y) (y_down y).
(** steps on the connections in any order; [cap i] bytes fit into each direction of
    connection [i], [duplex i]: whether the server reads there while it has something to
    write, [react i]: what it answers there *)
Inductive crowd {Sv A} (cap : nat -> N) (duplex : nat -> bool) (react : nat -> Sv -> bytes -> reaction Sv) :
  (nat -> line Sv A) -> Sv -> (nat -> line Sv A) -> Sv -> Prop :=
| cr_none ys s : crowd cap duplex react ys s ys s
| cr_step ys s ys' s' i y : crowd cap duplex react ys s ys' s' -> ticks (cap i) (duplex i) (react i) (hosted s' (ys' i)) y ->
    crowd cap duplex react ys s (upd ys' i y) (y_srv y).
(** there is no infinite execution of the first [n] clients *)
Inductive quietens {Sv A} (cap : nat -> N) (duplex : nat -> bool) (react : nat -> Sv -> bytes -> reaction Sv) (n : nat) :
  (nat -> line Sv A) -> Sv -> Prop :=
| qu_intro ys s : (forall i y, (i < n)%nat -> ticks (cap i) (duplex i) (react i) (hosted s (ys i)) y ->
    quietens cap duplex react n (upd ys i y) (y_srv y)) -> quietens cap duplex react n ys s.
