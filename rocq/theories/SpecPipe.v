(** * SpecPipe: client and server at the two ends of a connection that holds only so many bytes
    at a time in each direction (C117).

    Up to here a request is handed over as a whole and the answer is there at once.  Here the
    two run side by side: bytes are written as far as there is space, read as far as they are
    there, and the server works on a request when it has all of it. *)
From Verif Require Import Base Text Win Errors Common Reply Ntlm Prog Client Spec SpecReply SpecMsg Api SpecCall Flow SpecRemote SpecPool.
Open Scope N_scope.

Record line (Sv A : Type) := mk_line {
  y_prog : prog cifs (ans A);  (* what is left of the client's program *)
  y_cl : cifs;
  y_sent : N;                  (* how much of the frame it is writing is on its way *)
  y_got : bytes;               (* what it has of the bytes it is reading *)
  y_up : bytes;                (* on the way to the server *)
  y_in : bytes;                (* read by the server, not worked on yet *)
  y_srv : Sv;
  y_out : bytes;               (* to be written by the server *)
  y_down : bytes               (* on the way to the client *)
}.
Arguments mk_line {Sv A}.
Arguments y_prog {Sv A}. Arguments y_cl {Sv A}. Arguments y_sent {Sv A}. Arguments y_got {Sv A}. Arguments y_up {Sv A}.
Arguments y_in {Sv A}. Arguments y_srv {Sv A}. Arguments y_out {Sv A}. Arguments y_down {Sv A}.

(** a whole frame *)
Definition a_frame (f : bytes) : Prop := exists ty p, f = nb_frame ty p /\ len p <= NB_MAX.

(** One step.  [cap]: how many bytes fit into each direction.  [duplex]: whether the server
    reads while it has something to write.  (netbios.rs:257-284: read_exactly and write_exactly
    take and hand over what is possible, any number of bytes.) *)
Inductive ticks {Sv A} (cap : N) (duplex : bool) (react : Sv -> bytes -> reaction Sv) : line Sv A -> line Sv A -> Prop :=
| k_get k c n g u i s o d : ticks cap duplex react (mk_line (Get k) c n g u i s o d) (mk_line (k c) c n g u i s o d)
| k_put c' k c n g u i s o d : ticks cap duplex react (mk_line (Put c' k) c n g u i s o d) (mk_line k c' n g u i s o d)
| k_push f k c n g u i s o d m : 0 < m -> n + m <= len f -> len u + m <= cap ->
    ticks cap duplex react (mk_line (Write f k) c n g u i s o d) (mk_line (Write f k) c (n + m) g (u ++ take m (drop n f)) i s o d)
| k_sent f k c g u i s o d :
    ticks cap duplex react (mk_line (Write f k) c (len f) g u i s o d) (mk_line (k None) c 0 g u i s o d)
| k_pull x k c n g u i s o d m : 0 < m -> len g + m <= x -> m <= len d ->
    ticks cap duplex react (mk_line (Read x k) c n g u i s o d) (mk_line (Read x k) c n (g ++ take m d) u i s o (drop m d))
| k_got x k c n g u i s o d : len g = x ->
    ticks cap duplex react (mk_line (Read x k) c n g u i s o d) (mk_line (k (Got g)) c n [] u i s o d)
| k_take p c n g u i s o d m : 0 < m -> m <= len u -> (o = [] \/ duplex = true) ->
    ticks cap duplex react (mk_line p c n g u i s o d) (mk_line p c n g (drop m u) (i ++ take m u) s o d)
| k_serve p c n g u f rest s s' inc d : a_frame f -> react s f = Accept s' inc Open ->
    ticks cap duplex react (mk_line p c n g u (f ++ rest) s [] d) (mk_line p c n g u rest s' inc d)
| k_give p c n g u i s o d m : 0 < m -> m <= len o -> len d + m <= cap ->
    ticks cap duplex react (mk_line p c n g u i s o d) (mk_line p c n g u i s (drop m o) (d ++ take m o)).
Inductive ticked {Sv A} (cap : N) (duplex : bool) (react : Sv -> bytes -> reaction Sv) : line Sv A -> line Sv A -> Prop :=
| td_none y : ticked cap duplex react y y
| td_step y y1 y2 : ticked cap duplex react y y1 -> ticks cap duplex react y1 y2 -> ticked cap duplex react y y2.
(** the client is about to run [p], nothing is under way *)
Definition at_rest {Sv A} (p : proc A) (s : Sv) : line Sv A := mk_line (p_prog p) (p_cl p) 0 [] [] [] s [] [].
Definition the_client {Sv A} (y : line Sv A) : proc A := mk_proc (y_prog y) (y_cl y) [] Open [].
(** no execution from here is infinite *)
Definition dies_down {Sv A} (cap : N) (duplex : bool) (react : Sv -> bytes -> reaction Sv) (y : line Sv A) : Prop :=
  Acc (fun y2 y1 => ticks cap duplex react y1 y2) y.
(** one client, nobody else *)
Definition alone {A} (x : flow A * cifs) (i : nat) : flow A * cifs := match i with 0%nat => x | _ => (FPanic, snd x) end.
