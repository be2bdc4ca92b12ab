(** * SpecDrop: futures dropped before they complete (timeouts, select, aborted tasks).
    [dropped react p w v]: running [p] from [w], the future is dropped at one of its await
    points and leaves [v] behind. *)
From Verif Require Import Base Text Win Errors Common Reply Ntlm Prog Client Spec Api SpecCall Flow.
Open Scope N_scope.

Section Drop.
Variable Sv : Type.
Variable react : Sv -> bytes -> reaction Sv.
Notation world := (world cifs Sv).

Fixpoint dropped {A} (p : prog cifs A) (w v : world) : Prop :=
  match p with
  | Ret _ | Panicked | OutOfFuel => False
  | Get k => dropped (k (cl w)) w v
  | Put c k => dropped k (mk_world c (srv w) (rx w) (tl w) (tx w)) v
  | Read n k =>
    (* while reading: less than [n] bytes have been taken, and are gone *)
    (exists j, j < n /\ j <= len (rx w) /\ v = leaving w (drop j (rx w)))
    \/ (if n <=? len (rx w) then dropped (k (Got (take n (rx w)))) (leaving w (drop n (rx w))) v
        else match tl w with
             | Open => False
             | Closed => dropped (k RdEof) (leaving w []) v
             | Broken e => dropped (k (RdErr e)) (leaving w []) v
             end)
  | Write b k =>
    (* while writing: nothing has been written, or some of it, to which the peer may react *)
    v = w
    \/ (exists n s inc t, 0 < n <= len b /\ react (srv w) (take n b) = Accept s inc t
        /\ let '(buf, t') := deliver (tl w) (rx w) inc t in v = mk_world (cl w) s buf t' (tx w ++ [take n b]))
    \/ match react (srv w) b with
       | Accept s inc t =>
         let '(buf, t') := deliver (tl w) (rx w) inc t in
         dropped (k None) (mk_world (cl w) s buf t' (tx w ++ [b])) v
       | Refuse s n e inc t =>
         let '(buf, t') := deliver (tl w) (rx w) inc t in
         dropped (k (Some e)) (mk_world (cl w) s buf t' (tx w ++ [take n b])) v
       end
  end.

(** where the stream of incoming bytes can be: between frames, or inside one *)
Inductive frames : bytes -> Prop :=
| frames_none : frames []
| frames_more t p b : t < 256 -> len p <= NB_MAX -> frames b -> frames (nb_frame t p ++ b).
Definition inside (part : bytes) : Prop :=
  len part < 4
  \/ exists t x y z d, part = [t; x; y; z] ++ d /\ b2n x * 65536 + b2n y * 256 + b2n z <= NB_MAX
     /\ len d < b2n x * 65536 + b2n y * 256 + b2n z.

(** What a call can leave behind: only a multiplex id is used up; or a part of its request is
    written; or the request is written, some frames are read, and possibly a part of another. *)
Definition left_unsent (w v : world) : Prop := v = mk_world (next_client (cl w)) (srv w) (rx w) (tl w) (tx w).
Definition left_cut (f : bytes) (w v : world) : Prop :=
  exists n s inc t, 0 < n < len f /\ react (srv w) (take n f) = Accept s inc t
  /\ let '(buf, t') := deliver (tl w) (rx w) inc t in v = mk_world (next_client (cl w)) s buf t' (tx w ++ [take n f]).
Definition left_waiting (f : bytes) (w v : world) : Prop :=
  exists w1 s part, asked react w f w1 /\ rx w1 = s ++ part ++ rx v /\ frames s /\ inside part /\ v = leaving w1 (rx v).

(** A connection: the calls [l], one after the other, some of them dropped, while more bytes
    arrive and the server does what it likes.  [whole]: no future is dropped inside a write, and
    the stream does not fail. *)
Inductive conn (E : env) (fuel : nat) (whole : bool) (w : world) : list {R & call R} -> world -> Prop :=
| cn_start : conn E fuel whole w [] w
| cn_call l v R (c : call R) a u : conn E fuel whole w l v -> run react (exec E fuel c) v = Done a u ->
    (whole = true -> forall e, a <> Bad (ENetBios (IoError (IoOther e)))) -> conn E fuel whole w (l ++ [existT call R c]) u
| cn_drop l v R (c : call R) u : conn E fuel whole w l v -> dropped (exec E fuel c) v u ->
    (whole = true -> forall f, request (exec E fuel c) (cl v) = Some f -> ~ left_cut f v u) -> conn E fuel whole w (l ++ [existT call R c]) u
| cn_arrive l v s more t : conn E fuel whole w l v ->
    conn E fuel whole w l (mk_world (cl v) s (rx v ++ more) t (tx v)).
End Drop.
Arguments dropped {Sv} react {A} p w v.
Arguments left_unsent {Sv} w v.
Arguments left_cut {Sv} react f w v.
Arguments left_waiting {Sv} react f w v.
Arguments conn {Sv} react E fuel whole w l v.
