(** * Prog: async programs over one TCP stream, and their environments.

    An async fn of the crate is a sequential program whose only interactions are
    reading an exact number of bytes, writing a byte string, and accessing the
    fields of [&mut self] (client state [C]).  [.await] points are exactly the
    [Read]/[Write] nodes. *)
From Verif Require Import Base.
Open Scope N_scope.

(** Result of reading exactly [n] bytes: all of them, end of stream, or an error. *)
Inductive rd := Got (b : bytes) | RdEof | RdErr (e : N).

Section Prog.
Variable C : Type.

Inductive prog (A : Type) : Type :=
| Ret (a : A)
| Panicked
| OutOfFuel
| Get (k : C -> prog A)
| Put (c : C) (k : prog A)
| Read (n : N) (k : rd -> prog A)
| Write (b : bytes) (k : option N -> prog A). (* None: everything accepted *)
Arguments Ret {A} a.
Arguments Panicked {A}.
Arguments OutOfFuel {A}.
Arguments Get {A} k.
Arguments Put {A} c k.
Arguments Read {A} n k.
Arguments Write {A} b k.

Fixpoint pbind {A B} (p : prog A) (f : A -> prog B) : prog B :=
  match p with
  | Ret a => f a
  | Panicked => Panicked
  | OutOfFuel => OutOfFuel
  | Get k => Get (fun c => pbind (k c) f)
  | Put c k => Put c (pbind k f)
  | Read n k => Read n (fun r => pbind (k r) f)
  | Write b k => Write b (fun r => pbind (k r) f)
  end.

(** What follows the bytes that are there: more may come, the peer closed the
    stream, or reading fails. *)
Inductive tail := Open | Closed | Broken (e : N).

Section Run.
Variable S : Type.

(** The peer's (and the network's) answer to a write: it is accepted, [inc]
    becomes readable and the stream may end; or the write fails after [sent]
    bytes, to which the peer may have reacted, too. *)
Inductive reaction :=
| Accept (s : S) (inc : bytes) (t : tail)
| Refuse (s : S) (sent : N) (e : N) (inc : bytes) (t : tail).

(** client state, peer state, unread bytes, what follows them, everything
    written so far (latest last) *)
Record world := mk_world {
  cl : C;
  srv : S;
  rx : bytes;
  tl : tail;
  tx : list bytes
}.

(** Done: the future completed.  Blocked: it is pending and nothing more arrives;
    the world is what is left behind if the future is dropped at this point.
    Crashed: a panic.  Starved: the model's loop bound was hit (not a behaviour
    of the code). *)
Inductive outcome (A : Type) :=
| Done (a : A) (w : world)
| Blocked (w : world)
| Crashed (w : world)
| Starved (w : world).
Arguments Done {A} a w.
Arguments Blocked {A} w.
Arguments Crashed {A} w.
Arguments Starved {A} w.

Variable react : S -> bytes -> reaction.

(** bytes arriving on a stream that already ended are lost *)
Definition deliver (t : tail) (buf inc : bytes) (t' : tail) : bytes * tail :=
  match t with Open => (buf ++ inc, t') | _ => (buf, t) end.

Fixpoint run {A} (p : prog A) (w : world) : outcome A :=
  match p with
  | Ret a => Done a w
  | Panicked => Crashed w
  | OutOfFuel => Starved w
  | Get k => run (k (cl w)) w
  | Put c k => run k (mk_world c (srv w) (rx w) (tl w) (tx w))
  | Read n k =>
    if n <=? len (rx w) then
      run (k (Got (take n (rx w))))
          (mk_world (cl w) (srv w) (drop n (rx w)) (tl w) (tx w))
    else
      let w' := mk_world (cl w) (srv w) [] (tl w) (tx w) in
      match tl w with
      | Open => Blocked w'
      | Closed => run (k RdEof) w'
      | Broken e => run (k (RdErr e)) w'
      end
  | Write b k =>
    match react (srv w) b with
    | Accept s inc t =>
      let '(buf, t') := deliver (tl w) (rx w) inc t in
      run (k None) (mk_world (cl w) s buf t' (tx w ++ [b]))
    | Refuse s n e inc t =>
      let '(buf, t') := deliver (tl w) (rx w) inc t in
      run (k (Some e)) (mk_world (cl w) s buf t' (tx w ++ [take n b]))
    end
  end.
End Run.
End Prog.

Arguments Ret {C A} a.
Arguments Panicked {C A}.
Arguments OutOfFuel {C A}.
Arguments Get {C A} k.
Arguments Put {C A} c k.
Arguments Read {C A} n k.
Arguments Write {C A} b k.
Arguments pbind {C A B} p f.
Arguments Accept {S} s inc t.
Arguments Refuse {S} s sent e inc t.
Arguments mk_world {C S} cl srv rx tl tx.
Arguments cl {C S} w.
Arguments srv {C S} w.
Arguments rx {C S} w.
Arguments tl {C S} w.
Arguments tx {C S} w.
Arguments Done {C S A} a w.
Arguments Blocked {C S A} w.
Arguments Crashed {C S A} w.
Arguments Starved {C S A} w.
Arguments run {C S} react {A} p w.

(** The same programs on a stream delivered in segments, with partial writes and
    a peer that is a machine over single bytes.
    - [rxs]: the segments in which unread bytes arrive; one low-level read returns
      (part of) one segment.
    - [wsize s b]: how many bytes of the remaining buffer [b] the kernel accepts
      in the next low-level write (clamped to 1..len b).
    - The peer's answer to a byte is a list of segments. *)
Section Seg.
Variables C S : Type.

(** one byte reaching the peer: new state, bytes it sends, and whether it then
    closes; or the connection breaks before this byte *)
Variable bstep : S -> byte -> (S * list bytes * tail) + (S * N).
Variable wsize : S -> bytes -> nat.

Record sworld := mk_sworld {
  scl : C;
  ssrv : S;
  rxs : list bytes;
  stl : tail;
  stx : list bytes
}.
Inductive soutcome (A : Type) :=
| SDone (a : A) (w : sworld)
| SBlocked (w : sworld)
| SCrashed (w : sworld)
| SStarved (w : sworld).
Arguments SDone {A} a w.
Arguments SBlocked {A} w.
Arguments SCrashed {A} w.
Arguments SStarved {A} w.

(** netbios.rs:264-271: low-level reads until [count] bytes are there.  Each read
    returns the next segment or, if that is longer than what is still wanted,
    the wanted part of it.  (Tokio's read_u8/read_exact, netbios.rs:235,242, have
    the same loop.) *)
Fixpoint read_loop (count : N) (buffer : bytes) (segs : list bytes)
  : (bytes * list bytes) + bytes :=
  if count =? 0 then inl (buffer, segs) else
  match segs with
  | [] => inr buffer
  | g :: r =>
    if len g <=? count then read_loop (count - len g) (buffer ++ g) r
    else inl (buffer ++ take count g, drop count g :: r)
  end.

(** a low-level write of [b]: the bytes reach the peer one by one *)
Fixpoint feed (w : sworld) (b : bytes) : sworld * option N :=
  match b with
  | [] => (w, None)
  | x :: r =>
    match bstep (ssrv w) x with
    | inl (s, inc, t) =>
      let '(segs, t') := match stl w with Open => (rxs w ++ inc, t) | _ => (rxs w, stl w) end in
      feed (mk_sworld (scl w) s segs t' (stx w ++ [[x]])) r
    | inr (s, e) => (mk_sworld (scl w) s (rxs w) (stl w) (stx w), Some e)
    end
  end.

(** netbios.rs:276-283: low-level writes until nothing remains *)
Fixpoint write_loop (fuel : nat) (w : sworld) (b : bytes) : sworld * option N :=
  match fuel with
  | O => (w, None)
  | Datatypes.S fuel =>
    match b with
    | [] => (w, None)
    | _ =>
      let n := Nat.max 1 (Nat.min (wsize (ssrv w) b) (length b)) in
      match feed w (firstn n b) with
      | (w, None) => write_loop fuel w (skipn n b)
      | (w, Some e) => (w, Some e)
      end
    end
  end.

Fixpoint srun {A} (p : prog C A) (w : sworld) : soutcome A :=
  match p with
  | Ret a => SDone a w
  | Panicked => SCrashed w
  | OutOfFuel => SStarved w
  | Get k => srun (k (scl w)) w
  | Put c k => srun k (mk_sworld c (ssrv w) (rxs w) (stl w) (stx w))
  | Read n k =>
    match read_loop n [] (rxs w) with
    | inl (b, segs) => srun (k (Got b)) (mk_sworld (scl w) (ssrv w) segs (stl w) (stx w))
    | inr _ =>
      let w' := mk_sworld (scl w) (ssrv w) [] (stl w) (stx w) in
      match stl w with
      | Open => SBlocked w'
      | Closed => srun (k RdEof) w'
      | Broken e => srun (k (RdErr e)) w'
      end
    end
  | Write b k =>
    let '(w', e) := write_loop (length b) w b in srun (k e) w'
  end.
End Seg.
Arguments SDone {C S A} a w.
Arguments SBlocked {C S A} w.
Arguments SCrashed {C S A} w.
Arguments SStarved {C S A} w.
Arguments mk_sworld {C S} scl ssrv rxs stl stx.
Arguments scl {C S} s.
Arguments ssrv {C S} s.
Arguments rxs {C S} s.
Arguments stl {C S} s.
Arguments stx {C S} s.
Arguments srun {C S} bstep wsize {A} p w.
Arguments feed {C S} bstep w b.
Arguments write_loop {C S} bstep wsize fuel w b.
