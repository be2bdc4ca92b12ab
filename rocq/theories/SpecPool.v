(** * SpecPool: several clients, each with its own connection, at one server.

    The fine semantics interleaves the clients at every step of their programs (reading,
    writing, accessing their state).  The coarse semantics has no protocol: a client's call is
    one step of the service. *)
From Verif Require Import Base Text Win Errors Common Reply Ntlm Prog Client Spec SpecReply SpecMsg Api SpecCall Flow SpecRemote.
Open Scope N_scope.
Set Implicit Arguments.

(** ** fine: programs *)
(** a client in the middle of its program: what is left of it, its state, the unread bytes
    on its connection and what follows them, what it has written *)
Record proc (A : Type) := mk_proc {
  p_prog : prog cifs (ans A);
  p_cl : cifs;
  p_rx : bytes;
  p_tl : tail;
  p_tx : list bytes
}.
(** one step; [true] if it writes.  (The cases are those of [run], Prog.v.) *)
Inductive moves {Sv A} (react : Sv -> bytes -> reaction Sv) : proc A -> Sv -> bool -> proc A -> Sv -> Prop :=
| m_get k c b t x s : moves react (mk_proc (Get k) c b t x) s false (mk_proc (k c) c b t x) s
| m_put c' k c b t x s : moves react (mk_proc (Put c' k) c b t x) s false (mk_proc k c' b t x) s
| m_read n k c b t x s : n <= len b ->
    moves react (mk_proc (Read n k) c b t x) s false (mk_proc (k (Got (take n b))) c (drop n b) t x) s
| m_eof n k c b x s : len b < n ->
    moves react (mk_proc (Read n k) c b Closed x) s false (mk_proc (k RdEof) c [] Closed x) s
| m_broken n k c b e x s : len b < n ->
    moves react (mk_proc (Read n k) c b (Broken e) x) s false (mk_proc (k (RdErr e)) c [] (Broken e) x) s
| m_write f k c b t x s s' inc t1 : react s f = Accept s' inc t1 ->
    moves react (mk_proc (Write f k) c b t x) s true
      (mk_proc (k None) c (fst (deliver t b inc t1)) (snd (deliver t b inc t1)) (x ++ [f])) s'
| m_refuse f k c b t x s s' n e inc t1 : react s f = Refuse s' n e inc t1 ->
    moves react (mk_proc (Write f k) c b t x) s true
      (mk_proc (k (Some e)) c (fst (deliver t b inc t1)) (snd (deliver t b inc t1)) (x ++ [take n f])) s'.

(** any number of clients; [react i] is the server on the connection of client [i] *)
Definition upd {X} (g : nat -> X) (i : nat) (x : X) : nat -> X := fun j => if Nat.eqb j i then x else g j.
(** steps of the clients in any order; [l]: who writes, in this order *)
Inductive steps {Sv A} (react : nat -> Sv -> bytes -> reaction Sv) : (nat -> proc A) -> Sv -> list nat -> (nat -> proc A) -> Sv -> Prop :=
| st_none g s : steps react g s [] g s
| st_step g s l g' s' i b p s'' : steps react g s l g' s' -> moves (react i) (g' i) s' b p s'' ->
    steps react g s (l ++ if b then [i] else []) (upd g' i p) s''.

(** ** coarse: calls *)
Inductive advances {St A} (B : service St) : flow A * cifs -> St -> bool -> flow A * cifs -> St -> Prop :=
| a_call R (q : call R) k c st r st' : B R (uid c) (op_of q) st = (r, st') ->
    advances B (FCall q k, c) st true (k (returned r), next_client c) st'
| a_state k c st : advances B (FState k, c) st false (k c, c) st
| a_uid u k c st : advances B (FUid u k, c) st false (k, set_uid u c) st
| a_options m u k c st : advances B (FOptions m u k, c) st false (k, set_options m u c) st.
(** calls of the clients in any order; [l]: who calls, in this order *)
Inductive serial {St A} (B : nat -> service St) : (nat -> flow A * cifs) -> St -> list nat -> (nat -> flow A * cifs) -> St -> Prop :=
| se_none g st : serial B g st [] g st
| se_step g st l g' st' i b p st'' : serial B g st l g' st' -> advances (B i) (g' i) st' b p st'' ->
    serial B g st (l ++ if b then [i] else []) (upd g' i p) st''.
(** the next call of [f] is one the protocol can express *)
Definition can_call {A} (E : env) (x : flow A * cifs) : Prop :=
  match fst x with
  | FCall q _ => typed q /\ unambiguous q /\ fits_request (use_unicode (snd x)) q /\ (overflow_checks E = true -> mid (snd x) < 65535)
  | FUid u _ => u16 u
  | _ => True
  end.
(** the same at every point of every coarse execution *)
Definition sensible {St A} (E : env) (B : nat -> service St) (g : nat -> flow A * cifs) (st : St) : Prop :=
  forall l g' st', serial B g st l g' st' -> forall i, can_call E (g' i).

(** programs with the same tree: they differ in how their continuations are written *)
Inductive same_tree {C A} : prog C A -> prog C A -> Prop :=
| t_ret a : same_tree (Ret a) (Ret a)
| t_panic : same_tree Panicked Panicked
| t_fuel : same_tree OutOfFuel OutOfFuel
| t_get k k' : (forall c, same_tree (k c) (k' c)) -> same_tree (Get k) (Get k')
| t_put c k k' : same_tree k k' -> same_tree (Put c k) (Put c k')
| t_read n k k' : (forall r, same_tree (k r) (k' r)) -> same_tree (Read n k) (Read n k')
| t_write b k k' : (forall r, same_tree (k r) (k' r)) -> same_tree (Write b k) (Write b k').
(** before its first step, the program [f] *)
Definition starts {A} (E : env) (fuel : nat) (p : proc A) (x : flow A * cifs) : Prop :=
  same_tree (p_prog p) (interp E fuel (fst x)) /\ p_cl p = snd x /\ p_rx p = [] /\ p_tl p = Open.
(** [fuel] is enough for every answer of the server *)
Definition ample {Sv} (react : nat -> Sv -> bytes -> reaction Sv) (fuel : nat) : Prop :=
  forall i s f s' inc t, react i s f = Accept s' inc t -> (length inc < fuel)%nat.

(** what the end of a client means *)
Definition finished {A} (p : proc A) (x : flow A * cifs) : Prop :=
  match p_prog p with
  | Ret a => x = (FRet a, p_cl p)
  | Panicked => x = (FPanic, p_cl p)
  | OutOfFuel => x = (FFuel, p_cl p)
  | _ => True
  end.
Definition ended {A} (p : proc A) : bool := match p_prog p with Ret _ | Panicked | OutOfFuel => true | _ => false end.
(** there is no infinite execution of the first [n] clients *)
Inductive halts {Sv A} (react : nat -> Sv -> bytes -> reaction Sv) (n : nat) : (nat -> proc A) -> Sv -> Prop :=
| halts_intro g s : (forall i b p s', (i < n)%nat -> moves (react i) (g i) s b p s' -> halts react n (upd g i p) s') -> halts react n g s.
