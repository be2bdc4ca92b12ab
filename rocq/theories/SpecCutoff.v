(** * SpecCutoff: a conforming server behind a network on which the connection may break
    (C109), and a download that is continued on another connection (C110). *)
From Verif Require Import Base Text Win Errors Common Reply Ntlm Prog Client Spec SpecReply SpecMsg Api SpecCall Flow SpecRemote.
Open Scope N_scope.

(** [net] is the server [react] as seen through the network; [inner] is the server's part of the
    state, [up] says that the connection is there.  As long as it is, a request
    - is answered by the server,
    - reaches the server, but the connection ends in the middle of the answer (or after it),
    - is lost: the connection ends, or writing fails.
    Once the connection is not there, nothing reaches the server any more. *)
Definition unreliable {Sn Sv} (net : Sn -> bytes -> reaction Sn) (react : Sv -> bytes -> reaction Sv)
  (inner : Sn -> Sv) (up : Sn -> Prop) : Prop :=
  (forall n f s inc, up n -> react (inner n) f = Accept s inc Open ->
    (exists n', net n f = Accept n' inc Open /\ inner n' = s /\ up n')
    \/ (exists n' part rest t, net n f = Accept n' part t /\ inc = part ++ rest /\ t <> Open /\ inner n' = s /\ ~ up n')
    \/ (exists n' t, net n f = Accept n' [] t /\ t <> Open /\ inner n' = inner n /\ ~ up n')
    \/ (exists n' k e t, net n f = Refuse n' k e [] t /\ t <> Open /\ (inner n' = s \/ inner n' = inner n) /\ ~ up n'))
  /\ forall n f, ~ up n -> match net n f with Accept n' _ _ | Refuse n' _ _ _ _ => inner n' = inner n /\ ~ up n' end.

(** the program goes on without the server: all its calls fail *)
Inductive offline {A} : flow A -> ans A -> Prop :=
| off_ret a : offline (FRet a) a
| off_call R (q : call R) k e a : offline (k (Bad e)) a -> offline (FCall q k) a.
(** [f], started with the client in state [c] and the service in state [st], returns [a] and
    leaves the service in [st']: the calls are answered by the service itself, until one of them,
    which the service may have carried out or not, fails for the network, and all after it fail *)
Inductive cut_off {St} (B : service St) {A} : flow A -> cifs -> St -> ans A -> St -> Prop :=
| co_ret a c st : cut_off B (FRet a) c st a st
| co_call R (q : call R) k c st r st1 a st' : B R (uid c) (op_of q) st = (r, st1) ->
    cut_off B (k (returned r)) (next_client c) st1 a st' -> cut_off B (FCall q k) c st a st'
| co_lost R (q : call R) k c st e a : offline (k (Bad (ENetBios e))) a -> cut_off B (FCall q k) c st a st
| co_late R (q : call R) k c st r st1 e a : B R (uid c) (op_of q) st = (r, st1) ->
    offline (k (Bad (ENetBios e))) a -> cut_off B (FCall q k) c st a st1.

(** [f] makes at most [n] calls, offline or not; those made to the service are well-typed and
    fit into requests, those made offline do not make the client panic (C12) *)
Inductive quiet {A} : nat -> flow A -> Prop :=
| q_ret n a : quiet n (FRet a)
| q_call n R (q : call R) k : ~ pattern_window q -> (forall e, quiet n (k (Bad e))) -> quiet (S n) (FCall q k).
Inductive sendable {St} (B : service St) {A} : nat -> flow A -> cifs -> St -> Prop :=
| s_ret n a c st : sendable B n (FRet a) c st
| s_call n R (q : call R) k c st r st1 : typed q -> unambiguous q -> fits_request (use_unicode c) q ->
    B R (uid c) (op_of q) st = (r, st1) -> sendable B n (k (returned r)) (next_client c) st1 ->
    (forall e, quiet n (k (Bad e))) -> sendable B (S n) (FCall q k) c st.

(** ** a download that keeps what it has read *)
(** reading on from [have]; an error is returned with what was read *)
Fixpoint keep_reading (n : nat) (h : handle) (have : bytes) : flow (bytes * option error) :=
  match n with
  | O => FFuel
  | S n => if len have <? h_size h
           then FCall (ReadAt h (len have)) (fun r =>
             match r with Good chunk => keep_reading n h (have ++ chunk) | Bad e => FRet (Good (have, Some e)) end)
           else FRet (Good (have, None))
  end.
(** open the file, read on from [have], close (whatever comes of that) *)
Definition fetch (n : nat) (s : share) (path : text) (have : bytes) : flow (bytes * option error) :=
  FCall (OpenFile s path) (fun r =>
  match r with
  | Bad e => FRet (Good (have, Some e))
  | Good h => fbind (keep_reading n h have) (fun res => FCall (Close h) (fun _ => FRet (Good res)))
  end).
(** [b] is a beginning of [d] *)
Definition beginning (b d : bytes) : Prop := exists rest, d = b ++ rest.
