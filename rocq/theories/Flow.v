(** * Flow: what a user can do with one connection: any adaptive sequence of calls.
    Each answer may influence everything that follows; results and errors may be
    ignored or acted upon. *)
From Verif Require Import Base Text Win Errors Common Reply Ntlm Prog Client Spec Api SpecCall.
Open Scope N_scope.

(** [FState], [FUid], [FOptions]: reading the connection's state, and the assignments
    made by open (lib.rs:230-292); not available to users. *)
Inductive flow (A : Type) : Type :=
| FRet (a : ans A)
| FPanic
| FFuel
| FCall (R : Type) (c : call R) (k : ans R -> flow A)
| FState (k : cifs -> flow A)
| FUid (u : N) (k : flow A)
| FOptions (m : N) (u : bool) (k : flow A).
Arguments FRet {A} a.
Arguments FPanic {A}.
Arguments FFuel {A}.
Arguments FCall {A R} c k.
Arguments FState {A} k.
Arguments FUid {A} u k.
Arguments FOptions {A} m u k.

Fixpoint interp (E : env) (fuel : nat) {A} (f : flow A) : M A :=
  match f with
  | FRet a => Ret a
  | FPanic => Panicked
  | FFuel => OutOfFuel
  | FCall c k => pbind (exec E fuel c) (fun r => interp E fuel (k r))
  | FState k => Get (fun c => interp E fuel (k c))
  | FUid u k => Get (fun c => Put (set_uid u c) (interp E fuel k))
  | FOptions m u k => Get (fun c => Put (set_options m u c) (interp E fuel k))
  end.
(** what users can write: calls and their own computations *)
Inductive user {A} : flow A -> Prop :=
| user_ret a : user (FRet a)
| user_panic : user FPanic
| user_fuel : user FFuel
| user_call R (c : call R) k : (forall r, user (k r)) -> user (FCall c k).

(** a request of the client in state [st], for [c] *)
Definition is_request (E : env) (st : cifs) {R} (c : call R) (f : bytes) : Prop :=
  exists fuel, request (exec E fuel c) st = Some f.

(** ** The frames written by a connection, and the states in between:
    [written E st k l st']: from state [st], [k] calls were made, they wrote the frames
    [l], and the client ended in [st'].
    - a call whose arguments do not fit writes nothing, but uses up a multiplex id;
    - if the stream fails, a part of the frame is written;
    - with overflow checks a call in the last state (id 65535) panics before it writes,
      and is not counted. *)
Inductive written (E : env) : cifs -> N -> list bytes -> cifs -> Prop :=
| w_nothing st : written E st 0 [] st
| w_sent st R (c : call R) f k l st' : is_request E st c f ->
    written E (next_client st) k l st' -> written E st (1 + k) (f :: l) st'
| w_cut st R (c : call R) f n k l st' : is_request E st c f ->
    written E (next_client st) k l st' -> written E st (1 + k) (take n f :: l) st'
| w_refused st R (c : call R) k l st' : (forall f, ~ is_request E st c f) ->
    (overflow_checks E = true -> mid st < 65535) ->
    written E (next_client st) k l st' -> written E st (1 + k) l st'
| w_uid st u k l st' : written E (set_uid u st) k l st' -> written E st k l st'
| w_options st m u k l st' : written E (set_options m u st) k l st' -> written E st k l st'.

(** the multiplex id of a frame (behind the 4 bytes of NetBIOS header) *)
Definition frame_id (f : bytes) : option N := u16_at f 34.
(** [f] is a frame with id [i], or the beginning of one *)
Definition part_with_id (f : bytes) (i : N) : Prop :=
  frame_id f = Some i \/ exists g n, f = take n g /\ frame_id g = Some i.
(** strictly increasing, from [a] on, below [b] *)
Fixpoint ascending (a : N) (l : list N) (b : N) : Prop :=
  match l with
  | [] => a <= b
  | x :: r => a <= x /\ ascending (x + 1) r b
  end.
(** [m], [m]+1, ..., modulo 65536 *)
Fixpoint consecutive (m : N) (l : list N) : Prop :=
  match l with
  | [] => True
  | i :: r => i = m /\ consecutive ((m + 1) mod 65536) r
  end.

(** ** the functions of the crate that make several calls *)
Fixpoint fbind {A B} (p : flow A) (k : A -> flow B) : flow B :=
  match p with
  | FRet (Good a) => k a
  | FRet (Bad e) => FRet (Bad e)
  | FPanic => FPanic
  | FFuel => FFuel
  | FCall c f => FCall c (fun r => fbind (f r) k)
  | FState f => FState (fun c => fbind (f c) k)
  | FUid u p => FUid u (fbind p k)
  | FOptions m u p => FOptions m u (fbind p k)
  end.
Definition fcall {R} (c : call R) : flow R := FCall c FRet.
Definition flift {E A} (f : E -> error) (r : res E A) : flow A :=
  match r with Ok a => FRet (Good a) | Err e => FRet (Bad (f e)) | Panic => FPanic end.
(** download (lib.rs:115-126) *)
Fixpoint download_reads (n : nat) (h : handle) (data : bytes) : flow bytes :=
  match n with
  | O => FFuel
  | S n => if len data <? h_size h
           then fbind (fcall (ReadAt h (len data))) (fun chunk => download_reads n h (data ++ chunk))
           else FRet (Good data)
  end.
Definition download_flow (n : nat) (s : share) (path : text) : flow bytes :=
  fbind (fcall (OpenFile s path)) (fun h =>
  fbind (download_reads n h []) (fun data =>
  fbind (fcall (Close h)) (fun _ => FRet (Good data)))).
(** list (lib.rs:203-225) *)
Fixpoint list_nexts (n : nat) (s : share) (sid : N) (result : list dir_info) : flow (list dir_info) :=
  match n with
  | O => FFuel
  | S n =>
    match last (map Some result) None with
    | None => FPanic
    | Some d =>
      fbind (fcall (FindNext s sid (d_filename d))) (fun r =>
      if fn_end r then FRet (Good (result ++ fn_info r)) else list_nexts n s sid (result ++ fn_info r))
    end
  end.
Definition list_flow (n : nat) (s : share) (pattern : text) : flow (list dir_info) :=
  fbind (fcall (FindFirst s pattern)) (fun r =>
  if ff_end r then FRet (Good (ff_info r)) else list_nexts n s (ff_sid r) (ff_info r)).
(** open, on a connected stream (lib.rs:230-292) *)
Definition setup_flow (E : env) : flow unit :=
  fbind (fcall Negotiate) (fun s =>
  FOptions (s_max_buffer_size s) (N.testbit (s_capabilities s) 2) (FState (fun c =>
  let a := auth_of c in
  if N.testbit (s_capabilities s) 31 then
    fbind (flift ENtlm (init_msg (a_domain a) (a_workstation a))) (fun m1 =>
    fbind (fcall (SetupBlob m1)) (fun r =>
    FUid (ss_uid r)
    (fbind (flift ENtlm (challenge_parse (ss_blob r))) (fun ch =>
    fbind (flift ENtlm (challenge_response E ch a)) (fun m2 =>
    fbind (fcall (SetupBlob m2)) (fun _ => FRet (Good tt)))))))
  else
    fbind (flift ENtlm (ntlmv1_authenticate E a (s_challenge s))) (fun secret =>
    fbind (fcall (SetupAuth (a_user a) (a_domain a) secret)) (fun r =>
    FUid (ss_uid r) (FRet (Good tt))))))).
