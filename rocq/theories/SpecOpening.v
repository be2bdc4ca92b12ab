(** * SpecOpening: everything that can become of opening a connection (C103) *)
From Verif Require Import Base Text Win Errors Common Reply Ntlm Prog Client Spec SpecReply SpecCrash SpecNtlm SpecMsg
  Api SpecCall Flow SpecFault SpecBlame SpecLogin SpecWhy SpecFate.
Open Scope N_scope.

Section Server.
Context {Sv : Type}.
Variable react : Sv -> bytes -> reaction Sv.
Notation world := (world cifs Sv).
Notation outcome := (outcome cifs Sv (ans unit)).
Variable E : env.

(** the call [c], and if it is answered what [next] says; a failure, panic or waiting of the
    call is one of the whole *)
Definition call_then {R} (c : call R) (w : world) (next : R -> world -> outcome -> Prop) (o : outcome) : Prop :=
  (exists v w', answers react E c w v w' /\ next v w' o)
  \/ (exists e w', fails react E c w e w' /\ o = Done (Bad e) w')
  \/ (exists w', panics react E c w w' /\ o = Crashed w')
  \/ (exists w', stalls react E c w w' /\ o = Blocked w').

(** NTLMv1: only to a challenge of 8 bytes, otherwise a panic; the uid is that of the reply *)
Definition v1_fate (a : auth) (challenge : bytes) (w : world) (o : outcome) : Prop :=
  (len challenge <> 8 /\ o = Crashed w)
  \/ (len challenge = 8 /\ exists nt, v1_response E (a_password a) challenge nt
      /\ call_then (SetupAuth (a_user a) (a_domain a) nt) w (fun r w1 o => o = Done (Good tt) (adopt (set_uid (ss_uid r)) w1)) o).
(** the second half of NTLMv2, with the server's message [blob] *)
Definition challenge_fate (a : auth) (time : N) (blob : bytes) (w : world) (o : outcome) : Prop :=
  (crash_challenge blob /\ o = Crashed w)
  \/ (~ crash_challenge blob /\ (forall ch, ~ challenge_of blob ch) /\ o = Done (Bad (ENtlm InvalidPacket)) w)
  \/ exists ch, challenge_of blob ch
     /\ ((response_too_long a ch /\ o = Done (Bad (ENtlm InputParameter)) w)
         \/ exists nt m3, v2_response E (a_password a) (a_user a) (a_domain a) time (ch_challenge ch) (ch_info ch) nt
            /\ authenticate_message (N.testbit (ch_flags ch) 0) (a_domain a) (a_user a) (a_workstation a) nt m3
            /\ call_then (SetupBlob m3) w (fun _ w1 o => o = Done (Good tt) w1) o).
Definition v2_fate (a : auth) (time : N) (w : world) (o : outcome) : Prop :=
  (names_too_long a /\ o = Done (Bad (ENtlm InputParameter)) w)
  \/ exists m1, negotiate_message (a_domain a) (a_workstation a) m1
     /\ call_then (SetupBlob m1) w (fun r w1 => challenge_fate a time (ss_blob r) (adopt (set_uid (ss_uid r)) w1)) o.
(** the login: negotiation, and then the one or the other *)
Definition login_fate (time : N) (w : world) (o : outcome) : Prop :=
  call_then Negotiate w (fun s w1 =>
    let w2 := adopt (set_options (s_max_buffer_size s) (N.testbit (s_capabilities s) 2)) w1 in
    if N.testbit (s_capabilities s) 31 then v2_fate (auth_of (cl w)) time w2
    else v1_fate (auth_of (cl w)) (s_challenge s) w2) o.
(** a session request, and then the login *)
Definition session_fate (time : N) (name : text) (w : world) (o : outcome) : Prop :=
  (exists f w1 rest, session_request smb_server name f /\ session_asked react w f w1 /\ rx w1 = positive_response ++ rest
     /\ login_fate time (leaving w1 rest) o)
  \/ (exists e w', session_fails react name w e w' /\ o = Done (Bad e) w')
  \/ (exists f w1, session_request smb_server name f /\ session_asked react w f w1 /\ incomplete (rx w1) /\ tl w1 = Prog.Open
      /\ o = Blocked (leaving w1 [])).
(** open: the ports it connects to, and the result *)
Inductive open_fate (net : N -> connection Sv) (maybe : option auth) (time : N) : option N -> list N * opened Sv -> Prop :=
| of_unreachable p e : net p = ConnectError e ->
    open_fate net maybe time (Some p) ([p], NoConnection (ENetBios (IoError (IoOther e))))
| of_port p st w o : net p = Connected st -> starts maybe st w -> login_fate time w o ->
    open_fate net maybe time (Some p) ([p], OnStream o)
| of_default st w o : net 445 = Connected st -> starts maybe st w -> login_fate time w o ->
    open_fate net maybe time None ([445], OnStream o)
| of_neither x e : net 445 = ConnectError x -> net 139 = ConnectError e ->
    open_fate net maybe time None ([445; 139], NoConnection (ENetBios (IoError (IoOther e))))
| of_second x st w o : net 445 = ConnectError x -> net 139 = Connected st -> starts maybe st w ->
    session_fate time (a_workstation (credentials maybe)) w o ->
    open_fate net maybe time None ([445; 139], OnStream o).
End Server.
