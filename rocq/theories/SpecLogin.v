(** * SpecLogin: what opening a connection has to do: the conversation with the server *)
From Coq Require Import String Ascii.
From Verif Require Import Base Text Win Errors Common Reply Ntlm Prog Client Spec SpecReply SpecCrash SpecNtlm SpecMsg
  Api SpecCall Flow.
Open Scope N_scope.
Open Scope list_scope.

Definition ascii_text (s : string) : text := map N_of_ascii (list_ascii_of_string s).
(** who logs in *)
Definition credentials (maybe : option auth) : auth :=
  match maybe with
  | Some a => a
  | None => mk_auth (ascii_text "") (ascii_text "ANONYMOUS") (ascii_text "WORKGROUP") (ascii_text "") (* user, workstation, domain, password *)
  end.
(** the client before the login: Unicode, uid 0, the first multiplex id is 0 *)
Definition fresh (maybe : option auth) (c : cifs) : Prop :=
  auth_of c = credentials maybe /\ use_unicode c = true /\ uid c = 0 /\ mid c = 0.
(** ... and a connection on which nothing was sent yet *)
Definition begins {Sv} (maybe : option auth) (st : stream Sv) (w : world cifs Sv) : Prop :=
  fresh maybe (cl w) /\ srv w = st_srv Sv st /\ rx w = st_rx Sv st /\ tl w = st_tl Sv st /\ tx w = [].
(** the name every server listens to, used if the name of the server is not known *)
Definition smb_server : text := ascii_text "*SMBSERVER".

(** the strings of the credentials are strings *)
Definition typed_auth (a : auth) : Prop :=
  is_str (a_user a) /\ is_str (a_workstation a) /\ is_str (a_domain a) /\ is_str (a_password a).

(** [c] is asked in [w] and answered by the reply [p], whose status is [st] and which means [v];
    afterwards [w'] *)
Definition exchange {Sv} (react : Sv -> bytes -> reaction Sv) (E : env) {R} (c : call R)
  (w : world cifs Sv) (p : bytes) (st : N) (v : R) (w' : world cifs Sv) : Prop :=
  exists f w1, is_request E (cl w) c f /\ asked react w f w1
  /\ reply_arrives (mid (cl w)) (rx w1) p (rx w') /\ smb_reply p (opcode c) st (mid (cl w)) /\ op_status c st
  /\ decodes c p v /\ w' = leaving w1 (rx w').

(** the assignments made to the client in between *)
Definition adopt {Sv} (f : cifs -> cifs) (w : world cifs Sv) : world cifs Sv :=
  mk_world (f (cl w)) (srv w) (rx w) (tl w) (tx w).

(** The login, from [w] to [w']: negotiation, answered by [s]; then, if the server has extended
    security (bit 31 of its capabilities), NTLMv2 in two steps; otherwise NTLMv1 in one.
    [last] is the status of the last reply, [user] the uid assigned by the server. *)
Definition login_v2 {Sv} (react : Sv -> bytes -> reaction Sv) (E : env) (a : auth) (time : N)
  (w : world cifs Sv) (user last : N) (w' : world cifs Sv) : Prop :=
  exists m1 p1 st1 r1 w1 ch nt m3 p3 r3,
  negotiate_message (a_domain a) (a_workstation a) m1
  /\ exchange react E (SetupBlob m1) w p1 st1 r1 w1
  /\ ss_uid r1 = user /\ challenge_of (ss_blob r1) ch
  /\ v2_response E (a_password a) (a_user a) (a_domain a) time (ch_challenge ch) (ch_info ch) nt
  /\ authenticate_message (N.testbit (ch_flags ch) 0) (a_domain a) (a_user a) (a_workstation a) nt m3
  /\ exchange react E (SetupBlob m3) (adopt (set_uid user) w1) p3 last r3 w'.
Definition login_v1 {Sv} (react : Sv -> bytes -> reaction Sv) (E : env) (a : auth) (challenge : bytes)
  (w : world cifs Sv) (user last : N) (w' : world cifs Sv) : Prop :=
  exists nt p r w1, len challenge = 8 /\ v1_response E (a_password a) challenge nt
  /\ exchange react E (SetupAuth (a_user a) (a_domain a) nt) w p last r w1
  /\ ss_uid r = user /\ w' = adopt (set_uid user) w1.
Definition login {Sv} (react : Sv -> bytes -> reaction Sv) (E : env) (time : N)
  (w : world cifs Sv) (s : server_setup) (user last : N) (w' : world cifs Sv) : Prop :=
  exists p w1, exchange react E Negotiate w p 0 s w1
  /\ let w2 := adopt (set_options (s_max_buffer_size s) (N.testbit (s_capabilities s) 2)) w1 in
     if N.testbit (s_capabilities s) 31
     then login_v2 react E (auth_of (cl w)) time w2 user last w'
     else login_v1 react E (auth_of (cl w)) (s_challenge s) w2 user last w'.

(** the headers of the requests of a login: command, Unicode, uid, multiplex id *)
Definition login_headers (s : server_setup) (user : N) : list (N * bool * N * N) :=
  let unicode := N.testbit (s_capabilities s) 2 in
  (0x72, true, 0, 0) :: (0x73, unicode, 0, 1) :: if N.testbit (s_capabilities s) 31 then [(0x73, unicode, user, 2)] else [].
Definition has_header (f : bytes) (h : N * bool * N * N) : Prop :=
  let '(code, unicode, id, m) := h in
  exists p, f = session_message p /\ request_header p code (if unicode then 0xc843 else 0x4843) 0xffff id m.

(** what may be sent while logging in *)
Definition login_call (E : env) (a : auth) (time : N) {R} (c : call R) : Prop :=
  match c with
  | Negotiate => True
  | SetupBlob m =>
    negotiate_message (a_domain a) (a_workstation a) m
    \/ exists blob ch nt, challenge_of blob ch
       /\ v2_response E (a_password a) (a_user a) (a_domain a) time (ch_challenge ch) (ch_info ch) nt
       /\ authenticate_message (N.testbit (ch_flags ch) 0) (a_domain a) (a_user a) (a_workstation a) nt m
  | SetupAuth user domain nt =>
    user = a_user a /\ domain = a_domain a
    /\ exists challenge, len challenge = 8 /\ v1_response E (a_password a) challenge nt
  | _ => False
  end.
Definition login_frame (E : env) (a : auth) (time : N) (f : bytes) : Prop :=
  exists st R (c : call R) g, login_call E a time c /\ is_request E st c g /\ (f = g \/ exists n, f = take n g).

(** which servers crash the login itself: a malformed NTLM challenge, or, without extended
    security, a challenge that does not have 8 bytes *)
Definition login_crashes {Sv} (react : Sv -> bytes -> reaction Sv) (E : env) (w w' : world cifs Sv) : Prop :=
  exists p s w1, exchange react E Negotiate w p 0 s w1
  /\ let w2 := adopt (set_options (s_max_buffer_size s) (N.testbit (s_capabilities s) 2)) w1 in
     let a := auth_of (cl w) in
     if N.testbit (s_capabilities s) 31
     then exists m1 p1 st1 r1 w3, negotiate_message (a_domain a) (a_workstation a) m1
          /\ exchange react E (SetupBlob m1) w2 p1 st1 r1 w3
          /\ crash_challenge (ss_blob r1) /\ w' = adopt (set_uid (ss_uid r1)) w3
     else len (s_challenge s) <> 8 /\ w' = w2.

(** the same credentials as far as the server can tell: equal but for passwords with the same
    NT hash *)
Definition same_secret (E : env) (a b : auth) : Prop :=
  a_user a = a_user b /\ a_workstation a = a_workstation b /\ a_domain a = a_domain b
  /\ exists x y, utf16le_of (a_password a) x /\ utf16le_of (a_password b) y /\ md4 E x = md4 E y.
(** clients that differ in the password only *)
Definition twin (E : env) (c d : cifs) : Prop :=
  same_secret E (auth_of c) (auth_of d) /\ max_smb_size c = max_smb_size d /\ use_unicode c = use_unicode d
  /\ uid c = uid d /\ mid c = mid d.
Definition twin_worlds (E : env) {Sv} (w v : world cifs Sv) : Prop :=
  twin E (cl w) (cl v) /\ srv w = srv v /\ rx w = rx v /\ tl w = tl v /\ tx w = tx v.
Definition twin_outcomes (E : env) {Sv A} (o q : outcome cifs Sv A) : Prop :=
  match o, q with
  | Done a w, Done b v => a = b /\ twin_worlds E w v
  | Blocked w, Blocked v | Crashed w, Crashed v | Starved w, Starved v => twin_worlds E w v
  | _, _ => False
  end.

(** the answer to a session request that lets the client go on, RFC 1002 4.3.3 *)
Definition positive_response : bytes := nb_frame 0x82 [].
(** [w1] is [w] after the session request [f] was written and the peer reacted to it *)
Definition session_asked {Sv} (react : Sv -> bytes -> reaction Sv) (w : world cifs Sv) (f : bytes)
  (w1 : world cifs Sv) : Prop :=
  exists s inc t, react (srv w) f = Accept s inc t
  /\ cl w1 = cl w /\ srv w1 = s /\ tx w1 = tx w ++ [f] /\ (rx w1, tl w1) = deliver (tl w) (rx w) inc t.
