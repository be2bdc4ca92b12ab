(** * SpecWhy: all the ways in which a call, the login, the session request and the opening
    of a connection fail, each with its error and with what is left of the stream (C100).

    The pieces are those of the specifications before: the size of a request (SpecMsg), frames
    and headers (SpecFault), the contents of a reply (SpecReply, SpecBlame), the messages of
    the login (SpecNtlm, SpecLogin). *)
From Verif Require Import Base Text Win Errors Common Reply Ntlm Prog Client Spec SpecReply SpecCrash SpecNtlm SpecMsg
  Api SpecCall Flow SpecFault SpecBlame SpecLogin SizeFacts.
Open Scope N_scope.

(** a client that asked [c] waits with [b'] still to be read of [b]: nothing was read, or only
    a part of the fragments of a search *)
Definition waits {R} (c : call R) (id : N) (b b' : bytes) : Prop :=
  b' = b \/ (~ single_reply c /\ exists fs tp td, fragments_arrive id b fs b' /\ collecting fs tp td).

(** a search answered by successful replies without a value: a reply that is no fragment; a
    fragment that contradicts those before it; fragments that do not fit together; blocks that
    are no batch of entries *)
Inductive search_wrong {R} (c : call R) (id : N) (b : bytes) : smb_error -> bytes -> Prop :=
| no_piece fs tp td b' p rest : fragments_arrive id b fs b' -> collecting fs tp td ->
    reply_arrives id b' p rest -> smb_reply p 0x32 0 id -> ~ crash_fragment p -> (forall g, ~ fragment_of p g) ->
    search_wrong c id b InvalidData rest
| bad_piece fs tp td b' p g rest e : fragments_arrive id b fs b' -> fs <> [] -> collecting fs tp td ->
    reply_arrives id b' p rest -> smb_reply p 0x32 0 id -> fragment_of p g -> fragment_wrong fs tp td g e ->
    search_wrong c id b (Reassemble e) rest
| bad_blocks fs g tp td rest e : fragments_arrive id b (fs ++ [g]) rest -> collecting fs tp td ->
    f_parameter_total g = tp -> f_data_total g = td -> distinct (parameter_pieces (fs ++ [g])) -> distinct (data_pieces (fs ++ [g])) ->
    enough (fs ++ [g]) tp td -> blocks_wrong (fs ++ [g]) tp td e ->
    search_wrong c id b (Reassemble e) rest
| bad_batch fs x y rest : fragments_arrive id b fs rest -> split_of fs x y -> last_completes fs (len x) (len y) ->
    ~ find_crashes c x y -> (forall v, ~ found_in c x y v) -> search_wrong c id b InvalidData rest.

Section Server.
Context {Sv : Type}.
Variable react : Sv -> bytes -> reaction Sv.
Notation world := (world cifs Sv).
Variable E : env.

(** the call [c] in [w] fails with the error, leaving the world:
    - the arguments do not fit into a request: nothing is written;
    - the stream does not take the request;
    - something else arrives than the reply (or the next fragment);
    - the stream ends before it is complete;
    - it has no value *)
Inductive fails {R} (c : call R) (w : world) : error -> world -> Prop :=
| fails_unfit : ~ mid_full E (cl w) -> ~ fits_request (use_unicode (cl w)) c -> ~ pattern_window c ->
    fails c w (ESmb (CreatePacket (refusal c))) (mk_world (next_client (cl w)) (srv w) (rx w) (tl w) (tx w))
| fails_write f s n e inc t b t' : is_request E (cl w) c f -> react (srv w) f = Refuse s n e inc t ->
    deliver (tl w) (rx w) inc t = (b, t') ->
    fails c w (ENetBios (IoError (IoOther e))) (mk_world (next_client (cl w)) s b t' (tx w ++ [take n f]))
| fails_arrival f w1 b e rest : is_request E (cl w) c f -> asked react w f w1 ->
    waits c (mid (cl w)) (rx w1) b -> faulty (mid (cl w)) (opcode c) b e rest ->
    fails c w e (leaving w1 rest)
| fails_cut f w1 s r e : is_request E (cl w) c f -> asked react w f w1 ->
    waits c (mid (cl w)) (rx w1) (s ++ r) -> skipped (mid (cl w)) s -> incomplete r -> cut r (tl w1) e ->
    fails c w (ENetBios e) (leaving w1 [])
| fails_contents f w1 p st rest e : is_request E (cl w) c f -> asked react w f w1 -> single_reply c ->
    reply_arrives (mid (cl w)) (rx w1) p rest -> smb_reply p (opcode c) st (mid (cl w)) -> op_status c st ->
    ~ crashes c p -> (forall v, ~ decodes c p v) -> blames c p e ->
    fails c w (ESmb e) (leaving w1 rest)
| fails_search f w1 rest e : is_request E (cl w) c f -> asked react w f w1 -> ~ single_reply c ->
    search_wrong c (mid (cl w)) (rx w1) e rest -> fails c w (ESmb e) (leaving w1 rest).

(** the names do not fit into a type-1 message: 16-bit lengths *)
Definition names_too_long (a : auth) : Prop :=
  exists d w, utf8_of (a_domain a) d /\ utf8_of (a_workstation a) w /\ (65536 <= len d \/ 65536 <= len w).
(** the response (44 bytes, the target info and a terminator of 4) or the names do not fit into a type-3 message *)
Definition response_too_long (a : auth) (ch : challenge_msg) : Prop :=
  let u := N.testbit (ch_flags ch) 0 in
  exists d n w, oem_or_wide u (a_domain a) d /\ oem_or_wide u (a_user a) n /\ oem_or_wide u (a_workstation a) w
  /\ (65536 <= len (ch_info ch) + 48 \/ 65536 <= len d \/ 65536 <= len n \/ 65536 <= len w).

(** the login in [w] fails: with the negotiation, or after it *)
Inductive v2_fails (a : auth) (time : N) (w : world) : error -> world -> Prop :=
| v2_names : names_too_long a -> v2_fails a time w (ENtlm InputParameter) w
| v2_first m1 e w' : negotiate_message (a_domain a) (a_workstation a) m1 -> fails (SetupBlob m1) w e w' ->
    v2_fails a time w e w'
| v2_challenge m1 p st r w1 : negotiate_message (a_domain a) (a_workstation a) m1 ->
    exchange react E (SetupBlob m1) w p st r w1 ->
    ~ crash_challenge (ss_blob r) -> (forall ch, ~ challenge_of (ss_blob r) ch) ->
    v2_fails a time w (ENtlm InvalidPacket) (adopt (set_uid (ss_uid r)) w1)
| v2_size m1 p st r w1 ch : negotiate_message (a_domain a) (a_workstation a) m1 ->
    exchange react E (SetupBlob m1) w p st r w1 -> challenge_of (ss_blob r) ch -> response_too_long a ch ->
    v2_fails a time w (ENtlm InputParameter) (adopt (set_uid (ss_uid r)) w1)
| v2_second m1 p st r w1 ch nt m3 e w' : negotiate_message (a_domain a) (a_workstation a) m1 ->
    exchange react E (SetupBlob m1) w p st r w1 -> challenge_of (ss_blob r) ch ->
    v2_response E (a_password a) (a_user a) (a_domain a) time (ch_challenge ch) (ch_info ch) nt ->
    authenticate_message (N.testbit (ch_flags ch) 0) (a_domain a) (a_user a) (a_workstation a) nt m3 ->
    fails (SetupBlob m3) (adopt (set_uid (ss_uid r)) w1) e w' -> v2_fails a time w e w'.
Definition v1_fails (a : auth) (challenge : bytes) (w : world) (e : error) (w' : world) : Prop :=
  exists nt, len challenge = 8 /\ v1_response E (a_password a) challenge nt
  /\ fails (SetupAuth (a_user a) (a_domain a) nt) w e w'.
Definition login_fails (time : N) (w : world) (e : error) (w' : world) : Prop :=
  fails Negotiate w e w'
  \/ exists p s w1, exchange react E Negotiate w p 0 s w1
     /\ let w2 := adopt (set_options (s_max_buffer_size s) (N.testbit (s_capabilities s) 2)) w1 in
        if N.testbit (s_capabilities s) 31 then v2_fails (auth_of (cl w)) time w2 e w'
        else v1_fails (auth_of (cl w)) (s_challenge s) w2 e w'.

(** the answer [b] to a session request: too long; of an unknown type or with a wrong length;
    the refusal with its code, RFC 1002 4.3.4; another frame *)
Inductive no_session : bytes -> nb_error -> bytes -> Prop :=
| session_big t x y z rest : NB_MAX < b2n x * 65536 + b2n y * 256 + b2n z -> no_session ([t; x; y; z] ++ rest) FrameTooBig rest
| session_frame ty p rest e : ty < 256 -> len p <= NB_MAX -> bad_frame ty p e -> e <> UnexpectedFrame ->
    no_session (nb_frame ty p ++ rest) e rest
| session_no code rest : no_session (nb_frame 0x83 [code] ++ rest) (CreateSession (b2n code)) rest
| session_other ty p rest : len p <= NB_MAX -> ty = 0x00 \/ ty = 0x81 \/ (ty = 0x84 /\ len p = 6) \/ (ty = 0x85 /\ len p = 0) ->
    no_session (nb_frame ty p ++ rest) InvalidFrame rest.
(** the session request in [w], for a client of that name, fails *)
Inductive session_fails (name : text) (w : world) : error -> world -> Prop :=
| session_write f s n e inc t b t' : session_request smb_server name f -> react (srv w) f = Refuse s n e inc t ->
    deliver (tl w) (rx w) inc t = (b, t') ->
    session_fails name w (ENetBios (IoError (IoOther e))) (mk_world (cl w) s b t' (tx w ++ [take n f]))
| session_arrival f w1 e rest : session_request smb_server name f -> session_asked react w f w1 ->
    no_session (rx w1) e rest -> session_fails name w (ENetBios e) (leaving w1 rest)
| session_cut f w1 e : session_request smb_server name f -> session_asked react w f w1 ->
    incomplete (rx w1) -> cut (rx w1) (tl w1) e -> session_fails name w (ENetBios e) (leaving w1 []).

(** the client on a stream it has just opened *)
Definition starts (maybe : option auth) (st : stream Sv) (w : world) : Prop :=
  begins maybe st w /\ max_smb_size (cl w) = 1024.
(** the result of open is this error *)
Definition failed (o : opened Sv) (e : error) : Prop := o = NoConnection e \/ exists w, o = OnStream (Done (Bad e) w).
(** opening a connection fails: no stream, then with the error of the last port; or on the stream *)
Inductive open_fails (net : N -> connection Sv) (maybe : option auth) (time : N) : option N -> error -> Prop :=
| open_unreachable p e : net p = ConnectError e -> open_fails net maybe time (Some p) (ENetBios (IoError (IoOther e)))
| open_login p st w e w' : net p = Connected st -> starts maybe st w -> login_fails time w e w' -> open_fails net maybe time (Some p) e
| open_default st w e w' : net 445 = Connected st -> starts maybe st w -> login_fails time w e w' -> open_fails net maybe time None e
| open_neither x e : net 445 = ConnectError x -> net 139 = ConnectError e -> open_fails net maybe time None (ENetBios (IoError (IoOther e)))
| open_no_session x st w e w' : net 445 = ConnectError x -> net 139 = Connected st -> starts maybe st w ->
    session_fails (a_workstation (credentials maybe)) w e w' -> open_fails net maybe time None e
| open_second x st w f w1 rest e w' : net 445 = ConnectError x -> net 139 = Connected st -> starts maybe st w ->
    session_request smb_server (a_workstation (credentials maybe)) f -> session_asked react w f w1 ->
    rx w1 = positive_response ++ rest -> login_fails time (leaving w1 rest) e w' -> open_fails net maybe time None e.
End Server.
