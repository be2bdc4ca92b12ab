(** * Opening a connection: C36, C40-C42, C59; crashes of open (C32, C33) *)
From Verif Require Import Base Text Win Errors Info Common Reply Ntlm Prog Client Spec SpecReply SpecCrash SpecNtlm SpecMsg
  Api SpecCall Flow Sample TextFacts RunFacts ClientFacts MsgFacts CallFacts EndFacts NtlmFacts SpecLogin OpenFacts TwinFacts SessionFacts WrapFacts ConnFacts P_Ntlm.
Open Scope N_scope.

(** a server: its replies to negotiation and session setup *)
Definition negotiated (caps : N) : bytes :=
  session_message (message 0x72 0 0 (le 2 0 ++ [x03] ++ le 2 50 ++ le 2 1 ++ le 4 4356 ++ le 4 65536 ++ le 4 0 ++ le 4 caps
    ++ le 8 0 ++ le 2 0 ++ [x08]) [x01; x02; x03; x04; x05; x06; x07; x08]).
Definition set_up (status mid : N) (blob : bytes) : bytes :=
  session_message (message 0x73 status mid ([xff; x00; x00; x00] ++ le 2 0 ++ le 2 (len blob)) blob).
Definition server_v2 (last : N) : list bytes :=
  [negotiated 0x80000004; set_up 0xc0000016 1 challenge0; set_up last 2 []].
Definition server_v1 : list bytes := [negotiated 0; set_up 0 1 []].
Definition at_port (p : N) (answers : list bytes) (q : N) : connection (list bytes) :=
  if q =? p then Connected (mk_stream answers [] Open) else ConnectError 111.

(** C36: two passwords with the same hash: the same ports, the same bytes, the same result,
    against every network and server. *)
Theorem C36_open : forall E Sv (react : Sv -> bytes -> reaction Sv) (net : N -> connection Sv) fuel port a b, same_secret E a b ->
  match open E Sv net react fuel port (Some a), open E Sv net react fuel port (Some b) with
  | (p, NoConnection e), (q, NoConnection e') => p = q /\ e = e'
  | (p, OnStream o), (q, OnStream o') => p = q /\ twin_outcomes E o o'
  | _, _ => False
  end.
Proof. exact open_twins. Qed.
Print Assumptions C36_open.
(** ... and whatever the user does afterwards. *)
Theorem C36_later : forall E Sv (react : Sv -> bytes -> reaction Sv) fuel A (p : flow A) w v, user p -> twin_worlds E w v ->
  twin_outcomes E (run react (interp E fuel p) w) (run react (interp E fuel p) v).
Proof. exact flow_twins. Qed.
Print Assumptions C36_later.
(** with the constant hash of [env0] any two passwords *)
Example C36_example : same_secret (env0 true) alice (mk_auth [97; 108] [87; 83] [68] [120]).
Proof.
  split; [reflexivity|]. split; [reflexivity|]. split; [reflexivity|]. exists [x70; x00; x77; x00], [x78; x00].
  split; [change (utf16le_of [112; 119] (encode_utf16le [112; 119])); apply utf16le_encode|split; [change (utf16le_of [120] (encode_utf16le [120])); apply utf16le_encode|reflexivity]];
    now apply is_text_str.
Qed.

(** C40: a successful open was a login whose last reply had status SUCCESS or
    MORE_PROCESSING_REQUIRED.  (Missing for the full statement: it has to be SUCCESS.) *)
Theorem C40_partial : forall Sv (react : Sv -> bytes -> reaction Sv) E fuel t net port maybe ports w',
  typed_auth (credentials maybe) -> clock E t ->
  open E Sv net react fuel port maybe = (ports, OnStream (Done (Good tt) w')) ->
  exists w s user last, fresh maybe (cl w) /\ login react E t w s user last w'
  /\ (last = 0 \/ last = 0xc0000016).
Proof. exact open_login. Qed.
Print Assumptions C40_partial.
(** It need not be SUCCESS: here the server has not decided yet. *)
Theorem C40_refuted : exists answers p fuel w',
  open (env0 true) _ (at_port 445 (answers ++ [session_message p])) script fuel None None = ([445], OnStream (Done (Good tt) w'))
  /\ len answers = 2 /\ len (tx w') = 3 /\ srv w' = [] /\ rx w' = [] /\ smb_reply p 0x73 0xc0000016 2.
Proof.
  exists [negotiated 0x80000004; set_up 0xc0000016 1 challenge0],
    (message 0x73 0xc0000016 2 ([xff; x00; x00; x00] ++ le 2 0 ++ le 2 0) []), 400%nat.
  eexists. split; [runs|]. do 4 (split; [reflexivity|]).
  unfold smb_reply. repeat split; try reflexivity; [now vm_compute|vm_compute; tauto|]. eexists. split; reflexivity.
Qed.
Print Assumptions C40_refuted.
Example C40_example : exists w',
  open (env0 true) _ (at_port 445 (server_v2 0)) script 400 None (Some alice) = ([445], OnStream (Done (Good tt) w'))
  /\ len (tx w') = 3.
Proof. eexists. split; [runs|]. reflexivity. Qed.

(** C41: exactly the conversations described by [login] (SpecLogin.v) end in success. *)
Theorem C41_login : forall Sv (react : Sv -> bytes -> reaction Sv) E t (w w' : world cifs Sv),
  typed_auth (auth_of (cl w)) -> clock E t ->
  ((exists fuel, run react (setup_connection E fuel) w = Done (Good tt) w') <-> exists s user last, login react E t w s user last w').
Proof. exact login_iff. Qed.
Print Assumptions C41_login.
(** The client then has the uid of the (first) session setup reply, the server's choice of
    character set and its buffer size. *)
Theorem C41_state : forall Sv (react : Sv -> bytes -> reaction Sv) E t w s user last w', login react E t w s user last w' ->
  uid (cl w') = user /\ use_unicode (cl w') = N.testbit (s_capabilities s) 2
  /\ max_smb_size (cl w') = s_max_buffer_size s /\ auth_of (cl w') = auth_of (cl w) /\ typed_client (cl w')
  /\ (last = 0 \/ last = 0xc0000016).
Proof. exact login_state. Qed.
Print Assumptions C41_state.
(** The headers of the requests of the login itself. *)
Theorem C41_headers : forall Sv (react : Sv -> bytes -> reaction Sv) E maybe t w s user last w',
  typed_auth (credentials maybe) -> fresh maybe (cl w) -> login react E t w s user last w' ->
  exists fs, tx w' = tx w ++ fs /\ Forall2 has_header fs (login_headers s user).
Proof. exact login_headers_ok. Qed.
Print Assumptions C41_headers.
Example C41_headers_example : exists w',
  open (env0 true) _ (at_port 445 (server_v2 0)) script 400 None (Some alice) = ([445], OnStream (Done (Good tt) w'))
  /\ Forall2 has_header (tx w') [(0x72, true, 0, 0); (0x73, true, 0, 1); (0x73, true, 7, 2)].
Proof.
  eexists. split; [runs|]. cbn [tx]. do 3 (constructor; [match goal with |- has_header ?f _ => exists (skipn 4 f) end;
    split; [vm_compute; reflexivity|]; constructor; try (vm_compute; reflexivity); vm_compute; discriminate|]). constructor.
Qed.
(** All later requests, after any calls, carry them. *)
Theorem C41_requests : forall Sv (react : Sv -> bytes -> reaction Sv) E fuel t net port maybe ports w',
  typed_auth (credentials maybe) -> clock E t ->
  open E Sv net react fuel port maybe = (ports, OnStream (Done (Good tt) w')) ->
  exists w s id last, fresh maybe (cl w) /\ login react E t w s id last w'
  /\ forall n A (p : flow A) R (c : call R) f, user p -> typed c ->
     request (exec E n c) (cl (final (run react (interp E n p) w'))) = Some f ->
     exists q flags2 m, f = session_message q /\ request_header q (opcode c) flags2 (op_tid c) id m
      /\ N.testbit flags2 15 = N.testbit (s_capabilities s) 2.
Proof. exact later_requests. Qed.
Print Assumptions C41_requests.
(** without extended security and unicode: NTLMv1, two requests *)
Example C41_example : exists w',
  open (env0 true) _ (at_port 445 server_v1) script 400 None (Some alice) = ([445], OnStream (Done (Good tt) w'))
  /\ len (tx w') = 2 /\ uid (cl w') = 7 /\ use_unicode (cl w') = false.
Proof. eexists. split; [runs|]. repeat split. Qed.

(** C42: the session request, for every workstation name.  [session_request] (SpecNtlm.v): type
    0x81, 68 bytes, the two names in first-level encoding. *)
Theorem C42_request : forall Sv (react : Sv -> bytes -> reaction Sv) src w, exists f, session_request smb_server src f
  /\ ((exists w1 rest, session_asked react w f w1 /\ rx w1 = positive_response ++ rest
        /\ run react (create_session smb_server src) w = Done (Good tt) (leaving w1 rest))
      \/ ((forall w', run react (create_session smb_server src) w <> Done (Good tt) w')
          /\ exists n, tx (final (run react (create_session smb_server src) w)) = tx w ++ [take n f])).
Proof. exact session_cases. Qed.
Print Assumptions C42_request.
(** When port 445 refuses and port 139 accepts, this is what open sends first, for the name [*SMBSERVER] and the workstation's. *)
Theorem C42_open : forall Sv (react : Sv -> bytes -> reaction Sv) E net fuel maybe e1 st,
  net 445 = ConnectError e1 -> net 139 = Connected st ->
  exists o f, open E Sv net react fuel None maybe = ([445; 139], OnStream o) /\ session_request smb_server (a_workstation (credentials maybe)) f
  /\ ((exists l, tx (final o) = f :: l) \/ (exists n, tx (final o) = [take n f])).
Proof. exact open_first. Qed.
Print Assumptions C42_open.
(** This determines the frame; and the letters determine the 16 characters. *)
Theorem C42_determined : forall dst src f f', session_request dst src f -> session_request dst src f' -> f = f'.
Proof. exact session_request_fun. Qed.
Print Assumptions C42_determined.
Theorem C42_readable : forall l l' b, half_ascii l b -> half_ascii l' b -> l = l'.
Proof. exact half_ascii_inj. Qed.
Print Assumptions C42_readable.
Theorem C42_name : forall s, exists l, name16 s l /\ half_ascii l (utf8 (encode_netbios_name s)).
Proof. exact encoded_name. Qed.
Print Assumptions C42_name.
(** a negative answer is reported with its code *)
Theorem C42_negative : forall Sv (react : Sv -> bytes -> reaction Sv) src w f w1 code rest,
  session_request smb_server src f -> session_asked react w f w1 -> rx w1 = nb_frame 0x83 [code] ++ rest ->
  run react (create_session smb_server src) w = Done (Bad (ENetBios (CreateSession (b2n code)))) (leaving w1 rest).
Proof. exact session_negative. Qed.
Print Assumptions C42_negative.
Example C42_example : name16 [72; 228; 105] ([72; 105] ++ repeat 32 14)
  /\ half_ascii [72; 105] (utf8 [69; 73; 71; 74]).
Proof.
  split.
  - exists [72; 105]. split; [|split; [reflexivity|right; now exists 14%nat]].
    constructor; [lia|]. apply ap_other; [lia|]. constructor; [lia|]. constructor.
  - repeat (constructor; [lia|reflexivity|reflexivity|]). constructor.
Qed.

(** C59: with a given port, or if port 445 can be reached: only that port, and on it only the
    login (SMB messages, [C34_sent]). *)
Theorem C59_direct : forall Sv (react : Sv -> bytes -> reaction Sv) E net port maybe st p,
  net p = Connected st -> port = Some p \/ (port = None /\ p = 445) ->
  exists w, begins maybe st w
  /\ forall fuel, open E Sv net react fuel port maybe = ([p], OnStream (run react (setup_connection E fuel) w)).
Proof. exact open_direct. Qed.
Print Assumptions C59_direct.
Theorem C59_refused : forall Sv (react : Sv -> bytes -> reaction Sv) E net fuel p maybe e, net p = ConnectError e ->
  open E Sv net react fuel (Some p) maybe = ([p], NoConnection (ENetBios (IoError (IoOther e)))).
Proof. exact open_refused. Qed.
Print Assumptions C59_refused.
Theorem C59_nowhere : forall Sv (react : Sv -> bytes -> reaction Sv) E net fuel maybe e1 e2,
  net 445 = ConnectError e1 -> net 139 = ConnectError e2 ->
  open E Sv net react fuel None maybe = ([445; 139], NoConnection (ENetBios (IoError (IoOther e2)))).
Proof. exact open_nowhere. Qed.
Print Assumptions C59_nowhere.
(** Otherwise port 139, and a session request first; nothing else unless the answer is positive. *)
Theorem C59_session : forall Sv (react : Sv -> bytes -> reaction Sv) E net fuel maybe e1 st,
  net 445 = ConnectError e1 -> net 139 = Connected st ->
  exists w o f, begins maybe st w /\ open E Sv net react fuel None maybe = ([445; 139], OnStream o)
  /\ session_request smb_server (a_workstation (credentials maybe)) f
  /\ ((exists w1 rest, session_asked react w f w1 /\ rx w1 = positive_response ++ rest
        /\ o = run react (setup_connection E fuel) (leaving w1 rest))
      \/ ((forall w', o <> Done (Good tt) w') /\ exists n, tx (final o) = [take n f])).
Proof. exact open_session. Qed.
Print Assumptions C59_session.
Theorem C59_positive : forall Sv (react : Sv -> bytes -> reaction Sv) E net maybe e1 st,
  net 445 = ConnectError e1 -> net 139 = Connected st ->
  exists w, begins maybe st w /\ forall fuel f w1 rest,
  session_request smb_server (a_workstation (credentials maybe)) f ->
  session_asked react w f w1 -> rx w1 = positive_response ++ rest ->
  open E Sv net react fuel None maybe = ([445; 139], OnStream (run react (setup_connection E fuel) (leaving w1 rest))).
Proof. exact open_positive. Qed.
Print Assumptions C59_positive.
Example C59_example : exists w' w'',
  open (env0 true) _ (at_port 139 (positive_response :: server_v1)) script 400 None (Some alice) = ([445; 139], OnStream (Done (Good tt) w'))
  /\ len (tx w') = 3
  /\ open (env0 true) _ (at_port 139 (nb_frame 0x83 [x80] :: server_v1)) script 400 None (Some alice)
     = ([445; 139], OnStream (Done (Bad (ENetBios (CreateSession 0x80))) w'')) /\ len (tx w'') = 1.
Proof. do 2 eexists. split; [runs|]. split; [reflexivity|]. split; [runs|]. reflexivity. Qed.

(** C32, for open: a crash while logging in is a crash of one of the calls (C32_single_partial)
    or of the evaluation of the server's challenge.  (Missing: that there are none.) *)
Theorem C32_open_partial : forall Sv (react : Sv -> bytes -> reaction Sv) E fuel t w w',
  typed_auth (auth_of (cl w)) -> clock E t -> run react (setup_connection E fuel) w = Crashed w' ->
  login_crashes react E w w'
  \/ exists R (c : call R) v, single_reply c /\ login_call E (auth_of (cl w)) t c /\ run react (exec E fuel c) v = Crashed w'.
Proof. exact setup_crash. Qed.
Print Assumptions C32_open_partial.
(** C33: and these challenges do crash it. *)
Theorem C33_open : forall Sv (react : Sv -> bytes -> reaction Sv) E w w', login_crashes react E w w' ->
  exists f0, forall f, (f0 <= f)%nat -> run react (setup_connection E f) w = Crashed w'.
Proof. exact setup_crashes. Qed.
Print Assumptions C33_open.
Example C33_open_example : exists w' w'',
  open (env0 true) _ (at_port 445 [negotiated 0x80000004; set_up 0xc0000016 1 []]) script 400 None None = ([445], OnStream (Crashed w'))
  /\ open (env0 true) _ (at_port 445 [session_message (message 0x72 0 0 (zeros 34) [])]) script 400 None None = ([445], OnStream (Crashed w'')).
Proof. do 2 eexists. split; [runs|]. runs. Qed.

(** C08, from the first request of a connection on: the ids of everything written on it after
    the session request (if there is one), by [open] and by whatever calls the user makes
    afterwards, are pairwise distinct, up to 65536 calls, and 0, 1, 2 .. if no call was refused.
    ([k]: the number of calls.  Partial: see C08_history_partial.) *)
Theorem C08_connection_partial : forall Sv (react : Sv -> bytes -> reaction Sv) E net fuel port maybe ports o A (p : flow A) fuel2,
  open E Sv net react fuel port maybe = (ports, OnStream o) ->
  exists first k l is, tx (final (run react (interp E fuel2 p) (final o))) = first ++ l
  /\ (first = [] \/ exists f, session_request smb_server (a_workstation (credentials maybe)) f /\ (first = [f] \/ exists n, first = [take n f]))
  /\ (exists c0, fresh maybe c0 /\ written E c0 k l (cl (final (run react (interp E fuel2 p) (final o))))) /\ ids_of l is
  /\ (overflow_checks E = true \/ k <= 65536 -> NoDup is) /\ (k = len l -> consecutive 0 is).
Proof. exact connection_ids. Qed.
Print Assumptions C08_connection_partial.
Example C08_connection_example : exists w' f g h,
  open (env0 true) _ (at_port 139 (positive_response :: server_v1)) script 400 None (Some alice) = ([445; 139], OnStream (Done (Good tt) w'))
  /\ tx w' = [f; g; h] /\ frame_id g = Some 0 /\ frame_id h = Some 1.
Proof. do 4 eexists. split; [runs|]. split; [reflexivity|]. split; reflexivity. Qed.
