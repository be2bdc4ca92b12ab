(** * If opening a connection or a call fails, the error says why: C100 *)
From Coq Require Import Lia.
From Verif Require Import Base BaseFacts Text Win Errors Info Common Reply Ntlm Prog Client Spec SpecReply SpecCrash SpecNtlm SpecMsg
  Api SpecCall Flow Sample Witness SpecFault SpecBlame SpecLogin CallFacts P_Ntlm P_Open SpecWhy WhyFacts.
Open Scope N_scope.

(** C100: a call answers with an error exactly in the cases of [fails] (SpecWhy.v): the
    arguments do not fit, the stream does not take the request, something else arrives, the
    stream ends, or the reply has no value; with that error, and with that much read. *)
Theorem C100_call : forall Sv (react : Sv -> bytes -> reaction Sv) E R (c : call R) w e w',
  (exists fuel, run react (exec E fuel c) w = Done (Bad e) w') <-> fails react E c w e w'.
Proof. exact call_fails_iff. Qed.
Print Assumptions C100_call.
(** Never two errors, nor an error and an answer. *)
Theorem C100_one : forall Sv (react : Sv -> bytes -> reaction Sv) E R (c : call R) w e w1 e' w2,
  fails react E c w e w1 -> fails react E c w e' w2 -> e = e' /\ w1 = w2.
Proof. exact fails_one. Qed.
Print Assumptions C100_one.
Theorem C100_no_answer : forall Sv (react : Sv -> bytes -> reaction Sv) E fuel R (c : call R) w e w1 v w2,
  fails react E c w e w1 -> run react (exec E fuel c) w <> Done (Good v) w2.
Proof. exact fails_not_good. Qed.
Print Assumptions C100_no_answer.
(** The login: a call of it fails; the names or the response are too long; or the server sends
    no challenge. *)
Theorem C100_login : forall Sv (react : Sv -> bytes -> reaction Sv) E t w e w', typed_auth (auth_of (cl w)) -> clock E t ->
  ((exists fuel, run react (setup_connection E fuel) w = Done (Bad e) w') <-> login_fails react E t w e w').
Proof. exact login_fails_iff. Qed.
Print Assumptions C100_login.
(** The session request on port 139: refused with its code, or another frame. *)
Theorem C100_session : forall Sv (react : Sv -> bytes -> reaction Sv) src w e w',
  run react (create_session smb_server src) w = Done (Bad e) w' <-> session_fails react src w e w'.
Proof. exact session_fails_iff. Qed.
Print Assumptions C100_session.
(** open: no connection, no session, or no login. *)
Theorem C100_open : forall Sv (react : Sv -> bytes -> reaction Sv) E net maybe t port e, typed_auth (credentials maybe) -> clock E t ->
  ((exists fuel, failed (snd (open E Sv net react fuel port maybe)) e) <-> open_fails react E net maybe t port e).
Proof. exact open_fails_iff. Qed.
Print Assumptions C100_open.
Theorem C100_open_one : forall Sv (react : Sv -> bytes -> reaction Sv) E net maybe t port e e', typed_auth (credentials maybe) -> clock E t ->
  open_fails react E net maybe t port e -> open_fails react E net maybe t port e' -> e = e'.
Proof. exact open_fails_one. Qed.
Print Assumptions C100_open_one.

(** Six servers and the errors: nothing listens; the session is refused, or answered by a
    keep-alive; the negotiation is answered by a reply of another command; the server sends no
    challenge; the password is wrong. *)
Definition reason (n : N) : (N -> connection (list bytes)) * error :=
  match n with
  | 0 => (at_port 1 [], ENetBios (IoError (IoOther 111)))
  | 1 => (at_port 139 [nb_frame 0x83 [x82]], ENetBios (CreateSession 0x82))
  | 2 => (at_port 139 [nb_frame 0x85 []], ENetBios InvalidFrame)
  | 3 => (at_port 445 [session_message (message 0x73 0 0 [] [])], UnexpectedReply CNegotiate CSessionSetup)
  | 4 => (at_port 445 [negotiated 0x80000004; set_up 0xc0000016 1 (zeros 48)], ENtlm InvalidPacket)
  | _ => (at_port 445 (server_v2 0xc000006d), ServerError (status_of_code 0xc000006d))
  end.
Example C100_example : forall n, n < 6 ->
  open_fails script (env0 true) (fst (reason n)) (Some alice) 0 None (snd (reason n)).
Proof.
  intros n Hn. apply C100_open; [repeat split; reflexivity|vm_compute; repeat split; discriminate|]. exists 400%nat.
  assert (K : n = 0 \/ n = 1 \/ n = 2 \/ n = 3 \/ n = 4 \/ n = 5) by lia.
  destruct K as [->|[->|[->|[->|[->| ->]]]]]; cbn [reason fst snd]; [left; vm_compute; reflexivity|right; eexists; vm_compute; reflexivity..].
Qed.
(** a search whose fragments overlap; a close with the stream ending in the reply; a password
    of 65536 characters *)
Example C100_call_example : (exists w1, fails script (env0 true) (FindFirst share0 [42])
    (world0 [fragment 3 10 132 0 0 (first_block 2 1) (take 70 two) ++ fragment 3 10 132 10 60 [] (drop 70 two)])
    (ESmb (Reassemble (OffsetMismatch 60 70))) w1)
  /\ (exists w1, fails script (env0 true) (Close handle0) (closed0 []) (ENetBios (IoError IoUnexpectedEof)) w1)
  /\ forall n, 65536 <= N.of_nat n -> exists w1, fails script (env0 true) (MountPassword [92; 97] (repeat 97 n)) (world0 [])
       (ESmb (CreatePacket PasswordTooLong)) w1.
Proof.
  split; [eexists; apply C100_call; exists 1000%nat; runs|]. split; [eexists; apply C100_call; exists 1000%nat; runs|].
  intros n Hn. assert (Hu : utf8_len (repeat 97 n) = N.of_nat n).
  { clear. induction n as [|n IH]; [reflexivity|]. cbn [repeat utf8_len]. change (97 <? 128) with true. cbv iota. rewrite IH. lia. }
  eexists. replace PasswordTooLong with (refusal (MountPassword [92; 97] (repeat 97 n))).
  - apply fails_unfit.
    + intros [_ H]. vm_compute in H. now apply H.
    + cbn [fits_request]. unfold mount_size. cbv zeta. rewrite Hu. change (use_unicode _) with true. cbv iota. lia.
    + intros [].
  - cbn [refusal]. rewrite Hu. destruct (N.ltb_spec (N.of_nat n) 65536); [lia|reflexivity].
Qed.
