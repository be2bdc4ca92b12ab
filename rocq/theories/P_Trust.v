(** * Properties C77-C79: what the client takes from the server without checking it: who it is
    (C77), what it announces (C78), how much memory to use (C79) *)
From Coq Require Import String.
From Verif Require Import Base Text Win Errors Common Reply Ntlm Prog Client Spec SpecReply SpecNtlm SpecMsg Api SpecCall
  RunFacts MsgFacts SizeFacts Flow FlowFacts SpecLogin SpecRemote RemoteFacts RefServer RefFacts FileService FileFacts
  SpecAccount AccountFacts Gate GateFacts SpecTrust TrustFacts OpenFacts SessionFacts Sample SpecUri Crypto Tests P_Remote P_Session P_Open.
Open Scope N_scope.
Open Scope list_scope.

(** C77: a login should be good only at the server the client is talking to.  Instead every server
    can pass the messages of a login on to another one: if the client has an account there, the
    server in the middle ends up with the client's session there.  What the client's server shows at
    negotiation need not be what the other one shows (only the challenge, if it wants NTLMv1). *)
Theorem C77_relay_partial : forall Sv St (react : Sv -> bytes -> reaction Sv) E known setup shown nonce info (B : service St) abs w t,
  conforming react (middle shown (gate St E known setup nonce info B)) abs ->
  typed_client (cl w) -> idle w -> typed_auth (auth_of (cl w)) -> registered E known (auth_of (cl w)) ->
  ~ In 0 (a_user (auth_of (cl w))) -> ~ In 0 (a_domain (auth_of (cl w))) -> clock E t ->
  len (s_challenge setup) = 8 -> s_challenge shown = s_challenge setup -> (forall n, len (nonce n) = 8) -> len info < 60000 ->
  fits_v1 (N.testbit (s_capabilities shown) 2) (auth_of (cl w)) -> fits_v2 (len info) (auth_of (cl w)) ->
  room E (cl w) 3 -> g_next (abs (srv w)) < 65536 ->
  exists k w', (forall fuel, (k <= fuel)%nat -> run react (setup_connection E fuel) w = Done (Good tt) w')
  /\ idle w' /\ In (uid (cl w')) (g_entered (abs (srv w'))) /\ g_behind (abs (srv w')) = g_behind (abs (srv w)).
Proof.
  intros Sv St react E known setup shown nonce info B abs w t H. exact (@middle_open Sv St react E known setup shown nonce info B abs H w t).
Qed.
Print Assumptions C77_relay_partial.
(** there is a server in the middle for every service *)
Theorem C77_server : forall St (B : service St) shown, proper B -> proper_server shown ->
  conforming (ref_server (middle shown B)) (middle shown B) (fun s => s).
Proof. intros St B shown H1 H2. apply ref_conforming, middle_proper; assumption. Qed.
Print Assumptions C77_server.
(** A server that would negotiate NTLMv2; a client with an account; between them a server that
    wants NTLMv1 and passes that on (or passes NTLMv2 on): afterwards it can delete files. *)
Theorem C77_refuted : forall extended, exists w' id,
  run (ref_server (middle (setup1 extended) (G1 true))) (setup_connection env1 60) (start1 user1) = Done (Good tt) w'
  /\ G1 true _ id (ODelete 5 [97]) (srv (start1 user1)) = (inr 0xc0000022, srv (start1 user1))
  /\ fst (G1 true _ id (ODelete 5 [97]) (srv w')) = inl tt.
Proof.
  intros extended. destruct extended.
  - eexists. exists 100. split; [runs|]. split; vm_compute; reflexivity.
  - eexists. exists 100. split; [runs|]. split; vm_compute; reflexivity.
Qed.
Print Assumptions C77_refuted.

(** C78: the requests after a login depend on the login only through the user id, the message
    number and whether the server has announced unicode; nothing else of what the server announced
    matters, and no request is ever signed. *)
Theorem C78_announced_partial : forall Sv (react : Sv -> bytes -> reaction Sv) Sv' (react' : Sv' -> bytes -> reaction Sv') E t t' w w1 s id last v v1 s' last',
  login react E t w s id last w1 -> login react' E t' v s' id last' v1 ->
  N.testbit (s_capabilities s) 2 = N.testbit (s_capabilities s') 2 -> mid (cl w1) = mid (cl v1) ->
  forall n R (c : call R), request (exec E n c) (cl w1) = request (exec E n c) (cl v1).
Proof. exact announced_unused. Qed.
Print Assumptions C78_announced_partial.
Theorem C78_unsigned_partial : forall E fuel R (c : call R) st f, typed_client st -> typed c -> request (exec E fuel c) st = Some f ->
  exists p, f = session_message p /\ ~ signed p.
Proof. exact unsigned. Qed.
Print Assumptions C78_unsigned_partial.
(** A server that requires signatures and does not announce the NT commands gets an unsigned
    NT_CREATE_ANDX. *)
Definition announcing (mode caps size : N) : bytes :=
  session_message (message 0x72 0 0 (le 2 0 ++ le 1 mode ++ le 2 50 ++ le 2 1 ++ le 4 size ++ le 4 65536 ++ le 4 0 ++ le 4 caps
    ++ le 8 0 ++ le 2 0 ++ [x08]) [x01; x02; x03; x04; x05; x06; x07; x08]).
Definition visiting (answers : list bytes) : world cifs (list bytes) := mk_world (mk_cifs default_auth 1024 true 0 0) answers [] Open [].
Theorem C78_refuted : exists w w1 s w2 p,
  run script (exec (env0 true) 400 Negotiate) w = Done (Good s) w1 /\ has_nt_commands s = false /\ requires_signatures s = true
  /\ run script (setup_connection (env0 true) 400) w = Done (Good tt) w2
  /\ request (exec (env0 true) 400 (OpenFile share0 [97])) (cl w2) = Some (session_message p)
  /\ bytes_at p 4 1 = Some [xa2] /\ ~ signed p.
Proof.
  exists (visiting [announcing 0x0f 4 4356; set_up 0 1 []]). eexists _, _, _.
  exists (match request (exec (env0 true) 400 (OpenFile share0 [97])) (mk_cifs default_auth 4356 true 7 2) with Some f => skipn 4 f | None => [] end).
  split; [runs|]. split; [reflexivity|]. split; [reflexivity|]. split; [runs|]. split; [vm_compute; reflexivity|].
  split; [reflexivity|]. intros [H|(flags & H1 & H2)].
  - apply H. reflexivity.
  - vm_compute in H1. injection H1 as <-. vm_compute in H2. discriminate H2.
Qed.
Print Assumptions C78_refuted.
(** example for the first theorem: two logins, at servers that differ in all announcements but
    unicode, and the same request afterwards *)
Definition later (answers : list bytes) : option bytes :=
  match run script (setup_connection (env0 true) 400) (visiting answers) with
  | Done (Good _) w => request (exec (env0 true) 400 (Delete share0 [97])) (cl w)
  | _ => None
  end.
Example C78_logins : forall mode caps size, (mode, caps, size) = (0x0f, 4, 4356) \/ (mode, caps, size) = (0x03, 0x7c, 70000) ->
  exists s id last w', login script (env0 true) 0 (visiting [announcing mode caps size; set_up 0 1 []]) s id last w' /\ mid (cl w') = 2.
Proof.
  intros mode caps size H.
  assert (K : exists w', run script (setup_connection (env0 true) 400) (visiting [announcing mode caps size; set_up 0 1 []]) = Done (Good tt) w'
    /\ mid (cl w') = 2).
  { destruct H as [H|H]; injection H as -> -> ->; (eexists; split; [runs|reflexivity]). }
  destruct K as (w' & K & Hm).
  destruct (proj1 (C41_login _ script (env0 true) 0 (visiting [announcing mode caps size; set_up 0 1 []]) w' ltac:(repeat split) ltac:(repeat split; vm_compute; discriminate))
    (ex_intro _ 400%nat K)) as (s & id & last & L).
  exists s, id, last, w'. split; [exact L|exact Hm].
Qed.
Example C78_same : later [announcing 0x0f 4 4356; set_up 0 1 []] = later [announcing 0x03 0x7c 70000; set_up 0 1 []]
  /\ exists f, later [announcing 0x0f 4 4356; set_up 0 1 []] = Some f.
Proof. split; [runs|]. eexists. runs. Qed.
Example C78_unsigned_ex : typed_client client0 /\ typed (Delete share0 [97]) /\ exists f, request (exec (env0 true) 0 (Delete share0 [97])) client0 = Some f.
Proof. split; [vm_compute; auto|]. split; [split; reflexivity|]. eexists. vm_compute. reflexivity. Qed.

(** C79: every request reserves as much memory as the server has announced as its buffer size;
    after a successful open, whatever calls are made. *)
Theorem C79_reserved_partial : forall Sv (react : Sv -> bytes -> reaction Sv) E t w s id last w', login react E t w s id last w' ->
  forall fuel A (p : flow A), Flow.user p -> reserved (cl (final (run react (interp E fuel p) w'))) = s_max_buffer_size s.
Proof. exact login_reserved. Qed.
Print Assumptions C79_reserved_partial.
(** Requests have at most 65618 bytes (C13); here 4 GB are reserved for each. *)
Theorem C79_refuted : exists w w',
  run script (setup_connection (env0 true) 400) w = Done (Good tt) w' /\ reserved (cl w') = 4294967295.
Proof. exists (visiting [announcing 0x03 4 4294967295; set_up 0 1 []]). eexists. split; [runs|]. reflexivity. Qed.
Print Assumptions C79_refuted.
