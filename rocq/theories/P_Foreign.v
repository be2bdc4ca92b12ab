(** * Property C94: replies to someone else, requests sent back. *)
From Verif Require Import Base Text Win Errors Common Reply Ntlm Prog Client Spec SpecReply SpecMsg Api SpecCall RunFacts MsgFacts SizeFacts ReqFacts
  Flow FlowFacts Sample SpecForeign ForeignFacts P_Requests.
Open Scope N_scope.

(** C94, the part that holds: a request, of this client or any other, is not taken for a reply: the call fails. *)
Theorem C94_request_partial : forall Sv (react : Sv -> bytes -> reaction Sv) E fuel R (c : call R) w f w1 skip fuel' st' X (d : call X) g rest,
  typed_client st' -> typed d -> request (exec E fuel' d) st' = Some g ->
  (length (rx w1) < fuel)%nat -> request (exec E fuel c) (cl w) = Some f -> asked react w f w1 ->
  rx w1 = skip ++ g ++ rest -> skipped (mid (cl w)) skip ->
  run react (exec E fuel c) w = Done (Bad (ESmb ReplyExpected)) (leaving w1 rest).
Proof. exact request_returned. Qed.
Print Assumptions C94_request_partial.
(** So with a server that sends back what it receives every call fails. *)
Theorem C94_mirror_partial : forall E fuel R (c : call R) (w : world cifs unit) f, typed_client (cl w) -> typed c -> rx w = [] -> tl w = Open ->
  request (exec E fuel c) (cl w) = Some f -> (length f < fuel)%nat ->
  exists w', run mirror_server (exec E fuel c) w = Done (Bad (ESmb ReplyExpected)) w' /\ rx w' = [].
Proof. exact mirror_refused. Qed.
Print Assumptions C94_mirror_partial.
Example C94_mirror_ex : typed_client client0 /\ typed (Umount share0)
  /\ exists w', run mirror_server (exec (env0 true) 100 (Umount share0)) (mk_world client0 tt [] Open []) = Done (Bad (ESmb ReplyExpected)) w'.
Proof. split; [split; vm_compute; reflexivity|]. split; [vm_compute; reflexivity|]. eexists. runs. Qed.

(** What does not hold: process, signature, user and tree named in a reply make no difference: with
    two servers whose messages differ in these only (in the tree or user only if the call does
    not return it) every call ends the same way. *)
Theorem C94_ignored : forall S1 S2 (react1 : S1 -> bytes -> reaction S1) (react2 : S2 -> bytes -> reaction S2) E fuel R (c : call R) w1 w2 f v1 v2,
  cl w1 = cl w2 -> request (exec E fuel c) (cl w1) = Some f -> asked react1 w1 f v1 -> asked react2 w2 f v2 ->
  tl v1 = tl v2 -> readdressed c (rx v1) (rx v2) -> (length (rx v1) < fuel)%nat ->
  same_but_senders c (run react1 (exec E fuel c) w1) (run react2 (exec E fuel c) w2).
Proof. exact call_readdressed. Qed.
Print Assumptions C94_ignored.
(** So a reply for process 0x11111111, tree 0x2222 and user 0x3333 is accepted by process 0xfeff, user 7, that asked about
    tree 5; and an open in tree 5 gives a handle in tree 0x2222. *)
Definition foreign (code id : N) (words data : bytes) : bytes :=
  take 12 (message code 0 id words data) ++ le 2 0x1111 ++ repeat xaa 8 ++ zeros 2
    ++ le 2 0x2222 ++ le 2 0x1111 ++ le 2 0x3333 ++ drop 30 (message code 0 id words data).
Theorem C94_refuted : (exists w', run script (exec (env0 true) 500 (ReadAt handle0 0))
    (world0 [session_message (foreign 0x2e 3 ([xff; x00; x00; x00] ++ zeros 6 ++ le 2 2 ++ zeros 12) [x61; x62])]) = Done (Good [x61; x62]) w')
  /\ sh_tid share0 <> 0x2222 /\ exists h w', run script (exec (env0 true) 500 (OpenFile share0 [97]))
    (world0 [session_message (foreign 0xa2 3 ([xff; x00; x00; x00] ++ zeros 64) [])]) = Done (Good h) w' /\ h_tid h = 0x2222.
Proof. split; [eexists; runs|]. split; [discriminate|]. eexists. eexists. split; [runs|reflexivity]. Qed.
Print Assumptions C94_refuted.
(** the hypotheses of C94_ignored *)
Example C94_ignored_ex : foreign 0x2e 3 (zeros 24) [x61] <> message 0x2e 0 3 (zeros 24) [x61]
  /\ readdressed (ReadAt handle0 0) (session_message (message 0x2e 0 3 (zeros 24) [x61]) ++ []) (session_message (foreign 0x2e 3 (zeros 24) [x61]) ++ [])
  /\ exists f v1 v2, request (exec (env0 true) 500 (ReadAt handle0 0)) client0 = Some f
     /\ asked script (world0 [session_message (message 0x2e 0 3 (zeros 24) [x61])]) f v1
     /\ asked script (world0 [session_message (foreign 0x2e 3 (zeros 24) [x61])]) f v2 /\ tl v1 = tl v2 /\ (length (rx v1) < 500)%nat.
Proof.
  split; [vm_compute; discriminate|]. split.
  - apply re_message; [vm_compute; discriminate| |apply re_rest]. repeat split; cbn [returns_tree returns_user]; discriminate.
  - eexists. eexists (mk_world _ _ _ _ _). eexists (mk_world _ _ _ _ _). split; [runs|].
    split; [do 3 eexists; split; [reflexivity|]; repeat split|]. split; [do 3 eexists; split; [reflexivity|]; repeat split|]. split; [reflexivity|].
    vm_compute. repeat constructor.
Qed.
