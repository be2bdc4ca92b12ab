(** * The error says what is wrong with a message: C88 *)
From Verif Require Import Base Text Win Errors Info Common Reply Ntlm Prog Client Spec SpecReply SpecMsg
  Api SpecCall Flow Sample InfoFacts CallFacts FindFacts LoopFacts Witness SpecFault FaultFacts.
Open Scope N_scope.

(** C88: whatever the call: after its request, and skipped messages, if a message comes that
    is not a successful reply to it, the call fails with the error that the specification
    gives, having read exactly this message. *)
Theorem C88_message : forall Sv (react : Sv -> bytes -> reaction Sv) E fuel R (c : call R) w f w1 e rest,
  (length (rx w1) < fuel)%nat -> request (exec E fuel c) (cl w) = Some f -> asked react w f w1 ->
  faulty (mid (cl w)) (opcode c) (rx w1) e rest ->
  run react (exec E fuel c) w = Done (Bad e) (leaving w1 rest).
Proof. intros Sv react E. exact (@call_faulty Sv react E). Qed.
Print Assumptions C88_message.
(** A search, when fragments have come already. *)
Theorem C88_search : forall Sv (react : Sv -> bytes -> reaction Sv) E fuel R (c : call R) w f w1 fs tp td b e rest,
  ~ single_reply c -> (length (rx w1) < fuel)%nat -> request (exec E fuel c) (cl w) = Some f -> asked react w f w1 ->
  fragments_arrive (mid (cl w)) (rx w1) fs b -> collecting fs tp td -> faulty (mid (cl w)) 0x32 b e rest ->
  run react (exec E fuel c) w = Done (Bad e) (leaving w1 rest).
Proof. intros Sv react E. exact (@find_faulty Sv react E). Qed.
Print Assumptions C88_search.

(** No whole frame: the call waits while the connection is open, else the error tells whether
    the stream ended in a frame's header (or before it) or in its payload, or how the
    connection broke.  All bytes are used up. *)
Theorem C88_cut : forall Sv (react : Sv -> bytes -> reaction Sv) E fuel R (c : call R) w f w1 s b,
  (length (rx w1) < fuel)%nat -> request (exec E fuel c) (cl w) = Some f -> asked react w f w1 ->
  rx w1 = s ++ b -> skipped (mid (cl w)) s -> incomplete b ->
  match tl w1 with
  | Open => run react (exec E fuel c) w = Blocked (leaving w1 [])
  | t => exists e, cut b t e /\ run react (exec E fuel c) w = Done (Bad (ENetBios e)) (leaving w1 [])
  end.
Proof. intros Sv react E. exact (@call_cut Sv react E). Qed.
Print Assumptions C88_cut.
Theorem C88_search_cut : forall Sv (react : Sv -> bytes -> reaction Sv) E fuel R (c : call R) w f w1 fs tp td r s b,
  ~ single_reply c -> (length (rx w1) < fuel)%nat -> request (exec E fuel c) (cl w) = Some f -> asked react w f w1 ->
  fragments_arrive (mid (cl w)) (rx w1) fs r -> collecting fs tp td ->
  r = s ++ b -> skipped (mid (cl w)) s -> incomplete b ->
  match tl w1 with
  | Open => run react (exec E fuel c) w = Blocked (leaving w1 [])
  | t => exists e, cut b t e /\ run react (exec E fuel c) w = Done (Bad (ENetBios e)) (leaving w1 [])
  end.
Proof. intros Sv react E. exact (@find_cut Sv react E). Qed.
Print Assumptions C88_search_cut.

(** These cases, and the successful reply (whose contents C84 deals with), are all there are,
    whatever bytes arrive; and the error is determined. *)
Theorem C88_cases : forall id want b,
  (exists e rest, faulty id (cmd_code want) b e rest)
  \/ (exists s r, skipped id s /\ incomplete r /\ b = s ++ r)
  \/ exists p st rest, reply_arrives id b p rest /\ smb_reply p (cmd_code want) st id /\ fine_status (cmd_code want) st.
Proof. exact arrival_cases. Qed.
Print Assumptions C88_cases.
Theorem C88_one : forall id want b e rest e' rest',
  faulty id (cmd_code want) b e rest -> faulty id (cmd_code want) b e' rest' -> e = e' /\ rest = rest'.
Proof. exact faulty_fun. Qed.
Print Assumptions C88_one.

(** Each kind, after a keep-alive and a late reply to another request: a frame of type 0x80,
    a keep-alive with contents, a positive session response, a message with the magic number
    of SMB 2, one with an unknown command, a request, a reply with another command, a status,
    a length that is too big. *)
Definition late : bytes := keepalive ++ session_message (close_ok 2).
Lemma late_skipped : skipped 3 late.
Proof. unfold late. apply skip_keepalive. rewrite <- (app_nil_r (session_message _)). 
  eapply skip_reply with (code := 0x04) (status := 0) (m := 2); [hyp|discriminate|vm_compute; discriminate|apply skip_none]. Qed.
Definition wrong (n : N) : bytes * error :=
  match n with
  | 0 => (nb_frame 0x80 [x01], ENetBios (InvalidFrameType 0x80))
  | 1 => (nb_frame 0x85 [x01], ENetBios InvalidFrame)
  | 2 => (nb_frame 0x82 [], ENetBios UnexpectedFrame)
  | 3 => (session_message (xfe :: drop 1 (close_ok 3)), ESmb InvalidHeader)
  | 4 => (session_message (message 0x24 0 3 [] []), ESmb (InvalidCommand 0x24))
  | 5 => (session_message (take 9 (close_ok 3) ++ [x18] ++ drop 10 (close_ok 3)), ESmb ReplyExpected)
  | 6 => (session_message (message 0x2e 0 3 [] []), UnexpectedReply CClose CRead)
  | 7 => (session_message (message 0x04 0xc0000022 3 [] []), ServerError (status_of_code 0xc0000022))
  | _ => ([x00; xff; xff; xff], ENetBios FrameTooBig)
  end.
Lemma wrong_faulty n rest : n < 9 -> faulty 3 (opcode (Close handle0)) (late ++ fst (wrong n) ++ rest) (snd (wrong n)) rest.
Proof.
  intros Hn. apply faulty_skip; [exact late_skipped|].
  assert (K : n = 0 \/ n = 1 \/ n = 2 \/ n = 3 \/ n = 4 \/ n = 5 \/ n = 6 \/ n = 7 \/ n = 8) by lia.
  destruct K as [->|[->|[->|[->|[->|[->|[->|[-> | ->]]]]]]]]; cbn [wrong fst snd].
  - apply faulty_frame; [reflexivity|vm_compute; discriminate|]. apply bad_type. intros H. vm_compute in H. intuition discriminate.
  - apply faulty_frame; [reflexivity|vm_compute; discriminate|]. apply bad_length. left. split; [right; reflexivity|discriminate].
  - apply faulty_frame; [reflexivity|vm_compute; discriminate|]. apply bad_place. right. left. split; reflexivity.
  - apply faulty_header; [vm_compute; discriminate|]. apply bad_magic. right. vm_compute. discriminate.
  - apply faulty_header; [vm_compute; discriminate|]. apply bad_command; [vm_compute; discriminate|reflexivity|reflexivity|].
    intros H. vm_compute in H. intuition discriminate.
  - apply faulty_header; [vm_compute; discriminate|]. eapply bad_direction; [vm_compute; discriminate|reflexivity|reflexivity|vm_compute; tauto|vm_compute; reflexivity|reflexivity].
  - eapply faulty_reply; [vm_compute; discriminate|hyp|reflexivity|discriminate].
  - eapply faulty_status; [vm_compute; discriminate|hyp|]. intros [H|[H _]]; discriminate H.
  - apply faulty_big. reflexivity.
Qed.
Example C88_message_example : forall n, n < 9 -> exists f,
  run script (exec (env0 true) 1000 (Close handle0)) (world0 [late ++ fst (wrong n) ++ session_message (close_ok 3)])
  = Done (Bad (snd (wrong n))) (leaving (mk_world (next_client client0) [] (late ++ fst (wrong n) ++ session_message (close_ok 3)) Open [f])
      (session_message (close_ok 3))).
Proof.
  intros n Hn. eexists. refine (C88_message _ _ _ _ _ (Close handle0) (world0 _) _ (mk_world (next_client client0) [] _ Open [_]) _ _ _ _ _ _).
  - assert (K : n = 0 \/ n = 1 \/ n = 2 \/ n = 3 \/ n = 4 \/ n = 5 \/ n = 6 \/ n = 7 \/ n = 8) by lia.
    destruct K as [->|[->|[->|[->|[->|[->|[->|[-> | ->]]]]]]]]; hyp.
  - hyp.
  - apply asked0.
  - apply wrong_faulty. exact Hn.
Qed.

(** a second fragment with an error status *)
Example C88_search_example : exists f, let g := session_message (message 0x32 0xc0000022 3 [] []) in
  let b := fragment 3 10 132 0 0 (first_block 2 1) (take 70 two) ++ g in
  run script (exec (env0 true) 1000 (FindFirst share0 [42])) (world0 [b])
  = Done (Bad (ServerError (status_of_code 0xc0000022))) (leaving (mk_world (next_client client0) [] b Open [f]) []).
Proof.
  eexists. cbv zeta. refine (C88_search _ _ _ _ _ (FindFirst share0 [42]) (world0 _) _ (mk_world (next_client client0) [] _ Open [_])
    [mk_trans2 (first_block 2 1) 10 0 (take 70 two) 132 0] 10 132 (session_message (message 0x32 0xc0000022 3 [] [])) _ [] _ _ _ _ _ _ _).
  1: hyp. 1: hyp. 1: hyp. 1: hyp. 1: hyp. 1: apply collecting_one; vm_compute; auto.
  rewrite <- (app_nil_r (session_message _)). eapply faulty_status; [vm_compute; discriminate|hyp|]. intros [H|[H _]]; discriminate H.
Qed.

(** a stream that ends in the header, in the payload, that breaks; one that does not end *)
Definition ends (b : bytes) (t : tail) (s : unit) (_ : bytes) : reaction unit := Accept s b t.
Definition fresh : world cifs unit := mk_world client0 tt [] Open [].
Example C88_cut_example : exists f,
  let w t b := leaving (mk_world (next_client client0) tt (late ++ b) t [f]) [] in
  let go t b := run (ends (late ++ b) t) (exec (env0 true) 1000 (Close handle0)) fresh in
  incomplete [x00; x00] /\ incomplete [x00; x00; x00; x02; x41]
  /\ go Closed [x00; x00] = Done (Bad (ENetBios (IoError IoUnexpectedEof))) (w Closed [x00; x00])
  /\ go Closed [x00; x00; x00; x02; x41] = Done (Bad (ENetBios UnexpectedEOF)) (w Closed [x00; x00; x00; x02; x41])
  /\ go (Broken 7) [x00] = Done (Bad (ENetBios (IoError (IoOther 7)))) (w (Broken 7) [x00])
  /\ go Open [x00] = Blocked (w Open [x00]).
Proof.
  eexists. cbv zeta. split; [left; reflexivity|]. split; [right; exists x00, x00, x00, x02, [x41]; split; [reflexivity|]; split; [vm_compute; discriminate|reflexivity]|].
  split; [runs|]. split; [runs|]. split; runs.
Qed.
Example C88_cut_hypotheses : exists f, request (exec (env0 true) 1000 (Close handle0)) (cl fresh) = Some f
  /\ asked (ends (late ++ [x00]) Closed) fresh f (mk_world (next_client client0) tt (late ++ [x00]) Closed [f]).
Proof. eexists. split; [hyp|]. exists tt, (late ++ [x00]), Closed. repeat split. Qed.
