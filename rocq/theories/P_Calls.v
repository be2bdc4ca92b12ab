(** * Properties of whole calls: C05-C07, C49-C51 *)
From Verif Require Import Base Text Win Errors Info Common Reply Ntlm Prog Client Spec SpecReply SpecCrash
  Api SpecCall Sample SpecFacts InfoFacts ClientFacts MsgFacts ReplyFacts CallFacts FindFacts NoiseFacts LeaveFacts Witness.
Open Scope N_scope.

(** C05: inserting replies to other requests (and keep-alives) between the frames of
    what the server sends changes neither the answer of the call nor, up to such
    messages, what is left unread.  For every call and any two servers. *)
Theorem C05_foreign_replies : forall S1 S2 (react1 : S1 -> bytes -> reaction S1) (react2 : S2 -> bytes -> reaction S2)
  E fuel R (c : call R) w1 w2 f v1 v2,
  cl w1 = cl w2 -> request (exec E fuel c) (cl w1) = Some f ->
  asked react1 w1 f v1 -> asked react2 w2 f v2 ->
  tl v1 = tl v2 -> inserted (mid (cl w1)) (rx v1) (rx v2) ->
  (length (rx v1) < fuel)%nat -> (length (rx v2) < fuel)%nat ->
  same_but_inserted (mid (cl w1)) (run react1 (exec E fuel c) w1) (run react2 (exec E fuel c) w2).
Proof. exact call_inserted. Qed.
Print Assumptions C05_foreign_replies.

(** a close that is answered, with and without a stale reply and a keep-alive in front *)
Example C05_example :
  inserted 3 (session_message (close_ok 3)) (stale ++ session_message (close_ok 3))
  /\ run script (exec (env0 true) 200 (Close handle0)) (world0 [session_message (close_ok 3)])
     = Done (Good tt) (mk_world (next_client client0) [] [] Open
         [match request (exec (env0 true) 200 (Close handle0)) client0 with Some f => f | None => [] end])
  /\ run script (exec (env0 true) 200 (Close handle0)) (world0 [stale ++ session_message (close_ok 3)])
     = Done (Good tt) (mk_world (next_client client0) [] [] Open
         [match request (exec (env0 true) 200 (Close handle0)) client0 with Some f => f | None => [] end]).
Proof.
  split; [|split; reflexivity]. apply ins_skip; [|constructor].
  unfold stale. eapply skip_reply with (code := 0x2e) (status := 0xc0000001) (m := 77); [|easy|easy|].
  - repeat split; try reflexivity; try easy; [cbn; tauto|]. exists 0x98. now split.
  - rewrite <- (app_nil_r keepalive). constructor. constructor.
Qed.

(** C06: a call answered by one reply succeeds only if, after nothing but keep-alives
    and replies to other requests, the server sent the reply to this very request
    (its id, its command code, reply flag, magic) with an accepted status; and the
    value is the one this reply encodes. *)
Theorem C06_single : forall Sv (react : Sv -> bytes -> reaction Sv) E fuel R (c : call R) w v w',
  single_reply c -> run react (exec E fuel c) w = Done (Good v) w' ->
  exists f w1 p st, request (exec E fuel c) (cl w) = Some f /\ asked react w f w1
   /\ reply_arrives (mid (cl w)) (rx w1) p (rx w') /\ smb_reply p (opcode c) st (mid (cl w)) /\ op_status c st
   /\ decodes c p v /\ w' = leaving w1 (rx w').
Proof. exact single_good. Qed.
Print Assumptions C06_single.

(** The searches: every fragment is such a message, with status SUCCESS, and the value
    is encoded by the blocks the fragments make up. *)
Theorem C06_search : forall Sv (react : Sv -> bytes -> reaction Sv) E fuel R (c : call R) w v w',
  ~ single_reply c -> run react (exec E fuel c) w = Done (Good v) w' ->
  exists f w1 fs a b, request (exec E fuel c) (cl w) = Some f /\ asked react w f w1
   /\ fragments_arrive (mid (cl w)) (rx w1) fs (rx w') /\ split_of fs a b /\ last_completes fs (len a) (len b)
   /\ found_in c a b v /\ w' = leaving w1 (rx w').
Proof. exact find_good. Qed.
Print Assumptions C06_search.

(** Conversely such a reply makes the call succeed. *)
Theorem C06_converse : forall Sv (react : Sv -> bytes -> reaction Sv) E fuel R (c : call R) w f w1 p st rest v,
  single_reply c -> (length (rx w1) < fuel)%nat ->
  request (exec E fuel c) (cl w) = Some f -> asked react w f w1 ->
  reply_arrives (mid (cl w)) (rx w1) p rest -> smb_reply p (opcode c) st (mid (cl w)) -> op_status c st ->
  decodes c p v -> run react (exec E fuel c) w = Done (Good v) (leaving w1 rest).
Proof. exact single_complete. Qed.
Print Assumptions C06_converse.

Example C06_example : exists w', 
  run script (exec (env0 true) 500 (ReadAt handle0 0))
    (world0 [session_message (message 0x2e 0 3 ([xff; x00; x00; x00] ++ zeros 6 ++ le 2 2 ++ zeros 12) [x00; x61; x62])])
  = Done (Good [x61; x62]) w'.
Proof. eexists. runs. Qed.

(** the searches; a fragment of another search comes first *)
Example C06_search_example : exists w', run script (exec (env0 true) 1000 (FindFirst share0 [42]))
    (world0 [fragment 2 10 132 0 0 (first_block 1 1) [] ++ fragment 3 10 132 0 0 (first_block 2 1) two])
  = Done (Good (mk_found 77 true [info [97]; info [98]])) w'.
Proof. eexists. runs. Qed.
(** the hypotheses of the converse, behind a stale reply *)
Definition read_two : bytes := message 0x2e 0 3 ([xff; x00; x00; x00] ++ zeros 6 ++ le 2 2 ++ zeros 12) [x00; x61; x62].
Example C06_converse_example : exists f,
  run script (exec (env0 true) 500 (ReadAt handle0 0)) (world0 [stale ++ session_message read_two ++ [x99]])
  = Done (Good [x61; x62]) (leaving (mk_world (next_client client0) [] (stale ++ session_message read_two ++ [x99]) Open [f]) [x99]).
Proof.
  eexists. refine (C06_converse _ _ _ _ _ (ReadAt handle0 0) _ _ _ read_two 0 _ _ _ _ _ _ _ _ _ _). 1: hyp. 1: hyp. 1: hyp. 1: hyp. 1: cbn [rx]; hyp. 1: hyp. 1: hyp.
  apply (@read_ok (info_default CRead)); [vm_compute; discriminate|vm_compute; reflexivity].
Qed.

(** C07: a matching reply with any other status gives exactly this status, whatever
    else the reply contains.  (What [status_of_code] makes of a status: C07_names.) *)
Theorem C07_single : forall Sv (react : Sv -> bytes -> reaction Sv) E fuel R (c : call R) w f w1 p st rest,
  single_reply c -> (length (rx w1) < fuel)%nat ->
  request (exec E fuel c) (cl w) = Some f -> asked react w f w1 ->
  reply_arrives (mid (cl w)) (rx w1) p rest -> smb_reply p (opcode c) st (mid (cl w)) -> ~ op_status c st ->
  run react (exec E fuel c) w = Done (Bad (ServerError (status_of_code st))) (leaving w1 rest).
Proof. exact single_server_error. Qed.
Print Assumptions C07_single.

(** ... and in any fragment of a search that is still incomplete. *)
Theorem C07_search : forall Sv (react : Sv -> bytes -> reaction Sv) E fuel R (c : call R) w f w1 fs tp td b p st rest,
  ~ single_reply c -> (length (rx w1) < fuel)%nat ->
  request (exec E fuel c) (cl w) = Some f -> asked react w f w1 ->
  fragments_arrive (mid (cl w)) (rx w1) fs b -> collecting fs tp td ->
  reply_arrives (mid (cl w)) b p rest -> smb_reply p 0x32 st (mid (cl w)) -> st <> 0 ->
  run react (exec E fuel c) w = Done (Bad (ServerError (status_of_code st))) (leaving w1 rest).
Proof. exact find_server_error. Qed.
Print Assumptions C07_search.

(** Known statuses are reported by name, others by value. *)
Theorem C07_names : forall st, match status_of_code st with
  | Known s => nt_code s = st
  | Unknown v => v = st /\ forall s, nt_code s <> st
  end.
Proof. exact status_names. Qed.
Print Assumptions C07_names.

(** The names are those of [MS-ERREF] 2.3.1 / [MS-CIFS] 2.2.2.4. *)
Theorem C07_meaning : forall code name, In (code, name) status_meaning -> status_of_code code = Known name.
Proof. exact status_meanings. Qed.
Print Assumptions C07_meaning.

Example C07_example : exists w' w'',
  run script (exec (env0 true) 200 (OpenFile share0 [97]))
    (world0 [session_message (message 0xa2 0xc0000034 3 [] [])])
  = Done (Bad (ServerError (Known NAME_NOT_FOUND))) w'
  /\ run script (exec (env0 true) 200 (FindFirst share0 [42]))
    (world0 [session_message (message 0x32 0x12345678 3 [] [])])
  = Done (Bad (ServerError (Unknown 0x12345678))) w''.
Proof. do 2 eexists. split; [runs|]. runs. Qed.

(** the hypotheses of C07_single and C07_search: a refused open; a search refused after a first
    fragment *)
Definition refused (code st : N) : bytes := message code st 3 [] [].
Example C07_single_example : exists f,
  run script (exec (env0 true) 300 (OpenFile share0 [97])) (world0 [stale ++ session_message (refused 0xa2 0xc0000034) ++ []])
  = Done (Bad (ServerError (Known NAME_NOT_FOUND)))
      (leaving (mk_world (next_client client0) [] (stale ++ session_message (refused 0xa2 0xc0000034) ++ []) Open [f]) []).
Proof.
  eexists. refine (C07_single _ _ _ _ _ (OpenFile share0 [97]) _ _ _ _ 0xc0000034 _ _ _ _ _ _ _ _);
    [hyp|hyp|hyp|hyp|cbn [rx]; hyp|hyp|hyp].
Qed.
Example C07_search_example : exists f,
  run script (exec (env0 true) 1000 (FindFirst share0 [42]))
    (world0 [fragment 3 10 132 0 0 (first_block 2 1) (take 66 two) ++ session_message (refused 0x32 0x12345678)])
  = Done (Bad (ServerError (Unknown 0x12345678)))
      (leaving (mk_world (next_client client0) [] (fragment 3 10 132 0 0 (first_block 2 1) (take 66 two) ++ session_message (refused 0x32 0x12345678)) Open [f]) []).
Proof.
  replace (Unknown 0x12345678) with (status_of_code 0x12345678) by (vm_compute; reflexivity).
  eexists. refine (C07_search _ _ _ _ _ (FindFirst share0 [42]) _ _ _ [mk_trans2 (first_block 2 1) 10 0 (take 66 two) 132 0] 10 132
    (session_message (refused 0x32 0x12345678)) (refused 0x32 0x12345678) 0x12345678 _ _ _ _ _ _ _ _ _ _).
  1: hyp. 1: hyp. 1: hyp. 1: hyp. 1: cbn [rx]; hyp. 2: hyp. 2: hyp. 2: discriminate.
  apply collecting_one; vm_compute; auto.
Qed.

(** C49: whatever a complete reply to the request says (status, other command, broken
    body), unless it crashes the client the call ends with the stream positioned right
    behind it, and the rest of the state is as after sending: a next call finds what it
    would find after a success. *)
Theorem C49_position : forall Sv (react : Sv -> bytes -> reaction Sv) E fuel R (c : call R) w f w1 p code st rest,
  single_reply c -> (length (rx w1) < fuel)%nat ->
  request (exec E fuel c) (cl w) = Some f -> asked react w f w1 ->
  reply_arrives (mid (cl w)) (rx w1) p rest -> smb_reply p code st (mid (cl w)) ->
  (exists a, run react (exec E fuel c) w = Done a (leaving w1 rest))
  \/ (code = opcode c /\ op_status c st /\ crashes c p).
Proof. exact single_leaves. Qed.
Print Assumptions C49_position.

(** A search that fails on a message - whatever this says - is positioned right behind it as
    well: unless the message crashes the client or is a fragment after which more is awaited.
    Fragments still to come carry an old id and are skipped by the next call (C05). *)
Theorem C49_search : forall Sv (react : Sv -> bytes -> reaction Sv) E fuel R (c : call R) w f w1 fs tp td b p code st rest,
  ~ single_reply c -> (length (rx w1) < fuel)%nat ->
  request (exec E fuel c) (cl w) = Some f -> asked react w f w1 ->
  fragments_arrive (mid (cl w)) (rx w1) fs b -> collecting fs tp td ->
  reply_arrives (mid (cl w)) b p rest -> smb_reply p code st (mid (cl w)) ->
  (exists a, run react (exec E fuel c) w = Done a (leaving w1 rest))
  \/ code = 0x32 /\ st = 0
     /\ (crash_fragment p
         \/ exists g, fragment_of p g
            /\ ((exists tp' td', collecting (fs ++ [g]) tp' td')
                \/ exists x y, split_of (fs ++ [g]) x y /\ last_completes (fs ++ [g]) (len x) (len y) /\ find_crashes c x y)).
Proof. exact find_leaves. Qed.
Print Assumptions C49_search.

(** In particular behind a fragment that does not agree with those before. *)
Theorem C49_disagreeing : forall Sv (react : Sv -> bytes -> reaction Sv) E fuel R (c : call R) w f w1 fs tp td b p g rest,
  ~ single_reply c -> (length (rx w1) < fuel)%nat ->
  request (exec E fuel c) (cl w) = Some f -> asked react w f w1 ->
  fragments_arrive (mid (cl w)) (rx w1) fs b -> fs <> [] -> collecting fs tp td ->
  reply_arrives (mid (cl w)) b p rest -> smb_reply p 0x32 0 (mid (cl w)) -> fragment_of p g ->
  ~ (f_parameter_total g = tp /\ f_data_total g = td
     /\ distinct (parameter_pieces (fs ++ [g])) /\ distinct (data_pieces (fs ++ [g]))) ->
  exists e, run react (exec E fuel c) w = Done (Bad (ESmb (Reassemble e))) (leaving w1 rest).
Proof. exact find_inconsistent. Qed.
Print Assumptions C49_disagreeing.

Example C49_example : exists w',
  run script (exec (env0 true) 300 (OpenFile share0 [97]))
    (world0 [session_message (message 0xa2 0xc0000034 3 [] []); session_message (close_ok 4)])
  = Done (Bad (ServerError (Known NAME_NOT_FOUND))) w'
  /\ exists w'', run script (exec (env0 true) 300 (Close handle0)) w' = Done (Good tt) w''.
Proof. eexists. split; [runs|]. eexists. runs. Qed.

(** the hypotheses: a reply of another command; two fragments that announce different totals *)
Example C49_position_example : exists f w1, request (exec (env0 true) 300 (OpenFile share0 [97])) client0 = Some f
  /\ asked script (world0 [session_message read_two]) f w1 /\ reply_arrives 3 (rx w1) read_two [] /\ smb_reply read_two 0x2e 0 3
  /\ exists w', run script (exec (env0 true) 300 (OpenFile share0 [97])) (world0 [session_message read_two])
      = Done (Bad (UnexpectedReply CCreate CRead)) w'.
Proof.
  eexists. exists (mk_world (next_client client0) [] (session_message read_two) Open
    [match request (exec (env0 true) 300 (OpenFile share0 [97])) client0 with Some f => f | None => [] end]).
  split; [hyp|]. split; [exists [], (session_message read_two), Open; repeat split|]. split; [hyp|]. split; [hyp|]. eexists. runs.
Qed.
Example C49_disagreeing_example : exists f e,
  run script (exec (env0 true) 1000 (FindFirst share0 [42]))
    (world0 [fragment 3 10 132 0 0 (first_block 2 1) (take 66 two) ++ fragment 3 10 133 10 66 [] (drop 66 two)])
  = Done (Bad (ESmb (Reassemble e)))
      (leaving (mk_world (next_client client0) [] (fragment 3 10 132 0 0 (first_block 2 1) (take 66 two) ++ fragment 3 10 133 10 66 [] (drop 66 two)) Open [f]) []).
Proof.
  eexists. refine (C49_disagreeing _ _ _ _ _ (FindFirst share0 [42]) _ _ _ [mk_trans2 (first_block 2 1) 10 0 (take 66 two) 132 0] 10 132
    (fragment 3 10 133 10 66 [] (drop 66 two)) (fragment_message 3 10 133 10 66 [] (drop 66 two)) (mk_trans2 [] 10 10 (drop 66 two) 133 66)
    _ _ _ _ _ _ _ _ _ _ _ _).
  1: hyp. 1: hyp. 1: hyp. 1: hyp. 1: hyp. 1: discriminate. 1: apply collecting_one; vm_compute; auto. 1: hyp. 1: hyp.
  - apply fragment_meant; vm_compute; reflexivity.
  - intros (_ & H & _). discriminate H.
Qed.

(** after a first fragment of a search another command's reply *)
Example C49_search_example : exists f a,
  run script (exec (env0 true) 1000 (FindFirst share0 [42]))
    (world0 [fragment 3 10 132 0 0 (first_block 2 1) (take 66 two) ++ session_message (close_ok 3)])
  = Done a (leaving (mk_world (next_client client0) [] (fragment 3 10 132 0 0 (first_block 2 1) (take 66 two) ++ session_message (close_ok 3)) Open [f]) []).
Proof.
  eexists. destruct (C49_search _ script (env0 true) 1000%nat _ (FindFirst share0 [42])
    (world0 [fragment 3 10 132 0 0 (first_block 2 1) (take 66 two) ++ session_message (close_ok 3)])
    (match request (exec (env0 true) 1000 (FindFirst share0 [42])) client0 with Some f => f | None => [] end)
    (mk_world (next_client client0) [] (fragment 3 10 132 0 0 (first_block 2 1) (take 66 two) ++ session_message (close_ok 3)) Open
      [match request (exec (env0 true) 1000 (FindFirst share0 [42])) client0 with Some f => f | None => [] end])
    [mk_trans2 (first_block 2 1) 10 0 (take 66 two) 132 0] 10 132
    (session_message (close_ok 3)) (close_ok 3) 0x04 0 []) as [H|[H _]].
  1: hyp. 1: hyp. 1: hyp. 1: hyp. 1: cbn [rx]; hyp. 1: apply collecting_one; vm_compute; auto. 1: hyp. 1: hyp.
  - exact H.
  - discriminate H.
Qed.

(** C50: what happens with a frame that is too big: the call fails, and its payload is
    what the next call will read as frames. *)
Theorem C50_position_partial : forall Sv (react : Sv -> bytes -> reaction Sv) E fuel R (c : call R) w f w1 s t x y z rest,
  single_reply c -> (length (rx w1) < fuel)%nat ->
  request (exec E fuel c) (cl w) = Some f -> asked react w f w1 ->
  skipped (mid (cl w)) s -> NB_MAX < b2n x * 65536 + b2n y * 256 + b2n z ->
  rx w1 = s ++ [t; x; y; z] ++ rest ->
  run react (exec E fuel c) w = Done (Bad (ENetBios FrameTooBig)) (leaving w1 rest).
Proof. exact too_big. Qed.
Print Assumptions C50_position_partial.

Example C50_example : exists f,
  run script (exec (env0 true) 200 (Close handle0)) (world0 [stale ++ [x00; x02; x00; x00] ++ [x99]])
  = Done (Bad (ENetBios FrameTooBig)) (leaving (mk_world (next_client client0) [] (stale ++ [x00; x02; x00; x00] ++ [x99]) Open [f]) [x99]).
Proof.
  eexists. refine (C50_position_partial _ _ _ _ _ (Close handle0) _ _ _ stale x00 x02 x00 x00 [x99] _ _ _ _ _ _ _).
  1: hyp. 1: hyp. 1: hyp. 1: hyp. 1: apply skipped_stale; discriminate. 1: reflexivity. reflexivity.
Qed.

(** The same for a search, which may already have some fragments. *)
Theorem C50_search_partial : forall Sv (react : Sv -> bytes -> reaction Sv) E fuel R (c : call R) w f w1 fs tp td s t x y z rest,
  ~ single_reply c -> (length (rx w1) < fuel)%nat ->
  request (exec E fuel c) (cl w) = Some f -> asked react w f w1 ->
  fragments_arrive (mid (cl w)) (rx w1) fs (s ++ [t; x; y; z] ++ rest) -> collecting fs tp td ->
  skipped (mid (cl w)) s -> NB_MAX < b2n x * 65536 + b2n y * 256 + b2n z ->
  run react (exec E fuel c) w = Done (Bad (ENetBios FrameTooBig)) (leaving w1 rest).
Proof. exact find_too_big. Qed.
Print Assumptions C50_search_partial.

Example C50_search_example : exists f,
  run script (exec (env0 true) 1000 (FindFirst share0 [42]))
    (world0 [fragment 3 10 132 0 0 (first_block 2 1) (take 66 two) ++ [x00; x02; x00; x00] ++ [x99]])
  = Done (Bad (ENetBios FrameTooBig))
      (leaving (mk_world (next_client client0) [] (fragment 3 10 132 0 0 (first_block 2 1) (take 66 two) ++ [x00; x02; x00; x00] ++ [x99]) Open [f]) [x99]).
Proof.
  eexists. refine (C50_search_partial _ _ _ _ _ (FindFirst share0 [42]) _ _ _ [mk_trans2 (first_block 2 1) 10 0 (take 66 two) 132 0] 10 132
    [] x00 x02 x00 x00 [x99] _ _ _ _ _ _ _ _).
  1: hyp. 1: hyp. 1: hyp. 1: hyp. 1: cbn [rx app]; hyp. 1: apply collecting_one; vm_compute; auto. 1: constructor. reflexivity.
Qed.

(** So the property is false: a server sends one frame of 0x20000 bytes whose payload
    starts with what looks like the reply to the next request.  The next call returns
    success although the server never answered it. *)
Theorem C50_refuted : exists (payload : bytes) w1 w2,
  run script (exec (env0 true) 200 (Close handle0)) (world0 [[x00; x02; x00; x00] ++ payload]) = Done (Bad (ENetBios FrameTooBig)) w1
  /\ srv w1 = [] (* no further answers *)
  /\ run script (exec (env0 true) 200 (Close handle0)) w1 = Done (Good tt) w2.
Proof. exists (session_message (close_ok 4)). do 2 eexists. split; [runs|]. split; [runs|]. runs. Qed.
Print Assumptions C50_refuted.

(** C51: a call cancelled while it waits between two frames leaves a usable connection:
    it has consumed only complete messages, and the late reply does not influence the
    next call. *)
Theorem C51_waits_partial : forall Sv (react : Sv -> bytes -> reaction Sv) E fuel R (c : call R) w f w1,
  single_reply c -> (length (rx w1) < fuel)%nat ->
  request (exec E fuel c) (cl w) = Some f -> asked react w f w1 ->
  skipped (mid (cl w)) (rx w1) -> tl w1 = Open ->
  run react (exec E fuel c) w = Blocked (leaving w1 []).
Proof. exact cancel_waits. Qed.
Print Assumptions C51_waits_partial.

(** ... also if it is a search that has got some fragments *)
Theorem C51_search_waits_partial : forall Sv (react : Sv -> bytes -> reaction Sv) E fuel R (c : call R) w f w1 fs tp td b,
  ~ single_reply c -> (length (rx w1) < fuel)%nat ->
  request (exec E fuel c) (cl w) = Some f -> asked react w f w1 ->
  fragments_arrive (mid (cl w)) (rx w1) fs b -> collecting fs tp td ->
  skipped (mid (cl w)) b -> tl w1 = Open ->
  run react (exec E fuel c) w = Blocked (leaving w1 []).
Proof. exact find_waits. Qed.
Print Assumptions C51_search_waits_partial.

(** The reply that comes late, or the late fragments, are skipped by the next call. *)
Theorem C51_late_reply_partial : forall Sv (react : Sv -> bytes -> reaction Sv) E fuel R (c : call R) w f w1 ps b f2 v v',
  mid (cl w) < 65536 -> asked react w f w1 -> tl w1 = Open -> late_replies (mid (cl w)) ps ->
  request (exec E fuel c) (cl w1) = Some f2 ->
  asked react (leaving w1 b) f2 v -> asked react (leaving w1 (concat (map session_message ps) ++ b)) f2 v' ->
  (length (rx v') < fuel)%nat ->
  same_but_inserted (mid (cl w1)) (run react (exec E fuel c) (leaving w1 b))
    (run react (exec E fuel c) (leaving w1 (concat (map session_message ps) ++ b))).
Proof. exact cancel_late. Qed.
Print Assumptions C51_late_reply_partial.

(** Cancelled inside a frame the connection is out of step: after two bytes of the
    reply the call is dropped; the remaining bytes arrive, the server answers the next
    request correctly, but that call fails. *)
Theorem C51_refuted : exists r1 r2 w1 w2 e,
  r1 ++ r2 = session_message (close_ok 3)
  /\ run script (exec (env0 true) 200 (Close handle0)) (world0 [r1; session_message (close_ok 4)]) = Blocked w1
  /\ run script (exec (env0 true) 200 (Close handle0)) (leaving w1 r2) = Done (Bad e) w2.
Proof.
  exists [x00; x00], (drop 2 (session_message (close_ok 3))). do 3 eexists.
  split; [reflexivity|]. split; [runs|]. runs.
Qed.
Print Assumptions C51_refuted.

Example C51_example : exists w1, 
  run script (exec (env0 true) 200 (Notify handle0)) (world0 [keepalive; session_message (close_ok 4)]) = Blocked w1
  /\ exists w2, run script (exec (env0 true) 200 (Close handle0)) (leaving w1 (session_message (message 0xa0 0xc0000120 3 [] [])))
     = Done (Good tt) w2.
Proof. eexists. split; [runs|]. eexists. runs. Qed.
(** the hypotheses of the two theorems: a notification awaited in vain, and its reply coming late *)
Example C51_waits_example : exists f, run script (exec (env0 true) 200 (Notify handle0)) (world0 [stale])
  = Blocked (leaving (mk_world (next_client client0) [] stale Open [f]) []).
Proof.
  eexists. refine (C51_waits_partial _ _ _ _ _ (Notify handle0) _ _ _ _ _ _ _ _ _).
  1: hyp. 1: hyp. 1: hyp. 1: hyp. 1: apply skipped_stale; discriminate. reflexivity.
Qed.
Example C51_search_waits_example : exists f,
  run script (exec (env0 true) 1000 (FindFirst share0 [42]))
    (world0 [fragment 3 10 132 0 0 (first_block 2 1) (take 66 two) ++ stale])
  = Blocked (leaving (mk_world (next_client client0) [] (fragment 3 10 132 0 0 (first_block 2 1) (take 66 two) ++ stale) Open [f]) []).
Proof.
  eexists. refine (C51_search_waits_partial _ _ _ _ _ (FindFirst share0 [42]) _ _ _ [mk_trans2 (first_block 2 1) 10 0 (take 66 two) 132 0] 10 132
    stale _ _ _ _ _ _ _ _).
  1: hyp. 1: hyp. 1: hyp. 1: hyp. 1: cbn [rx]; hyp. 1: apply collecting_one; vm_compute; auto. 1: apply skipped_stale; discriminate. reflexivity.
Qed.
(** two late messages *)
Definition late_two : list bytes := [message 0xa0 0xc0000120 3 [] []; message 0xa0 0 3 [] []].
Example C51_late_example : exists f f2 v v', let w := world0 [[]; session_message (close_ok 4)] in
  let w1 := mk_world (next_client client0) [session_message (close_ok 4)] [] Open [f] in
  let late := concat (map session_message late_two) in
  asked script w f w1 /\ request (exec (env0 true) 200 (Close handle0)) (cl w1) = Some f2
  /\ asked script (leaving w1 []) f2 v /\ asked script (leaving w1 (late ++ [])) f2 v' /\ (length (rx v') < 200)%nat
  /\ same_but_inserted 4 (run script (exec (env0 true) 200 (Close handle0)) (leaving w1 []))
       (run script (exec (env0 true) 200 (Close handle0)) (leaving w1 (late ++ []))).
Proof.
  exists (match request (exec (env0 true) 200 (Notify handle0)) client0 with Some f => f | None => [] end).
  exists (match request (exec (env0 true) 200 (Close handle0)) (next_client client0) with Some f => f | None => [] end).
  do 2 eexists. cbv zeta. assert (A1 : forall l r rest f g, asked script (leaving (mk_world (next_client client0) (r :: l) [] Open [f]) rest) g
    (mk_world (next_client (next_client client0)) l (rest ++ r) Open [f; g])) by (intros l r rest f g; exists l, r, Open; repeat split).
  split; [apply asked0|]. split; [vm_compute; reflexivity|]. split; [apply A1|]. split; [apply A1|]. split; [hyp|].
  refine (C51_late_reply_partial _ _ _ _ _ (Close handle0) (world0 [[]; session_message (close_ok 4)]) _ _
    late_two _ _ _ _ eq_refl (asked0 _ _ _) eq_refl _ _ (A1 _ _ _ _ _) (A1 _ _ _ _ _) _).
  - constructor; [split; [vm_compute; discriminate|exists 0xa0, 0xc0000120; hyp]|].
    constructor; [split; [vm_compute; discriminate|exists 0xa0, 0; hyp]|constructor].
  - vm_compute. reflexivity.
  - hyp.
Qed.
