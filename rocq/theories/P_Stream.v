(** * Properties of the stream: C01-C04 *)
From Verif Require Import Base Text Win Errors Info Common Reply Ntlm Prog Client Spec SpecReply SpecCrash
  Api SpecCall Sample BaseFacts RunFacts SegFacts SpecFacts InfoFacts ClientFacts MsgFacts CallFacts FindFacts NoiseFacts StreamFacts.
Open Scope N_scope.

(** C01: a message given to the transport is written as one session message (and
    refused, without writing, if it is longer than a frame can be). *)
Theorem C01_send : forall Sv (react : Sv -> bytes -> reaction Sv) p (w : world cifs Sv), len p <= NB_MAX ->
  exists o, run react (send_message p) w = o /\
  match react (srv w) (session_message p) with
  | Accept s inc t => exists b t', deliver (tl w) (rx w) inc t = (b, t')
      /\ o = Done (Good tt) (mk_world (cl w) s b t' (tx w ++ [session_message p]))
  | Refuse s n e inc t => exists b t', deliver (tl w) (rx w) inc t = (b, t')
      /\ o = Done (Bad (ENetBios (IoError (IoOther e)))) (mk_world (cl w) s b t' (tx w ++ [take n (session_message p)]))
  end.
Proof. exact send_message_ok. Qed.
Print Assumptions C01_send.
Theorem C01_send_big : forall Sv (react : Sv -> bytes -> reaction Sv) p (w : world cifs Sv), NB_MAX < len p ->
  run react (send_message p) w = Done (Bad (ENetBios InvalidFrame)) w.
Proof. exact send_message_big. Qed.
Print Assumptions C01_send_big.
(** A session message is received with exactly its payload, the rest stays unread. *)
Theorem C01_receive : forall Sv (react : Sv -> bytes -> reaction Sv) n p rest fuel (w : world cifs Sv), len p <= NB_MAX ->
  rx w = keepalives n ++ session_message p ++ rest -> (n < fuel)%nat ->
  run react (recv_message fuel) w = Done (Good p) (leaving w rest).
Proof. exact recv_message_ok. Qed.
Print Assumptions C01_receive.
(** And nothing else is received. *)
Theorem C01_received : forall Sv (react : Sv -> bytes -> reaction Sv) fuel (w : world cifs Sv) p w',
  run react (recv_message fuel) w = Done (Good p) w' ->
  exists n, len p <= NB_MAX /\ rx w = keepalives n ++ session_message p ++ rx w' /\ w' = leaving w (rx w').
Proof. exact recv_message_inv. Qed.
Print Assumptions C01_received.
(** What a call writes is one session message. *)
Theorem C01_request : forall E fuel st R (c : call R) f, request (exec E fuel c) st = Some f ->
  exists p, f = session_message p /\ len p <= NB_MAX.
Proof. exact request_message. Qed.
Print Assumptions C01_request.
Example C01_example : exists w',
  run script (recv_message 10) (mk_world client0 [] (keepalives 2 ++ session_message [x61; x62] ++ [x63]) Open [])
  = Done (Good [x61; x62]) w' /\ rx w' = [x63].
Proof. eexists. split; [runs|]. reflexivity. Qed.

(** C02: for every program (call, download, list, open), two peers that send the same
    bytes in different segments, and kernels that accept different amounts per write:
    the same result, bytes sent and unread bytes. *)
Theorem C02_segmentation : forall C S A b1 b2 ws1 ws2 (p : prog C A) (w1 w2 : sworld C S),
  same_peer b1 b2 -> same_stream w1 w2 ->
  same_result (srun b1 ws1 p w1) (srun b2 ws2 p w2).
Proof. exact @segmentation. Qed.
Print Assumptions C02_segmentation.
(** The segmented machine has the results of the message level. *)
Theorem C02_refines : forall C S bstep wsize A (p : prog C A) (w : sworld C S) w', flat w w' ->
  flat_outcome C S (srun bstep wsize p w) (run (react_of bstep) p w').
Proof. exact @srun_run. Qed.
Print Assumptions C02_refines.
(** a peer that answers a close (45 bytes) with the given segments *)
Definition closer (segs : list bytes) (n : nat) (_ : byte) : (nat * list bytes * tail) + (nat * N) :=
  inl (S n, if Nat.eqb n 44 then segs else [], Open).
Definition cut (b : bytes) : list bytes := map (fun x => [x]) b.
Example C02_example :
  let answer := session_message (message 0x04 0 3 [] []) in
  let start := mk_sworld client0 0%nat [] Open [] in
  same_peer (closer [answer]) (closer (cut answer))
  /\ (exists w, srun (closer [answer]) (fun _ b => length b) (exec (env0 true) 200 (Close handle0)) start = SDone (Good tt) w)
  /\ (exists w, srun (closer (cut answer)) (fun _ _ => 1%nat) (exec (env0 true) 200 (Close handle0)) start = SDone (Good tt) w).
Proof.
  split; [|split; eexists; runs]. intros s x. cbn [closer]. split; [reflexivity|]. split; [|reflexivity].
  destruct (Nat.eqb s 44); reflexivity.
Qed.

(** C03: whatever the schedule in which the bytes in flight arrive ([l]: how many
    arrive before each poll), a call that finishes has the answer, and leaves the
    stream, as if everything had been there from the start; ... *)
Theorem C03_finished : forall C Sv (react : Sv -> bytes -> reaction Sv) A (p : prog C A) (w w' : pworld C Sv) l a,
  schedule react l (poll react p w) = (Finished a, w') -> run react p (settle w) = Done a (settle w').
Proof. exact schedule_finished. Qed.
Print Assumptions C03_finished.
Theorem C03_panicking : forall C Sv (react : Sv -> bytes -> reaction Sv) A (p : prog C A) (w w' : pworld C Sv) l,
  schedule react l (poll react p w) = (Panicking, w') -> run react p (settle w) = Crashed (settle w').
Proof. exact schedule_panicking. Qed.
Print Assumptions C03_panicking.
(** ... and if it still waits when everything has arrived, it waits in this case too. *)
Theorem C03_pending : forall C Sv (react : Sv -> bytes -> reaction Sv) A (p : prog C A) (w w' : pworld C Sv) l n acc k,
  schedule react l (poll react p w) = (Pending n acc k, w') -> inflight w' = [] ->
  exists v, run react p (settle w) = Blocked v.
Proof. exact schedule_pending. Qed.
Print Assumptions C03_pending.
Example C03_example : exists w1 w2,
  let answers := [session_message (message 0x04 0 3 [] [])] in
  let w := mk_pworld client0 answers [] [] Open [] in
  schedule script [1; 2; 4; 30; 100] (poll script (exec (env0 true) 200 (Close handle0)) w) = (Finished (Good tt), w1)
  /\ schedule script [1000] (poll script (exec (env0 true) 200 (Close handle0)) w) = (Finished (Good tt), w2)
  /\ match fst (schedule script [1; 2; 4] (poll script (exec (env0 true) 200 (Close handle0)) w)) with
     | Pending n acc _ => n = 35 /\ len acc = 3
     | _ => False
     end.
Proof. do 2 eexists. split; [runs|]. split; [runs|]. vm_compute. now split. Qed.

(** C04: any number of keep-alives in front of what the server sends changes neither
    the answer nor the state of client and stream afterwards; for every call. *)
Theorem C04_before : forall S1 S2 (react1 : S1 -> bytes -> reaction S1) (react2 : S2 -> bytes -> reaction S2)
  E fuel R (c : call R) w1 w2 f v1 v2 n,
  cl w1 = cl w2 -> request (exec E fuel c) (cl w1) = Some f ->
  asked react1 w1 f v1 -> asked react2 w2 f v2 ->
  tl v1 = tl v2 -> rx v2 = keepalives n ++ rx v1 ->
  (length (rx v1) < fuel)%nat -> (length (rx v2) < fuel)%nat ->
  same_end (run react1 (exec E fuel c) w1) (run react2 (exec E fuel c) w2).
Proof. exact call_keepalives. Qed.
Print Assumptions C04_before.
(** Keep-alives between any two frames (of a fragmented reply): the same answer. *)
Theorem C04_between : forall S1 S2 (react1 : S1 -> bytes -> reaction S1) (react2 : S2 -> bytes -> reaction S2)
  E fuel R (c : call R) w1 w2 f v1 v2,
  cl w1 = cl w2 -> request (exec E fuel c) (cl w1) = Some f ->
  asked react1 w1 f v1 -> asked react2 w2 f v2 ->
  tl v1 = tl v2 -> kept_alive (rx v1) (rx v2) ->
  (length (rx v1) < fuel)%nat -> (length (rx v2) < fuel)%nat ->
  same_but_inserted (mid (cl w1)) (run react1 (exec E fuel c) w1) (run react2 (exec E fuel c) w2).
Proof. exact call_kept_alive. Qed.
Print Assumptions C04_between.
Example C04_example :
  let one := session_message (message 0x04 0 3 [] []) in
  kept_alive (one ++ one) (keepalives 3 ++ one ++ keepalives 2 ++ one) /\
  exists w, run script (exec (env0 true) 200 (Close handle0)) (world0 [keepalives 3 ++ one]) = Done (Good tt) w.
Proof.
  split; [|eexists; runs]. unfold keepalives. cbn [repeat concat]. rewrite <- !app_assoc.
  do 3 apply kept_here. apply kept_frame; [easy|]. do 2 apply kept_here. constructor.
Qed.
