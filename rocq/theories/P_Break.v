(** * Property C81: messages the server sends on its own account *)
From Verif Require Import Base Text Win Errors Common Reply Ntlm Prog Client Spec SpecReply SpecMsg Api SpecCall Flow FlowFacts Sample
  MsgFacts CallFacts SizeFacts RunFacts WrapFacts Witness SpecBreak BreakFacts.
Open Scope N_scope.

(** C81: no request asks for an opportunistic lock, so that a server has no reason to ask for one
    back. *)
Theorem C81_no_oplock : forall E fuel st R (c : call R) f, typed_client st -> typed c -> request (exec E fuel c) st = Some f ->
  exists p words data, f = session_message p /\ smb_parts p words data [] /\ u8_at p 4 = Some (opcode c)
    /\ asks_no_oplock (opcode c) p words.
Proof. exact no_oplock. Qed.
Print Assumptions C81_no_oplock.
Example C81_no_oplock_ex : typed_client client0 /\ typed (OpenFile share0 [97])
  /\ exists f, request (exec (env0 true) 5 (OpenFile share0 [97])) client0 = Some f.
Proof. split; [split; reflexivity|]. split; [split; reflexivity|]. eexists. runs. Qed.

(** The id of such messages, 0xffff, is not used for requests, if arithmetic is checked (partial). *)
Theorem C81_reserved_partial : forall E fuel A (p : flow A) Sv (react : Sv -> bytes -> reaction Sv) w,
  overflow_checks E = true -> mid (cl w) < 65536 ->
  exists l, tx (final (run react (interp E fuel p) w)) = tx w ++ l /\ forall f, In f l -> frame_id f <> Some NOT_A_CALL.
Proof. exact ids_below. Qed.
Print Assumptions C81_reserved_partial.
Example C81_reserved_ex : exists w' f g, run silent (interp (env0 true) 5 (closes 2)) (deaf 65533 []) = Done (Good tt) w'
  /\ tx w' = [f; g] /\ frame_id f = Some 65533 /\ frame_id g = Some 65534.
Proof. do 3 eexists. split; [runs|]. split; [reflexivity|]. split; reflexivity. Qed.
(** Without checks the 65536th request uses it. *)
Theorem C81_reserved_refuted : exists (p : flow unit) fuel w' f, user p
  /\ run silent (interp (env0 false) fuel p) (deaf 0 []) = Done (Good tt) w' /\ In f (tx w') /\ frame_id f = Some NOT_A_CALL.
Proof. exact reserved_used. Qed.
Print Assumptions C81_reserved_refuted.

(** If such a message comes nevertheless it is not passed over like replies to other requests
    (C05): whatever the call, it fails, and its reply is left unread. *)
Theorem C81_break_refuted : forall Sv (react : Sv -> bytes -> reaction Sv) E fuel R (c : call R) w f w1 skip p rest,
  (length (rx w1) < fuel)%nat -> request (exec E fuel c) (cl w) = Some f -> asked react w f w1 ->
  rx w1 = skip ++ session_message p ++ rest -> skipped (mid (cl w)) skip -> oplock_break p ->
  run react (exec E fuel c) w = Done (Bad (ESmb (InvalidCommand 0x24))) (leaving w1 rest).
Proof. intros Sv react E. exact (@break_aborts Sv react E). Qed.
Print Assumptions C81_break_refuted.
(** a break of file 9 *)
Definition break9 : bytes :=
  magic ++ [x24] ++ zeros 4 ++ [x00] ++ zeros 14 ++ le 2 5 ++ zeros 2 ++ zeros 2 ++ le 2 0xffff
  ++ [x08; xff; x00; x00; x00; x09; x00; x02; x00] ++ zeros 8 ++ zeros 2.
Example C81_break_ex : oplock_break break9
  /\ (exists w', run script (exec (env0 true) 200 (Close handle0)) (world0 [session_message (close_ok 3)]) = Done (Good tt) w')
  /\ exists w', run script (exec (env0 true) 200 (Close handle0)) (world0 [session_message break9 ++ session_message (close_ok 3)])
     = Done (Bad (ESmb (InvalidCommand 0x24))) w' /\ rx w' = session_message (close_ok 3).
Proof.
  split; [|split].
  - repeat split; try reflexivity; try (vm_compute; discriminate). exists 0. split; reflexivity.
  - eexists. runs.
  - eexists. split; runs.
Qed.
