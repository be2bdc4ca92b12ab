(** * What errors look like to the user: C68, C69 *)
From Coq Require Import String.
From Verif Require Import Base Text Win Errors Info Common Reply Ntlm Prog Client Spec SpecReply SpecCrash
  Api SpecCall Sample Display CallFacts FindFacts DisplayFacts SpecNumber NumberFacts P_Calls Witness.
Open Scope N_scope.

(** C68: errors with the same message are the same error; only the texts of the system's own
    I/O errors are the system's affair. *)
Theorem C68_distinct : forall io_text e f, display io_text e = display io_text f ->
  e = f \/ exists a b, e = ENetBios (IoError a) /\ f = ENetBios (IoError b) /\ io_text a = io_text b.
Proof.
  intros io_text e f H. apply display_inj in H. destruct e as [[a| | | | | |]| | | | |]; try (left; exact H).
  destruct f as [[b| | | | | |]| | | | |]; try (left; exact H). right. exists a, b. auto.
Qed.
Print Assumptions C68_distinct.
(** The message of a refused call tells the status the server sent, all 2^32 of them: the call
    [c] is refused with [st] in the reply, or, if it is a search, in a message after any fragments *)
Definition refused_with {Sv} (react : Sv -> bytes -> reaction Sv) E fuel {R} (c : call R) w (st : N) : Prop :=
  exists f w1 p rest, request (exec E fuel c) (cl w) = Some f /\ asked react w f w1 /\ (length (rx w1) < fuel)%nat
  /\ smb_reply p (opcode c) st (mid (cl w)) /\ ~ op_status c st
  /\ ((single_reply c /\ reply_arrives (mid (cl w)) (rx w1) p rest)
      \/ (~ single_reply c /\ exists fs tp td b, fragments_arrive (mid (cl w)) (rx w1) fs b /\ collecting fs tp td
          /\ reply_arrives (mid (cl w)) b p rest)).
Theorem C68_status : forall io_text Sv (react : Sv -> bytes -> reaction Sv) Sv' (react' : Sv' -> bytes -> reaction Sv') E E' fuel fuel'
    R (c : call R) R' (c' : call R') w v st st' e e' w2 v2,
  refused_with react E fuel c w st -> refused_with react' E' fuel' c' v st' ->
  run react (exec E fuel c) w = Done (Bad e) w2 -> run react' (exec E' fuel' c') v = Done (Bad e') v2 ->
  display io_text e = display io_text e' -> st = st'.
Proof.
  assert (L : forall Sv (react : Sv -> bytes -> reaction Sv) E fuel R (c : call R) w st e w2,
    refused_with react E fuel c w st -> run react (exec E fuel c) w = Done (Bad e) w2 -> e = ServerError (status_of_code st)).
  { intros Sv react E fuel R c w st e w2 (f & w1 & p & rest & H3 & H4 & H2 & H6 & H7 & [[H1 H5]|(H1 & fs & tp & td & b & Hf & Hc & H5)]) Hr.
    - rewrite (C07_single _ react E fuel R c w f w1 p st rest H1 H2 H3 H4 H5 H6 H7) in Hr. injection Hr as <- _. reflexivity.
    - assert (Ho : opcode c = 0x32).
      { destruct c; try (exfalso; apply H1; exact I); reflexivity. }
      rewrite Ho in H6. assert (Hst : st <> 0) by (intros ->; apply H7; left; reflexivity).
      rewrite (C07_search _ react E fuel R c w f w1 fs tp td b p st rest H1 H2 H3 H4 Hf Hc H5 H6 Hst) in Hr.
      injection Hr as <- _. reflexivity. }
  intros io_text Sv react Sv' react' E E' fuel fuel' R c R' c' w v st st' e e' w2 v2 H K Hr Kr Hd.
  rewrite (L _ _ _ _ _ _ _ _ _ _ H Hr), (L _ _ _ _ _ _ _ _ _ _ K Kr) in Hd.
  apply display_inj in Hd. injection Hd as Hd. exact (status_code_inj Hd).
Qed.
Print Assumptions C68_status.
(** a refused open; a search refused after a first fragment *)
Definition cut_search : list bytes := [fragment 3 10 132 0 0 (first_block 2 1) (take 66 two) ++ session_message (refused 0x32 0x12345678)].
Example C68_status_example :
  refused_with script (env0 true) 300 (OpenFile share0 [97]) (world0 [stale ++ session_message (refused 0xa2 0xc0000034) ++ []]) 0xc0000034
  /\ refused_with script (env0 true) 1000 (FindFirst share0 [42]) (world0 cut_search) 0x12345678.
Proof.
  split.
  - exists (match request (exec (env0 true) 300 (OpenFile share0 [97])) client0 with Some f => f | None => [] end).
    eexists. exists (refused 0xa2 0xc0000034), [].
    split; [hyp|]. split; [hyp|]. split; [hyp|]. split; [hyp|]. split; [hyp|]. left. split; [hyp|]. cbn [rx]. hyp.
  - exists (match request (exec (env0 true) 1000 (FindFirst share0 [42])) client0 with Some f => f | None => [] end).
    eexists. exists (refused 0x32 0x12345678), [].
    split; [hyp|]. split; [apply asked0|]. split; [hyp|]. split; [hyp|]. split; [hyp|]. right. split; [hyp|].
    exists [mk_trans2 (first_block 2 1) 10 0 (take 66 two) 132 0], 10, 132, (session_message (refused 0x32 0x12345678)).
    split; [cbn [rx]; hyp|]. split; [apply collecting_one; vm_compute; auto|]. hyp.
Qed.
(** what some of them look like *)
(** Numbers in messages are the numbers meant: a status without name, a NetBIOS code, an
    unknown frame type or command in at least two hexadecimal digits, sizes and offsets in
    decimal ones. *)
Theorem C68_numbers : forall io_text,
  (exists a b, forall st, (exists x, status_of_code st = Known x)
     \/ exists t, display io_text (ServerError (status_of_code st)) = a ++ t ++ b /\ numeral 16 t st /\ 2 <= len t)
  /\ (exists a, forall n, exists t, display io_text (ENetBios (CreateSession n)) = a ++ t /\ numeral 16 t n /\ 2 <= len t)
  /\ (exists a, forall n, exists t, display io_text (ENetBios (InvalidFrameType n)) = a ++ t /\ numeral 16 t n /\ 2 <= len t)
  /\ (exists a, forall n, exists t, display io_text (ESmb (InvalidCommand n)) = a ++ t /\ numeral 16 t n /\ 2 <= len t)
  /\ (exists a b, forall n, exists t, display io_text (ESmb (Reassemble (FragmentTwice n))) = a ++ t ++ b /\ numeral 10 t n)
  /\ forall two, In two [TotalChanged; LengthMismatch; OffsetMismatch] ->
     exists a b, forall n m, exists t u, display io_text (ESmb (Reassemble (two n m))) = a ++ t ++ b ++ u /\ numeral 10 t n /\ numeral 10 u m.
Proof. exact message_numbers. Qed.
Print Assumptions C68_numbers.
Example C68_example io_text :
  display io_text (ServerError (status_of_code 0xc0000022)) = lit "server error: ACCESS_DENIED"
  /\ display io_text (ServerError (status_of_code 0xc0000005)) = lit "server error: Unknown (c0000005)"
  /\ display io_text (ServerError (status_of_code 5)) = lit "server error: Unknown (05)"
  /\ display io_text (UnexpectedReply CTransact CTransact2) = lit "unexpected reply, want: Transact, got: Transact2"
  /\ display io_text (ESmb (Reassemble (OffsetMismatch 10 205)))
     = lit "protocol error: error reassembling transact2 reply: offset mismatch, got: 10, expected: 205"
  /\ display io_text (ENetBios (CreateSession 0x8f)) = lit "NetBios error: can't create NBT session: error code 0x8f".
Proof. repeat split. Qed.

(** C69: no message carries text chosen by the server: whatever it sent, the message is one line
    of printable ASCII. *)
Theorem C69_plain : forall io_text e, (forall x, Forall (fun c => 32 <= c <= 126) (io_text x)) ->
  Forall (fun c => 32 <= c <= 126) (display io_text e).
Proof. exact display_plain. Qed.
Print Assumptions C69_plain.
Example C69_example : Forall (fun c => 32 <= c <= 126) (display (fun _ => lit "broken pipe") (ENetBios (IoError (IoOther 32)))).
Proof. apply C69_plain. intros x. apply plain_check. reflexivity. Qed.
