(** * Properties of download (C28-C31) and termination (C61) *)
From Verif Require Import Base Text Win Errors Info Common Reply Ntlm Prog Client Spec SpecReply SpecCrash
  Api SpecCall Flow Sample CallFacts AnswerFacts LoopFacts DownloadFacts EndFacts DrainFacts.
Open Scope N_scope.

(** sample replies to open (file of [size] bytes), read and close *)
Definition opened_reply (mid size : N) : bytes := session_message (message 0xa2 0 mid (open_words size) []).
Definition read_reply (mid : N) (v : bytes) : bytes := session_message (message 0x2e 0 mid (read_words (len v)) v).
Definition closed_reply (mid : N) : bytes := session_message (message 0x04 0 mid [] []).
Definition file_handle (size : N) : handle := mk_handle 5 9 0 1 0 0 0 0 0 0 size 0 false.

(** C28: [serves h content P] says: the server answers each read at an offset below the
    size with some non-empty part of the content starting there ([P o w]: the state of
    the world when everything before [o] was read).  Then download returns the content;
    it sends the open, reads at the offsets where the previous chunk ended, all below the
    size, and a close of this handle. *)
Theorem C28_exact : forall Sv (react : Sv -> bytes -> reaction Sv) E fuel s path w w1 p rest h content (P : N -> world cifs Sv -> Prop),
  answered react E fuel (OpenFile s path) w w1 p rest -> (length (rx w1) < fuel)%nat -> handle_of p h ->
  h_size h = len content -> (length content < fuel)%nat ->
  P 0 (leaving w1 rest) -> serves react E fuel h content P ->
  (forall w', P (len content) w' -> exists w2 p2 rest2, answered react E fuel (Close h) w' w2 p2 rest2
     /\ (length (rx w2) < fuel)%nat /\ plain_reply p2) ->
  exists w' fo fs fc, run react (download E fuel s path) w = Done (Good content) w'
   /\ tx w' = tx w ++ [fo] ++ fs ++ [fc]
   /\ request (exec E fuel (OpenFile s path)) (cl w) = Some fo
   /\ (exists chunks, concat chunks = content /\ read_frames E fuel h 0 chunks fs)
   /\ exists st, request (exec E fuel (Close h)) st = Some fc.
Proof. exact download_exact. Qed.
Print Assumptions C28_exact.

Definition client1 := next_client client0.
Definition client2 := next_client client1.
Definition client3 := next_client client2.
Example C28_example : match run script (download (env0 true) 1000 share0 [97])
    (world0 [opened_reply 3 5; read_reply 4 [x68; x65]; read_reply 5 [x6c; x6c; x6f]; closed_reply 6]) with
  | Done (Good v) w => v = [x68; x65; x6c; x6c; x6f] /\ rx w = []
     /\ map Some (tx w) = [request (exec (env0 true) 5 (OpenFile share0 [97])) client0;
          request (exec (env0 true) 5 (ReadAt (file_handle 5) 0)) client1;
          request (exec (env0 true) 5 (ReadAt (file_handle 5) 2)) client2;
          request (exec (env0 true) 5 (Close (file_handle 5))) client3]
  | _ => False
  end.
Proof. vm_compute. auto. Qed.

(** this server meets the hypotheses *)
Example C28_hypotheses : let content := [x68; x65; x6c; x6c; x6f] in
  let w := world0 [opened_reply 3 5; read_reply 4 [x68; x65]; read_reply 5 [x6c; x6c; x6f]; closed_reply 6] in
  exists w1 p rest h (P : N -> world cifs (list bytes) -> Prop),
  answered script (env0 true) 1000 (OpenFile share0 [97]) w w1 p rest /\ (length (rx w1) < 1000)%nat /\ handle_of p h
  /\ h_size h = len content /\ P 0 (leaving w1 rest) /\ serves script (env0 true) 1000 h content P
  /\ (forall w', P (len content) w' -> exists w2 p2 rest2, answered script (env0 true) 1000 (Close h) w' w2 p2 rest2
     /\ (length (rx w2) < 1000)%nat /\ plain_reply p2).
Proof.
  intros content w.
  assert (R1 : exists l1, run script (exec (env0 true) 1000 (OpenFile share0 [97])) w
    = Done (Good (file_handle 5)) (mk_world client1 [read_reply 4 [x68; x65]; read_reply 5 [x6c; x6c; x6f]; closed_reply 6] [] Open l1)
    /\ exists l2, run script (exec (env0 true) 1000 (ReadAt (file_handle 5) 0))
        (mk_world client1 [read_reply 4 [x68; x65]; read_reply 5 [x6c; x6c; x6f]; closed_reply 6] [] Open l1)
      = Done (Good [x68; x65]) (mk_world client2 [read_reply 5 [x6c; x6c; x6f]; closed_reply 6] [] Open l2)
    /\ exists l3, run script (exec (env0 true) 1000 (ReadAt (file_handle 5) 2))
        (mk_world client2 [read_reply 5 [x6c; x6c; x6f]; closed_reply 6] [] Open l2)
      = Done (Good [x6c; x6c; x6f]) (mk_world client3 [closed_reply 6] [] Open l3)
    /\ exists w4, run script (exec (env0 true) 1000 (Close (file_handle 5))) (mk_world client3 [closed_reply 6] [] Open l3)
      = Done (Good tt) w4).
  { eexists. split; [runs|]. eexists. split; [runs|]. eexists. split; [runs|]. eexists. runs. }
  destruct R1 as (l1 & R1 & l2 & R2 & l3 & R3 & w4 & R4).
  destruct (script_answered (I : single_reply (OpenFile share0 [97])) R1 ltac:(apply Nat.ltb_lt; vm_compute; reflexivity)) as (w1 & p & A1 & W1 & D1 & F1).
  destruct (script_answered (I : single_reply (ReadAt (file_handle 5) 0)) R2 ltac:(apply Nat.ltb_lt; vm_compute; reflexivity)) as (w2 & p2 & A2 & W2 & D2 & F2).
  destruct (script_answered (I : single_reply (ReadAt (file_handle 5) 2)) R3 ltac:(apply Nat.ltb_lt; vm_compute; reflexivity)) as (w3 & p3 & A3 & W3 & D3 & F3).
  destruct (script_answered (I : single_reply (Close (file_handle 5))) R4 ltac:(apply Nat.ltb_lt; vm_compute; reflexivity)) as (w5 & p5 & A5 & W5 & D5 & F5).
  eexists w1, p, _, (file_handle 5), (fun o v => 
    (o = 0 /\ v = mk_world client1 [read_reply 4 [x68; x65]; read_reply 5 [x6c; x6c; x6f]; closed_reply 6] [] Open l1)
    \/ (o = 2 /\ v = mk_world client2 [read_reply 5 [x6c; x6c; x6f]; closed_reply 6] [] Open l2)
    \/ (o = 5 /\ v = mk_world client3 [closed_reply 6] [] Open l3)).
  split; [exact A1|]. split; [exact F1|]. split; [exact D1|]. split; [reflexivity|].
  split; [left; rewrite <- W1; auto|]. split.
  - intros o v [[-> ->]|[[-> ->]|[-> ->]]] Ho.
    + exists w2, p2, (rx (mk_world client2 [read_reply 5 [x6c; x6c; x6f]; closed_reply 6] [] Open l2)), [x68; x65].
      split; [exact A2|]. split; [exact F2|]. split; [exact D2|]. split; [discriminate|]. split; [reflexivity|]. right. left. rewrite <- W2. auto.
    + exists w3, p3, (rx (mk_world client3 [closed_reply 6] [] Open l3)), [x6c; x6c; x6f].
      split; [exact A3|]. split; [exact F3|]. split; [exact D3|]. split; [discriminate|]. split; [reflexivity|]. right. right. rewrite <- W3. auto.
    + vm_compute in Ho. discriminate.
  - intros v [[H _]|[[H _]|[_ ->]]]; [discriminate H|discriminate H|]. exists w5, p5, (rx w4). auto.
Qed.

(** C29: download ends against every server that does not answer one of its reads with
    an empty chunk (whatever else it does) ... *)
Theorem C29_feeding_partial : forall Sv (react : Sv -> bytes -> reaction Sv) E s path w,
  feeds react E s path w -> ends react (fun f => download E f s path) w.
Proof. exact download_finishes. Qed.
Print Assumptions C29_feeding_partial.

(** such a server: the one above *)
Example C29_example : 
  feeds script (env0 true) share0 [97] (world0 [opened_reply 3 5; read_reply 4 [x68; x65]; read_reply 5 [x6c; x6c; x6f]; closed_reply 6]).
Proof.
  intros h w1 l w2 Ho Hc.
  assert (R1 : exists w, returns script (fun f => exec (env0 true) f (OpenFile share0 [97]))
    (world0 [opened_reply 3 5; read_reply 4 [x68; x65]; read_reply 5 [x6c; x6c; x6f]; closed_reply 6]) (file_handle 5) w
    /\ exists w', returns script (fun f => exec (env0 true) f (ReadAt (file_handle 5) 0)) w [x68; x65] w'
    /\ exists w'', returns script (fun f => exec (env0 true) f (ReadAt (file_handle 5) 2)) w' [x6c; x6c; x6f] w'').
  { eexists. split; [apply (call_returns (f := 1000)); runs|].
    eexists. split; [apply (call_returns (f := 1000)); runs|]. eexists. apply (call_returns (f := 1000)). runs. }
  destruct R1 as (v & R1 & v1 & R2 & v2 & R3). destruct (returns_unique Ho R1) as [-> ->].
  inversion Hc as [|d x c y m z Hl Hr Hm]; subst; [easy|]. destruct (returns_unique Hr R2) as [-> ->].
  inversion Hm as [|d x c y m' z' Hl' Hr' Hm']; subst; [intros [H|[]]; discriminate|]. destruct (returns_unique Hr' R3) as [-> ->].
  inversion Hm' as [|d x c y m'' z'' Hl'' Hr'' Hm'']; subst; [intros [H|[H|[]]]; discriminate|]. vm_compute in Hl''. discriminate.
Qed.

(** Exactly: it ends if and only if there is a bound on the number of empty chunks among the
    answers to its reads ([chunks h [] w1 l w2]: the reads done so far brought the chunks [l]). *)
Theorem C29_ends_partial : forall Sv (react : Sv -> bytes -> reaction Sv) E s path w,
  ends react (fun f => download E f s path) w
  <-> exists n, forall h w1 l w2, returns react (fun f => exec E f (OpenFile s path)) w h w1 -> chunks react E h [] w1 l w2 ->
        (count_occ (list_eq_dec Byte.byte_eq_dec) l [] <= n)%nat.
Proof. exact download_ends_count. Qed.
Print Assumptions C29_ends_partial.

(** a server that sends one empty chunk among others: not of the first kind, and still bounded *)
Example C29_ends_example : let w := world0 [opened_reply 3 5; read_reply 4 []; read_reply 5 [x68; x65; x6c; x6c; x6f]; closed_reply 6] in
  ~ feeds script (env0 true) share0 [97] w
  /\ forall h w1 l w2, returns script (fun f => exec (env0 true) f (OpenFile share0 [97])) w h w1 -> chunks script (env0 true) h [] w1 l w2 ->
       (count_occ (list_eq_dec Byte.byte_eq_dec) l [] <= 1)%nat.
Proof.
  intros w.
  assert (R1 : exists v, returns script (fun f => exec (env0 true) f (OpenFile share0 [97])) w (file_handle 5) v
    /\ exists w', returns script (fun f => exec (env0 true) f (ReadAt (file_handle 5) 0)) v [] w'
    /\ exists w'', returns script (fun f => exec (env0 true) f (ReadAt (file_handle 5) 0)) w' [x68; x65; x6c; x6c; x6f] w'').
  { eexists. split; [apply (call_returns (f := 1000)); runs|].
    eexists. split; [apply (call_returns (f := 1000)); runs|]. eexists. apply (call_returns (f := 1000)). runs. }
  destruct R1 as (v & R1 & v1 & R2 & v2 & R3). split.
  - intros H. apply (H (file_handle 5) v [[]] v1 R1); [|now left]. eapply ch_more; [reflexivity|exact R2|constructor].
  - intros h w1 l w2 Ho Hc. destruct (returns_unique Ho R1) as [-> ->].
    inversion Hc as [|d x c y m z Hl Hr Hm]; subst; [cbn; lia|]. destruct (returns_unique Hr R2) as [-> ->].
    inversion Hm as [|d x c y m' z' Hl' Hr' Hm']; subst; [cbn; lia|]. destruct (returns_unique Hr' R3) as [-> ->].
    inversion Hm' as [|d x c y m'' z'' Hl'' Hr'' Hm'']; subst; [cbn; lia|]. vm_compute in Hl''. discriminate.
Qed.

(** ... but not against every server: this one sends empty chunks, and for every bound on
    the rounds the loop reaches it, having sent one request per round. *)
Theorem C29_refuted : exists Sv (react : Sv -> bytes -> reaction Sv) w s path, forall fuel, (200 <= fuel)%nat ->
  exists w', run react (download (env0 false) fuel s path) w = Starved w' /\ length (tx w') = (fuel + 1)%nat.
Proof. exact download_diverges. Qed.
Print Assumptions C29_refuted.

(** C30: download returns at least the announced size, and less than 65535 bytes more;
    exactly the size if no chunk is longer than what is missing. *)
Theorem C30_bounds_partial : forall Sv (react : Sv -> bytes -> reaction Sv) E fuel s path w v w',
  run react (download E fuel s path) w = Done (Good v) w' ->
  exists h w1, run react (exec E fuel (OpenFile s path)) w = Done (Good h) w1 /\ h_size h <= len v < h_size h + 65535.
Proof. exact download_size. Qed.
Print Assumptions C30_bounds_partial.

Theorem C30_polite_partial : forall Sv (react : Sv -> bytes -> reaction Sv) E fuel s path w v w',
  run react (download E fuel s path) w = Done (Good v) w' ->
  exists h w1 l w2, run react (exec E fuel (OpenFile s path)) w = Done (Good h) w1 /\ reads react E fuel h [] w1 l w2
   /\ v = concat l /\ run react (exec E fuel (Close h)) w2 = Done (Good tt) w'
   /\ (polite h [] l -> len v = h_size h).
Proof. exact download_parts. Qed.
Print Assumptions C30_polite_partial.

Example C30_example : exists w', run script (download (env0 true) 1000 share0 [97])
    (world0 [opened_reply 3 5; read_reply 4 [x68; x65]; read_reply 5 [x6c; x6c; x6f]; closed_reply 6]) = Done (Good [x68; x65; x6c; x6c; x6f]) w'
  /\ polite (file_handle 5) [] [[x68; x65]; [x6c; x6c; x6f]].
Proof. eexists. split; [runs|]. apply polite_more; [vm_compute; discriminate|]. apply polite_more; [vm_compute; discriminate|]. constructor. Qed.

(** The full statement fails: size 1 announced, 2 bytes returned. *)
Theorem C30_refuted : exists (w w1 w' : world cifs (list bytes)) h v,
  run script (exec (env0 true) 1000 (OpenFile share0 [97])) w = Done (Good h) w1 /\ h_size h = 1
  /\ run script (download (env0 true) 1000 share0 [97]) w = Done (Good v) w' /\ len v = 2.
Proof.
  exists (world0 [opened_reply 3 1; read_reply 4 [x68; x65]; closed_reply 5]). do 4 eexists.
  split; [runs|]. split; [runs|]. split; [runs|]. runs.
Qed.
Print Assumptions C30_refuted.

(** C31: when download returns, either the open failed, or the last thing it did was
    the close of the handle, or a read failed. *)
Theorem C31_closes_partial : forall Sv (react : Sv -> bytes -> reaction Sv) E fuel s path w a w',
  run react (download E fuel s path) w = Done a w' ->
  (exists e, a = Bad e /\ run react (exec E fuel (OpenFile s path)) w = Done (Bad e) w')
  \/ exists h w1 l w2, run react (exec E fuel (OpenFile s path)) w = Done (Good h) w1 /\ reads react E fuel h [] w1 l w2
   /\ ((exists r, run react (exec E fuel (Close h)) w2 = Done r w')
       \/ exists e, a = Bad e /\ run react (exec E fuel (ReadAt h (len (concat l)))) w2 = Done (Bad e) w').
Proof. exact download_closes. Qed.
Print Assumptions C31_closes_partial.

(** a failed open; a failed close *)
Example C31_example : exists w1 w2,
  run script (download (env0 true) 1000 share0 [97]) (world0 [session_message (message 0xa2 0xc0000034 3 [] [])])
  = Done (Bad (ServerError (Known NAME_NOT_FOUND))) w1
  /\ run script (download (env0 true) 1000 share0 [97]) (world0 [opened_reply 3 2; read_reply 4 [x68; x65]; session_message (message 0x04 0xc0000022 5 [] [])])
  = Done (Bad (ServerError (Known ACCESS_DENIED))) w2.
Proof. do 2 eexists. split; [runs|]. runs. Qed.

(** The full statement fails: after a failed read only the open and the read were sent. *)
Theorem C31_refuted : exists (w w1 w' : world cifs (list bytes)) h e,
  run script (exec (env0 true) 1000 (OpenFile share0 [97])) w = Done (Good h) w1
  /\ run script (download (env0 true) 1000 share0 [97]) w = Done (Bad e) w'
  /\ map Some (tx w') = [request (exec (env0 true) 1000 (OpenFile share0 [97])) client0;
       request (exec (env0 true) 1000 (ReadAt h 0)) client1].
Proof.
  exists (world0 [opened_reply 3 5; session_message (message 0x2e 0xc0000022 4 [] []); closed_reply 5]). do 4 eexists.
  split; [runs|]. split; [runs|]. runs.
Qed.
Print Assumptions C31_refuted.

(** C61: every call, and the whole of open, ends: there is one outcome for all
    sufficiently large bounds of the model's loops (returned, waiting for bytes the
    server has not sent, or crashed). *)
Theorem C61_call : forall Sv (react : Sv -> bytes -> reaction Sv) E R (c : call R) w, ends react (fun f => exec E f c) w.
Proof. exact call_ends. Qed.
Print Assumptions C61_call.

Theorem C61_setup : forall Sv (react : Sv -> bytes -> reaction Sv) E w, ends react (fun f => setup_connection E f) w.
Proof. exact setup_ends. Qed.
Print Assumptions C61_setup.

(** A result once reached does not depend on the bound. *)
Theorem C61_stable : forall Sv (react : Sv -> bytes -> reaction Sv) E R (c : call R) w f v w1,
  run react (exec E f c) w = Done (Good v) w1 -> returns react (fun f => exec E f c) w v w1.
Proof. exact call_returns. Qed.
Print Assumptions C61_stable.

(** many keep-alives in front of the reply: the bound is reached, then passed *)
Example C61_example : exists w1 w2,
  run script (exec (env0 true) 4 (Close handle0)) (world0 [keepalives 5 ++ closed_reply 3]) = Starved w1
  /\ run script (exec (env0 true) 10 (Close handle0)) (world0 [keepalives 5 ++ closed_reply 3]) = Done (Good tt) w2.
Proof. do 2 eexists. split; [runs|]. runs. Qed.
