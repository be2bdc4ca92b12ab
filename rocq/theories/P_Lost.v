(** * A connection that has ended stays lost, and says so: C108 *)
From Coq Require Import Lia.
From Verif Require Import Base BaseFacts Text Win Errors Common Reply Ntlm Prog Client Spec SpecReply SpecCrash SpecNtlm SpecMsg
  Api SpecCall Flow Sample SpecFault SpecBlame SpecLogin SizeFacts SpecWhy SpecFate FateFacts P_Download SpecLost LostFacts.
Open Scope N_scope.

(** C108: on a stream that has ended no call waits; *)
Theorem C108_no_wait : forall Sv (react : Sv -> bytes -> reaction Sv) E R (c : call R) w fuel w',
  lost w -> run react (exec E fuel c) w <> Blocked w'.
Proof. intros Sv react E R c w fuel w' Hl. exact (proj2 (proj2 (run_lost react (exec E fuel c) Hl)) w'). Qed.
Print Assumptions C108_no_wait.
(** whatever the call does, the stream stays ended, and nothing is added to what is unread; *)
Theorem C108_stays : forall Sv (react : Sv -> bytes -> reaction Sv) E R (c : call R) w o,
  lost w -> fate react E c w o -> tl (world_of o) = tl w /\ len (rx (world_of o)) <= len (rx w).
Proof. intros Sv react E R c w o Hl H. destruct (fate_lost Hl H) as (H1 & H2 & _). auto. Qed.
Print Assumptions C108_stays.
(** an answer is one that had arrived before: it uses up a frame with a header. *)
Theorem C108_answers : forall Sv (react : Sv -> bytes -> reaction Sv) E R (c : call R) w v w',
  lost w -> answers react E c w v w' -> len (rx w') + 36 <= len (rx w).
Proof. intros Sv react E R c w v w' Hl H. apply (lost_answers Hl H). Qed.
Print Assumptions C108_answers.
(** So of all the calls of a program, however it reacts to errors, no more are answered than
    replies have arrived; and it does not wait. *)
Theorem C108_program : forall Sv (react : Sv -> bytes -> reaction Sv) E A (f : flow A) fuel w o,
  lost w -> run react (interp E fuel f) w = o -> (forall w', o <> Starved w') ->
  (forall w', o <> Blocked w') /\ tl (world_of o) = tl w
  /\ exists n, carried react E f w n o /\ 36 * n <= len (rx w) /\ (silent w -> n = 0).
Proof. exact lost_program. Qed.
Print Assumptions C108_program.
(** The loops of download and list come to an end: also with the servers of C29 and C65. *)
Theorem C108_download : forall Sv (react : Sv -> bytes -> reaction Sv) E s path w, lost w ->
  exists n o, (forall fuel, (n <= fuel)%nat -> run react (download E fuel s path) w = o) /\ (forall w', o <> Starved w' /\ o <> Blocked w').
Proof. exact lost_download. Qed.
Print Assumptions C108_download.
Theorem C108_list : forall Sv (react : Sv -> bytes -> reaction Sv) E s pattern w, lost w ->
  exists n o, (forall fuel, (n <= fuel)%nat -> run react (list_dir E fuel s pattern) w = o) /\ (forall w', o <> Starved w' /\ o <> Blocked w').
Proof. exact lost_list. Qed.
Print Assumptions C108_list.
(** With no whole frame left, every call fails, for one of three reasons, and leaves the
    connection so: there is no way back. *)
Theorem C108_silent : forall Sv (react : Sv -> bytes -> reaction Sv) E R (c : call R) w,
  silent w -> ~ mid_full E (cl w) -> ~ pattern_window c ->
  exists e w', (exists n, forall fuel, (n <= fuel)%nat -> run react (exec E fuel c) w = Done (Bad e) w')
  /\ cause react E c w e /\ silent w' /\ tl w' = tl w.
Proof. exact silent_call. Qed.
Print Assumptions C108_silent.

(** two replies have arrived, then the peer closed the stream: of three calls, two are
    answered and the third one reports the end *)
Definition three_closes : flow N :=
  FCall (Close handle0) (fun a => FCall (Close handle0) (fun b => FCall (Close handle0) (fun c =>
    FRet (match a, b, c with
          | Good _, Good _, Bad (ENetBios (IoError IoUnexpectedEof)) => Good 1
          | _, _, _ => Good 0 end)))).
Definition two_left : world cifs (list bytes) := mk_world client0 [closed_reply 5] (closed_reply 3 ++ closed_reply 4) Closed [].
Example C108_example : lost two_left /\ exists w', run script (interp (env0 true) 1000 three_closes) two_left = Done (Good 1) w'.
Proof. split; [discriminate|]. eexists. runs. Qed.
Example C108_counted : exists w' n, carried script (env0 true) three_closes two_left n (Done (Good 1) w') /\ n <= 2 /\ len (rx two_left) = 78.
Proof.
  destruct C108_example as (Hl & w' & H). apply C108_program in H; [|exact Hl|discriminate]. destruct H as (_ & _ & n & Hc & Hn & _).
  exists w', n. split; [exact Hc|]. assert (H : len (rx two_left) = 78) by reflexivity. rewrite H in Hn. split; [lia|reflexivity].
Qed.
(** a broken stream with half a header left: C29's server cannot go on, and every call says why *)
Definition half_left : world cifs (list bytes) := mk_world client0 [closed_reply 3] [x00; x00] (Broken 104) [].
Example C108_silent_example : silent half_left
  /\ exists e w', (exists n, forall fuel, (n <= fuel)%nat -> run script (exec (env0 true) fuel (Close handle0)) half_left = Done (Bad e) w')
       /\ cause script (env0 true) (Close handle0) half_left e /\ silent w' /\ tl w' = Broken 104.
Proof.
  assert (Hs : silent half_left) by (split; [discriminate|left; reflexivity]). split; [exact Hs|].
  apply (C108_silent _ script (env0 true) _ (Close handle0) half_left Hs); [intros (_ & H); revert H; cbn; lia|intros []].
Qed.
Example C108_silent_result : exists w', run script (exec (env0 true) 1000 (Close handle0)) half_left = Done (Bad (ENetBios (IoError (IoOther 104)))) w'.
Proof. eexists. runs. Qed.
