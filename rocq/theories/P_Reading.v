(** * Property C93: only delete and rmdir change anything on the server. *)
From Verif Require Import Base Text Win Errors Common Reply Ntlm Prog Client Spec SpecReply SpecMsg Api SpecCall RunFacts MsgFacts
  Flow FlowFacts Sample SpecReading ReadingFacts P_Requests.
Open Scope N_scope.

(** C93: whatever a program does without calling delete and rmdir, and whatever the server answers:
    all frames it sends are requests that change nothing on the server (or beginnings of such
    frames, when the stream fails). *)
Theorem C93_programs : forall Sv (react : Sv -> bytes -> reaction Sv) E A (p : flow A) fuel, reading p -> forall w,
  exists l, tx (final (run react (interp E fuel p) w)) = tx w ++ l /\ Forall harmless_part l.
Proof. exact reading_frames. Qed.
Print Assumptions C93_programs.
(** In particular the login, downloads and lists. *)
Theorem C93_crate : forall Sv (react : Sv -> bytes -> reaction Sv) E fuel, sends_harmless react (setup_connection E fuel)
  /\ (forall s path, sends_harmless react (download E fuel s path)) /\ (forall s pattern, sends_harmless react (list_dir E fuel s pattern)).
Proof. exact crate_harmless. Qed.
Print Assumptions C93_crate.
(** The requests of delete and rmdir are no such requests. *)
Theorem C93_removing : forall E fuel st R (c : call R) f, removes c = true -> request (exec E fuel c) st = Some f -> ~ harmless f.
Proof. exact request_harmful. Qed.
Print Assumptions C93_removing.

(** examples *)
Example C93_reading : reading (download_flow 3 share0 [97]) /\ ~ reading (fcall (Delete share0 [97])).
Proof. split; [apply reading_download|]. intros [H _]. discriminate H. Qed.
Example C93_sent : exists f g, request (exec (env0 true) 5 (OpenFile share0 [97])) client0 = Some f
  /\ request (exec (env0 true) 5 (Delete share0 [97])) client0 = Some g /\ harmless f /\ ~ harmless g.
Proof.
  eexists. eexists. split; [runs|]. split; [runs|]. split.
  - apply (@request_harmless (env0 true) 5 client0 _ (OpenFile share0 [97])); [reflexivity|runs].
  - apply (@request_harmful (env0 true) 5 client0 _ (Delete share0 [97])); [reflexivity|runs].
Qed.
(** a write of the file would not be harmless, nor would be opening it for writing *)
Example C93_write : ~ harmless (session_message (message 0x2f 0 3 (zeros 24) [])).
Proof.
  intros (p & words & data & Hf & _ & Hn). assert (p = message 0x2f 0 3 (zeros 24) []) as -> by exact (eq_sym (f_equal (skipn 4) Hf)).
  unfold changes_nothing in Hn. change (u8_at (message 0x2f 0 3 (zeros 24) []) 4) with (Some 0x2f) in Hn.
  repeat (destruct Hn as [Hn|Hn]; [first [discriminate Hn|destruct Hn as [Hn _]; discriminate Hn]|]). destruct Hn as [Hn _]. discriminate Hn.
Qed.
