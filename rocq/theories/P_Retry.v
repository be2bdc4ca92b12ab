(** * Property C98: downloads that are given up and tried again. *)
From Verif Require Import Base Text Win Errors Common Reply Ntlm Prog Client Spec SpecReply SpecMsg Api SpecCall
  Flow SpecRemote RefServer RefFacts FileService FileFacts SpecDrop SpecTimeout TimeoutFacts RetryFacts Sample P_Remote P_Timeout.
Open Scope N_scope.

(** C98: a file is downloaded with a time limit, up to [j] times, until a download is not given up.
    Whatever was given up where - between two messages -, the result is the file, or nothing if all
    were given up; the files are as before; and every download given up leaves at most one handle of
    this file open. *)
Theorem C98_retry : forall tree setup accepts s path d Sv (react : Sv -> bytes -> reaction Sv) abs E w n j m a w',
  conforming react (file_service tree setup accepts) abs -> prompt react -> typed_client (cl w) -> idle w -> sound_files (abs (srv w)) ->
  contents (fs_files (abs (srv w))) (sh_tid s) (backslashes path) = Some d -> fs_next (abs (srv w)) + N.of_nat j <= 65536 ->
  u16 (sh_tid s) -> len d < 2 ^ 64 -> is_str path -> fits_request (use_unicode (cl w)) (OpenFile s path) ->
  mid (cl w) + N.of_nat m <= 65535 -> times react E (retry j (download_flow n s path)) w m a w' ->
  (a = None \/ a = Some (Good d)) /\ fs_files (abs (srv w')) = fs_files (abs (srv w))
  /\ exists left, fs_open (abs (srv w')) = left ++ fs_open (abs (srv w)) /\ (length left <= j)%nat /\ (a <> None -> (length left < j)%nat)
     /\ Forall (fun e => snd e = (sh_tid s, backslashes path)) left.
Proof. exact retry_download. Qed.
Print Assumptions C98_retry.

(** After any number of downloads given up, one that is not gets the file. *)
Theorem C98_again : forall tree setup accepts s path d Sv (react : Sv -> bytes -> reaction Sv) abs E w n j m a w',
  conforming react (file_service tree setup accepts) abs -> prompt react -> typed_client (cl w) -> idle w -> sound_files (abs (srv w)) ->
  contents (fs_files (abs (srv w))) (sh_tid s) (backslashes path) = Some d -> fs_next (abs (srv w)) + N.of_nat j < 65536 ->
  u16 (sh_tid s) -> len d < 2 ^ 64 -> is_str path -> fits_request (use_unicode (cl w)) (OpenFile s path) ->
  mid (cl w) + N.of_nat (m + (2 + pieces (len d) 65534)) <= 65535 -> times react E (retry j (download_flow n s path)) w m a w' ->
  exists k w2, forall fuel, (k <= fuel)%nat -> run react (download E fuel s path) w' = Done (Good d) w2.
Proof. exact retry_again. Qed.
Print Assumptions C98_again.

(** The future of download itself: it is dropped in one of its calls, and if that call is given up
    between two messages, then this is an attempt of the kind considered above. *)
Theorem C98_dropped : forall Sv (react : Sv -> bytes -> reaction Sv) E fuel s path w v, dropped react (download E fuel s path) w v ->
  exists R (c : call R) w1, comes_to react E fuel (download_flow fuel s path) w R c w1 /\ dropped react (exec E fuel c) w1 v
  /\ (given_up react E c w1 v -> exists n, times react E (attempt (download_flow fuel s path) TRet) w n None v).
Proof.
  intros Sv react E fuel s path w v H. destruct (@dropped_download _ react E fuel s path w v H) as (R & c & w1 & H1 & H2). exists R, c, w1.
  split; [exact H1|]. split; [exact H2|]. exact (comes_given_up H1).
Qed.
Print Assumptions C98_dropped.

(** example: the first download is given up while it waits for the answer to its first read; the
    second gets the file; the first one's handle stays open *)
Example C98_example : exists w', times (ref_server FS0) (env0 true) (retry 2 (download_flow 3 share0 [97])) remote0 5
    (Some (Good [x68; x65; x6c; x6c; x6f])) w'
  /\ fs_open (srv w') = [(1, (5, [97]))].
Proof.
  pose (w1 := match run (ref_server FS0) (exec (env0 true) 1000 (OpenFile share0 [97])) remote0 with Done _ w => w | _ => remote0 end).
  pose (rd := ReadAt (the_handle 5 1 5) 0).
  destruct (request (exec (env0 true) 1000 rd) (cl w1)) as [f|] eqn:Hf; [|vm_compute in Hf; discriminate].
  pose proof (proj2 (@gives_up _ (ref_server FS0) (env0 true) 1000 _ rd w1 f Hf)) as H.
  vm_compute in Hf. injection Hf as <-. eexists. split.
  - eapply t_done with (fuel := 1000%nat) (w1 := w1); [vm_compute; reflexivity|].
    eapply t_given_up; [apply H; [reflexivity|reflexivity|vm_compute; reflexivity]|].
    eapply t_done with (fuel := 1000%nat); [vm_compute; reflexivity|].
    eapply t_done with (fuel := 1000%nat); [vm_compute; reflexivity|].
    eapply t_done with (fuel := 1000%nat); [vm_compute; reflexivity|]. apply t_ret.
  - vm_compute. reflexivity.
Qed.
(** what C98 requires of it *)
Example C98_hypotheses : sound_files files0 /\ contents (fs_files files0) 5 [97] = Some [x68; x65; x6c; x6c; x6f]
  /\ fs_next files0 + N.of_nat 2 <= 65536 /\ prompt (ref_server FS0) /\ conforming (ref_server FS0) FS0 (fun s => s).
Proof.
  split; [constructor|]. split; [reflexivity|]. split; [vm_compute; discriminate|]. split; [|exact FS0_conforming].
  apply C96_server, files_proper.
  - intros p w tid. unfold tree0. destruct (text_eqb p _); [|discriminate]. intros [= <-]. reflexivity.
  - intros u d x id. unfold accepts0. destruct (list_eq_dec _ _ _); [|discriminate]. intros [= <-]. reflexivity.
  - repeat split.
Qed.
