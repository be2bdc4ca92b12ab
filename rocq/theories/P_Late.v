(** * Property C99: late replies on long connections. *)
From Verif Require Import Base BaseFacts Text Win Errors Common Reply Ntlm Prog Client Spec SpecReply SpecMsg Api SpecCall
  Flow SpecRemote RefServer RefFacts FileService FileFacts SpecDrop SpecTimeout TimeoutFacts LateFacts Sample P_Remote P_Timeout.
Open Scope N_scope.

(** C99: however long the connection lasts, and however many calls are given up, a late reply is
    mistaken for nothing.  This holds as long as no 65536 calls in a row are given up, although the
    multiplex ids are used again and again: *)
Theorem C99_partial : forall Sv St (react : Sv -> bytes -> reaction Sv) (B : service St) abs E A (p : tprog A) w a w',
  conforming react B abs -> exact_replies react -> typed_client (cl w) -> idle w ->
  sensible B (uid (cl w)) (use_unicode (cl w)) p (abs (srv w)) ->
  steady react E 65535 p w 0 a w' -> tlocal B (uid (cl w)) p (abs (srv w)) a (abs (srv w')).
Proof. intros Sv St react B abs E A p w a w' H H0. exact (@never_mistaken _ _ react B abs H H0 E A p w a w'). Qed.
Print Assumptions C99_partial.
Theorem C99_server : forall St (B : service St), proper B -> exact_replies (ref_server B).
Proof. exact ref_exact. Qed.
Print Assumptions C99_server.

(** A file of five bytes is open.  Its first bytes are asked for 65536 times in vain, then the bytes
    from offset 3 on. *)
Definition greedy : tprog (ans bytes) :=
  vainly (N.to_nat 65536) (ReadAt (the_handle 5 1 5) 0) (TCall (ReadAt (the_handle 5 1 5) 3) TRet).
Definition files1 : files := mk_files (fs_files files0) [(1, (5, [97]))] 2.
Definition remote1 : world cifs files := mk_world client0 files1 [] Open [].

(** The statement is false: the reply to the first of these calls is taken for the reply to the last
    one, which has the same multiplex id (release build). *)
Theorem C99_refuted : exists n w', conforming (ref_server FS0) FS0 (fun s => s) /\ exact_replies (ref_server FS0)
  /\ idle remote1 /\ typed_client (cl remote1) /\ sensible FS0 (uid (cl remote1)) (use_unicode (cl remote1)) greedy (srv remote1)
  /\ times (ref_server FS0) (env0 false) greedy remote1 n (Good [x68; x65; x6c; x6c; x6f]) w'
  /\ (forall a st', tlocal FS0 (uid (cl remote1)) greedy (srv remote1) a st' -> a = Good [x6c; x6f]).
Proof.
  destruct (request (exec (env0 false) 1000 (ReadAt (the_handle 5 1 5) 0)) (cl remote1)) as [f|] eqn:Hf; [|vm_compute in Hf; discriminate].
  pose proof (proj2 (@gives_up _ (ref_server FS0) (env0 false) 1000 _ (ReadAt (the_handle 5 1 5) 0) remote1 f Hf)) as H.
  vm_compute in Hf. injection Hf as <-.
  eexists _, _. split; [exact FS0_conforming|].
  split. { apply C99_server, files_proper.
    - intros p w tid. unfold tree0. destruct (text_eqb p _); [|discriminate]. intros [= <-]. reflexivity.
    - intros u d x id. unfold accepts0. destruct (list_eq_dec _ _ _); [|discriminate]. intros [= <-]. reflexivity.
    - repeat split. }
  split; [split; reflexivity|]. split; [split; reflexivity|]. split; [|split].
  - apply vain_sensible; [reflexivity|repeat split|]. split; [repeat split|exact I].
  - unfold greedy. replace (N.to_nat 65536) with (S (N.to_nat 65535)) by lia. cbn [vainly].
    eapply t_given_up; [apply H; [reflexivity|reflexivity|vm_compute; reflexivity]|].
    apply vain_times with (m := 1%nat); [reflexivity|split; reflexivity|exact I|]. rewrite N2Nat.id.
    eapply t_call with (fuel := 1000%nat); [vm_compute; reflexivity|]. apply t_ret.
  - intros a st' K. apply vain_local in K; [|reflexivity]. destruct K as [-> _]. reflexivity.
Qed.
Print Assumptions C99_refuted.

(** example for C99_partial: the call with the last id, 65535, is given up; the next one has id 0, and
    its own reply *)
Definition client_last : cifs := mk_cifs (auth_of client0) (max_smb_size client0) (use_unicode client0) (uid client0) 65535.
Definition remote_last : world cifs files := mk_world client_last files1 [] Open [].
Definition modest : tprog (ans bytes) :=
  TTry (ReadAt (the_handle 5 1 5) 0) (fun _ => TCall (ReadAt (the_handle 5 1 5) 3) TRet).
Example C99_example : exists w', steady (ref_server FS0) (env0 false) 65535 modest remote_last 0 (Good [x6c; x6f]) w'
  /\ mid (cl w') = 1 /\ sensible FS0 (uid client_last) (use_unicode client_last) modest files1.
Proof.
  destruct (request (exec (env0 false) 1000 (ReadAt (the_handle 5 1 5) 0)) client_last) as [f|] eqn:Hf; [|vm_compute in Hf; discriminate].
  pose proof (proj2 (@gives_up _ (ref_server FS0) (env0 false) 1000 _ (ReadAt (the_handle 5 1 5) 0) remote_last f Hf)) as H.
  vm_compute in Hf. injection Hf as <-. eexists. split; [|split].
  - eapply s_given_up; [apply H; [reflexivity|reflexivity|vm_compute; reflexivity]|reflexivity|].
    eapply s_call with (fuel := 1000%nat); [vm_compute; reflexivity|]. apply s_ret.
  - vm_compute. reflexivity.
  - vm_compute. repeat split.
Qed.
