(** * Handles: C106 *)
From Verif Require Import Base Text Win Errors Common Reply Ntlm Prog Client Spec SpecReply SpecMsg Api SpecCall
  MsgFacts SizeFacts Flow SpecRemote RemoteFacts RefServer RefFacts FileService FileFacts SpecHandle HandleFacts Sample P_Remote.
Open Scope N_scope.

(** C106: reading a handle gives what is in the file it was opened for.  On the connection it was
    opened on this is so after any program that neither closes it nor deletes the file.  (Missing:
    other connections.) *)
Theorem C106_partial : forall tree setup accepts Sv (react : Sv -> bytes -> reaction Sv) abs, conforming react (file_service tree setup accepts) abs ->
  forall E w s path d, typed_client (cl w) -> idle w -> sound_files (abs (srv w)) ->
  contents (fs_files (abs (srv w))) (sh_tid s) (backslashes path) = Some d -> fs_next (abs (srv w)) < 65536 ->
  u16 (sh_tid s) -> is_str path -> fits_request (use_unicode (cl w)) (OpenFile s path) -> len d < 2 ^ 64 -> room E (cl w) 1 ->
  exists k h w1, (forall fuel, (k <= fuel)%nat -> run react (exec E fuel (OpenFile s path)) w = Done (Good h) w1)
    /\ idle w1 /\ typed_client (cl w1)
    /\ forall A (f : flow A) n a c' st' o, leaves (sh_tid s) (backslashes path) (h_fid h) f ->
       local (file_service tree setup accepts) f (cl w1) (abs (srv w1)) n a c' st' -> room E (cl w) (2 + n) -> o < 2 ^ 64 ->
       exists k' w2 w3, forall fuel, (k' <= fuel)%nat -> run react (interp E fuel f) w1 = Done a w2
         /\ run react (exec E fuel (ReadAt h o)) w2 = Done (Good (take 65534 (drop o d))) w3.
Proof. exact handle_reads. Qed.
Print Assumptions C106_partial.
(** example: another file is opened and deleted, the first one opened again, closed by its new
    handle *)
Definition busy : flow unit :=
  FCall (OpenFile share0 [100; 47; 98]) (fun _ => FCall (Delete share0 [100; 47; 98]) (fun _ =>
  FCall (OpenFile share0 [97]) (fun _ => FCall (Close (the_handle 5 3 5)) (fun r => FRet r)))).
Example C106_example : typed_client (cl remote0) /\ idle remote0 /\ sound_files (srv remote0)
  /\ contents (fs_files (srv remote0)) (sh_tid share0) (backslashes [97]) = Some [x68; x65; x6c; x6c; x6f]
  /\ fs_next (srv remote0) < 65536 /\ u16 (sh_tid share0) /\ is_str [97] /\ fits_request (use_unicode (cl remote0)) (OpenFile share0 [97])
  /\ room (env0 true) (cl remote0) (2 + 4) /\ leaves (sh_tid share0) (backslashes [97]) 1 busy
  /\ exists a c' st', local FS0 busy (next_client client0) (mk_files (fs_files files0) [(1, (5, [97]))] 2) 4 a c' st' /\ fs_open st' = [(2, (5, [100; 92; 98])); (1, (5, [97]))].
Proof.
  split; [split; vm_compute; reflexivity|]. split; [split; reflexivity|]. split; [constructor|]. split; [reflexivity|]. split; [reflexivity|].
  split; [reflexivity|]. split; [vm_compute; auto|]. split; [reflexivity|]. split; [intros _; vm_compute; discriminate|]. split.
  { cbn [busy leaves spoils]. split; [tauto|]. intros _. split; [intros [_ H]; vm_compute in H; discriminate H|]. intros _.
    split; [tauto|]. intros _. split; [cbn; discriminate|]. intros _. exact I. }
  eexists. eexists. eexists. split.
  - eapply l_call; [split; vm_compute; auto|exact I|reflexivity|vm_compute; reflexivity|].
    eapply l_call; [split; vm_compute; auto|exact I|reflexivity|vm_compute; reflexivity|].
    eapply l_call; [split; vm_compute; auto|exact I|reflexivity|vm_compute; reflexivity|].
    eapply l_call; [split; vm_compute; auto|exact I|exact I|vm_compute; reflexivity|]. apply l_ret.
  - reflexivity.
Qed.

(** On the wire a handle is a tree id and a file id, and nothing else: *)
Theorem C106_ids : forall E fuel R (c c' : call R), alike R c c' -> exec E fuel c = exec E fuel c'.
Proof. exact alike_same. Qed.
Print Assumptions C106_ids.
Example C106_ids_example : alike bytes (ReadAt (the_handle 5 1 5) 3) (ReadAt (mk_handle 5 1 2 0 9 9 9 9 0x10 7 0 1 true) 3).
Proof. constructor. now split. Qed.

(** so a handle used on another connection leads to another file there: the one of "a" (which holds
    "hello" on both) to "d\b", opened by someone else. *)
Theorem C106_refuted : exists h h' w1 w2 w3,
  conforming (ref_server FS0) FS0 (fun s => s)
  /\ run (ref_server FS0) (exec (env0 true) 1000 (OpenFile share0 [97])) remote0 = Done (Good h) w1
  /\ run (ref_server FS0) (exec (env0 true) 1000 (OpenFile share0 [100; 47; 98])) remote0 = Done (Good h') w2
  /\ contents (fs_files (srv w2)) 5 [97] = Some [x68; x65; x6c; x6c; x6f]
  /\ run (ref_server FS0) (exec (env0 true) 1000 (ReadAt h 0)) w2 = Done (Good (repeat x2a 70)) w3.
Proof.
  eexists. eexists. eexists. eexists. eexists. split; [exact FS0_conforming|]. split; [runs|]. split; [runs|]. split; [runs|]. runs.
Qed.
Print Assumptions C106_refuted.
