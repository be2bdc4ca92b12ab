(** * Property C74: listing a directory and downloading everything in it. *)
From Verif Require Import Base Text Win Errors Common Reply Ntlm Prog Client Spec SpecReply SpecMsg Api SpecCall
  MsgFacts SizeFacts Flow FlowFacts SpecRemote RemoteFacts RefServer RefFacts FileService FileFacts SpecMirror MirrorFacts Sample P_Remote.
Open Scope N_scope.

(** C74: on a server that has the files, list followed by a download of every listed name returns
    exactly the files with their contents; no file changes, none is left open. *)
Theorem C74_mirror : forall Sv (react : Sv -> bytes -> reaction Sv) tree setup accepts abs E w s,
  let all := files_in (fs_files (abs (srv w))) (sh_tid s) in
  conforming react (file_service tree setup accepts) abs -> typed_client (cl w) -> idle w -> u16 (sh_tid s) -> sound_files (abs (srv w)) ->
  once (fs_files (abs (srv w))) -> Forall ordinary all ->
  len (write_entries (listing (abs (srv w)) (sh_tid s) [42])) < 65400 ->
  fs_next (abs (srv w)) + len all <= 65536 -> room E (cl w) (mirror_calls all) ->
  exists k w', (forall fuel, (k <= fuel)%nat -> run react (mirror E fuel s) w = Done (Good all) w') /\ idle w'
    /\ abs (srv w') = mk_files (fs_files (abs (srv w))) (fs_open (abs (srv w))) (fs_next (abs (srv w)) + len all).
Proof. intros Sv react tree setup accepts abs E w s all H. exact (@mirror_files tree setup accepts _ react abs H E w s). Qed.
Print Assumptions C74_mirror.
(** example: two files *)
Example C74_ex : typed_client (cl remote0) /\ idle remote0 /\ u16 (sh_tid share0) /\ sound_files (srv remote0) /\ once (fs_files (srv remote0))
  /\ files_in (fs_files (srv remote0)) (sh_tid share0) = [([97], [x68; x65; x6c; x6c; x6f]); ([100; 92; 98], repeat x2a 70)]
  /\ Forall ordinary (files_in (fs_files (srv remote0)) (sh_tid share0))
  /\ len (write_entries (listing (srv remote0) (sh_tid share0) [42])) < 65400
  /\ fs_next (srv remote0) + len (files_in (fs_files (srv remote0)) (sh_tid share0)) <= 65536
  /\ room (env0 true) (cl remote0) (mirror_calls (files_in (fs_files (srv remote0)) (sh_tid share0))).
Proof.
  split; [vm_compute; auto|]. split; [split; reflexivity|]. split; [reflexivity|]. split; [constructor|]. split.
  { repeat constructor; cbn [map fst fs_files In]; intros H; intuition discriminate. }
  split; [reflexivity|]. split.
  { repeat constructor; cbn [fst snd In]; intros H; intuition discriminate. }
  split; [reflexivity|]. split; [vm_compute; discriminate|]. intros _. vm_compute. discriminate.
Qed.
Example C74_run : exists w', run (ref_server FS0) (mirror (env0 true) 1000 share0) remote0
  = Done (Good [([97], [x68; x65; x6c; x6c; x6f]); ([100; 92; 98], repeat x2a 70)]) w'
  /\ srv w' = mk_files (fs_files files0) [] 3 /\ length (tx w') = 7%nat.
Proof. eexists. split; [runs|]. split; [runs|]. runs. Qed.
