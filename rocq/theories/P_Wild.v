(** * Property C89: delete removes one file, the one that was named *)
From Verif Require Import Base Text Win Errors Common Reply Ntlm Prog Client Spec SpecReply SpecMsg Api SpecCall
  MsgFacts SizeFacts Flow FlowFacts SpecRemote RemoteFacts RefServer RefFacts FileService FileFacts Sample SpecWild WildFacts
  P_Remote P_Pool Witness.
Open Scope N_scope.

(** C89: at every server that takes the path as the protocol says (zero-terminated, wildcards in
    the last component), delete succeeds only if the file was there, it removes this file and no
    other, and if it fails it removes no other file either.
    Partial: if the path contains neither NUL nor, in its last component, a wildcard. *)
Theorem C89_one_partial : forall Sv St (react : Sv -> bytes -> reaction Sv) (B : service St) abs has E w s path,
  conforming react B abs -> deletes_files B has -> typed_client (cl w) -> idle w ->
  u16 (sh_tid s) -> is_str path -> fits_request (use_unicode (cl w)) (Delete s path) -> room E (cl w) 1 ->
  ~ In 0 path -> no_wildcard (backslashes path) ->
  exists k a w', (forall fuel, (k <= fuel)%nat -> run react (delete E fuel s path) w = Done a w') /\ idle w'
    /\ (a = Good tt -> has (abs (srv w)) (sh_tid s) (backslashes path)
        /\ forall t q, has (abs (srv w')) t q <-> has (abs (srv w)) t q /\ (t, q) <> (sh_tid s, backslashes path))
    /\ forall t q, (t, q) <> (sh_tid s, backslashes path) -> (has (abs (srv w')) t q <-> has (abs (srv w)) t q).
Proof. intros Sv St react B abs has E w s path H1 H2. exact (@delete_one _ _ react B abs H1 has H2 E w s path). Qed.
Print Assumptions C89_one_partial.

(** What is missing: the code passes on any path, and then all files are gone that it stands for. *)
Theorem C89_all : forall Sv St (react : Sv -> bytes -> reaction Sv) (B : service St) abs has E w s path name,
  conforming react B abs -> deletes_files B has -> typed_client (cl w) -> idle w ->
  u16 (sh_tid s) -> is_str path -> fits_request (use_unicode (cl w)) (Delete s path) -> room E (cl w) 1 ->
  terminated (backslashes path) name ->
  exists k a w', (forall fuel, (k <= fuel)%nat -> run react (delete E fuel s path) w = Done a w') /\ idle w'
    /\ (a = Good tt -> forall q, denotes name q -> ~ has (abs (srv w')) (sh_tid s) q).
Proof. intros Sv St react B abs has E w s path name H1 H2. exact (@delete_all _ _ react B abs H1 has H2 E w s path name). Qed.
Print Assumptions C89_all.

(** such a server, with the files a, b, d\a *)
Definition WS0 : service files := wild_service tree0 setup0 accepts0.
Definition three : files := mk_files [(5, [97], [x31]); (5, [98], [x32]); (5, [100; 92; 97], [x33])] [] 1.
Definition wild0 : world cifs files := mk_world client0 three [] Open [].
Lemma WS0_conforming : conforming (ref_server WS0) WS0 (fun s => s).
Proof. apply ref_conforming, wild_proper. exact FS0_proper. Qed.
Theorem C89_server : deletes_files WS0 has_file.
Proof. exact (wild_deletes tree0 setup0 accepts0). Qed.
Print Assumptions C89_server.

(** No file is called "?", but deleting it succeeds, and a and b are gone; deleting "b" NUL "x"
    deletes b. *)
Theorem C89_wildcard_refuted : exists path w', ~ has_file three 5 (backslashes path)
  /\ run (ref_server WS0) (delete (env0 true) 1000 share0 path) wild0 = Done (Good tt) w'
  /\ has_file three 5 [97] /\ has_file three 5 [98] /\ ~ has_file (srv w') 5 [97] /\ ~ has_file (srv w') 5 [98].
Proof.
  exists [63]. eexists. split; [intros (d & [H|[H|[H|[]]]]); discriminate H|]. split; [runs|].
  split; [exists [x31]; left; reflexivity|]. split; [exists [x32]; right; left; reflexivity|].
  split; intros (d & [H|[]]); discriminate H.
Qed.
Print Assumptions C89_wildcard_refuted.
Theorem C89_nul_refuted : exists path w', In 0 path /\ ~ has_file three 5 (backslashes path)
  /\ run (ref_server WS0) (delete (env0 true) 1000 share0 path) wild0 = Done (Good tt) w'
  /\ has_file three 5 [98] /\ ~ has_file (srv w') 5 [98].
Proof.
  exists [98; 0; 120]. eexists. split; [right; left; reflexivity|]. split; [intros (d & [H|[H|[H|[]]]]); discriminate H|]. split; [runs|].
  split; [exists [x32]; right; left; reflexivity|]. intros (d & [H|[H|[]]]); discriminate H.
Qed.
Print Assumptions C89_nul_refuted.

(** deleting d/a *)
Example C89_one_ex : exists k a w', (forall fuel, (k <= fuel)%nat -> run (ref_server WS0) (delete (env0 true) fuel share0 [100; 47; 97]) wild0 = Done a w') /\ idle w'
    /\ (a = Good tt -> has_file three 5 [100; 92; 97]
        /\ forall t q, has_file (srv w') t q <-> has_file three t q /\ (t, q) <> (5, [100; 92; 97]))
    /\ forall t q, (t, q) <> (5, [100; 92; 97]) -> (has_file (srv w') t q <-> has_file three t q).
Proof.
  apply (C89_one_partial files files (ref_server WS0) WS0 (fun s => s) has_file (env0 true) wild0 share0 [100; 47; 97]); try exact WS0_conforming; try exact C89_server.
  - split; reflexivity.
  - split; reflexivity.
  - reflexivity.
  - reflexivity.
  - reflexivity.
  - intros _. vm_compute. discriminate.
  - intros H. vm_compute in H. intuition discriminate.
  - exists [100; 92], [97]. split; [reflexivity|]. split; [right; exists [100]; reflexivity|].
    split; [|split]; intros H; cbn in H; intuition discriminate.
Qed.
Example C89_one_run : exists w', run (ref_server WS0) (delete (env0 true) 1000 share0 [100; 47; 97]) wild0 = Done (Good tt) w'
  /\ srv w' = mk_files [(5, [97], [x31]); (5, [98], [x32])] [] 1.
Proof. eexists. split; runs. Qed.
(** d\?*a stands for d\ba and d\bca, not for d\a or d\e\a *)
Example C89_denotes : stands_for [100; 92; 63; 42; 97] [100; 92; 98; 97] = true /\ stands_for [100; 92; 63; 42; 97] [100; 92; 98; 99; 97] = true
  /\ stands_for [100; 92; 63; 42; 97] [100; 92; 97] = false /\ stands_for [100; 92; 63; 42; 97] [100; 92; 101; 92; 97] = false.
Proof. repeat split; reflexivity. Qed.
