(** * Properties C121 and C122: directory trees copied and removed. *)
From Verif Require Import Base Text Win Errors Common Reply Ntlm Prog Client Spec SpecReply SpecMsg Api SpecCall
  MsgFacts SizeFacts Flow FlowFacts SpecRemote RemoteFacts RefServer RefFacts FileService FileFacts SpecTree TreeFacts Sample P_Remote.
Open Scope N_scope.

(** C121: on a server that has directories, a program that lists a directory, downloads every file in it
    and does the same with every directory in it returns exactly what is there, at any depth;
    nothing changes, no file is left open. *)
Theorem C121_copied : forall Sv (react : Sv -> bytes -> reaction Sv) tid setup abs E w s ns t,
  conforming react (dir_service tid setup) abs -> typed_client (cl w) -> idle w -> u16 (sh_tid s) -> sh_tid s = tid ->
  fresh (ds_open (abs (srv w))) < 65536 ->
  Forall a_name ns -> dir_at (ds_root (abs (srv w))) ns = Some t -> listable t -> ordinary_tree (path_of ns) t ->
  short (path_of ns ++ [42]) -> room E (cl w) (1 + copy_calls t) ->
  exists k w', (forall fuel n, (k <= fuel)%nat -> (k <= n)%nat -> run react (copy_tree E fuel n s (path_of ns)) w = Done (Good t) w')
    /\ idle w' /\ abs (srv w') = abs (srv w).
Proof. intros Sv react tid setup abs E w s ns t H. exact (@tree_copied tid setup _ react abs H E w s ns t). Qed.
Print Assumptions C121_copied.
(** such servers exist *)
Theorem C121_server : forall tid setup, u16 tid -> proper_server setup ->
  conforming (ref_server (dir_service tid setup)) (dir_service tid setup) (fun s => s).
Proof. intros tid setup H1 H2. apply C62_server. exact (@dirs_proper tid setup H1 H2). Qed.
Print Assumptions C121_server.

(** C122: on such a server, a program that deletes every file in a directory and, after it has done the same
    with them, every directory in it leaves this directory empty; every file elsewhere is as before,
    every directory elsewhere is still there and none has appeared. *)
Theorem C122_cleared : forall Sv (react : Sv -> bytes -> reaction Sv) tid setup abs E w s ns t,
  conforming react (dir_service tid setup) abs -> typed_client (cl w) -> idle w -> u16 (sh_tid s) -> sh_tid s = tid ->
  Forall a_name ns -> dir_at (ds_root (abs (srv w))) ns = Some t -> listable t -> ordinary_tree (path_of ns) t ->
  short (path_of ns ++ [42]) -> room E (cl w) (1 + clear_calls t) ->
  exists k w', (forall fuel n, (k <= fuel)%nat -> (k <= n)%nat -> run react (clear_tree E fuel n s (path_of ns)) w = Done (Good tt) w')
    /\ idle w' /\ ds_open (abs (srv w')) = ds_open (abs (srv w))
    /\ dir_at (ds_root (abs (srv w'))) ns = Some Nothing
    /\ (forall p, file_of (ds_root (abs (srv w'))) p = if below ns p then None else file_of (ds_root (abs (srv w))) p)
    /\ (forall p, if below ns p then dir_at (ds_root (abs (srv w'))) p = None
                  else (dir_at (ds_root (abs (srv w'))) p = None <-> dir_at (ds_root (abs (srv w))) p = None)).
Proof. intros Sv react tid setup abs E w s ns t H. exact (@tree_cleared tid setup _ react abs H E w s ns t). Qed.
Print Assumptions C122_cleared.

(** ** example: a/ contains the file b, the empty directory c and the directory d with a file b;
    beside it there is a file e *)
Definition inner0 : tree := AFile [98] [x68; x69] (ADir [99] Nothing (ADir [100] (AFile [98] (repeat x2a 70) Nothing) Nothing)).
Definition root0 : tree := AFile [101] [x31] (ADir [97] inner0 Nothing).
Definition dirs0 : dirs := mk_dirs root0 [(3, [[101]])].
Definition DS0 : service dirs := dir_service 5 setup0.
Definition at_dirs : world cifs dirs := mk_world client0 dirs0 [] Open [].
(** the hypotheses of C121 and C122 *)
Example C121_ex : typed_client (cl at_dirs) /\ idle at_dirs /\ u16 (sh_tid share0) /\ sh_tid share0 = 5
  /\ fresh (ds_open (srv at_dirs)) < 65536 /\ Forall a_name [[97]] /\ dir_at (ds_root (srv at_dirs)) [[97]] = Some inner0
  /\ listable inner0 /\ ordinary_tree (path_of [[97]]) inner0 /\ short (path_of [[97]] ++ [42])
  /\ room (env0 true) (cl at_dirs) (1 + copy_calls inner0) /\ room (env0 true) (cl at_dirs) (1 + clear_calls inner0)
  /\ conforming (ref_server DS0) DS0 (fun s => s).
Proof.
  assert (HN : forall c, In c [97; 98; 99; 100] -> a_name [c]).
  { intros c H. repeat split; try (cbn [In] in H; destruct H as [<-|[<-|[<-|[<-|[]]]]]; discriminate || reflexivity);
      cbn [In] in *; intuition (subst; discriminate). }
  split; [vm_compute; auto|]. split; [split; reflexivity|]. split; [reflexivity|]. split; [reflexivity|]. split; [reflexivity|].
  split; [constructor; [apply HN; cbn; tauto|constructor]|]. split; [reflexivity|]. split; [reflexivity|]. split.
  { assert (HS : forall p, utf16_len p <= 32600 -> short p) by (intros p H; exact H).
    cbn [inner0 ordinary_tree entry_names].
    split; [apply HN; cbn; tauto|]. split; [cbn [In]; intuition discriminate|]. split; [apply HS; vm_compute; discriminate|].
    split; [reflexivity|].
    split; [apply HN; cbn; tauto|]. split; [cbn [In]; intuition discriminate|]. split; [apply HS; vm_compute; discriminate|].
    split; [reflexivity|]. split; [exact I|].
    split; [apply HN; cbn; tauto|]. split; [cbn [In]; tauto|]. split; [apply HS; vm_compute; discriminate|].
    split; [reflexivity|]. split; [|exact I].
    split; [apply HN; cbn; tauto|]. split; [cbn [In]; tauto|]. split; [apply HS; vm_compute; discriminate|].
    split; [reflexivity|exact I]. }
  split; [vm_compute; discriminate|]. split; [intros _; vm_compute; discriminate|]. split; [intros _; vm_compute; discriminate|].
  apply C121_server; [reflexivity|repeat split].
Qed.
Example C121_run : exists w', run (ref_server DS0) (copy_tree (env0 true) 1000 10 share0 (path_of [[97]])) at_dirs = Done (Good inner0) w'
  /\ srv w' = dirs0 /\ length (tx w') = 9%nat.
Proof. eexists. split; [runs|]. split; [runs|]. runs. Qed.
Example C122_run : exists w', run (ref_server DS0) (clear_tree (env0 true) 1000 10 share0 (path_of [[97]])) at_dirs = Done (Good tt) w'
  /\ srv w' = mk_dirs (AFile [101] [x31] (ADir [97] Nothing Nothing)) [(3, [[101]])] /\ length (tx w') = 7%nat.
Proof. eexists. split; [runs|]. split; [runs|]. runs. Qed.
