(** * Property C123: removing and copying a directory tree over connections that break. *)
From Verif Require Import Base Text Win Errors Common Reply Ntlm Prog Client Spec SpecReply SpecMsg Api SpecCall
  MsgFacts SizeFacts Flow FlowFacts SpecRemote RemoteFacts RefServer RefFacts FileService FileFacts SpecCutoff P_Cutoff SpecHalf HalfFacts
  SpecTree TreeFacts SpecRemoval RemovalFacts Sample P_Remote P_Tree.
Open Scope N_scope.

(** C123: the program of C122 on a connection that may break at any byte: it ends with success, and the
    directory is empty, or with an error of the network.  In both cases nothing has changed but that
    files and directories in this directory may be gone, and the program can be run again on another
    connection. *)
Theorem C123_attempt : forall Sn Sv (net : Sn -> bytes -> reaction Sn) (react : Sv -> bytes -> reaction Sv) inner up tid setup abs E ns m w s,
  unreliable net react inner up -> conforming react (dir_service tid setup) abs -> Forall a_name ns -> short (path_of ns ++ [42]) ->
  usable E up tid m w s -> removable ns (ds_root (abs (inner (srv w)))) m ->
  exists a w', clears net E s ns w a w'
  /\ ds_open (abs (inner (srv w'))) = ds_open (abs (inner (srv w)))
  /\ partly_removed ns (ds_root (abs (inner (srv w)))) (ds_root (abs (inner (srv w'))))
  /\ removable ns (ds_root (abs (inner (srv w')))) m
  /\ ((a = Good tt /\ dir_at (ds_root (abs (inner (srv w')))) ns = Some Nothing) \/ exists e, a = Bad (ENetBios e)).
Proof.
  intros Sn Sv net react inner up tid setup abs E ns m w s H1 H2 H3 H4.
  exact (@attempt tid setup _ _ net react inner up H1 abs H2 E ns H3 H4 m w s).
Qed.
Print Assumptions C123_attempt.
(** Run any number of times on connections that may break: as soon as one of them reports success, the
    directory is empty (and stays so); at any time only things in this directory are gone; every
    failure is one of the network. *)
Theorem C123_attempts : forall Sn Sv (net : Sn -> bytes -> reaction Sn) (react : Sv -> bytes -> reaction Sv) inner up tid setup abs E ns m l st st',
  unreliable net react inner up -> conforming react (dir_service tid setup) abs -> Forall a_name ns -> short (path_of ns ++ [42]) ->
  attempts net E (fun n => abs (inner n)) (usable E up tid m) ns l st st' -> removable ns (ds_root st) m ->
  ds_open st' = ds_open st /\ partly_removed ns (ds_root st) (ds_root st') /\ removable ns (ds_root st') m
  /\ (In (Good tt) l -> dir_at (ds_root st') ns = Some Nothing)
  /\ (forall a, In a l -> a = Good tt \/ exists e, a = Bad (ENetBios e)).
Proof.
  intros Sn Sv net react inner up tid setup abs E ns m l st st' H1 H2 H3 H4.
  exact (@repeated tid setup _ _ net react inner up H1 abs H2 E ns H3 H4 m l st st').
Qed.
Print Assumptions C123_attempts.
(** The program of C121 on such a connection: the whole tree or an error of the network, and nothing
    changes. *)
Theorem C123_copied : forall Sn Sv (net : Sn -> bytes -> reaction Sn) (react : Sv -> bytes -> reaction Sv) inner up tid setup abs E w s ns t,
  unreliable net react inner up -> conforming react (dir_service tid setup) abs ->
  typed_client (cl w) -> idle w -> up (srv w) -> u16 (sh_tid s) -> sh_tid s = tid -> fresh (ds_open (abs (inner (srv w)))) < 65536 ->
  Forall a_name ns -> dir_at (ds_root (abs (inner (srv w)))) ns = Some t -> listable t -> ordinary_tree (path_of ns) t ->
  short (path_of ns ++ [42]) -> room E (cl w) (1 + copy_calls t) ->
  exists k a w', (forall fuel n, (k <= fuel)%nat -> (k <= n)%nat -> run net (copy_tree E fuel n s (path_of ns)) w = Done a w')
    /\ ds_root (abs (inner (srv w'))) = ds_root (abs (inner (srv w)))
    /\ ((a = Good t /\ ds_open (abs (inner (srv w'))) = ds_open (abs (inner (srv w)))) \/ exists e, a = Bad (ENetBios e)).
Proof.
  intros Sn Sv net react inner up tid setup abs E w s ns t H1 H2.
  exact (@copy_cut tid setup _ _ net react inner up H1 abs H2 E w s ns t).
Qed.
Print Assumptions C123_copied.

(** ** example: the tree of C121; the connection breaks 20 bytes into the answer to the sixth call (of 7),
    which deletes a\d\b; what is left is removed on another connection.  A copy is cut off as well. *)
Definition cut_at (k : nat) (j : N) (st : dirs) : world cifs ((nat * N * dirs) + dirs) := mk_world client0 (inl (k, j, st)) [] Open [].
Definition halfway : dirs :=
  mk_dirs (AFile [101] [x31] (ADir [97] (ADir [100] Nothing Nothing) Nothing)) [(3, [[101]])].
Example C123_run :
  (exists w', run (cable (ref_server DS0)) (clear_tree (env0 true) 1000 10 share0 (path_of [[97]])) (cut_at 5 20 dirs0)
     = Done (Bad (ENetBios UnexpectedEOF)) w' /\ server_in (srv w') = halfway)
  /\ (exists w', run (cable (ref_server DS0)) (clear_tree (env0 true) 1000 10 share0 (path_of [[97]])) (cut_at 9 0 halfway)
     = Done (Good tt) w' /\ server_in (srv w') = mk_dirs (AFile [101] [x31] (ADir [97] Nothing Nothing)) [(3, [[101]])])
  /\ (exists w', run (cable (ref_server DS0)) (copy_tree (env0 true) 1000 10 share0 (path_of [[97]])) (cut_at 6 70 dirs0)
     = Done (Bad (ENetBios UnexpectedEOF)) w').
Proof.
  split; [eexists; split; runs|]. split; [eexists; split; runs|]. eexists. runs.
Qed.
(** the hypotheses *)
Example C123_ex : usable (env0 true) plugged 5 8 (cut_at 5 20 dirs0) share0 /\ removable [[97]] (ds_root dirs0) 8
  /\ unreliable (cable (ref_server DS0)) (ref_server DS0) server_in plugged /\ conforming (ref_server DS0) DS0 (fun s => s)
  /\ Forall a_name [[97]] /\ short (path_of [[97]] ++ [42]).
Proof.
  destruct C121_ex as (H1 & H2 & H3 & H4 & H5 & H6 & H7 & H8 & H9 & H10 & H11 & H12 & H13).
  split; [|split; [|split; [apply cable_unreliable|split; [exact H13|split; [exact H6|exact H10]]]]].
  - split; [exact H1|]. split; [split; reflexivity|]. split; [exact I|]. split; [exact H3|]. split; [exact H4|]. intros _. vm_compute. discriminate.
  - exists inner0. split; [exact H7|]. split; [exact H8|]. split; [exact H9|]. cbn [inner0 clear_calls Nat.add]. repeat constructor.
Qed.
Example C123_twice : exists l st', attempts (cable (ref_server DS0)) (env0 true) (fun n => server_in n) (usable (env0 true) plugged 5 8) [[97]] l dirs0 st'
  /\ exists a b, l = [a; b].
Proof.
  destruct C123_ex as (H1 & H2 & H3 & H4 & H5 & H6).
  destruct (C123_attempt _ _ _ _ _ _ _ _ _ _ _ _ _ _ H3 H4 H5 H6 H1 H2) as (a & w1 & K1 & K2 & K3 & K4 & K5).
  assert (H1' : usable (env0 true) plugged 5 8 (cut_at 9 0 (server_in (srv w1))) share0).
  { destruct H1 as (A1 & A2 & A3 & A4 & A5 & A6). split; [exact A1|]. split; [split; reflexivity|]. split; [exact I|]. split; [exact A4|]. split; [exact A5|exact A6]. }
  destruct (C123_attempt _ _ _ _ _ _ _ _ _ _ _ _ _ _ H3 H4 H5 H6 H1' K4) as (b & w2 & L1 & _).
  exists [a; b], (server_in (srv w2)). split; [|now exists a, b].
  refine (at_more _ _ _ _ _ (cut_at 5 20 dirs0) share0 a w1 [b] _ H1 K1 _).
  refine (at_more _ _ _ _ _ (cut_at 9 0 (server_in (srv w1))) share0 b w2 [] _ H1' L1 _). constructor.
Qed.
