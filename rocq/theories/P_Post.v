(** * Property C129: a mailbox is emptied while others put files into it, over connections that break. *)
From Verif Require Import Base Text Win Errors Common Reply Ntlm Prog Client Spec SpecReply SpecMsg Api SpecCall
  MsgFacts SizeFacts Flow FlowFacts SpecRemote RemoteFacts RefServer RefFacts FileService FileFacts SpecCutoff P_Cutoff SpecHalf HalfFacts
  SpecTree TreeFacts SpecRemoval RemovalFacts SpecMove MoveFacts SpecMail MailFacts SpecPost PostFacts Sample P_Remote P_Tree P_Removal P_Mail.
Open Scope N_scope.

(** C129: the program of C128, and before each of its requests others change what is on the server as
    they like, as long as they leave the files in the mailbox alone.  The connection may break at any
    byte.  Every file that was there at the beginning is returned, or it is still there; what is
    returned was there, with this content, when the directory was listed; on success all files that
    were there at the beginning are returned; all errors are those of the network. *)
Theorem C129_once : forall Sn Sv (net : Sn -> bytes -> reaction Sn) (react : Sv -> bytes -> reaction Sv) inner up tid setup abs E ns m w s,
  unreliable net react inner up -> conforming react (with_others (dir_service tid setup)) abs -> Forall a_name ns -> short (path_of ns ++ [42]) ->
  post_ready E up tid (fun n => abs (inner n)) ns m w s ->
  exists got a w', empties net E s ns w (got, a) w'
  /\ (movable ns (ds_root (fst (abs (inner (srv w'))))) m /\ Forall (decent ns m) (snd (abs (inner (srv w')))))
  /\ (forall x d, In (x, d) got -> file_of (ds_root (stirred (abs (inner (srv w))))) (ns ++ [x]) = Some d)
  /\ delivered ns (ds_root (fst (abs (inner (srv w))))) got (ds_root (fst (abs (inner (srv w')))))
  /\ ((a = Good tt /\ ds_open (fst (abs (inner (srv w')))) = ds_open (fst (abs (inner (srv w))))
       /\ forall x d, file_of (ds_root (fst (abs (inner (srv w))))) (ns ++ [x]) = Some d -> In (x, d) got)
      \/ exists e, a = Bad (ENetBios e)).
Proof.
  intros Sn Sv net react inner up tid setup abs E ns m w s H1 H2 H3 H4 Hr.
  pose proof Hr as ((_ & ((_ & _ & _ & Hu & Hs & _) & _)) & _). rewrite Hs in Hu.
  exact (@post_once tid setup _ _ net react inner up H1 abs H2 E ns H3 m s Hu Hs H4 w Hr).
Qed.
Print Assumptions C129_once.

(** Any number of runs, with others at work during them and in between: whatever was in the mailbox at
    the beginning of a run is returned by some run, or it is still there. *)
Theorem C129_often : forall Sn Sv (net : Sn -> bytes -> reaction Sn) (react : Sv -> bytes -> reaction Sv) inner up tid setup abs E ns m seen got l R R',
  unreliable net react inner up -> conforming react (with_others (dir_service tid setup)) abs -> Forall a_name ns -> short (path_of ns ++ [42]) ->
  rounds net E (fun n => fst (abs (inner n))) (post_ready E up tid (fun n => abs (inner n)) ns m) ns seen got l R R' ->
  delivered ns R got R' /\ (forall T, In T seen -> delivered ns T got R')
  /\ (forall a, In a l -> a = Good tt \/ exists e, a = Bad (ENetBios e)).
Proof.
  intros Sn Sv net react inner up tid setup abs E ns m seen got l R R' H1 H2 H3 H4.
  exact (@post_often tid setup _ _ net react inner up H1 abs H2 E ns H3 H4 m seen got l R R').
Qed.
Print Assumptions C129_often.

(** there are servers as in the theorems, and putting a file there is a change as in the theorems *)
Theorem C129_server : forall tid setup, u16 tid -> proper_server setup ->
  conforming (ref_server (with_others (dir_service tid setup))) (with_others (dir_service tid setup)) (fun s => s).
Proof. intros tid setup H1 H2. apply C62_server. apply others_proper. exact (@dirs_proper tid setup H1 H2). Qed.
Print Assumptions C129_server.
Theorem C129_post : forall ns m x d, a_name x -> short (path_of ns ++ x) -> len d < 2 ^ 64 -> decent ns m (post ns m x d).
Proof. exact post_decent. Qed.
Print Assumptions C129_post.

(** ** example: the mailbox of C128.  Before the second request (that opens the first file) another file
    is put there: it is not returned, and it stays.  If the connection breaks within the answer to the
    request that deletes the first file, this one is returned and the rest stays. *)
Definition posts : list (tree -> tree) := [(fun R => R); post [[97]] 40 [103] hi].
Definition post_at (k : nat) (j : N) : world cifs ((nat * N * (dirs * list (tree -> tree))) + (dirs * list (tree -> tree))) :=
  mk_world client0 (inl (k, j, (box mail0, posts))) [] Open [].
Example C129_run :
  (exists w', run (cable (ref_server (with_others DS0))) (empty_box (env0 true) 1000 share0 (path_of [[97]])) (post_at 20 0)
     = Done ([([98], hi); ([102], [x2a])], Good tt) w' /\ fst (server_in (srv w')) = box (AFile [103] hi (ADir [99] Nothing Nothing)))
  /\ (exists w', run (cable (ref_server (with_others DS0))) (empty_box (env0 true) 1000 share0 (path_of [[97]])) (post_at 4 20)
     = Done ([([98], hi)], Bad (ENetBios UnexpectedEOF)) w' /\ fst (server_in (srv w')) = box (AFile [103] hi mail1)).
Proof.
  split; [eexists; split; runs|]. eexists; split; runs.
Qed.
(** the hypotheses *)
Example C129_ex : forall k j, post_ready (env0 true) plugged 5 (fun n => server_in n) [[97]] 40 (post_at k j) share0
  /\ unreliable (cable (ref_server (with_others DS0))) (ref_server (with_others DS0)) server_in plugged
  /\ conforming (ref_server (with_others DS0)) (with_others DS0) (fun s => s)
  /\ Forall a_name [[97]] /\ short (path_of [[97]] ++ [42]).
Proof.
  intros k j. destruct C128_ex as ((H1 & ((A1 & A2 & A3 & A4 & A5 & A6) & A7)) & _ & _ & _ & _ & _ & H6 & H7).
  split; [|split; [apply cable_unreliable|split; [apply C129_server; [reflexivity|repeat split]|split; [exact H6|exact H7]]]].
  split; [split; [exact H1|]|].
  - split; [|exact A7]. split; [exact A1|]. split; [split; reflexivity|]. split; [exact I|]. split; [exact A4|]. split; [exact A5|exact A6].
  - constructor; [intros R HR; split; [exact HR|apply keeps_refl]|]. constructor; [|constructor]. apply C129_post.
    + repeat split; try discriminate; cbn [In]; intuition discriminate.
    + unfold short. vm_compute. discriminate.
    + reflexivity.
Qed.
(** a run of the theorem, and what was in the mailbox *)
Example C129_twice : exists got a R', rounds (cable (ref_server (with_others DS0))) (env0 true) (fun n => fst (server_in n))
    (post_ready (env0 true) plugged 5 (fun n => server_in n) [[97]] 40) [[97]] [ds_root (box mail0)] got [a] (ds_root (box mail0)) R'
  /\ (In ([98], hi) got \/ file_of R' [[97]; [98]] = Some hi).
Proof.
  destruct (C129_ex 4 20) as (H1 & H2 & H3 & H4 & H5).
  destruct (C129_once _ _ _ _ _ _ _ _ _ _ _ _ _ _ H2 H3 H4 H5 H1) as (got & a & w' & K1 & _ & _ & K4 & _).
  exists (got ++ []), a, (ds_root (fst (server_in (srv w')))). split.
  - refine (ro_run _ _ _ _ _ (post_at 4 20) share0 got a w' _ _ _ _ H1 K1 _). constructor.
  - rewrite app_nil_r. apply (K4 [98] hi). reflexivity.
Qed.
(** The program of C127 is not safe here: a file that is put there between the copy and the removal is lost. *)
Example C129_contrast : exists w', run (cable (ref_server (with_others DS0))) (move_tree (env0 true) 1000 10 share0 (path_of [[97]]) None)
    (mk_world client0 (inl (40%nat, 0, (box mail0, repeat (fun R => R) 8 ++ [post [[97]] 40 [103] hi]))) [] Open [])
  = Done (Some mail0, Good tt) w' /\ fst (server_in (srv w')) = box Nothing.
Proof. eexists; split; runs. Qed.
