(** * Property C130: a mailbox is emptied by whole sessions, over connections that break, while others put files into it. *)
From Verif Require Import Base Text Win Errors Common Reply Ntlm Prog Client Spec SpecReply SpecMsg Api SpecCall SpecLogin SpecAccount
  MsgFacts SizeFacts Flow FlowFacts SpecRemote RemoteFacts RefServer RefFacts FileService FileFacts SpecCutoff P_Cutoff SpecHalf HalfFacts
  SpecTree TreeFacts SpecRemoval RemovalFacts SpecMove MoveFacts SpecMail MailFacts SpecPost PostFacts SpecVisit VisitFacts Sample
  P_Remote P_Tree P_Removal P_Mail P_Post.
Open Scope N_scope.

(** C130: a session on a new connection: login with name and password, mounting the share, listing the
    mailbox, and each file fetched and then deleted.  Before each request others change what is on the
    server as they like, as long as they leave the files in the mailbox alone; the connection may break
    at any byte, also during the login.  Every file that was there at the beginning is returned, or it is
    still there; what is returned was there, with this content, when the directory was listed (by the
    fourth request); on success all files that were there at the beginning are returned; all errors are
    those of the network. *)
Theorem C130_once : forall Sn Sv (net : Sn -> bytes -> reaction Sn) (react : Sv -> bytes -> reaction Sv) inner up tid setup abs E path ns m w,
  unreliable net react inner up -> conforming react (with_others (dir_service tid setup)) abs -> Forall a_name ns -> short (path_of ns ++ [42]) ->
  u16 tid -> takes_logins setup -> at_door E up setup path (fun n => abs (inner n)) ns m w ->
  exists got a w', visits net E path ns w (got, a) w'
  /\ (movable ns (ds_root (fst (abs (inner (srv w'))))) m /\ Forall (decent ns m) (snd (abs (inner (srv w')))))
  /\ (forall x d, In (x, d) got -> file_of (ds_root (stirred (after (after (after (abs (inner (srv w)))))))) (ns ++ [x]) = Some d)
  /\ delivered ns (ds_root (fst (abs (inner (srv w))))) got (ds_root (fst (abs (inner (srv w')))))
  /\ ((a = Good tt /\ ds_open (fst (abs (inner (srv w')))) = ds_open (fst (abs (inner (srv w))))
       /\ forall x d, file_of (ds_root (fst (abs (inner (srv w))))) (ns ++ [x]) = Some d -> In (x, d) got)
      \/ exists e, a = Bad (ENetBios e)).
Proof.
  intros Sn Sv net react inner up tid setup abs E path ns m w H1 H2 H3 H4 H5 H6.
  exact (@visit_once tid setup _ _ net react inner up H1 abs H2 E ns H3 H4 m H5 H6 w path).
Qed.
Print Assumptions C130_once.

(** Any number of sessions, with others at work during them and in between: whatever was in the mailbox
    at the beginning of a session is returned by some session, or it is still there. *)
Theorem C130_often : forall Sn Sv (net : Sn -> bytes -> reaction Sn) (react : Sv -> bytes -> reaction Sv) inner up tid setup abs E path ns m seen got l R R',
  unreliable net react inner up -> conforming react (with_others (dir_service tid setup)) abs -> Forall a_name ns -> short (path_of ns ++ [42]) ->
  u16 tid -> takes_logins setup ->
  sessions net E (fun n => fst (abs (inner n))) (at_door E up setup path (fun n => abs (inner n)) ns m) path ns seen got l R R' ->
  delivered ns R got R' /\ (forall T, In T seen -> delivered ns T got R')
  /\ (forall a, In a l -> a = Good tt \/ exists e, a = Bad (ENetBios e)).
Proof.
  intros Sn Sv net react inner up tid setup abs E path ns m seen got l R R' H1 H2 H3 H4 H5 H6.
  exact (@visit_often tid setup _ _ net react inner up H1 abs H2 E ns H3 H4 m H5 H6 path seen got l R R').
Qed.
Print Assumptions C130_often.

(** ** example: the mailbox of C128, a new client (user id 0, no request so far).  Before the fifth
    request (that opens the first file) another file is put there: it is not returned, and it stays.  If
    the connection breaks during the login, nothing is returned and nothing has changed. *)
Definition newcomer : cifs := mk_cifs default_auth 1024 false 0 0.
Definition late_posts : list (tree -> tree) := [(fun R => R); (fun R => R); (fun R => R); (fun R => R); post [[97]] 40 [103] hi].
Definition visit_at (k : nat) (j : N) : world cifs ((nat * N * (dirs * list (tree -> tree))) + (dirs * list (tree -> tree))) :=
  mk_world newcomer (inl (k, j, (box mail0, late_posts))) [] Open [].
Definition the_path : text := [92; 92; 115; 92; 100].
Example C130_run :
  (exists w', run (cable (ref_server (with_others DS0))) (visit (env0 true) 1000 the_path (path_of [[97]])) (visit_at 20 0)
     = Done ([([98], hi); ([102], [x2a])], Good tt) w' /\ fst (server_in (srv w')) = box (AFile [103] hi (ADir [99] Nothing Nothing)))
  /\ (exists w', run (cable (ref_server (with_others DS0))) (visit (env0 true) 1000 the_path (path_of [[97]]))
         (mk_world newcomer (inl (1%nat, 20, (box mail0, []))) [] Open [])
     = Done ([], Bad (ENetBios UnexpectedEOF)) w' /\ fst (server_in (srv w')) = box mail0)
  /\ (exists w', run (cable (ref_server (with_others DS0))) (visit (env0 true) 1000 the_path (path_of [[97]])) (visit_at 7 20)
     = Done ([([98], hi)], Bad (ENetBios UnexpectedEOF)) w' /\ fst (server_in (srv w')) = box (AFile [103] hi mail1)).
Proof.
  split; [eexists; split; runs|]. split; [eexists; split; runs|]. eexists; split; runs.
Qed.
(** the hypotheses *)
Example C130_ex : forall k j, at_door (env0 true) plugged setup0 the_path (fun n => server_in n) [[97]] 40 (visit_at k j)
  /\ unreliable (cable (ref_server (with_others DS0))) (ref_server (with_others DS0)) server_in plugged
  /\ conforming (ref_server (with_others DS0)) (with_others DS0) (fun s => s)
  /\ Forall a_name [[97]] /\ short (path_of [[97]] ++ [42]) /\ u16 5 /\ takes_logins setup0.
Proof.
  intros k j. destruct (C129_ex k j) as (((H1 & (_ & H7)) & _) & K2 & K3 & K4 & K5).
  split; [|split; [exact K2|split; [exact K3|split; [exact K4|split; [exact K5|split; [reflexivity|now split]]]]]].
  split; [now split|]. split; [split; reflexivity|]. split; [exact I|]. split; [|split; [intros _; vm_compute; discriminate|split; [exact H7|split; [exact H1|]]]].
  - repeat split; try reflexivity; cbn; try tauto; try (intuition discriminate).
  - repeat (constructor; [intros R HR; split; [exact HR|apply keeps_refl]|]). constructor; [|constructor]. apply C129_post.
    + repeat split; try discriminate; cbn [In]; intuition discriminate.
    + unfold short. vm_compute. discriminate.
    + reflexivity.
Qed.
Example C130_twice : exists got a R', sessions (cable (ref_server (with_others DS0))) (env0 true) (fun n => fst (server_in n))
    (at_door (env0 true) plugged setup0 the_path (fun n => server_in n) [[97]] 40) the_path [[97]] [ds_root (box mail0)] got [a] (ds_root (box mail0)) R'
  /\ (In ([98], hi) got \/ file_of R' [[97]; [98]] = Some hi).
Proof.
  destruct (C130_ex 7 20) as (H1 & H2 & H3 & H4 & H5 & H6 & H7).
  destruct (C130_once _ _ _ _ _ _ _ _ _ _ _ _ _ _ H2 H3 H4 H5 H6 H7 H1) as (got & a & w' & K1 & _ & _ & K4 & _).
  exists (got ++ []), a, (ds_root (fst (server_in (srv w')))). split.
  - refine (se_run _ _ _ _ _ _ (visit_at 7 20) got a w' _ _ _ _ H1 K1 _). constructor.
  - rewrite app_nil_r. apply (K4 [98] hi). reflexivity.
Qed.
(** What others must not do: if a file is replaced between its fetch and its deletion, the new content is
    deleted though it was never fetched.  Here the second content of [98] is lost. *)
Definition replaced (R : tree) : tree := put R [[97]] (AFile [98] [x2a; x2a] mail1).
Example C130_contrast : exists got w', run (cable (ref_server (with_others DS0))) (visit (env0 true) 1000 the_path (path_of [[97]]))
    (mk_world newcomer (inl (40%nat, 0, (box mail0, repeat (fun R => R) 7 ++ [replaced]))) [] Open []) = Done (got, Good tt) w'
  /\ In ([98], hi) got /\ ~ In ([98], [x2a; x2a]) got /\ file_of (ds_root (fst (server_in (srv w')))) [[97]; [98]] = None.
Proof.
  eexists; eexists. split; [runs|]. split; [vm_compute; tauto|]. split; [vm_compute; intuition discriminate|]. runs.
Qed.
