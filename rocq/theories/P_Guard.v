(** * Property C132: whole sessions at a server that checks passwords empty a mailbox, over connections that break. *)
From Verif Require Import Base Text Win Errors Common Reply Ntlm Prog Client Spec SpecReply SpecNtlm SpecMsg Api SpecCall SpecLogin SpecAccount
  MsgFacts SizeFacts Flow FlowFacts SpecRemote RemoteFacts RefServer RefFacts FileService FileFacts Gate GateFacts SpecCutoff P_Cutoff SpecHalf HalfFacts
  Crypto Tests P_Session SpecTree TreeFacts SpecRemoval RemovalFacts SpecMove MoveFacts SpecMail MailFacts SpecPost PostFacts Sample
  P_Remote P_Tree P_Removal P_Mail P_Post SpecVisit VisitFacts P_Visit SpecGuard GuardFacts.
Open Scope N_scope.

(** C132: as C130, at a server that keeps NT hashes, gives challenges and checks responses (NTLMv1, or with
    extended security NTLMv2), and refuses requests of users who have not logged in.  The client has an
    account.  Others are at work behind the login.  What is returned was there, with this content, when the
    directory was listed (by the second request behind the login). *)
Theorem C132_once : forall Sn Sv (net : Sn -> bytes -> reaction Sn) (react : Sv -> bytes -> reaction Sv) inner up tid fsetup setup E known nonce info abs path ns m w,
  unreliable net react inner up ->
  conforming react (gate (dirs * list (tree -> tree)) E known setup nonce info (with_others (dir_service tid fsetup))) abs ->
  Forall a_name ns -> short (path_of ns ++ [42]) -> u16 tid -> guarding setup nonce info ->
  at_gate E up known setup info path (fun n => abs (inner n)) ns m w ->
  exists got a w', visits net E path ns w (got, a) w'
  /\ (movable ns (ds_root (fst (g_behind (abs (inner (srv w')))))) m /\ Forall (decent ns m) (snd (g_behind (abs (inner (srv w'))))))
  /\ (forall x d, In (x, d) got -> file_of (ds_root (stirred (after (g_behind (abs (inner (srv w))))))) (ns ++ [x]) = Some d)
  /\ delivered ns (ds_root (fst (g_behind (abs (inner (srv w)))))) got (ds_root (fst (g_behind (abs (inner (srv w'))))))
  /\ ((a = Good tt /\ ds_open (fst (g_behind (abs (inner (srv w'))))) = ds_open (fst (g_behind (abs (inner (srv w)))))
       /\ forall x d, file_of (ds_root (fst (g_behind (abs (inner (srv w)))))) (ns ++ [x]) = Some d -> In (x, d) got)
      \/ exists e, a = Bad (ENetBios e)).
Proof.
  intros Sn Sv net react inner up tid fsetup setup E known nonce info abs path ns m w H1 H2 H3 H4 H5 H6.
  exact (@guard_once tid fsetup setup _ _ net react inner up H1 E known nonce info abs H2 ns H3 H4 m H5 H6 w path).
Qed.
Print Assumptions C132_once.

(** any number of sessions *)
Theorem C132_often : forall Sn Sv (net : Sn -> bytes -> reaction Sn) (react : Sv -> bytes -> reaction Sv) inner up tid fsetup setup E known nonce info abs path ns m seen got l R R',
  unreliable net react inner up ->
  conforming react (gate (dirs * list (tree -> tree)) E known setup nonce info (with_others (dir_service tid fsetup))) abs ->
  Forall a_name ns -> short (path_of ns ++ [42]) -> u16 tid -> guarding setup nonce info ->
  sessions net E (fun n => fst (g_behind (abs (inner n)))) (at_gate E up known setup info path (fun n => abs (inner n)) ns m) path ns seen got l R R' ->
  delivered ns R got R' /\ (forall T, In T seen -> delivered ns T got R')
  /\ (forall a, In a l -> a = Good tt \/ exists e, a = Bad (ENetBios e)).
Proof.
  intros Sn Sv net react inner up tid fsetup setup E known nonce info abs path ns m seen got l R R' H1 H2 H3 H4 H5 H6.
  exact (@guard_often tid fsetup setup _ _ net react inner up H1 E known nonce info abs H2 ns H3 H4 m H5 H6 path seen got l R R').
Qed.
Print Assumptions C132_often.

(** ** example: the accounts of C64 and the mailbox of C128.  Before the third request behind the login (that opens
    the first file) another file is put there. *)
Definition G2 (extended : bool) : service (gated (dirs * list (tree -> tree))) :=
  gate (dirs * list (tree -> tree)) env1 known1 (setup1 extended) (fun n => le 8 (n + 77)) [x02; x00; x00; x00] (with_others DS0).
Definition guard_at (a : auth) (k : nat) (j : N) (others : list (tree -> tree)) : world cifs ((nat * N * gated (dirs * list (tree -> tree))) + gated (dirs * list (tree -> tree))) :=
  mk_world (mk_cifs a 1024 false 0 0) (inl (k, j, mk_gated [] [] 100 (box mail0, others))) [] Open [].
Definition third : list (tree -> tree) := [(fun R => R); (fun R => R); post [[97]] 40 [103] hi].
Example C132_run : forall extended,
  (exists w', run (cable (ref_server (G2 extended))) (visit env1 1000 the_path (path_of [[97]])) (guard_at user1 20 0 third)
     = Done ([([98], hi); ([102], [x2a])], Good tt) w' /\ fst (g_behind (server_in (srv w'))) = box (AFile [103] hi (ADir [99] Nothing Nothing)))
  /\ (exists w', run (cable (ref_server (G2 extended))) (visit env1 1000 the_path (path_of [[97]])) (guard_at user1 1 20 [])
     = Done ([], Bad (ENetBios UnexpectedEOF)) w' /\ fst (g_behind (server_in (srv w'))) = box mail0)
  /\ (exists w', run (cable (ref_server (G2 extended))) (visit env1 1000 the_path (path_of [[97]])) (guard_at thief 20 0 [])
     = Done ([], Bad (ServerError (Known LOGIN_FAILURE))) w' /\ fst (g_behind (server_in (srv w'))) = box mail0).
Proof.
  intros extended. destruct extended.
  - split; [eexists; split; runs|]. split; [eexists; split; runs|]. eexists; split; runs.
  - split; [eexists; split; runs|]. split; [eexists; split; runs|]. eexists; split; runs.
Qed.
(** the hypotheses *)
Example C132_ex : forall extended k j, at_gate env1 plugged known1 (setup1 extended) [x02; x00; x00; x00] the_path (fun n => server_in n) [[97]] 40 (guard_at user1 k j third)
  /\ unreliable (cable (ref_server (G2 extended))) (ref_server (G2 extended)) server_in plugged
  /\ conforming (ref_server (G2 extended)) (G2 extended) (fun s => s)
  /\ Forall a_name [[97]] /\ short (path_of [[97]] ++ [42]) /\ u16 5
  /\ guarding (setup1 extended) (fun n => le 8 (n + 77)) [x02; x00; x00; x00].
Proof.
  intros extended k j. destruct (C129_ex k j) as (((H1 & (_ & H7)) & _) & _ & _ & K4 & K5).
  destruct C64_hypotheses as (_ & _ & Q3 & Q4 & Q5 & Q6 & Q7 & Q8 & _ & _).
  split; [|split; [apply cable_unreliable|split; [|split; [exact K4|split; [exact K5|split; [reflexivity|]]]]]].
  - split; [now split|]. split; [split; reflexivity|]. split; [exact I|]. split; [|split; [now eexists|split; [intros _; vm_compute; discriminate|split; [reflexivity|split; [exact H7|split; [exact H1|]]]]]].
    + split; [exact Q3|]. split; [exact (proj1 C64_registered_ex)|]. split; [exact Q4|]. split; [exact Q5|].
      split; [destruct extended; exact Q7|]. split; [exact Q8|]. split; [reflexivity|]. intros [|]; vm_compute; reflexivity.
    + constructor; [intros R HR; split; [exact HR|apply keeps_refl]|]. constructor; [intros R HR; split; [exact HR|apply keeps_refl]|].
      constructor; [|constructor]. apply C129_post.
      * repeat split; try discriminate; cbn [In]; intuition discriminate.
      * unfold short. vm_compute. discriminate.
      * reflexivity.
  - apply C64_server.
    + destruct extended; repeat split.
    + intros n. reflexivity.
    + reflexivity.
    + apply others_proper. apply dirs_proper; [reflexivity|repeat split].
  - split; [reflexivity|]. split; [intros n|]; reflexivity.
Qed.
Example C132_twice : exists got a R', sessions (cable (ref_server (G2 true))) env1 (fun n => fst (g_behind (server_in n)))
    (at_gate env1 plugged known1 (setup1 true) [x02; x00; x00; x00] the_path (fun n => server_in n) [[97]] 40) the_path [[97]] [ds_root (box mail0)] got [a] (ds_root (box mail0)) R'
  /\ (In ([98], hi) got \/ file_of R' [[97]; [98]] = Some hi).
Proof.
  destruct (C132_ex true 7 20) as (H1 & H2 & H3 & H4 & H5 & H6 & H7).
  destruct (C132_once _ _ _ _ _ _ _ _ _ _ _ _ _ _ _ _ _ _ H2 H3 H4 H5 H6 H7 H1) as (got & a & w' & K1 & _ & _ & K4 & _).
  exists (got ++ []), a, (ds_root (fst (g_behind (server_in (srv w'))))). split.
  - refine (se_run _ _ _ _ _ _ (guard_at user1 7 20 third) got a w' _ _ _ _ H1 K1 _). constructor.
  - rewrite app_nil_r. apply (K4 [98] hi). reflexivity.
Qed.
