(** * Property C131: a file to which others append is downloaded up to some point, over connections that break. *)
From Verif Require Import Base Text Win Errors Common Reply Ntlm Prog Client Spec SpecReply SpecMsg Api SpecCall
  MsgFacts SizeFacts Flow FlowFacts SpecRemote RemoteFacts RefServer RefFacts FileService FileFacts SpecCutoff P_Cutoff SpecHalf HalfFacts
  SpecTree TreeFacts SpecRemoval RemovalFacts SpecMove MoveFacts SpecMail MailFacts SpecPost PostFacts SpecGrow GrowFacts Sample
  P_Remote P_Tree P_Removal P_Mail P_Post.
Open Scope N_scope.

(** C131: before each request of a download others change what is on the server as they like, but to this
    file they only append ([d0] at the beginning, [d1] when it is opened, [d'] at the end).  The connection
    may break at any byte.  The download returns a beginning of the file as it is at the end, with at least
    all that was there when it was opened, and the file is closed; or it fails with an error of the network. *)
Theorem C131_once : forall Sn Sv (net : Sn -> bytes -> reaction Sn) (react : Sv -> bytes -> reaction Sv) inner up tid setup abs E path w s d0 d1,
  unreliable net react inner up -> conforming react (with_others (dir_service tid setup)) abs -> u16 tid ->
  grow_ready E up tid (fun n => abs (inner n)) path d0 d1 w s ->
  exists a w' d', downloads net E s path w a w' /\ growing (names_of (backslashes path)) d' (abs (inner (srv w'))) /\ extends d0 d1
  /\ ((exists data, a = Good data /\ extends d1 data /\ extends data d'
         /\ ds_open (fst (abs (inner (srv w')))) = ds_open (fst (abs (inner (srv w)))))
      \/ ((exists e, a = Bad (ENetBios e)) /\ extends d0 d')).
Proof.
  intros Sn Sv net react inner up tid setup abs E path w s d0 d1 H1 H2.
  exact (@grow_once tid setup _ _ net react inner up H1 abs H2 E w path s d0 d1).
Qed.
Print Assumptions C131_once.

(** The file is downloaded any number of times: each download that succeeds has all that was there at
    first, it is a beginning of what is there at last, and it is a beginning of what any later one
    returns. *)
Theorem C131_often : forall Sn Sv (net : Sn -> bytes -> reaction Sn) (react : Sv -> bytes -> reaction Sv) inner up tid setup abs E path l d d',
  unreliable net react inner up -> conforming react (with_others (dir_service tid setup)) abs -> u16 tid ->
  polls net E (fun n => ds_root (fst (abs (inner n)))) (fun w s => exists d0 d1, grow_ready E up tid (fun n => abs (inner n)) path d0 d1 w s) path l d d' ->
  extends d d'
  /\ (forall a, In a l -> (exists data, a = Good data /\ extends d data /\ extends data d') \/ exists e, a = Bad (ENetBios e))
  /\ (forall l1 x l2 y l3, l = l1 ++ Good x :: l2 ++ Good y :: l3 -> extends x y).
Proof.
  intros Sn Sv net react inner up tid setup abs E path l d d' H1 H2.
  exact (@grow_polls tid setup _ _ net react inner up H1 abs H2 E path l d d').
Qed.
Print Assumptions C131_often.
(** appending is a change as in the theorems *)
Theorem C131_append : forall p e, appending p (fun R => append_at R p e).
Proof. exact append_appending. Qed.
Print Assumptions C131_append.

(** ** example: the file [a/b] of C128, with two bytes.  Something is appended after it was opened and
    before it is read: it is returned, too.  What is appended before it is closed is not. *)
Definition more (e : bytes) : tree -> tree := fun R => append_at R [[97]; [98]] e.
Definition grow_at (k : nat) (j : N) : world cifs ((nat * N * (dirs * list (tree -> tree))) + (dirs * list (tree -> tree))) :=
  mk_world client0 (inl (k, j, (box mail0, [(fun R => R); more [x2a]; more [x31]]))) [] Open [].
Definition the_file : text := [97; 92; 98].
Example C131_run :
  (exists w', run (cable (ref_server (with_others DS0))) (download (env0 true) 1000 share0 the_file) (grow_at 20 0) = Done (Good (hi ++ [x2a])) w'
     /\ file_of (ds_root (fst (server_in (srv w')))) [[97]; [98]] = Some (hi ++ [x2a; x31]))
  /\ (exists w', run (cable (ref_server (with_others DS0))) (download (env0 true) 1000 share0 the_file) (grow_at 2 20) = Done (Bad (ENetBios UnexpectedEOF)) w').
Proof. split; [eexists; split; runs|]. eexists; runs. Qed.
(** the hypotheses *)
Example C131_ex : forall k j, grow_ready (env0 true) plugged 5 (fun n => server_in n) the_file hi hi (grow_at k j) share0
  /\ unreliable (cable (ref_server (with_others DS0))) (ref_server (with_others DS0)) server_in plugged
  /\ conforming (ref_server (with_others DS0)) (with_others DS0) (fun s => s) /\ u16 5.
Proof.
  intros k j. destruct (C129_ex k j) as (((H1 & ((A1 & A2 & A3 & A4 & A5 & A6) & A7)) & _) & K2 & K3 & _).
  split; [|split; [exact K2|split; [exact K3|reflexivity]]].
  split; [reflexivity|]. split; [unfold short; vm_compute; discriminate|]. split; [split; [reflexivity|]|split; [reflexivity|split; [reflexivity|]]].
  - constructor; [intros R d Hd; exists d; split; [exact Hd|apply extends_refl]|]. constructor; [apply C131_append|]. constructor; [apply C131_append|constructor].
  - split; [|exact A7]. split; [exact A1|]. split; [split; reflexivity|]. split; [exact I|]. split; [exact A4|]. split; [exact A5|].
    intros _. vm_compute. discriminate.
Qed.
Example C131_twice : exists a d', polls (cable (ref_server (with_others DS0))) (env0 true) (fun n => ds_root (fst (server_in n)))
    (fun w s => exists d0 d1, grow_ready (env0 true) plugged 5 (fun n => server_in n) the_file d0 d1 w s) the_file [a] hi d'
  /\ extends hi d'.
Proof.
  destruct (C131_ex 20 0) as (H1 & H2 & H3 & H4).
  destruct (C131_once _ _ _ _ _ _ _ _ _ _ _ _ _ _ _ H2 H3 H4 H1) as (a & w' & d' & K1 & (K2 & _) & K3 & K4).
  exists a, d'. split.
  - refine (po_run _ _ _ _ _ (grow_at 20 0) share0 a w' [] hi d' d' _ _ K1 K2 _); [now exists hi, hi|reflexivity|constructor].
  - destruct K4 as [(data & _ & J1 & J2 & _)|(_ & J)]; [exact (extends_trans J1 J2)|exact J].
Qed.
(** What others must not do: if the file is truncated after it was opened, the download does not end (here
    for one amount of fuel; C29 has the general statement). *)
Example C131_contrast :
  match run (cable (ref_server (with_others DS0))) (download (env0 true) 60 share0 the_file)
    (mk_world client0 (inl (400%nat, 0, (box mail0, [(fun R => R); (fun R => put R [[97]] (AFile [98] [] mail1))]))) [] Open [])
  with Starved _ => True | _ => False end.
Proof. vm_compute. exact I. Qed.
