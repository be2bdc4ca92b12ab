(** * Property C128: a directory as a mailbox, emptied over connections that break. *)
From Verif Require Import Base Text Win Errors Common Reply Ntlm Prog Client Spec SpecReply SpecMsg Api SpecCall
  MsgFacts SizeFacts Flow FlowFacts SpecRemote RemoteFacts RefServer RefFacts FileService FileFacts SpecCutoff P_Cutoff SpecHalf HalfFacts
  SpecTree TreeFacts SpecRemoval RemovalFacts SpecMove MoveFacts SpecMail MailFacts Sample P_Remote P_Tree P_Removal.
Open Scope N_scope.

(** C128: one run of the program (list the directory; download each file and delete it) on a connection
    that may break at any byte.  Every file it returns was there with this content; nothing has changed
    but that files that are returned are gone; all of them are gone but, perhaps, the last one.  On
    success all files that were in the directory are returned and none is left; all errors are those
    of the network. *)
Theorem C128_once : forall Sn Sv (net : Sn -> bytes -> reaction Sn) (react : Sv -> bytes -> reaction Sv) inner up tid setup abs E ns m w s,
  unreliable net react inner up -> conforming react (dir_service tid setup) abs -> Forall a_name ns -> short (path_of ns ++ [42]) ->
  box_ready E up tid (fun n => abs (inner n)) ns m w s ->
  exists got a w', empties net E s ns w (got, a) w'
  /\ fetched ns (ds_root (abs (inner (srv w)))) got (ds_root (abs (inner (srv w'))))
  /\ ((a = Good tt /\ ds_open (abs (inner (srv w'))) = ds_open (abs (inner (srv w)))
       /\ all_fetched ns (ds_root (abs (inner (srv w)))) got (ds_root (abs (inner (srv w')))))
      \/ exists e, a = Bad (ENetBios e)).
Proof.
  intros Sn Sv net react inner up tid setup abs E ns m w s H1 H2 H3 H4 [Hm Hr].
  pose proof Hr as ((_ & _ & _ & Hu & Hs & _) & _). rewrite Hs in Hu.
  exact (@empty_once tid setup _ _ net react inner up H1 abs H2 E ns H3 s Hu Hs H4 m w Hm Hr).
Qed.
Print Assumptions C128_once.

(** Run any number of times, while others may put new files there in between (and change anything
    elsewhere): every file that was there at the beginning of a run is returned by some run, or it is
    still there as it was; everything that is returned was there; all errors are those of the network. *)
Theorem C128_often : forall Sn Sv (net : Sn -> bytes -> reaction Sn) (react : Sv -> bytes -> reaction Sv) inner up tid setup abs E ns m seen got l R R',
  unreliable net react inner up -> conforming react (dir_service tid setup) abs -> Forall a_name ns -> short (path_of ns ++ [42]) ->
  rounds net E (fun n => abs (inner n)) (box_ready E up tid (fun n => abs (inner n)) ns m) ns seen got l R R' ->
  (forall x d, file_of R (ns ++ [x]) = Some d -> In (x, d) got \/ file_of R' (ns ++ [x]) = Some d)
  /\ (forall T x d, In T seen -> file_of T (ns ++ [x]) = Some d -> In (x, d) got \/ file_of R' (ns ++ [x]) = Some d)
  /\ (forall x d, In (x, d) got -> exists T, In T seen /\ file_of T (ns ++ [x]) = Some d)
  /\ (forall a, In a l -> a = Good tt \/ exists e, a = Bad (ENetBios e)).
Proof.
  intros Sn Sv net react inner up tid setup abs E ns m seen got l R R' H1 H2 H3 H4.
  exact (@empty_often tid setup _ _ net react inner up H1 abs H2 E ns H3 H4 m seen got l R R').
Qed.
Print Assumptions C128_often.

(** ** example: a mailbox with two files and a directory.  The first connection breaks within the answer
    to the request that deletes the first file: it is returned, and it is gone.  In between another file
    appears.  The second run returns the others. *)
Definition hi : bytes := [x68; x69].
Definition box (t : tree) : dirs := mk_dirs (AFile [101] [x31] (ADir [97] t Nothing)) [(3, [[101]])].
Definition mail0 : tree := AFile [98] hi (ADir [99] Nothing (AFile [102] [x2a] Nothing)).
Definition mail1 : tree := ADir [99] Nothing (AFile [102] [x2a] Nothing).
Definition mail2 : tree := ADir [99] Nothing (AFile [102] [x2a] (AFile [103] hi Nothing)).
Definition mail3 : tree := AFile [98] hi mail2.
Example C128_run :
  (exists w', run (cable (ref_server DS0)) (empty_box (env0 true) 1000 share0 (path_of [[97]])) (cut_at 4 20 (box mail0))
     = Done ([([98], hi)], Bad (ENetBios UnexpectedEOF)) w' /\ server_in (srv w') = box mail1)
  /\ (exists w', run (cable (ref_server DS0)) (empty_box (env0 true) 1000 share0 (path_of [[97]])) (cut_at 20 0 (box mail2))
     = Done ([([102], [x2a]); ([103], hi)], Good tt) w' /\ server_in (srv w') = box (ADir [99] Nothing Nothing)).
Proof.
  split; [eexists; split; runs|]. eexists; split; runs.
Qed.
(** the hypotheses *)
Lemma box_fits k j t : ordinary_tree (path_of [[97]]) t -> listable t -> (2 + copy_calls t + clear_calls t <= 40)%nat ->
  box_ready (env0 true) plugged 5 (fun n => server_in n) [[97]] 40 (cut_at k j (box t)) share0.
Proof.
  intros Ho Hl Hm. destruct C121_ex as (H1 & H2 & H3 & H4 & H5 & H6 & H7 & H8 & H9 & H10 & H11 & H12 & H13). split.
  - exists t. split; [now destruct t|]. split; [exact Hl|]. split; [exact Ho|exact Hm].
  - split; [|exact H5]. split; [exact H1|]. split; [split; reflexivity|]. split; [exact I|]. split; [exact H3|]. split; [exact H4|].
    intros _. vm_compute. discriminate.
Qed.
Example C128_ex : box_ready (env0 true) plugged 5 (fun n => server_in n) [[97]] 40 (cut_at 4 20 (box mail0)) share0
  /\ box_ready (env0 true) plugged 5 (fun n => server_in n) [[97]] 40 (cut_at 20 0 (box mail2)) share0
  /\ box_ready (env0 true) plugged 5 (fun n => server_in n) [[97]] 40 (cut_at 7 3 (box mail3)) share0
  /\ keeps [[97]] (ds_root (box mail1)) (ds_root (box mail2))
  /\ unreliable (cable (ref_server DS0)) (ref_server DS0) server_in plugged /\ conforming (ref_server DS0) DS0 (fun s => s)
  /\ Forall a_name [[97]] /\ short (path_of [[97]] ++ [42]).
Proof.
  assert (HN : forall c, In c [98; 99; 102; 103] -> a_name [c]).
  { intros c H. repeat split; try (cbn [In] in H; destruct H as [<-|[<-|[<-|[<-|[]]]]]; discriminate || reflexivity);
      cbn [In] in *; intuition (subst; discriminate). }
  assert (HS : forall p, utf16_len p <= 32600 -> short p) by (intros p H; exact H).
  destruct C121_ex as (_ & _ & _ & _ & _ & H6 & _ & _ & _ & H10 & _ & _ & H13).
  split; [|split; [|split; [|split; [|split; [apply cable_unreliable|split; [exact H13|split; [exact H6|exact H10]]]]]]].
  - apply box_fits; [|reflexivity|apply Nat.leb_le; vm_compute; reflexivity]. cbn [mail0 ordinary_tree entry_names].
    split; [apply HN; cbn; tauto|]. split; [cbn [In]; intuition discriminate|]. split; [apply HS; vm_compute; discriminate|]. split; [reflexivity|].
    split; [apply HN; cbn; tauto|]. split; [cbn [In]; intuition discriminate|]. split; [apply HS; vm_compute; discriminate|]. split; [reflexivity|]. split; [exact I|].
    split; [apply HN; cbn; tauto|]. split; [cbn [In]; tauto|]. split; [apply HS; vm_compute; discriminate|]. split; [reflexivity|exact I].
  - apply box_fits; [|reflexivity|apply Nat.leb_le; vm_compute; reflexivity]. cbn [mail2 ordinary_tree entry_names].
    split; [apply HN; cbn; tauto|]. split; [cbn [In]; intuition discriminate|]. split; [apply HS; vm_compute; discriminate|]. split; [reflexivity|]. split; [exact I|].
    split; [apply HN; cbn; tauto|]. split; [cbn [In]; intuition discriminate|]. split; [apply HS; vm_compute; discriminate|]. split; [reflexivity|].
    split; [apply HN; cbn; tauto|]. split; [cbn [In]; tauto|]. split; [apply HS; vm_compute; discriminate|]. split; [reflexivity|exact I].
  - apply box_fits; [|reflexivity|apply Nat.leb_le; vm_compute; reflexivity]. cbn [mail3 mail2 ordinary_tree entry_names].
    split; [apply HN; cbn; tauto|]. split; [cbn [In]; intuition discriminate|]. split; [apply HS; vm_compute; discriminate|]. split; [reflexivity|].
    split; [apply HN; cbn; tauto|]. split; [cbn [In]; intuition discriminate|]. split; [apply HS; vm_compute; discriminate|]. split; [reflexivity|]. split; [exact I|].
    split; [apply HN; cbn; tauto|]. split; [cbn [In]; intuition discriminate|]. split; [apply HS; vm_compute; discriminate|]. split; [reflexivity|].
    split; [apply HN; cbn; tauto|]. split; [cbn [In]; tauto|]. split; [apply HS; vm_compute; discriminate|]. split; [reflexivity|exact I].
  - intros x d. cbn [app box ds_root mail1 mail2 file_of]. change (text_eqb [97] [97]) with true. cbn iota.
    destruct (text_eqb [102] x); [trivial|discriminate].
Qed.
(** two runs; in between all is put there (again) that is in the third mailbox *)
Example C128_twice : exists got a b R', rounds (cable (ref_server DS0)) (env0 true) (fun n => server_in n)
    (box_ready (env0 true) plugged 5 (fun n => server_in n) [[97]] 40) [[97]] [ds_root (box mail0); ds_root (box mail3)] got [a; b] (ds_root (box mail0)) R'.
Proof.
  destruct C128_ex as (H1 & _ & H2 & _ & H4 & H5 & H6 & H7).
  destruct (C128_once _ _ _ _ _ _ _ _ _ _ _ _ _ _ H4 H5 H6 H7 H1) as (g1 & a & w1 & K1 & (_ & F & _) & _).
  destruct (C128_once _ _ _ _ _ _ _ _ _ _ _ _ _ _ H4 H5 H6 H7 H2) as (g2 & b & w2 & K2 & _).
  exists (g1 ++ g2 ++ []), a, b, (ds_root (server_in (srv w2))).
  refine (ro_run _ _ _ _ _ (cut_at 4 20 (box mail0)) share0 g1 a w1 _ _ _ _ H1 K1 _).
  apply (ro_others _ _ _ _ _ _ _ _ _ (ds_root (box mail3))).
  - intros x d Hx. destruct (F ([[97]] ++ [x])) as [K|(K & _)]; [|congruence]. rewrite Hx in K. symmetry in K. revert K. clear.
    cbn [app cut_at server_in srv box ds_root mail0 mail2 mail3 file_of]. change (text_eqb [97] [97]) with true. cbn iota.
    destruct (text_eqb [98] x); [trivial|]. destruct (text_eqb [102] x); [trivial|discriminate].
  - refine (ro_run _ _ _ _ _ (cut_at 7 3 (box mail3)) share0 g2 b w2 _ _ _ _ H2 K2 _). constructor.
Qed.
