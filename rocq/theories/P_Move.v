(** * Property C127: fetching a directory tree away from the server over connections that break. *)
From Verif Require Import Base Text Win Errors Common Reply Ntlm Prog Client Spec SpecReply SpecMsg Api SpecCall
  MsgFacts SizeFacts Flow FlowFacts SpecRemote RemoteFacts RefServer RefFacts FileService FileFacts SpecCutoff P_Cutoff SpecHalf HalfFacts
  SpecTree TreeFacts SpecRemoval RemovalFacts SpecMove MoveFacts Sample P_Remote P_Tree P_Removal.
Open Scope N_scope.

(** C127: one run of the program (copy; when the copy is complete, remove) on a connection that may
    break at any byte.  Whatever happens: without a copy nothing has changed, a copy is complete,
    nothing outside of the directory changes, and the only errors are those of the network.  On
    success there is a copy and the directory is empty.  A copy of an earlier run is kept. *)
Theorem C127_once : forall Sn Sv (net : Sn -> bytes -> reaction Sn) (react : Sv -> bytes -> reaction Sv) inner up tid setup abs E ns m w s R have,
  unreliable net react inner up -> conforming react (dir_service tid setup) abs -> Forall a_name ns -> short (path_of ns ++ [42]) ->
  movable ns R m -> ready E up tid (fun n => abs (inner n)) m w s ->
  nothing_lost ns R have (ds_root (abs (inner (srv w)))) -> removable ns (ds_root (abs (inner (srv w)))) m ->
  exists have' a w', fetches_away net E s ns have w (have', a) w'
  /\ nothing_lost ns R have' (ds_root (abs (inner (srv w'))))
  /\ partly_removed ns (ds_root (abs (inner (srv w)))) (ds_root (abs (inner (srv w'))))
  /\ removable ns (ds_root (abs (inner (srv w')))) m
  /\ (have <> None -> have' = have)
  /\ ((a = Good tt /\ have' <> None /\ dir_at (ds_root (abs (inner (srv w')))) ns = Some Nothing
       /\ ds_open (abs (inner (srv w'))) = ds_open (abs (inner (srv w)))) \/ exists e, a = Bad (ENetBios e)).
Proof.
  intros Sn Sv net react inner up tid setup abs E ns m w s R have H1 H2 H3 H4.
  exact (@move_once tid setup _ _ net react inner up H1 abs H2 E ns H3 H4 m w s R have).
Qed.
Print Assumptions C127_once.

(** Run any number of times, each time on a connection of its own that may break: at any time nothing
    is lost; as soon as one of the runs reports success, the copy is exactly what was in the directory
    at first, and the directory is empty. *)
Theorem C127_often : forall Sn Sv (net : Sn -> bytes -> reaction Sn) (react : Sv -> bytes -> reaction Sv) inner up tid setup abs E ns m l R have' R',
  unreliable net react inner up -> conforming react (dir_service tid setup) abs -> Forall a_name ns -> short (path_of ns ++ [42]) ->
  movable ns R m -> trips net E (fun n => abs (inner n)) (ready E up tid (fun n => abs (inner n)) m) ns l None R have' R' ->
  nothing_lost ns R have' R'
  /\ (In (Good tt) l -> exists t, dir_at R ns = Some t /\ have' = Some t /\ dir_at R' ns = Some Nothing)
  /\ (forall a, In a l -> a = Good tt \/ exists e, a = Bad (ENetBios e)).
Proof.
  intros Sn Sv net react inner up tid setup abs E ns m l R have' R' H1 H2 H3 H4 Hm Ht.
  assert (Hrem : removable ns R m) by (destruct Hm as (t & K1 & K2 & K3 & K4); exists t; repeat (split; [assumption|]); lia).
  destruct (@move_often tid setup _ _ net react inner up H1 abs H2 E ns H3 H4 m R l None R have' R' Hm Ht) as (I1 & _ & _ & I4 & I5 & I6);
    [split; [reflexivity|apply partly_refl]|exact Hrem|].
  split; [exact I1|]. split; [|exact I6]. intros Hin. specialize (I5 Hin). specialize (I4 (or_intror Hin)).
  destruct I1 as [I1 _]. destruct have' as [t|]; [|now destruct I5]. exists t. now repeat split.
Qed.
Print Assumptions C127_often.

(** ** example: the tree of C121.  The first connection breaks while the tree is copied, the second when
    part of it is removed; the third run removes what is left. *)
Example C127_run :
  (exists w', run (cable (ref_server DS0)) (move_tree (env0 true) 1000 10 share0 (path_of [[97]]) None) (cut_at 6 70 dirs0)
     = Done (None, Bad (ENetBios UnexpectedEOF)) w' /\ ds_root (server_in (srv w')) = ds_root dirs0)
  /\ (exists w', run (cable (ref_server DS0)) (move_tree (env0 true) 1000 10 share0 (path_of [[97]]) None) (cut_at (copy_calls inner0 + 6) 20 dirs0)
     = Done (Some inner0, Bad (ENetBios UnexpectedEOF)) w' /\ server_in (srv w') = halfway)
  /\ (exists w', run (cable (ref_server DS0)) (move_tree (env0 true) 1000 10 share0 (path_of [[97]]) (Some inner0)) (cut_at 9 0 halfway)
     = Done (Some inner0, Good tt) w' /\ server_in (srv w') = mk_dirs (AFile [101] [x31] (ADir [97] Nothing Nothing)) [(3, [[101]])]).
Proof.
  split; [eexists; split; runs|]. split; [eexists; split; runs|]. eexists; split; runs.
Qed.
(** the hypotheses, for a first run and for a second one with the copy of the first *)
Example C127_ex : ready (env0 true) plugged 5 (fun n => server_in n) 40 (cut_at 6 70 dirs0) share0 /\ movable [[97]] (ds_root dirs0) 40
  /\ nothing_lost [[97]] (ds_root dirs0) None (ds_root dirs0) /\ removable [[97]] (ds_root dirs0) 40
  /\ nothing_lost [[97]] (ds_root dirs0) (Some inner0) (ds_root dirs0)
  /\ unreliable (cable (ref_server DS0)) (ref_server DS0) server_in plugged /\ conforming (ref_server DS0) DS0 (fun s => s)
  /\ Forall a_name [[97]] /\ short (path_of [[97]] ++ [42]).
Proof.
  destruct C121_ex as (H1 & H2 & H3 & H4 & H5 & H6 & H7 & H8 & H9 & H10 & H11 & H12 & H13).
  split; [|split; [|split; [|split; [|split; [|split; [apply cable_unreliable|split; [exact H13|split; [exact H6|exact H10]]]]]]]].
  - split; [|exact H5]. split; [exact H1|]. split; [split; reflexivity|]. split; [exact I|]. split; [exact H3|]. split; [exact H4|].
    intros _. vm_compute. discriminate.
  - exists inner0. split; [exact H7|]. split; [exact H8|]. split; [exact H9|]. apply Nat.leb_le. vm_compute. reflexivity.
  - split; [reflexivity|apply partly_refl].
  - exists inner0. split; [exact H7|]. split; [exact H8|]. split; [exact H9|]. apply Nat.leb_le. vm_compute. reflexivity.
  - split; [exact H7|apply partly_refl].
Qed.
(** two runs *)
Example C127_twice : exists l have' R', trips (cable (ref_server DS0)) (env0 true) (fun n => server_in n)
    (ready (env0 true) plugged 5 (fun n => server_in n) 40) [[97]] l None (ds_root dirs0) have' R'
  /\ exists a b, l = [a; b].
Proof.
  destruct C127_ex as (H1 & H2 & H3 & H4 & _ & H6 & H7 & H8 & H9).
  destruct (C127_once _ _ _ _ _ _ _ _ _ _ _ _ _ _ _ _ H6 H7 H8 H9 H2 H1 H3 H4) as (h1 & a & w1 & K1 & K2 & _ & K4 & _).
  assert (H1' : ready (env0 true) plugged 5 (fun n => server_in n) 40 (cut_at 60 0 (mk_dirs (ds_root (server_in (srv w1))) [])) share0).
  { destruct H1 as ((A1 & A2 & A3 & A4 & A5 & A6) & A7). split; [|vm_compute; reflexivity].
    split; [exact A1|]. split; [split; reflexivity|]. split; [exact I|]. split; [exact A4|]. split; [exact A5|exact A6]. }
  destruct (C127_once _ _ _ _ _ _ _ _ _ _ _ _ _ _ _ _ H6 H7 H8 H9 H2 H1' K2 K4) as (h2 & b & w2 & L1 & _).
  exists [a; b], h2, (ds_root (server_in (srv w2))). split; [|now exists a, b].
  refine (tr_more _ _ _ _ _ (cut_at 6 70 dirs0) share0 None a h1 w1 [b] _ _ H1 K1 _).
  refine (tr_more _ _ _ _ _ (cut_at 60 0 (mk_dirs (ds_root (server_in (srv w1))) [])) share0 h1 b h2 w2 [] _ _ H1' L1 _). constructor.
Qed.
