(** * Property C126: clients copy and remove directory trees over connections that may break. *)
From Verif Require Import Base Text Win Errors Common Reply Ntlm Prog Client Spec SpecReply SpecMsg Api SpecCall BaseFacts
  MsgFacts SizeFacts Flow FlowFacts SpecRemote RemoteFacts RefServer RefFacts FileService FileFacts SpecPool PoolFacts SpecCutoff SpecOutage OutageFacts
  SpecTree TreeFacts SpecRemoval RemovalFacts SpecRemovers RemoversFacts SpecBusy BusyFacts StormFacts Sample P_Remote P_Pool P_Outage P_Tree P_Removers P_Busy.
Open Scope N_scope.

(** C126: as C125, and any connection may break at any byte, any number of them.  Still every copy
    that is made is between what was and what is, who reports that all is removed is right, and an
    error is the server's or, if the client's own connection is broken, one of the network. *)
Theorem C126_storm : forall Sn Sv (net : nat -> Sn -> bytes -> reaction Sn) (react : nat -> Sv -> bytes -> reaction Sv) inner up
    tid setup abs E fuel depths n jobs sh ns g s,
  outages net react inner up -> (forall i, conforming (react i) (dir_service tid setup) abs) -> ample net fuel ->
  names_once (ds_root (abs (inner s))) ->
  (forall i, (i < n)%nat -> worker E fuel depths tid (ds_root (abs (inner s))) (g i) (jobs i) (sh i) (ns i)) ->
  (forall i, (n <= i)%nat -> (exists a, p_prog (g i) = Ret a) /\ p_rx (g i) = [] /\ p_tl (g i) = Open /\ typed_client (p_cl (g i))) ->
  (forall i, up i s) ->
  forall l g' s', steps net g s l g' s' -> let R := ds_root (abs (inner s)) in let R' := ds_root (abs (inner s')) in
  (forall i, (i < n)%nat -> match p_prog (g' i) with
    | Ret (Good t) => match jobs i with Copy => copy_between (ns i) R R' t | Remove => gone (ns i) R' end
    | Ret (Bad e) => (exists x, e = ServerError x) \/ (exists x, e = ENetBios x) /\ ~ up i s'
    | Panicked | OutOfFuel => False | _ => True end)
  /\ (forall i, (i < n)%nat -> ended (g' i) = false -> exists b p s'', moves (net i) (g' i) s' b p s'')
  /\ (forall p, ~ removed_in n jobs ns p -> file_of R' p = file_of R p /\ (dir_at R' p = None <-> dir_at R p = None))
  /\ (forall p, (file_of R' p = None \/ file_of R' p = file_of R p) /\ (dir_at R' p = None \/ dir_at R p <> None))
  /\ still_open (ds_open (abs (inner s))) (ds_open (abs (inner s'))).
Proof.
  intros Sn Sv net react inner up tid setup abs E fuel depths n jobs sh ns g s Hn Hc Ha Ho Hg Hr Hup l g' s' H.
  exact (@storm tid setup Sn Sv net inner up react abs Hn Hc E fuel depths Ha n jobs sh ns g s Ho Hg Hr l g' s' Hup H).
Qed.
Print Assumptions C126_storm.

(** whatever of the directory is in no directory of one who removes is in the copy, as it was. *)
Theorem C126_untouched : forall Sn Sv (net : nat -> Sn -> bytes -> reaction Sn) (react : nat -> Sv -> bytes -> reaction Sv) inner up
    tid setup abs E fuel depths n jobs sh ns g s,
  outages net react inner up -> (forall i, conforming (react i) (dir_service tid setup) abs) -> ample net fuel ->
  names_once (ds_root (abs (inner s))) ->
  (forall i, (i < n)%nat -> worker E fuel depths tid (ds_root (abs (inner s))) (g i) (jobs i) (sh i) (ns i)) ->
  (forall i, (n <= i)%nat -> (exists a, p_prog (g i) = Ret a) /\ p_rx (g i) = [] /\ p_tl (g i) = Open /\ typed_client (p_cl (g i))) ->
  (forall i, up i s) ->
  forall l g' s', steps net g s l g' s' -> forall i t, (i < n)%nat -> jobs i = Copy -> p_prog (g' i) = Ret (Good t) ->
  forall p, p <> [] -> ~ removed_in n jobs ns (ns i ++ p) ->
  file_of t p = file_of (ds_root (abs (inner s))) (ns i ++ p) /\ (dir_at t p = None <-> dir_at (ds_root (abs (inner s))) (ns i ++ p) = None).
Proof.
  intros Sn Sv net react inner up tid setup abs E fuel depths n jobs sh ns g s Hn Hc Ha Ho Hg Hr Hup l g' s' H i t Hi Hj Ht p Hp Hnr.
  destruct (@C126_storm Sn Sv net react inner up tid setup abs E fuel depths n jobs sh ns g s Hn Hc Ha Ho Hg Hr Hup l g' s' H) as (H1 & _ & H3 & _).
  specialize (H1 i Hi). rewrite Ht, Hj in H1. destruct (H1 p Hp) as (K1 & K2 & K3 & K4). destruct (H3 _ Hnr) as [L1 L2]. split.
  - destruct K3 as [K3|K3]; [|congruence]. destruct K1 as [K1|K1]; congruence.
  - destruct K2 as [K2|K2], K4 as [K4|K4]; tauto.
Qed.
Print Assumptions C126_untouched.

(** ** the two clients of C125; the connection of the one who removes breaks 20 bytes into the answer
    to its second request, which deletes a/d/b *)
Definition cablesb (i : nat) : option (nat * N) := match i with 1%nat => Some (1%nat, 20) | _ => Some (100%nat, 0) end.
Example C126_ex : forall l g' s', steps (cables reactd) poolb (cablesb, dirs0) l g' s' ->
  forall t, p_prog (g' 0%nat) = Ret (Good t) -> file_of t [[98]] = Some [x68; x69].
Proof.
  intros l g' s' H t Ht.
  destruct (C126_untouched _ dirs (cables reactd) reactd snd plugged_in 5 setup0 (fun s => s) (env0 true) fuel0 5 2 jobs0 (fun _ => share0) spots0 poolb (cablesb, dirs0))
    with (l := l) (g' := g') (s' := s') (i := 0%nat) (t := t) (p := [[98]]) as [K _]; auto.
  - exact (cables_outages _ reactd).
  - intros i. exact (proj2 (proj2 (proj2 (proj2 (proj2 (proj2 (proj2 (proj2 (proj2 (proj2 (proj2 (proj2 C121_ex)))))))))))).
  - apply cables_ample; [exact (ref_ample _ _ DS0_proper)|unfold fuel0; lia].
  - exact once0.
  - exact poolb_workers.
  - exact poolb_rest.
  - intros [|[|i]]; discriminate.
  - discriminate.
  - intros ([|[|i]] & Hi & Hj & Hb); [discriminate Hj|discriminate Hb|lia].
Qed.
(** the file is gone, who removed it does not know it; the copy is right *)
Example C126_run : exists l g' s', steps (cables reactd) poolb (cablesb, dirs0) l g' s'
  /\ answer (g' 0%nat) = Some (Good (AFile [98] [x68; x69] (ADir [99] Nothing (ADir [100] Nothing Nothing))))
  /\ answer (g' 1%nat) = Some (Bad (ENetBios UnexpectedEOF)) /\ fst s' 1%nat = None
  /\ ds_root (snd s') = AFile [101] [x31] (ADir [97] (AFile [98] [x68; x69] (ADir [99] Nothing (ADir [100] Nothing Nothing))) Nothing).
Proof.
  destruct (take_turns (cables reactd) (concat (repeat [0; 1]%nat 70)) poolb (cablesb, dirs0) []) as [[g' s'] l'] eqn:Ht.
  exists l', g', s'. split; [exact (take_turns_steps _ _ _ _ _ _ _ _ _ (st_none _ _ _) _ _ _ Ht)|].
  assert (G : let '(g', s', l') := take_turns (cables reactd) (concat (repeat [0; 1]%nat 70)) poolb (cablesb, dirs0) [] in
    answer (g' 0%nat) = Some (Good (AFile [98] [x68; x69] (ADir [99] Nothing (ADir [100] Nothing Nothing))))
    /\ answer (g' 1%nat) = Some (Bad (ENetBios UnexpectedEOF)) /\ fst s' 1%nat = None
    /\ ds_root (snd s') = AFile [101] [x31] (ADir [97] (AFile [98] [x68; x69] (ADir [99] Nothing (ADir [100] Nothing Nothing))) Nothing))
    by (vm_compute; repeat split).
  rewrite Ht in G. exact G.
Qed.
