(** * Property C125: clients copy directory trees while others remove them. *)
From Verif Require Import Base Text Win Errors Common Reply Ntlm Prog Client Spec SpecReply SpecMsg Api SpecCall BaseFacts
  MsgFacts SizeFacts Flow FlowFacts SpecRemote RemoteFacts RefServer RefFacts FileService FileFacts SpecPool PoolFacts
  SpecTree TreeFacts SpecRemoval RemovalFacts SpecRemovers RemoversFacts SpecBusy BusyFacts Sample P_Remote P_Pool P_Tree P_Removers.
Open Scope N_scope.

(** C125: [n] clients work at the same time on a server that has directories; each copies a
    directory tree or removes all in a directory.  However their steps are interleaved:
    - a copy made has no file and no directory that was not there at first, no file in it is
      other than it was, and it has all that is still there;
    - who removed with success has reached that there is nothing in the directory;
    - an error comes from the server; none gets stuck, none panics;
    - whatever is in no directory of one who removes is as before, nothing appears, no file is
      altered, and the files that others have open stay open. *)
Theorem C125_copies : forall Sv (react : nat -> Sv -> bytes -> reaction Sv) tid setup abs E fuel depths n jobs sh ns g s,
  (forall i, conforming (react i) (dir_service tid setup) abs) -> ample react fuel -> names_once (ds_root (abs s)) ->
  (forall i, (i < n)%nat -> worker E fuel depths tid (ds_root (abs s)) (g i) (jobs i) (sh i) (ns i)) ->
  (forall i, (n <= i)%nat -> (exists a, p_prog (g i) = Ret a) /\ p_rx (g i) = [] /\ p_tl (g i) = Open /\ typed_client (p_cl (g i))) ->
  forall l g' s', steps react g s l g' s' ->
  (forall i, (i < n)%nat -> match p_prog (g' i) with
    | Ret (Good t) => match jobs i with
                      | Copy => copy_between (ns i) (ds_root (abs s)) (ds_root (abs s')) t
                      | Remove => gone (ns i) (ds_root (abs s'))
                      end
    | Ret (Bad e) => exists x, e = ServerError x
    | Panicked | OutOfFuel => False | _ => True end)
  /\ (forall i, (i < n)%nat -> ended (g' i) = false -> exists b p s'', moves (react i) (g' i) s' b p s'')
  /\ (forall p, ~ removed_in n jobs ns p -> file_of (ds_root (abs s')) p = file_of (ds_root (abs s)) p
       /\ (dir_at (ds_root (abs s')) p = None <-> dir_at (ds_root (abs s)) p = None))
  /\ (forall p, (file_of (ds_root (abs s')) p = None \/ file_of (ds_root (abs s')) p = file_of (ds_root (abs s)) p)
       /\ (dir_at (ds_root (abs s')) p = None \/ dir_at (ds_root (abs s)) p <> None))
  /\ still_open (ds_open (abs s)) (ds_open (abs s')).
Proof.
  intros Sv react tid setup abs E fuel depths n jobs sh ns g s Hc Ha Ho Hg Hr l g' s' H.
  exact (@concurrent_work tid setup Sv abs E fuel depths n jobs sh ns g s Ho Hg Hr react Hc Ha l g' s' H).
Qed.
Print Assumptions C125_copies.

(** whatever of the directory is in no directory of one who removes is in the copy, as it was. *)
Theorem C125_untouched : forall Sv (react : nat -> Sv -> bytes -> reaction Sv) tid setup abs E fuel depths n jobs sh ns g s,
  (forall i, conforming (react i) (dir_service tid setup) abs) -> ample react fuel -> names_once (ds_root (abs s)) ->
  (forall i, (i < n)%nat -> worker E fuel depths tid (ds_root (abs s)) (g i) (jobs i) (sh i) (ns i)) ->
  (forall i, (n <= i)%nat -> (exists a, p_prog (g i) = Ret a) /\ p_rx (g i) = [] /\ p_tl (g i) = Open /\ typed_client (p_cl (g i))) ->
  forall l g' s', steps react g s l g' s' -> forall i t, (i < n)%nat -> jobs i = Copy -> p_prog (g' i) = Ret (Good t) ->
  forall p, p <> [] -> ~ removed_in n jobs ns (ns i ++ p) ->
  file_of t p = file_of (ds_root (abs s)) (ns i ++ p) /\ (dir_at t p = None <-> dir_at (ds_root (abs s)) (ns i ++ p) = None).
Proof.
  intros Sv react tid setup abs E fuel depths n jobs sh ns g s Hc Ha Ho Hg Hr l g' s' H i t Hi Hj Ht p Hp Hn.
  destruct (@C125_copies Sv react tid setup abs E fuel depths n jobs sh ns g s Hc Ha Ho Hg Hr l g' s' H) as (H1 & _ & H3 & _).
  specialize (H1 i Hi). rewrite Ht, Hj in H1. destruct (H1 p Hp) as (K1 & K2 & K3 & K4). destruct (H3 _ Hn) as [L1 L2]. split.
  - destruct K3 as [K3|K3]; [|congruence]. destruct K1 as [K1|K1]; congruence.
  - destruct K2 as [K2|K2], K4 as [K4|K4]; tauto.
Qed.
Print Assumptions C125_untouched.

(** ** two clients at the server of P_Tree: one copies a/, the other removes all in a/d *)
Definition jobs0 (i : nat) : job := match i with 0%nat => Copy | _ => Remove end.
Definition spots0 (i : nat) : list text := match i with 0%nat => [[97]] | _ => [[97]; [100]] end.
Definition poolb (i : nat) : proc tree :=
  mk_proc (if (i <? 2)%nat then job_prog (env0 true) fuel0 5 (jobs0 i) share0 (spots0 i) else Ret (Good Nothing)) client0 [] Open [].
Lemma poolb_rest i : (2 <= i)%nat ->
  (exists a, p_prog (poolb i) = Ret a) /\ p_rx (poolb i) = [] /\ p_tl (poolb i) = Open /\ typed_client (p_cl (poolb i)).
Proof.
  intros Hi. unfold poolb. destruct (Nat.ltb_spec i 2); [lia|]. cbn [p_prog p_rx p_tl p_cl].
  split; [eauto|]. split; [reflexivity|]. split; [reflexivity|]. exact (proj1 C121_ex).
Qed.
Lemma poolb_worker t i : (i < 2)%nat -> Forall a_name (spots0 i) -> dir_at root0 (spots0 i) = Some t -> listable t -> ordinary_tree (path_of (spots0 i)) t ->
  short (path_of (spots0 i) ++ [42]) -> (depth t < 5)%nat -> (most_reads t < fuel0)%nat -> room (env0 true) client0 (1 + job_calls (jobs0 i) t) ->
  worker (env0 true) fuel0 5 5 (ds_root dirs0) (poolb i) (jobs0 i) share0 (spots0 i).
Proof.
  intros Hi H1 H2 H3 H4 H5 H6 H7 H8. unfold poolb. destruct (Nat.ltb_spec i 2); [|lia]. cbn [p_prog p_rx p_tl p_cl].
  split; [reflexivity|]. split; [reflexivity|]. split; [reflexivity|]. split; [exact (proj1 C121_ex)|].
  split; [reflexivity|]. split; [reflexivity|]. split; [exact H1|]. split; [exact H5|]. exists t. auto 8.
Qed.
Lemma poolb_workers : forall i, (i < 2)%nat -> worker (env0 true) fuel0 5 5 (ds_root dirs0) (poolb i) (jobs0 i) share0 (spots0 i).
Proof.
  assert (HS : forall p, utf16_len p <= 32600 -> short p) by (intros p K; exact K).
  assert (Hf : forall k, (k < 70000)%N -> (N.to_nat k < fuel0)%nat) by (intros k; unfold fuel0; lia).
  destruct C121_ex as (_ & _ & _ & _ & _ & X1 & _ & X2 & X3 & X4 & X5 & _).
  intros [|[|i]] Hi; [| |lia].
  - apply (poolb_worker inner0 0 Hi); cbn [spots0 jobs0 job_calls]; [exact X1|reflexivity|exact X2|exact X3|exact X4|cbn; lia| |exact X5].
    apply (Hf 1%N). reflexivity.
  - apply (poolb_worker (AFile [98] (repeat x2a 70) Nothing) 1 Hi); cbn [spots0 jobs0 job_calls].
    + constructor; [apply name0; cbn; tauto|]. constructor; [apply name0; cbn; tauto|constructor].
    + reflexivity.
    + reflexivity.
    + cbn [ordinary_tree entry_names]. split; [apply name0; cbn; tauto|]. split; [cbn [In]; tauto|].
      split; [apply HS; vm_compute; discriminate|]. split; [reflexivity|exact I].
    + apply HS. vm_compute. discriminate.
    + cbn. lia.
    + apply (Hf 1%N). reflexivity.
    + intros _. vm_compute. discriminate.
Qed.
(** the file a/b is in every copy of a/ that is made *)
Example C125_ex : forall l g' s', steps reactd poolb dirs0 l g' s' -> forall t, p_prog (g' 0%nat) = Ret (Good t) -> file_of t [[98]] = Some [x68; x69].
Proof.
  intros l g' s' H t Ht.
  destruct (C125_untouched dirs reactd 5 setup0 (fun s => s) (env0 true) fuel0 5 2 jobs0 (fun _ => share0) spots0 poolb dirs0) with (l := l) (g' := g') (s' := s') (i := 0%nat) (t := t) (p := [[98]]) as [K _]; auto.
  - intros i. exact (proj2 (proj2 (proj2 (proj2 (proj2 (proj2 (proj2 (proj2 (proj2 (proj2 (proj2 (proj2 C121_ex)))))))))))).
  - exact (ref_ample _ _ DS0_proper).
  - exact once0.
  - exact poolb_workers.
  - exact poolb_rest.
  - discriminate.
  - intros ([|[|i]] & Hi & Hj & Hb); [discriminate Hj|discriminate Hb|lia].
Qed.
(** they take turns: the file a/d/b is in the copy no more, everything else is *)
Example C125_run : exists l g' s', steps reactd poolb dirs0 l g' s'
  /\ answer (g' 0%nat) = Some (Good (AFile [98] [x68; x69] (ADir [99] Nothing (ADir [100] Nothing Nothing)))) /\ answer (g' 1%nat) = Some (Good Nothing)
  /\ ds_root s' = AFile [101] [x31] (ADir [97] (AFile [98] [x68; x69] (ADir [99] Nothing (ADir [100] Nothing Nothing))) Nothing).
Proof.
  destruct (turns reactd 70 (poolb 0%nat) (poolb 1%nat) dirs0 []) as [[[p0 p1] s'] l'] eqn:Ht.
  destruct (turns_steps _ _ reactd 70 poolb dirs0 [] poolb dirs0 (st_none _ _ _) _ _ _ _ Ht) as (g' & H & H0 & H1).
  exists l', g', s'. rewrite H0, H1. split; [exact H|].
  assert (G : let '(p0, p1, s', l') := turns reactd 70 (poolb 0%nat) (poolb 1%nat) dirs0 [] in
    answer p0 = Some (Good (AFile [98] [x68; x69] (ADir [99] Nothing (ADir [100] Nothing Nothing)))) /\ answer p1 = Some (Good Nothing)
    /\ ds_root s' = AFile [101] [x31] (ADir [97] (AFile [98] [x68; x69] (ADir [99] Nothing (ADir [100] Nothing Nothing))) Nothing))
    by (vm_compute; repeat split).
  rewrite Ht in G. exact G.
Qed.
