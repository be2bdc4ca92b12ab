(** * Property C124: several clients remove directory trees at the same time. *)
From Verif Require Import Base Text Win Errors Common Reply Ntlm Prog Client Spec SpecReply SpecMsg Api SpecCall BaseFacts
  MsgFacts SizeFacts Flow FlowFacts SpecRemote RemoteFacts RefServer RefFacts FileService FileFacts SpecPool PoolFacts
  SpecTree TreeFacts SpecRemoval RemovalFacts SpecRemovers RemoversFacts Sample P_Remote P_Pool P_Tree.
Open Scope N_scope.

(** C124: [n] clients remove directory trees at the same time on a server that has directories; the
    directories may be the same, or one in another.  However their steps are interleaved:
    - who ends with success has reached that there is nothing in the directory;
    - who ends with an error got it from the server, and another client works in the same
      directory, or in one around it or in it;
    - none gets stuck, none panics;
    - whatever is in none of the directories is as before, nothing appears, no file is altered. *)
Theorem C124_removals : forall Sv (react : nat -> Sv -> bytes -> reaction Sv) tid setup abs E fuel depths n sh ns g s,
  (forall i, conforming (react i) (dir_service tid setup) abs) -> ample react fuel -> names_once (ds_root (abs s)) ->
  (forall i, (i < n)%nat -> remover E fuel depths tid (ds_root (abs s)) (g i) (sh i) (ns i)) ->
  (forall i, (n <= i)%nat -> (exists a, p_prog (g i) = Ret a) /\ p_rx (g i) = [] /\ p_tl (g i) = Open /\ typed_client (p_cl (g i))) ->
  forall l g' s', steps react g s l g' s' ->
  (forall i, (i < n)%nat -> match p_prog (g' i) with
    | Ret (Good _) => gone (ns i) (ds_root (abs s'))
    | Ret (Bad e) => (exists x, e = ServerError x) /\ exists j, (j < n)%nat /\ j <> i /\ ~ apart (ns i) (ns j)
    | Panicked | OutOfFuel => False | _ => True end)
  /\ (forall i, (i < n)%nat -> ended (g' i) = false -> exists b p s'', moves (react i) (g' i) s' b p s'')
  /\ only_removed n ns (ds_root (abs s)) (ds_root (abs s')) /\ ds_open (abs s') = ds_open (abs s).
Proof.
  intros Sv react tid setup abs E fuel depths n sh ns g s Hc Ha Ho Hg Hr l g' s' H.
  exact (@concurrent_removals tid setup Sv react abs Hc E fuel depths Ha n sh ns g s Ho Hg Hr l g' s' H).
Qed.
Print Assumptions C124_removals.

(** clients whose directories have nothing to do with each other: all succeed, and each has done what
    it would have done alone. *)
Theorem C124_apart : forall Sv (react : nat -> Sv -> bytes -> reaction Sv) tid setup abs E fuel depths n sh ns g s,
  (forall i, conforming (react i) (dir_service tid setup) abs) -> ample react fuel -> names_once (ds_root (abs s)) ->
  (forall i, (i < n)%nat -> remover E fuel depths tid (ds_root (abs s)) (g i) (sh i) (ns i)) ->
  (forall i, (n <= i)%nat -> (exists a, p_prog (g i) = Ret a) /\ p_rx (g i) = [] /\ p_tl (g i) = Open /\ typed_client (p_cl (g i))) ->
  (forall i j, (i < n)%nat -> (j < n)%nat -> j <> i -> apart (ns i) (ns j)) ->
  forall l g' s', steps react g s l g' s' -> (forall i, (i < n)%nat -> ended (g' i) = true) ->
  (forall i, (i < n)%nat -> p_prog (g' i) = Ret (Good tt))
  /\ forall p, file_of (ds_root (abs s')) p = if existsb (fun i => below (ns i) p) (seq 0 n) then None else file_of (ds_root (abs s)) p.
Proof.
  intros Sv react tid setup abs E fuel depths n sh ns g s Hc Ha Ho Hg Hr Hap l g' s' H He.
  destruct (@C124_removals Sv react tid setup abs E fuel depths n sh ns g s Hc Ha Ho Hg Hr l g' s' H) as (H1 & _ & (H3 & _) & _).
  assert (HG : forall i, (i < n)%nat -> p_prog (g' i) = Ret (Good tt)).
  { intros i Hi. specialize (H1 i Hi). specialize (He i Hi). unfold ended in He.
    destruct (p_prog (g' i)) as [[[]|e]| | | | | |]; try contradiction; try discriminate He; [reflexivity|].
    destruct H1 as (_ & j & J1 & J2 & J3). destruct (J3 (Hap i j Hi J1 J2)). }
  split; [exact HG|]. intros p. destruct (existsb _ _) eqn:Ex.
  - apply existsb_exists in Ex as (i & Hi & Hb). apply in_seq in Hi as [_ Hi]. cbn [Nat.add] in Hi. specialize (H1 i Hi). rewrite (HG i Hi) in H1.
    exact (proj1 (H1 p Hb)).
  - apply H3. intros i Hi. destruct (below (ns i) p) eqn:Eb; [|reflexivity]. rewrite <- Ex. symmetry. apply existsb_exists.
    exists i. split; [apply in_seq; lia|exact Eb].
Qed.
Print Assumptions C124_apart.

(** ** two clients at the server of P_Tree *)
Definition reactd (_ : nat) : dirs -> bytes -> reaction dirs := ref_server DS0.
(** one removes all in a/c, the other all in a/d; the other clients have nothing to do *)
Definition places0 (i : nat) : list text := match i with 0%nat => [[97]; [99]] | _ => [[97]; [100]] end.
Definition poold (ns : nat -> list text) (i : nat) : proc unit :=
  mk_proc (if (i <? 2)%nat then clear_tree (env0 true) fuel0 5 share0 (path_of (ns i)) else Ret (Good tt)) client0 [] Open [].
Lemma poold_rest ns i : (2 <= i)%nat ->
  (exists a, p_prog (poold ns i) = Ret a) /\ p_rx (poold ns i) = [] /\ p_tl (poold ns i) = Open /\ typed_client (p_cl (poold ns i)).
Proof.
  intros Hi. unfold poold. destruct (Nat.ltb_spec i 2); [lia|]. cbn [p_prog p_rx p_tl p_cl].
  split; [eauto|]. split; [reflexivity|]. split; [reflexivity|]. exact (proj1 C121_ex).
Qed.
Lemma poold_remover ns t i : (i < 2)%nat -> Forall a_name (ns i) -> dir_at root0 (ns i) = Some t -> listable t -> ordinary_tree (path_of (ns i)) t ->
  short (path_of (ns i) ++ [42]) -> (depth t < 5)%nat -> room (env0 true) client0 (1 + clear_calls t) ->
  remover (env0 true) fuel0 5 5 (ds_root dirs0) (poold ns i) share0 (ns i).
Proof.
  intros Hi H1 H2 H3 H4 H5 H6 H7. unfold poold. destruct (Nat.ltb_spec i 2); [|lia]. cbn [p_prog p_rx p_tl p_cl].
  split; [reflexivity|]. split; [reflexivity|]. split; [reflexivity|]. split; [exact (proj1 C121_ex)|].
  split; [reflexivity|]. split; [reflexivity|]. split; [exact H1|]. split; [exact H5|]. exists t. auto 8.
Qed.
Lemma once0 : names_once (ds_root dirs0).
Proof. cbn [dirs0 ds_root root0 inner0 names_once entry_names In]. intuition discriminate. Qed.
Lemma DS0_proper : proper DS0.
Proof. apply dirs_proper; [reflexivity|repeat split]. Qed.
Lemma name0 c : In c [97; 98; 99; 100] -> a_name [c].
Proof.
  intros H. repeat split; try (cbn [In] in H; destruct H as [<-|[<-|[<-|[<-|[]]]]]; discriminate || reflexivity);
    cbn [In] in *; intuition (subst; discriminate).
Qed.
Example C124_ex : forall l g' s', steps reactd (poold places0) dirs0 l g' s' -> (forall i, (i < 2)%nat -> ended (g' i) = true) ->
  (forall i, (i < 2)%nat -> p_prog (g' i) = Ret (Good tt))
  /\ forall p, file_of (ds_root s') p = if existsb (fun i => below (places0 i) p) (seq 0 2) then None else file_of root0 p.
Proof.
  apply (C124_apart dirs reactd 5 setup0 (fun s => s) (env0 true) fuel0 5 2 (fun _ => share0) places0 (poold places0) dirs0).
  - intros i. exact (proj2 (proj2 (proj2 (proj2 (proj2 (proj2 (proj2 (proj2 (proj2 (proj2 (proj2 (proj2 C121_ex)))))))))))).
  - exact (ref_ample _ _ DS0_proper).
  - exact once0.
  - assert (HS : forall p, utf16_len p <= 32600 -> short p) by (intros p H; exact H).
    intros [|[|i]] Hi; [| |lia].
    + apply (poold_remover places0 Nothing 0 Hi); cbn [places0].
      * constructor; [apply name0; cbn; tauto|]. constructor; [apply name0; cbn; tauto|constructor].
      * reflexivity.
      * reflexivity.
      * exact I.
      * apply HS. vm_compute. discriminate.
      * cbn. lia.
      * intros _. vm_compute. discriminate.
    + apply (poold_remover places0 (AFile [98] (repeat x2a 70) Nothing) 1 Hi); cbn [places0].
      * constructor; [apply name0; cbn; tauto|]. constructor; [apply name0; cbn; tauto|constructor].
      * reflexivity.
      * reflexivity.
      * cbn [ordinary_tree entry_names]. split; [apply name0; cbn; tauto|]. split; [cbn [In]; tauto|].
        split; [apply HS; vm_compute; discriminate|]. split; [reflexivity|exact I].
      * apply HS. vm_compute. discriminate.
      * cbn. lia.
      * intros _. vm_compute. discriminate.
  - exact (poold_rest places0).
  - intros [|[|i]] [|[|j]] Hi Hj Hij; try lia; (split; [discriminate|split; reflexivity]).
Qed.
(** both clients remove all in a/, taking turns: one ends with an error of the server, the other
    with success *)
Example C124_run : exists l g' s', steps reactd (poold (fun _ => [[97]])) dirs0 l g' s'
  /\ answer (g' 0%nat) = Some (Good tt) /\ answer (g' 1%nat) = Some (Bad (ServerError (Known NAME_NOT_FOUND)))
  /\ s' = mk_dirs (AFile [101] [x31] (ADir [97] Nothing Nothing)) [(3, [[101]])].
Proof.
  set (q := poold (fun _ => [[97]])).
  destruct (turns reactd 70 (q 0%nat) (q 1%nat) dirs0 []) as [[[p0 p1] s'] l'] eqn:Ht.
  destruct (turns_steps _ _ reactd 70 q dirs0 [] q dirs0 (st_none _ _ _) _ _ _ _ Ht) as (g' & H & H0 & H1).
  exists l', g', s'. rewrite H0, H1. split; [exact H|].
  assert (G : let '(p0, p1, s', l') := turns reactd 70 (q 0%nat) (q 1%nat) dirs0 [] in
    answer p0 = Some (Good tt) /\ answer p1 = Some (Bad (ServerError (Known NAME_NOT_FOUND)))
    /\ s' = mk_dirs (AFile [101] [x31] (ADir [97] Nothing Nothing)) [(3, [[101]])])
    by (vm_compute; repeat split).
  rewrite Ht in G. exact G.
Qed.
