(** * Property C120: whatever the server, requests are handled one by one. *)
From Verif Require Import Base Text Win Errors Common Reply Ntlm Prog Client Spec SpecReply SpecNtlm SpecMsg Api SpecCall
  BaseFacts MsgFacts SizeFacts Flow FlowFacts SpecRemote RemoteFacts RefServer RefFacts FileService FileFacts SpecLogin SpecPool PoolFacts SpecPipe PipeFacts
  SpecCrowd CrowdFacts SpecSpace SpaceFacts SpecAtomic AtomicFacts SpecShare ShareFacts Sample P_Remote P_Pool P_Pipe P_Crowd P_Space P_Share.
Open Scope N_scope.

(** C120: any number of clients with any programs that write whole frames, each over a connection
    of its own that holds so many bytes in each direction, at any server, in any schedule (SpecCrowd).
    Whatever happens can happen as well when every request is handed over, handled and answered
    in one step (SpecPool): with the same state of the server, and every client of the first [n]
    that has no request on the way is at the same point of its program, with the same state and
    the same bytes to read. *)
Theorem C120_one_by_one : forall Sv A (react : nat -> Sv -> bytes -> reaction Sv) (g : nat -> proc A) s cap duplex ys s' n,
  (forall i, frames_only (p_prog (g i)) /\ p_tl (g i) = Open) ->
  crowd cap duplex react (fun i => seated s (g i)) s ys s' ->
  exists l g', steps react g s l g' s' /\ forall i, (i < n)%nat -> nothing_up (ys i) -> abreast_of (ys i) (g' i).
Proof.
  intros Sv A react g s cap duplex ys s' n Hg H.
  assert (H0 : lagging react g s (fun i => seated s (g i)) s).
  { exists [], g. split; [constructor|]. intros i. destruct (Hg i). now apply seated_lags. }
  destruct (all_catch n (crowd_lags H H0)) as (l & g' & H1 & _ & H2). exists l, g'. split; [exact H1|exact H2].
Qed.
Print Assumptions C120_one_by_one.

(** So what is known of the one holds of the other.  For instance C87: at a server that enforces
    share modes, with any other clients, a download over buffers of any size is a snapshot: what
    it returns was in the file all the time from its first request to its last one. *)
Theorem C120_snapshot : forall Sv St (react : nat -> Sv -> bytes -> reaction Sv) (B : nat -> service St) abs content holds q E fuel i k sh path
    (f : nat -> flow bytes * cifs) g s cap duplex ys s',
  (forall i, conforming (react i) (B i) abs) -> ample react fuel -> share_modes B content holds q ->
  fst (f i) = download_flow fuel sh path -> u16 (sh_tid sh) -> is_str path -> fits_request (use_unicode (snd (f i))) (OpenFile sh path) ->
  room E (snd (f i)) (2 + k) -> (k < fuel)%nat ->
  (forall l f' st d, serial B f (abs s) l f' st -> content st (sh_tid sh) (backslashes path) = Some d -> (pieces (len d) q <= k)%nat) ->
  sensible_others E B i f (abs s) -> (forall j, starts E fuel (g j) (f j) /\ typed_client (snd (f j))) ->
  (forall j, frames_only (p_prog (g j))) ->
  crowd cap duplex react (fun j => seated s (g j)) s ys s' -> nothing_up (ys i) ->
  match y_prog (ys i) with
  | Ret (Good d) => exists l f', snapshot B content i (sh_tid sh) (backslashes path) d f (abs s) l f' (abs s')
  | Ret (Bad e) => exists x, e = ServerError x
  | Panicked | OutOfFuel => False
  | _ => True
  end.
Proof.
  intros Sv St react B abs content holds q E fuel i k sh path f g s cap duplex ys s' Hc Ha Hm Hf Hu Hp Hfit Hr Hk Hl Ho Hs Hfr H Hn.
  destruct (C120_one_by_one Sv bytes react g s cap duplex ys s' (S i)) as (l & g' & H1 & H2); [|exact H|].
  { intros j. split; [apply Hfr|]. apply (Hs j). }
  destruct (H2 i (le_n _) Hn) as (H3 & _).
  pose proof (C87_snapshot Sv St react B abs content holds q E fuel i k sh path f g s Hc Ha Hm Hf Hu Hp Hfit Hr Hk Hl Ho Hs l g' s' H1) as H4.
  rewrite H3 in H4. destruct (y_prog (ys i)) as [[d|e]| | | | | |]; try exact I; try exact H4. destruct H4 as [f' H4]. exists l, f'. exact H4.
Qed.
Print Assumptions C120_snapshot.

(** ** client 0 downloads "a", client 1 deletes it; the first over 7, the second over one byte (P_Share, P_Crowd) *)
(** (the process at the server has written it before) *)
Example C120_run : exists ys s', crowd cap0 (fun _ => false) react1 (fun i => seated shared0 (pool1 i)) shared0 ys s'
  /\ said (ys 0%nat) = Some (Good [x79; x7a]) /\ nothing_up (ys 0%nat) /\ (exists a, said (ys 1%nat) = Some a) /\ nothing_up (ys 1%nat).
Proof.
  destruct (both cap0 react1 600 (seated shared0 (pool1 0%nat)) (seated shared0 (pool1 1%nat)) shared0) as [[y0 y1] s'] eqn:Ht.
  destruct (both_crowd _ _ cap0 (fun _ => false) react1 600 (fun i => seated shared0 (pool1 i)) shared0 _ shared0 (cr_none _ _ _ _ _) _ _ _ Ht) as (ys & H & H0 & H1).
  exists ys, s'. rewrite H0, H1. split; [exact H|].
  assert (G : let '(y0, y1, s') := both cap0 react1 600 (seated shared0 (pool1 0%nat)) (seated shared0 (pool1 1%nat)) shared0 in
    (said y0, y_in y0, y_up y0, y_in y1, y_up y1, match said y1 with Some _ => true | None => false end)
    = (Some (Good [x79; x7a]), [], [], [], [], true)) by (vm_compute; reflexivity).
  rewrite Ht in G. clear Ht. injection G as G1 G2 G3 G4 G5 G6. split; [exact G1|].
  split; [split; [exact G2|split; [exact G3|]]; unfold said in G1; destruct (y_prog y0); try exact I; discriminate|].
  destruct (said y1) as [a|] eqn:Ha; [|discriminate]. split; [eauto|]. split; [exact G4|split; [exact G5|]]. unfold said in Ha. destruct (y_prog y1); try exact I; discriminate.
Qed.
Example C120_ex : forall cap duplex ys s', crowd cap duplex react1 (fun i => seated shared0 (pool1 i)) shared0 ys s' ->
  exists l g', steps react1 pool1 shared0 l g' s' /\ forall i, (i < 2)%nat -> nothing_up (ys i) -> abreast_of (ys i) (g' i).
Proof.
  intros cap duplex ys s' H. apply (C120_one_by_one _ _ react1 pool1 shared0 cap duplex ys s' 2); [|exact H].
  intros i. split; [apply fr_interp|reflexivity].
Qed.
Example C120_snapshot_ex : forall cap duplex ys s', crowd cap duplex react1 (fun i => seated shared0 (pool1 i)) shared0 ys s' -> nothing_up (ys 0%nat) ->
  match y_prog (ys 0%nat) with
  | Ret (Good d) => exists l f', snapshot SS0 sd_content 0 5 [97] d flows1 shared0 l f' s'
  | Ret (Bad e) => exists x, e = ServerError x
  | Panicked | OutOfFuel => False
  | _ => True
  end.
Proof.
  intros cap duplex ys s' H Hn.
  refine (C120_snapshot shared shared react1 SS0 (fun s => s) sd_content sd_holds 65534 (env0 true) fuel0 0 1 share0 [97] flows1 pool1 shared0 cap duplex ys s'
    _ _ (C87_service tree0 setup0 accepts0) eq_refl eq_refl eq_refl eq_refl _ _ _ _ _ _ H Hn).
  - intros i. apply ref_conforming. apply SS0_proper.
  - intros i s f s1 inc t Hr. exact (ref_ample _ _ (SS0_proper i) i s f s1 inc t Hr).
  - intros _. vm_compute. discriminate.
  - unfold fuel0. lia.
  - intros l0 f' st d Hs Hc. destruct (tame_all _ _ _ Hs) as (_ & K & _). pose proof (small_contents _ _ _ _ K Hc) as Hl.
    unfold pieces. assert ((len d + 65534 - 1) / 65534 < 2); [|lia]. apply N.div_lt_upper_bound; lia.
  - intros l0 f' st Hs j Hj. destruct (tame_all _ _ _ Hs) as (K & _). destruct (K j Hj) as [Hi|(a & c & Hi)]; rewrite Hi; [|exact I].
    split; [split; reflexivity|]. split; [exact I|]. split; [reflexivity|]. intros _. reflexivity.
  - intros j. split; [|split; reflexivity]. split; [|repeat split]. apply tree_refl.
  - intros j. apply fr_interp.
Qed.
