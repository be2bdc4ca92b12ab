(** * Property C118: several clients at one server, over connections with bounded buffers. *)
From Verif Require Import Base Text Win Errors Common Reply Ntlm Prog Client Spec SpecReply SpecMsg Api SpecCall
  BaseFacts MsgFacts SizeFacts Flow FlowFacts SpecRemote RemoteFacts RefServer RefFacts FileService FileFacts SpecPool PoolFacts PoolFileFacts
  SpecPipe PipeFacts SpecCrowd CrowdFacts Sample P_Remote P_Pool P_Pipe.
Open Scope N_scope.

Section Start.
Variables Sv St A : Type.
Variable react : nat -> Sv -> bytes -> reaction Sv.
Variable B : nat -> service St.
Variable abs : Sv -> St.
Variable E : env.
Variable fuel : nat.
Variable f : nat -> flow A * cifs.
Variable g : nat -> proc A.
Variable s : Sv.
Hypothesis Hc : forall i, conforming (react i) (B i) abs.
Hypothesis Ha : ample react fuel.
Hypothesis Hs : sensible E B f (abs s).
Hypothesis Hg : forall i, starts E fuel (g i) (f i) /\ typed_client (snd (f i)).
Lemma crowd_follows i : follows E fuel (g i) (f i).
Proof. destruct (Hg i). now apply starts_follows. Qed.
Lemma crowd_agrees cap duplex ys s' : crowd cap duplex react (fun i => at_rest (g i) s) s ys s' -> agreed react g s ys s'.
Proof.
  intros H. apply (@crowd_agreed Sv St A react B abs Hc E fuel Ha f (abs s) Hs g s eq_refl crowd_follows cap duplex _ _ _ _ H).
  apply (@agreed_start Sv St A react B abs Hc E fuel f g s crowd_follows); intros i; destruct (Hg i) as [(_ & _ & H1 & H2) _]; assumption.
Qed.
End Start.

(** C118: as long as a client has not ended, there is a step to be made on its connection, by
    it or by the server: nobody waits for ever, neither for the server nor for another client,
    however few bytes the connections hold. *)
Theorem C118_progress : forall Sv St A (react : nat -> Sv -> bytes -> reaction Sv) (B : nat -> service St) abs E fuel
    (f : nat -> flow A * cifs) g s cap duplex ys s' i,
  (forall i, conforming (react i) (B i) abs) -> ample react fuel -> sensible E B f (abs s) ->
  (forall i, starts E fuel (g i) (f i) /\ typed_client (snd (f i))) ->
  crowd cap duplex react (fun i => at_rest (g i) s) s ys s' -> 1 <= cap i ->
  ended (the_client (ys i)) = false -> exists y, ticks (cap i) (duplex i) (react i) (hosted s' (ys i)) y.
Proof.
  intros Sv St A react B abs E fuel f g s cap duplex ys s' i Hc Ha Hs Hg H Hcap He.
  pose proof (crowd_agrees Sv St A react B abs E fuel f g s Hc Ha Hs Hg cap duplex ys s' H) as Hy.
  exact (@crowd_goes_on Sv St A react B abs Hc E fuel Ha f (abs s) Hs g s eq_refl (crowd_follows A E fuel f g Hg) (cap i) (duplex i) ys s' i Hy Hcap He).
Qed.
Print Assumptions C118_progress.

(** what happens is what happens if every call is made as a whole, one after the other: the
    service is in the same state, each of the first [n] clients that has ended has ended with
    the same result, and nothing is left on its connection. *)
Theorem C118_serial : forall Sv St A (react : nat -> Sv -> bytes -> reaction Sv) (B : nat -> service St) abs E fuel
    (f : nat -> flow A * cifs) g s cap duplex ys s' n,
  (forall i, conforming (react i) (B i) abs) -> ample react fuel -> sensible E B f (abs s) ->
  (forall i, starts E fuel (g i) (f i) /\ typed_client (snd (f i))) ->
  crowd cap duplex react (fun i => at_rest (g i) s) s ys s' ->
  exists l f', serial B f (abs s) l f' (abs s')
  /\ forall i, (i < n)%nat -> ended (the_client (ys i)) = true -> finished (the_client (ys i)) (f' i) /\ hosted s' (ys i) = at_rest (the_client (ys i)) s'.
Proof.
  intros Sv St A react B abs E fuel f g s cap duplex ys s' n Hc Ha Hs Hg H.
  pose proof (crowd_agrees Sv St A react B abs E fuel f g s Hc Ha Hs Hg cap duplex ys s' H) as Hy.
  pose proof (crowd_follows A E fuel f g Hg) as Hf.
  destruct (@crowd_rest Sv St A react B abs Hc E fuel Ha f (abs s) Hs g s eq_refl Hf ys s' Hy) as (l & g' & H1 & H2).
  destruct (@simulate _ _ _ react B abs Hc E fuel Ha f (abs s) Hs g s l g' s' H1 eq_refl Hf) as (h & H3 & H4).
  destruct (@finish _ _ _ react B abs Hc E fuel Ha f (abs s) Hs n s' g' l h H3 H4) as (h' & H5 & _ & H6).
  exists l, h'. split; [exact H5|]. intros i Hi He. destruct (H2 i He) as (E1 & E2 & E3). split; [|exact E3].
  specialize (H6 i Hi). unfold finished, the_client in *. cbn [p_prog p_cl]. rewrite E1, E2 in H6. exact H6.
Qed.
Print Assumptions C118_serial.

(** no number of clients runs for ever, whatever the server answers. *)
Theorem C118_halts : forall Sv A cap duplex (react : nat -> Sv -> bytes -> reaction Sv) n (ys : nat -> line Sv A) s, quietens cap duplex react n ys s.
Proof. intros. apply quietens_all. Qed.
Print Assumptions C118_halts.

(** [n] clients download at the same time: each of them gets its file, none can get stuck, no
    file changes. *)
Theorem C118_downloads : forall Sv (react : nat -> Sv -> bytes -> reaction Sv) tree setup accepts abs E fuel n sh path d g s cap duplex,
  (forall i, conforming (react i) (file_service tree setup accepts) abs) -> ample react fuel ->
  (forall i, (i < n)%nat ->
    p_prog (g i) = download E fuel (sh i) (path i) /\ p_rx (g i) = [] /\ p_tl (g i) = Open /\ typed_client (p_cl (g i))
    /\ contents (fs_files (abs s)) (sh_tid (sh i)) (backslashes (path i)) = Some (d i)
    /\ u16 (sh_tid (sh i)) /\ is_str (path i) /\ len (d i) < 2 ^ 64
    /\ fits_request (use_unicode (p_cl (g i))) (OpenFile (sh i) (path i))
    /\ room E (p_cl (g i)) (2 + pieces (len (d i)) 65534) /\ (pieces (len (d i)) 65534 < fuel)%nat) ->
  (forall i, (n <= i)%nat -> (exists a, p_prog (g i) = Ret a) /\ p_rx (g i) = [] /\ p_tl (g i) = Open /\ typed_client (p_cl (g i))) ->
  fs_next (abs s) + N.of_nat n <= 65536 -> (forall i, 1 <= cap i) ->
  forall ys s', crowd cap duplex react (fun i => at_rest (g i) s) s ys s' ->
  (forall i, (i < n)%nat -> match y_prog (ys i) with
    | Ret a => a = Good (d i)
    | Panicked | OutOfFuel => False
    | _ => exists y, ticks (cap i) (duplex i) (react i) (hosted s' (ys i)) y end)
  /\ fs_files (abs s') = fs_files (abs s).
Proof.
  intros Sv react tree setup accepts abs E fuel n sh path d g s cap duplex Hc Ha Hstart Hrest Hn Hcap ys s' H.
  pose proof (@flows_sensible tree setup accepts Sv react abs Hc E fuel n sh path d g s Hstart Hn Hrest) as Hs.
  pose proof (@flows_start Sv abs E fuel n sh path d g s Hstart Hrest) as Hg.
  pose proof (crowd_agrees Sv _ _ react (fun _ => file_service tree setup accepts) abs E fuel _ g s Hc Ha Hs Hg cap duplex ys s' H) as Hy.
  pose proof (crowd_follows _ E fuel _ g Hg) as Hf.
  destruct (@crowd_rest _ _ _ react (fun _ => file_service tree setup accepts) abs Hc E fuel Ha _ (abs s) Hs g s eq_refl Hf ys s' Hy) as (l & g' & H1 & H2).
  destruct (@concurrent_downloads tree setup accepts Sv react abs Hc E fuel Ha n sh path d g s Hstart Hn Hrest l g' s' H1) as (H3 & _ & H4).
  split; [|exact H4]. intros i Hi. specialize (H3 i Hi). specialize (H2 i).
  pose proof (fun He => @crowd_goes_on _ _ _ react (fun _ => file_service tree setup accepts) abs Hc E fuel Ha _ (abs s) Hs g s eq_refl Hf (cap i) (duplex i) ys s' i Hy (Hcap i) He) as Hgo.
  change (ended (the_client (ys i))) with (match y_prog (ys i) with Ret _ | Panicked | OutOfFuel => true | _ => false end) in H2, Hgo.
  destruct (y_prog (ys i)) eqn:Hp; try (destruct (H2 eq_refl) as (E1 & _ & _); rewrite E1 in H3; exact H3); exact (Hgo eq_refl).
Qed.
Print Assumptions C118_downloads.

(** ** the two clients of C80 over connections of seven bytes each way and of 100 *)
Definition cap0 (i : nat) : N := match i with 0%nat => 7 | _ => 100 end.
Example C118_ex : forall ys s', crowd cap0 (fun _ => false) react0 (fun i => at_rest (pool0 i) files0) files0 ys s' ->
  (forall i, (i < 2)%nat -> match y_prog (ys i) with
    | Ret a => a = Good (data0 i)
    | Panicked | OutOfFuel => False
    | _ => exists y, ticks (cap0 i) false (react0 i) (hosted s' (ys i)) y end)
  /\ fs_files s' = fs_files files0.
Proof.
  apply (C118_downloads files react0 tree0 setup0 accepts0 (fun s => s) (env0 true) fuel0 2 (fun _ => share0) paths0 data0 pool0 files0 cap0 (fun _ => false)).
  - intros i. exact FS0_conforming.
  - exact (ref_ample _ _ FS0_proper).
  - intros i Hi. unfold pool0. destruct (Nat.ltb_spec i 2); [|lia]. cbn [p_prog p_rx p_tl p_cl]. split; [reflexivity|].
    split; [reflexivity|]. split; [reflexivity|]. split; [split; reflexivity|].
    assert (Hf : forall k, (k < 70000)%N -> (N.to_nat k < fuel0)%nat) by (intros k; unfold fuel0; lia).
    destruct i as [|[|i]]; [| |lia].
    + split; [reflexivity|]. split; [reflexivity|]. split; [reflexivity|]. split; [reflexivity|]. split; [reflexivity|].
      split; [intros _; vm_compute; discriminate|]. apply (Hf 1). reflexivity.
    + split; [reflexivity|]. split; [reflexivity|]. split; [reflexivity|]. split; [reflexivity|]. split; [reflexivity|].
      split; [intros _; vm_compute; discriminate|]. apply (Hf 1). reflexivity.
  - intros i Hi. unfold pool0. destruct (Nat.ltb_spec i 2); [lia|]. cbn [p_prog p_rx p_tl p_cl].
    split; [eauto|]. split; [reflexivity|]. split; [reflexivity|]. split; reflexivity.
  - vm_compute. discriminate.
  - intros [|i]; vm_compute; discriminate.
Qed.
(** an execution: a step on the one connection, a step on the other *)
Fixpoint both {Sv A} (cap : nat -> N) (react : nat -> Sv -> bytes -> reaction Sv) (k : nat) (y0 y1 : line Sv A) (s : Sv) : line Sv A * line Sv A * Sv :=
  match k with
  | O => (y0, y1, s)
  | S k =>
    let '(y0, s) := match tick_of (cap 0%nat) (react 0%nat) (hosted s y0) with Some y => (y, y_srv y) | None => (y0, s) end in
    let '(y1, s) := match tick_of (cap 1%nat) (react 1%nat) (hosted s y1) with Some y => (y, y_srv y) | None => (y1, s) end in
    both cap react k y0 y1 s
  end.
Lemma both_crowd Sv A cap duplex (react : nat -> Sv -> bytes -> reaction Sv) k : forall (ys0 : nat -> line Sv A) s0 ys s,
  crowd cap duplex react ys0 s0 ys s -> forall y0 y1 s', both cap react k (ys 0%nat) (ys 1%nat) s = (y0, y1, s') ->
  exists ys', crowd cap duplex react ys0 s0 ys' s' /\ ys' 0%nat = y0 /\ ys' 1%nat = y1.
Proof.
  induction k as [|k IH]; intros ys0 s0 ys s H y0 y1 s' Ht; cbn [both] in Ht.
  - injection Ht as <- <- <-. eauto.
  - assert (H0 : exists ya sa, crowd cap duplex react ys0 s0 ya sa /\ ya 1%nat = ys 1%nat
      /\ match tick_of (cap 0%nat) (react 0%nat) (hosted s (ys 0%nat)) with Some y => (y, y_srv y) | None => (ys 0%nat, s) end = (ya 0%nat, sa)).
    { destruct (tick_of (cap 0%nat) (react 0%nat) (hosted s (ys 0%nat))) as [y|] eqn:Es; [|eauto 10].
      apply (tick_of_ticks _ _ _ (duplex 0%nat)) in Es. exists (upd ys 0%nat y), (y_srv y). split; [econstructor; eassumption|]. split; reflexivity. }
    destruct H0 as (ya & sa & Ha & E1 & Ea). rewrite Ea, <- E1 in Ht.
    assert (H1 : exists yb sb, crowd cap duplex react ys0 s0 yb sb /\ yb 0%nat = ya 0%nat
      /\ match tick_of (cap 1%nat) (react 1%nat) (hosted sa (ya 1%nat)) with Some y => (y, y_srv y) | None => (ya 1%nat, sa) end = (yb 1%nat, sb)).
    { destruct (tick_of (cap 1%nat) (react 1%nat) (hosted sa (ya 1%nat))) as [y|] eqn:Es; [|eauto 10].
      apply (tick_of_ticks _ _ _ (duplex 1%nat)) in Es. exists (upd ya 1%nat y), (y_srv y). split; [econstructor; eassumption|]. split; reflexivity. }
    destruct H1 as (yb & sb & Hb & E2 & Eb). rewrite Eb, <- E2 in Ht. exact (IH _ _ _ _ Hb _ _ _ Ht).
Qed.
Definition said {Sv A} (y : line Sv A) : option (ans A) := match y_prog y with Ret a => Some a | _ => None end.
Example C118_run : exists ys s', crowd cap0 (fun _ => false) react0 (fun i => at_rest (pool0 i) files0) files0 ys s'
  /\ said (ys 0%nat) = Some (Good (data0 0)) /\ said (ys 1%nat) = Some (Good (data0 1)) /\ s' = mk_files (fs_files files0) [] 3.
Proof.
  destruct (both cap0 react0 300 (at_rest (pool0 0%nat) files0) (at_rest (pool0 1%nat) files0) files0) as [[y0 y1] s'] eqn:Ht.
  destruct (both_crowd _ _ cap0 (fun _ => false) react0 300 (fun i => at_rest (pool0 i) files0) files0 _ files0 (cr_none _ _ _ _ _) _ _ _ Ht) as (ys & H & H0 & H1).
  exists ys, s'. rewrite H0, H1. split; [exact H|].
  assert (G : let '(y0, y1, s') := both cap0 react0 300 (at_rest (pool0 0%nat) files0) (at_rest (pool0 1%nat) files0) files0 in
    said y0 = Some (Good (data0 0)) /\ said y1 = Some (Good (data0 1)) /\ s' = mk_files (fs_files files0) [] 3) by (vm_compute; split; [reflexivity|split; reflexivity]).
  rewrite Ht in G. exact G.
Qed.
