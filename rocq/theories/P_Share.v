(** * C87: a download is a snapshot, whoever else is at work *)
From Verif Require Import Base Text Win Errors Common Reply Ntlm Prog Client Spec SpecReply SpecMsg Api SpecCall BaseFacts
  Flow FlowFacts SpecRemote RemoteFacts RefServer RefFacts FileService FileFacts SpecPool PoolFacts PoolFileFacts Sample P_Remote P_Pool SpecShare ShareFacts.
Open Scope N_scope.

(** Any number of clients with any programs at a server that enforces share modes; client [i]
    downloads.  If it ends well, what it returns was in the file all the time from its first
    request (open) to its last one (close), both included; it can fail only with a status of
    the server, and it cannot get stuck, panic or loop. *)
Theorem C87_snapshot : forall Sv St (react : nat -> Sv -> bytes -> reaction Sv) (B : nat -> service St) abs content holds q E fuel i k sh path
    (f : nat -> flow bytes * cifs) g s,
  (forall i, conforming (react i) (B i) abs) -> ample react fuel -> share_modes B content holds q ->
  fst (f i) = download_flow fuel sh path -> u16 (sh_tid sh) -> is_str path -> fits_request (use_unicode (snd (f i))) (OpenFile sh path) ->
  room E (snd (f i)) (2 + k) -> (k < fuel)%nat ->
  (forall l f' st d, serial B f (abs s) l f' st -> content st (sh_tid sh) (backslashes path) = Some d -> (pieces (len d) q <= k)%nat) ->
  sensible_others E B i f (abs s) -> (forall j, starts E fuel (g j) (f j) /\ typed_client (snd (f j))) ->
  forall l g' s', steps react g s l g' s' ->
  match p_prog (g' i) with
  | Ret (Good d) => exists f', snapshot B content i (sh_tid sh) (backslashes path) d f (abs s) l f' (abs s')
  | Ret (Bad e) => exists x, e = ServerError x
  | Panicked | OutOfFuel => False
  | _ => exists b p s'', moves (react i) (g' i) s' b p s''
  end.
Proof. exact snapshot_download. Qed.
Print Assumptions C87_snapshot.

(** Such services exist: files that are open are neither deleted nor written, by other clients
    or a process at the server. *)
Theorem C87_service : forall tree setup accepts, share_modes (shared_service tree setup accepts) sd_content sd_holds 65534.
Proof. exact shared_modes. Qed.
Print Assumptions C87_service.

(** ** client 0 downloads "a", client 1 deletes it, and a process at the server writes "a" and
    "d\b" at the same time *)
Definition SS0 (i : nat) : service shared := shared_service tree0 setup0 accepts0 i.
Definition shared0 : shared := mk_shared (fs_files files0) [] 1 [(5, [100; 92; 98], [x78]); (5, [97], [x79; x7a]); (5, [97], [x79; x7b])].
Definition react1 (i : nat) : shared -> bytes -> reaction shared := ref_server (SS0 i).
Definition deletes : flow bytes := fbind (fcall (Delete share0 [97])) (fun _ => FRet (Good [])).
Definition flows1 (i : nat) : flow bytes * cifs :=
  (match i with 0%nat => download_flow fuel0 share0 [97] | 1%nat => deletes | _ => FRet (Good []) end, client0).
Definition pool1 (i : nat) : proc bytes := mk_proc (interp (env0 true) fuel0 (fst (flows1 i))) client0 [] Open [].

(** what the other clients are doing: deleting, or nothing any more *)
Definition idle (x : flow bytes * cifs) : Prop := x = (deletes, client0) \/ exists a c, x = (FRet a, c).
Definition small (l : list (N * text * bytes)) : Prop := Forall (fun e => len (snd e) <= 70) l.
Lemma small_contents l t p d : small l -> contents l t p = Some d -> len d <= 70.
Proof.
  intros H. induction H as [|[[x y] z] l Hx _ IH]; [discriminate|]. cbn [contents]. destruct (_ && _); [|exact IH]. intros [= <-]. exact Hx.
Qed.
Lemma small_without l t p : small l -> small (without l t p).
Proof. unfold small, without. rewrite !Forall_forall. intros H x Hx. apply filter_In in Hx as [Hx _]. auto. Qed.
Lemma small_files R who (o : op R) v : small (fs_files v) -> small (fs_files (snd (FS0 R who o v))).
Proof.
  intros H. unfold FS0. destruct o; cbn [file_service snd]; try exact H.
  - destruct (contents (fs_files v) tid path) as [d|]; [|exact H]. destruct (_ && _ && _); exact H.
  - destruct (opened (fs_open v) fid); exact H.
  - destruct (opened (fs_open v) fid) as [[t p]|]; [destruct (contents (fs_files v) t p)|]; exact H.
  - destruct (contents (fs_files v) tid path); [|exact H]. apply small_without. exact H.
Qed.
Definition tame (g : nat -> flow bytes * cifs) (s : shared) : Prop :=
  (forall j, j <> 0%nat -> idle (g j)) /\ small (sd_files s) /\ small (sd_todo s).
Lemma tame_service R i who (o : op R) s : small (sd_files s) -> small (sd_todo s) ->
  small (sd_files (snd (SS0 i R who o s))) /\ small (sd_todo (snd (SS0 i R who o s))).
Proof.
  intros H1 H2. unfold SS0, shared_service. cbv zeta.
  assert (Hb : small (sd_files (background s)) /\ small (sd_todo (background s))).
  { unfold background. destruct (sd_todo s) as [|[[t p] d] r] eqn:Et; [rewrite Et; auto|]. cbn [sd_files sd_todo].
    inversion H2; subst. destruct (held s t p); split; try assumption. constructor; assumption. }
  destruct Hb as [Hb1 Hb2]. destruct (blocked o (background s)); cbn [snd unview sd_files sd_todo]; [auto|]. split; [|exact Hb2].
  apply (small_files R who o (view i (background s))). exact Hb1.
Qed.
Lemma tame_all l g s : serial SS0 flows1 shared0 l g s -> tame g s.
Proof.
  intros H. apply (serial_invariant tame H).
  - split; [|split; repeat (apply Forall_cons; [vm_compute; discriminate|]); apply Forall_nil].
    intros j Hj. destruct j as [|[|j]]; [congruence|left; reflexivity|right; exists (Good []), client0; reflexivity].
  - intros h st i b x st' (K1 & K2 & K3) Ha.
    assert (Hs : small (sd_files st') /\ small (sd_todo st')).
    { destruct Ha as [R q k c st r st' Hb| | | ]; try (split; assumption).
      pose proof (tame_service R i (uid c) (op_of q) st K2 K3) as K. rewrite Hb in K. exact K. }
    split; [|exact Hs]. intros j Hj. destruct (Nat.eq_dec j i) as [->|Hji]; [rewrite upd_same|rewrite upd_other by exact Hji; exact (K1 j Hj)].
    pose proof (advances_view Ha) as Hv. destruct (K1 i Hj) as [Hi|(a & c & Hi)]; rewrite Hi in Hv; [|contradiction].
    unfold deletes, fcall in Hv. cbn [fst snd fbind] in Hv. destruct Hv as (_ & -> & _).
    right. destruct (fst _) as [v|e]; cbn [returned fbind]; eauto.
Qed.
Lemma SS0_proper i : proper (SS0 i).
Proof. apply shared_proper. exact FS0_proper. Qed.
Example C87_ex : forall l g' s', steps react1 pool1 shared0 l g' s' ->
  match p_prog (g' 0%nat) with
  | Ret (Good d) => exists f', snapshot SS0 sd_content 0 5 [97] d flows1 shared0 l f' s'
  | Ret (Bad e) => exists x, e = ServerError x
  | Panicked | OutOfFuel => False
  | _ => exists b p s'', moves (react1 0%nat) (g' 0%nat) s' b p s''
  end.
Proof.
  intros l g' s' H.
  refine (C87_snapshot shared shared react1 SS0 (fun s => s) sd_content sd_holds 65534 (env0 true) fuel0 0 1 share0 [97] flows1 pool1 shared0
    _ _ (C87_service tree0 setup0 accepts0) eq_refl eq_refl eq_refl eq_refl _ _ _ _ _ l g' s' H).
  - intros i. apply ref_conforming. apply SS0_proper.
  - intros i s f s1 inc t Hr. exact (ref_ample _ _ (SS0_proper i) i s f s1 inc t Hr).
  - intros _. vm_compute. discriminate.
  - unfold fuel0. lia.
  - intros l0 f' st d Hs Hc. destruct (tame_all _ _ _ Hs) as (_ & K & _). pose proof (small_contents _ _ _ _ K Hc) as Hl.
    unfold pieces. assert ((len d + 65534 - 1) / 65534 < 2); [|lia]. apply N.div_lt_upper_bound; lia.
  - intros l0 f' st Hs j Hj. destruct (tame_all _ _ _ Hs) as (K & _). destruct (K j Hj) as [Hi|(a & c & Hi)]; rewrite Hi; [|exact I].
    split; [split; reflexivity|]. split; [exact I|]. split; [reflexivity|]. intros _. reflexivity.
  - intros j. split; [|split; reflexivity]. split; [|repeat split]. apply tree_refl.
Qed.
(** the clients take turns: the delete is refused, the writes too as long as the file is open *)
Example C87_run : exists l g' s', steps react1 pool1 shared0 l g' s' /\ l = [0; 1; 0; 0]%nat
  /\ answer (g' 0%nat) = Some (Good (data0 0)) /\ answer (g' 1%nat) = Some (Bad (ServerError (Unknown ST_SHARING)))
  /\ sd_content s' 5 [97] = Some (data0 0) /\ sd_content s' 5 [100; 92; 98] = Some [x78].
Proof.
  destruct (turns react1 40 (pool1 0%nat) (pool1 1%nat) shared0 []) as [[[p0 p1] s'] l'] eqn:Ht.
  destruct (turns_steps _ _ react1 40 pool1 shared0 [] pool1 shared0 (st_none _ _ _) _ _ _ _ Ht) as (g' & H & H0 & H1).
  exists l', g', s'. rewrite H0, H1. split; [exact H|].
  assert (G : let '(p0, p1, s', l') := turns react1 40 (pool1 0%nat) (pool1 1%nat) shared0 [] in
    l' = [0; 1; 0; 0]%nat /\ answer p0 = Some (Good (data0 0)) /\ answer p1 = Some (Bad (ServerError (Unknown ST_SHARING))) /\ sd_content s' 5 [97] = Some (data0 0) /\ sd_content s' 5 [100; 92; 98] = Some [x78])
    by (vm_compute; repeat split).
  rewrite Ht in G. exact G.
Qed.

(** Share modes are needed: at a server without them (a read gives one byte, and after the
    first one the file is replaced) a download returns what never was in the file. *)
Definition torn_content (n : nat) : bytes := match n with O => [x61; x62] | _ => [x63; x64] end.
Definition torn_service : service nat := fun R who o n =>
  match o in op R return (R + N) * nat with
  | OOpenFile tid _ => (inl (the_handle 5 1 2), n)
  | ORead _ _ offset => (inl (take 1 (drop offset (torn_content n))), S n)
  | OClose _ _ => (inl tt, n)
  | _ => (inr ST_NOT_SUPPORTED, n)
  end.
Example C87_torn : conforming (ref_server torn_service) torn_service (fun n => n)
  /\ (exists w', run (ref_server torn_service) (download (env0 true) 1000 share0 [97]) (mk_world client0 0%nat [] Open []) = Done (Good [x61; x64]) w')
  /\ forall n, torn_content n <> [x61; x64].
Proof.
  split; [|split].
  - apply ref_conforming. intros R who o n. destruct o; cbn [torn_service fst proper_value]; try exact I; try (repeat split; discriminate).
    rewrite len_take. lia.
  - eexists. runs.
  - intros [|n]; discriminate.
Qed.
