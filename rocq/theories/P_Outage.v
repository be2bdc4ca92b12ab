(** * Property C116: several clients at one server, over connections that may break. *)
From Verif Require Import Base Text Win Errors Common Reply Ntlm Prog Client Spec SpecReply SpecMsg Api SpecCall
  BaseFacts MsgFacts SizeFacts Flow FlowFacts SpecRemote RemoteFacts RefServer RefFacts FileService FileFacts SpecPool PoolFacts PoolFileFacts
  SpecCutoff SpecOutage OutageFacts OutageFileFacts Sample P_Remote P_Pool.
Open Scope N_scope.

(** C116: however the steps of the clients are interleaved and whenever which connections break,
    what happens is what happens if every call is made as a whole, in the order in which the
    requests are written: a client whose connection is there has had all its calls answered by
    the service; the last one before the break may be carried out or not; after it nothing of
    this client reaches the service. *)
Theorem C116_serial : forall Sn Sv St A (net : nat -> Sn -> bytes -> reaction Sn) (react : nat -> Sv -> bytes -> reaction Sv) inner up
    (B : nat -> service St) abs E fuel (f : nat -> flow A * cifs) g s l g' s' n,
  outages net react inner up -> (forall i, conforming (react i) (B i) abs) -> ample net fuel ->
  sensible_off E B (fun i => (f i, true)) (abs (inner s)) ->
  (forall i, starts E fuel (g i) (f i) /\ typed_client (snd (f i)) /\ up i s) ->
  steps net g s l g' s' ->
  exists f', goings B (fun i => (f i, true)) (abs (inner s)) l f' (abs (inner s'))
  /\ (forall i, online up s' i (snd (f' i))) /\ forall i, (i < n)%nat -> finished (g' i) (fst (f' i)).
Proof.
  intros Sn Sv St A net react inner up B abs E fuel f g s l g' s' n Hn Hc Ha Hs Hg H.
  destruct (@simulates _ _ _ _ net react inner up B abs Hn Hc E fuel Ha _ (abs (inner s)) Hs g s l g' s' H eq_refl) as (h & H1 & H2).
  { intros i. destruct (Hg i) as (G1 & G2 & G3). split; [now apply starts_follow|exact G3]. }
  destruct (@finishes _ _ _ _ net react inner up B abs Hn Hc E fuel Ha _ (abs (inner s)) Hs n s' g' l h H1 H2) as (h' & H3 & H4 & H5).
  exists h'. split; [exact H3|]. split; [intros i; apply H4|exact H5].
Qed.
Print Assumptions C116_serial.

(** no client waits for ever, whether its connection is there or not. *)
Theorem C116_progress : forall Sn Sv St A (net : nat -> Sn -> bytes -> reaction Sn) (react : nat -> Sv -> bytes -> reaction Sv) inner up
    (B : nat -> service St) abs E fuel (f : nat -> flow A * cifs) g s l g' s' i,
  outages net react inner up -> (forall i, conforming (react i) (B i) abs) -> ample net fuel ->
  sensible_off E B (fun i => (f i, true)) (abs (inner s)) ->
  (forall i, starts E fuel (g i) (f i) /\ typed_client (snd (f i)) /\ up i s) ->
  steps net g s l g' s' -> ended (g' i) = false -> exists b p s'', moves (net i) (g' i) s' b p s''.
Proof.
  intros Sn Sv St A net react inner up B abs E fuel f g s l g' s' i Hn Hc Ha Hs Hg H He.
  destruct (@simulates _ _ _ _ net react inner up B abs Hn Hc E fuel Ha _ (abs (inner s)) Hs g s l g' s' H eq_refl) as (h & H1 & H2).
  { intros j. destruct (Hg j) as (G1 & G2 & G3). split; [now apply starts_follow|exact G3]. }
  destruct (H2 i) as [H3 H4].
  exact (@progresses _ _ _ _ net react inner up B abs Hn Hc E fuel Ha _ (abs (inner s)) Hs s' (g' i) i l h H1 H3 H4 He).
Qed.
Print Assumptions C116_progress.

(** [n] clients download at the same time from one file service: each whose connection is
    there when it ends has its whole file, each other one has it too or returns a network
    error; none panics or can get stuck; no file changes. *)
Theorem C116_downloads : forall Sn Sv (net : nat -> Sn -> bytes -> reaction Sn) (react : nat -> Sv -> bytes -> reaction Sv) inner up
    tree setup accepts abs E fuel n sh path d g s,
  outages net react inner up -> (forall i, conforming (react i) (file_service tree setup accepts) abs) -> ample net fuel ->
  (forall i, (i < n)%nat ->
    p_prog (g i) = download E fuel (sh i) (path i) /\ p_rx (g i) = [] /\ p_tl (g i) = Open /\ typed_client (p_cl (g i))
    /\ contents (fs_files (abs (inner s))) (sh_tid (sh i)) (backslashes (path i)) = Some (d i)
    /\ u16 (sh_tid (sh i)) /\ is_str (path i) /\ len (d i) < 2 ^ 64
    /\ fits_request (use_unicode (p_cl (g i))) (OpenFile (sh i) (path i))
    /\ room E (p_cl (g i)) (2 + pieces (len (d i)) 65534) /\ (pieces (len (d i)) 65534 < fuel)%nat) ->
  (forall i, (n <= i)%nat -> (exists a, p_prog (g i) = Ret a) /\ p_rx (g i) = [] /\ p_tl (g i) = Open /\ typed_client (p_cl (g i))) ->
  fs_next (abs (inner s)) + N.of_nat n <= 65536 -> (forall i, up i s) ->
  forall l g' s', steps net g s l g' s' ->
  (forall i, (i < n)%nat -> match p_prog (g' i) with
    | Ret a => a = Good (d i) \/ (exists e, a = Bad (ENetBios e)) /\ ~ up i s'
    | Panicked | OutOfFuel => False | _ => True end)
  /\ (forall i, (i < n)%nat -> ended (g' i) = false -> exists b p s'', moves (net i) (g' i) s' b p s'')
  /\ fs_files (abs (inner s')) = fs_files (abs (inner s)).
Proof.
  intros Sn Sv net react inner up tree setup accepts abs E fuel n sh path d g s Ho Hc Ha Hg Hr Hn Hup l g' s' H.
  exact (@outage_downloads tree setup accepts Sn Sv net inner up react abs Ho Hc E fuel Ha n sh path d g s Hg Hn Hr l g' s' Hup H).
Qed.
Print Assumptions C116_downloads.

(** ** connections that break *)
(** client [i]'s connection breaks in the answer to the request after the next [k], after [j]
    bytes of it; [None]: it is broken *)
Definition cables {Sv} (react : nat -> Sv -> bytes -> reaction Sv) (i : nat) (n : (nat -> option (nat * N)) * Sv) (f : bytes)
  : reaction ((nat -> option (nat * N)) * Sv) :=
  match fst n i with
  | None => Accept n [] Closed
  | Some (k, j) =>
    match react i (snd n) f with
    | Accept s inc Open =>
      match k with
      | S k => Accept (upd (fst n) i (Some (k, j)), s) inc Open
      | O => Accept (upd (fst n) i None, s) (take j inc) Closed
      end
    | Accept s inc t => Accept (upd (fst n) i None, s) inc t
    | Refuse s x e inc t => Refuse (upd (fst n) i None, s) x e inc t
    end
  end.
Definition plugged_in {Sv} (i : nat) (n : (nat -> option (nat * N)) * Sv) : Prop := fst n i <> None.
Example cables_outages : forall Sv (react : nat -> Sv -> bytes -> reaction Sv), outages (cables react) react snd plugged_in.
Proof.
  intros Sv react. split.
  - intros i. split.
    + intros [c s0] f s inc Hu Hr. unfold plugged_in, cables in *. cbn [fst snd] in *. destruct (c i) as [[k j]|] eqn:Hi; [|now destruct Hu].
      rewrite Hr. destruct k as [|k].
      * right. left. exists (upd c i None, s), (take j inc), (drop j inc), Closed. split; [reflexivity|]. split; [symmetry; apply take_drop|].
        split; [discriminate|]. split; [reflexivity|]. cbn [fst]. rewrite upd_same. intros Hn. now apply Hn.
      * left. exists (upd c i (Some (k, j)), s). split; [reflexivity|]. split; [reflexivity|]. cbn [fst]. rewrite upd_same. discriminate.
    + intros [c s0] f Hu. unfold plugged_in, cables in *. cbn [fst snd] in *. destruct (c i) as [[k j]|] eqn:Hi; [destruct Hu; discriminate|].
      cbn [fst snd]. split; [reflexivity|]. rewrite Hi. exact Hu.
  - intros i j [c s0] f Hij. unfold plugged_in, cables. cbn [fst snd]. destruct (c i) as [[k x]|] eqn:Hi; [|reflexivity].
    assert (Hu : forall v, upd c i v j = c j) by (intros v; apply upd_other; congruence).
    destruct (react i s0 f) as [s inc [| |e]|s y e inc t]; [destruct k as [|k]| | |]; cbn [after_it fst]; rewrite Hu; reflexivity.
Qed.
Lemma cables_ample Sv (react : nat -> Sv -> bytes -> reaction Sv) fuel : ample react fuel -> (0 < fuel)%nat -> ample (cables react) fuel.
Proof.
  intros Ha Hf i [c s0] f n' inc t. unfold cables. cbn [fst snd]. destruct (c i) as [[k j]|]; [|intros H; injection H as _ <- _; exact Hf].
  destruct (react i s0 f) as [s inc0 [| |e]|s y e inc0 t0] eqn:Hr; [|intros H; injection H as _ <- _; exact (Ha _ _ _ _ _ _ Hr)..|discriminate].
  specialize (Ha _ _ _ _ _ _ Hr). destruct k as [|k]; intros H; injection H as _ <- _; [|exact Ha].
  pose proof (take_drop j inc0) as Htd. apply (f_equal (@length _)) in Htd. rewrite app_length in Htd. lia.
Qed.
(** the two clients of C80: the connection of the second one breaks 50 bytes after the
    beginning of the answer to its read *)
Definition cables0 (i : nat) : option (nat * N) := match i with 1%nat => Some (1%nat, 50) | _ => Some (100%nat, 0) end.
Lemma starting0 : forall i, (i < 2)%nat -> starting (@snd (nat -> option (nat * N)) files) (fun s => s) (env0 true) fuel0 (fun _ => share0) paths0 data0 pool0 (cables0, files0) i.
Proof.
  intros i Hi. unfold starting, pool0. destruct (Nat.ltb_spec i 2); [|lia]. cbn [p_prog p_rx p_tl p_cl snd]. split; [reflexivity|].
  split; [reflexivity|]. split; [reflexivity|]. split; [split; reflexivity|].
  assert (Hf : forall k, (k < 70000)%N -> (N.to_nat k < fuel0)%nat) by (intros k; unfold fuel0; lia).
  destruct i as [|[|i]]; [| |lia].
  - split; [reflexivity|]. split; [reflexivity|]. split; [reflexivity|]. split; [reflexivity|]. split; [reflexivity|].
    split; [intros _; vm_compute; discriminate|]. apply (Hf 1). reflexivity.
  - split; [reflexivity|]. split; [reflexivity|]. split; [reflexivity|]. split; [reflexivity|]. split; [reflexivity|].
    split; [intros _; vm_compute; discriminate|]. apply (Hf 1). reflexivity.
Qed.
Example C116_ex : forall l g' s', steps (cables react0) pool0 (cables0, files0) l g' s' ->
  (forall i, (i < 2)%nat -> match p_prog (g' i) with
    | Ret a => a = Good (data0 i) \/ (exists e, a = Bad (ENetBios e)) /\ ~ plugged_in i s'
    | Panicked | OutOfFuel => False | _ => True end)
  /\ (forall i, (i < 2)%nat -> ended (g' i) = false -> exists b p s'', moves (cables react0 i) (g' i) s' b p s'')
  /\ fs_files (snd s') = fs_files files0.
Proof.
  apply (C116_downloads _ files (cables react0) react0 snd plugged_in tree0 setup0 accepts0 (fun s => s) (env0 true) fuel0 2 (fun _ => share0) paths0 data0 pool0 (cables0, files0)).
  - exact (cables_outages _ react0).
  - intros i. exact FS0_conforming.
  - apply cables_ample; [exact (ref_ample _ _ FS0_proper)|unfold fuel0; lia].
  - exact starting0.
  - intros i Hi. unfold pool0. destruct (Nat.ltb_spec i 2); [lia|]. cbn [p_prog p_rx p_tl p_cl].
    split; [eauto|]. split; [reflexivity|]. split; [reflexivity|]. split; reflexivity.
  - vm_compute. discriminate.
  - intros [|[|i]]; discriminate.
Qed.

(** an execution: [who] says whose turn it is; who cannot make a step loses the turn *)
Definition a_step {Sv A} (react : Sv -> bytes -> reaction Sv) (p : proc A) (s : Sv) : option (bool * proc A * Sv) :=
  let (pr, c, b, t, x) := p in
  match pr with
  | Get k => Some (false, mk_proc (k c) c b t x, s)
  | Put c' k => Some (false, mk_proc k c' b t x, s)
  | Read n k => if n <=? len b then Some (false, mk_proc (k (Got (take n b))) c (drop n b) t x, s)
                else match t with
                     | Open => None
                     | Closed => Some (false, mk_proc (k RdEof) c [] Closed x, s)
                     | Broken e => Some (false, mk_proc (k (RdErr e)) c [] (Broken e) x, s)
                     end
  | Write f k => match react s f with
                 | Accept s' inc t1 => Some (true, mk_proc (k None) c (fst (deliver t b inc t1)) (snd (deliver t b inc t1)) (x ++ [f]), s')
                 | Refuse s' n e inc t1 => Some (true, mk_proc (k (Some e)) c (fst (deliver t b inc t1)) (snd (deliver t b inc t1)) (x ++ [take n f]), s')
                 end
  | _ => None
  end.
Lemma a_step_moves Sv A (react : Sv -> bytes -> reaction Sv) (p : proc A) s b q s' : a_step react p s = Some (b, q, s') -> moves react p s b q s'.
Proof.
  destruct p as [pr c rb t x]. destruct pr as [a| | |k|c' k|n k|f k]; cbn [a_step]; try discriminate.
  - intros H. injection H as <- <- <-. constructor.
  - intros H. injection H as <- <- <-. constructor.
  - destruct (N.leb_spec n (len rb)) as [Hn|Hn]; [|destruct t; [discriminate| |]]; intros H; injection H as <- <- <-; now constructor.
  - destruct (react s f) eqn:Hr; intros H; injection H as <- <- <-; now constructor.
Qed.
Fixpoint take_turns {Sv A} (react : nat -> Sv -> bytes -> reaction Sv) (who : list nat) (g : nat -> proc A) (s : Sv) (l : list nat) : (nat -> proc A) * Sv * list nat :=
  match who with
  | [] => (g, s, l)
  | i :: who => match a_step (react i) (g i) s with
                | Some (b, p, s') => take_turns react who (upd g i p) s' (l ++ if b then [i] else [])
                | None => take_turns react who g s l
                end
  end.
Lemma take_turns_steps Sv A (react : nat -> Sv -> bytes -> reaction Sv) g0 s0 who : forall l (g : nat -> proc A) s,
  steps react g0 s0 l g s -> forall g' s' l', take_turns react who g s l = (g', s', l') -> steps react g0 s0 l' g' s'.
Proof.
  induction who as [|i who IH]; intros l g s H g' s' l' Ht; cbn [take_turns] in Ht.
  - injection Ht as <- <- <-. exact H.
  - destruct (a_step (react i) (g i) s) as [[[b p] s1]|] eqn:Hs; [|exact (IH _ _ _ H _ _ _ Ht)].
    apply a_step_moves in Hs. refine (IH _ _ _ _ _ _ _ Ht). econstructor; eassumption.
Qed.
(** the first client has its file, the second one the error; its file stays open at the server *)
Example C116_run : exists l g' s', steps (cables react0) pool0 (cables0, files0) l g' s' /\ l = [0; 1; 0; 1; 0]%nat
  /\ answer (g' 0%nat) = Some (Good (data0 0)) /\ answer (g' 1%nat) = Some (Bad (ENetBios UnexpectedEOF))
  /\ fst s' 1%nat = None /\ snd s' = mk_files (fs_files files0) [(2, (5, [100; 92; 98]))] 3.
Proof.
  destruct (take_turns (cables react0) (concat (repeat [0; 1]%nat 40)) pool0 (cables0, files0) []) as [[g' s'] l'] eqn:Ht.
  exists l', g', s'. split; [exact (take_turns_steps _ _ _ _ _ _ _ _ _ (st_none _ _ _) _ _ _ Ht)|].
  assert (G : let '(g', s', l') := take_turns (cables react0) (concat (repeat [0; 1]%nat 40)) pool0 (cables0, files0) [] in
    l' = [0; 1; 0; 1; 0]%nat /\ answer (g' 0%nat) = Some (Good (data0 0)) /\ answer (g' 1%nat) = Some (Bad (ENetBios UnexpectedEOF))
    /\ fst s' 1%nat = None /\ snd s' = mk_files (fs_files files0) [(2, (5, [100; 92; 98]))] 3)
    by (vm_compute; repeat split).
  rewrite Ht in G. exact G.
Qed.
(** the hypotheses of C116_serial: whatever breaks, the two downloads make calls that can be expressed *)
Example C116_sensible : sensible_off (env0 true) (fun _ => FS0) (all_online (flows fuel0 2 (fun _ => share0) paths0 pool0)) files0.
Proof.
  apply (@outage_flows tree0 setup0 accepts0 _ files snd react0 (fun s => s) (fun _ => FS0_conforming) (env0 true) fuel0 2 (fun _ => share0) paths0 data0 pool0 (cables0, files0) starting0).
  - vm_compute. discriminate.
  - intros i Hi. unfold pool0. destruct (Nat.ltb_spec i 2); [lia|]. cbn [p_prog p_rx p_tl p_cl].
    split; [eauto|]. split; [reflexivity|]. split; [reflexivity|]. split; reflexivity.
Qed.
