(** * Property C80: several clients at one server. *)
From Verif Require Import Base Text Win Errors Common Reply Ntlm Prog Client Spec SpecReply SpecMsg Api SpecCall
  BaseFacts MsgFacts SizeFacts Flow FlowFacts SpecRemote RemoteFacts RefServer RefFacts FileService FileFacts SpecPool PoolFacts PoolFileFacts Sample P_Remote.
Open Scope N_scope.

(** C80: however the steps of the clients are interleaved, what happens is what happens if
    every call is made as a whole, in the order in which the requests are written: the
    service ends in the same state, and each of the first [n] clients that has ended has
    ended with the same result. *)
Theorem C80_serial : forall Sv St A (react : nat -> Sv -> bytes -> reaction Sv) (B : nat -> service St) abs E fuel
    (f : nat -> flow A * cifs) g s l g' s' n,
  (forall i, conforming (react i) (B i) abs) -> ample react fuel -> sensible E B f (abs s) ->
  (forall i, starts E fuel (g i) (f i) /\ typed_client (snd (f i))) ->
  steps react g s l g' s' ->
  exists f', serial B f (abs s) l f' (abs s') /\ forall i, (i < n)%nat -> finished (g' i) (f' i).
Proof.
  intros Sv St A react B abs E fuel f g s l g' s' n Hc Ha Hs Hg H.
  destruct (@simulate _ _ _ react B abs Hc E fuel Ha f (abs s) Hs g s l g' s' H eq_refl) as (h & H1 & H2).
  { intros i. destruct (Hg i). now apply starts_follows. }
  destruct (@finish _ _ _ react B abs Hc E fuel Ha f (abs s) Hs n s' g' l h H1 H2) as (h' & H3 & _ & H4). eauto.
Qed.
Print Assumptions C80_serial.

(** no client waits for another one: as long as it has not ended it can make a step. *)
Theorem C80_progress : forall Sv St A (react : nat -> Sv -> bytes -> reaction Sv) (B : nat -> service St) abs E fuel
    (f : nat -> flow A * cifs) g s l g' s' i,
  (forall i, conforming (react i) (B i) abs) -> ample react fuel -> sensible E B f (abs s) ->
  (forall i, starts E fuel (g i) (f i) /\ typed_client (snd (f i))) ->
  steps react g s l g' s' -> ended (g' i) = false -> exists b p s'', moves (react i) (g' i) s' b p s''.
Proof.
  intros Sv St A react B abs E fuel f g s l g' s' i Hc Ha Hs Hg H He.
  destruct (@simulate _ _ _ react B abs Hc E fuel Ha f (abs s) Hs g s l g' s' H eq_refl) as (h & H1 & H2).
  { intros j. destruct (Hg j). now apply starts_follows. }
  exact (@progress _ _ _ react B abs Hc E fuel Ha f (abs s) Hs s' (g' i) i l h H1 (H2 i) He).
Qed.
Print Assumptions C80_progress.

(** no number of clients runs for ever, whatever the server does. *)
Theorem C80_halts : forall Sv A (react : nat -> Sv -> bytes -> reaction Sv) n (g : nat -> proc A) s, halts react n g s.
Proof. exact halts_all. Qed.
Print Assumptions C80_halts.

(** download and list are such clients. *)
Theorem C80_functions : forall E fuel s p c tx0,
  starts E fuel (mk_proc (download E fuel s p) c [] Open tx0) (download_flow fuel s p, c)
  /\ starts E fuel (mk_proc (list_dir E fuel s p) c [] Open tx0) (list_flow fuel s p, c).
Proof.
  intros. split; (split; [|repeat split]); [apply tree_download|apply tree_list].
Qed.
Print Assumptions C80_functions.

(** [n] clients download at the same time from one file service, the same files or
    different ones: each of them gets its file, none can get stuck, no file changes. *)
Theorem C80_downloads : forall Sv (react : nat -> Sv -> bytes -> reaction Sv) tree setup accepts abs E fuel n sh path d g s,
  (forall i, conforming (react i) (file_service tree setup accepts) abs) -> ample react fuel ->
  (forall i, (i < n)%nat ->
    p_prog (g i) = download E fuel (sh i) (path i) /\ p_rx (g i) = [] /\ p_tl (g i) = Open /\ typed_client (p_cl (g i))
    /\ contents (fs_files (abs s)) (sh_tid (sh i)) (backslashes (path i)) = Some (d i)
    /\ u16 (sh_tid (sh i)) /\ is_str (path i) /\ len (d i) < 2 ^ 64
    /\ fits_request (use_unicode (p_cl (g i))) (OpenFile (sh i) (path i))
    /\ room E (p_cl (g i)) (2 + pieces (len (d i)) 65534) /\ (pieces (len (d i)) 65534 < fuel)%nat) ->
  (forall i, (n <= i)%nat -> (exists a, p_prog (g i) = Ret a) /\ p_rx (g i) = [] /\ p_tl (g i) = Open /\ typed_client (p_cl (g i))) ->
  fs_next (abs s) + N.of_nat n <= 65536 ->
  forall l g' s', steps react g s l g' s' ->
  (forall i, (i < n)%nat -> match p_prog (g' i) with Ret a => a = Good (d i) | Panicked | OutOfFuel => False | _ => True end)
  /\ (forall i, (i < n)%nat -> ended (g' i) = false -> exists b p s'', moves (react i) (g' i) s' b p s'')
  /\ fs_files (abs s') = fs_files (abs s).
Proof.
  intros Sv react tree setup accepts abs E fuel n sh path d g s Hc Ha Hg Hr Hn l g' s' H.
  exact (@concurrent_downloads tree setup accepts Sv react abs Hc E fuel Ha n sh path d g s Hg Hn Hr l g' s' H).
Qed.
Print Assumptions C80_downloads.

(** ** two clients at the server of P_Remote *)
Definition react0 (_ : nat) : files -> bytes -> reaction files := ref_server FS0.
Definition fuel0 : nat := N.to_nat 70000.
Lemma session_length p : length (session_message p) = (4 + length p)%nat.
Proof. reflexivity. Qed.
Lemma ref_ample St (B : service St) : proper B -> ample (fun _ => ref_server B) fuel0.
Proof.
  intros HB i s f s' inc t H. unfold ref_server in H.
  assert (Hs : (length inc < fuel0)%nat <-> len inc < 70000) by (unfold fuel0, len; lia). apply Hs. clear Hs.
  assert (Hnil : len (@nil byte) < 70000) by reflexivity. cbv zeta in H.
  destruct (understand _) as [[R o]|]; [|injection H as _E1 <- _E2; exact Hnil].
  destruct (u16_at _ 24) as [tid|]; [|injection H as _E1 <- _E2; exact Hnil].
  destruct (u16_at _ 28) as [who|]; [|injection H as _E1 <- _E2; exact Hnil].
  destruct (u16_at _ 30) as [id|]; [|injection H as _E1 <- _E2; exact Hnil].
  specialize (HB R who o s). destruct (B R who o s) as [r s1]. injection H as _E1 <- _E2.
  unfold len. rewrite session_length. cbn [fst] in HB.
  assert (Hl : len (write_reply o tid who id r) < 69990); [|unfold len in Hl; lia].
  destruct r as [v|st]; cbn [write_reply]; rewrite len_app, header_len, len_body; [|reflexivity].
  destruct (written_small HB). lia.
Qed.
Lemma FS0_proper : proper FS0.
Proof.
  apply files_proper.
  - intros p w tid. unfold tree0. destruct (text_eqb p _); [|discriminate]. intros [= <-]. reflexivity.
  - intros u d x id. unfold accepts0. destruct (list_eq_dec _ _ _); [|discriminate]. intros [= <-]. reflexivity.
  - repeat split.
Qed.
Definition paths0 (i : nat) : text := match i with 0%nat => [97] | _ => [100; 47; 98] end.
Definition data0 (i : nat) : bytes := match i with 0%nat => [x68; x65; x6c; x6c; x6f] | _ => repeat x2a 70 end.
(** two downloads, one of "a" and one of "d/b"; the other clients have nothing to do *)
Definition pool0 (i : nat) : proc bytes :=
  mk_proc (if (i <? 2)%nat then download (env0 true) fuel0 share0 (paths0 i) else Ret (Good [])) client0 [] Open [].
Example C80_ex : forall l g' s', steps react0 pool0 files0 l g' s' ->
  (forall i, (i < 2)%nat -> match p_prog (g' i) with Ret a => a = Good (data0 i) | Panicked | OutOfFuel => False | _ => True end)
  /\ (forall i, (i < 2)%nat -> ended (g' i) = false -> exists b p s'', moves (react0 i) (g' i) s' b p s'')
  /\ fs_files s' = fs_files files0.
Proof.
  apply (C80_downloads files react0 tree0 setup0 accepts0 (fun s => s) (env0 true) fuel0 2 (fun _ => share0) paths0 data0 pool0 files0).
  - intros i. exact FS0_conforming.
  - exact (ref_ample _ _ FS0_proper).
  - intros i Hi. unfold pool0. destruct (Nat.ltb_spec i 2); [|lia]. cbn [p_prog p_rx p_tl p_cl]. split; [reflexivity|].
    split; [reflexivity|]. split; [reflexivity|]. split; [split; reflexivity|].
    assert (Hf : forall k, (k < 70000)%N -> (N.to_nat k < fuel0)%nat) by (intros k; unfold fuel0; lia).
    destruct i as [|[|i]]; [| |lia].
    + split; [reflexivity|]. split; [reflexivity|]. split; [reflexivity|]. split; [reflexivity|]. split; [reflexivity|].
      split; [intros _; vm_compute; discriminate|]. apply (Hf 1). reflexivity.
    + split; [reflexivity|]. split; [reflexivity|]. split; [reflexivity|]. split; [reflexivity|]. split; [reflexivity|].
      split; [intros _; vm_compute; discriminate|]. apply (Hf 1). reflexivity.
  - intros i Hi. unfold pool0. destruct (Nat.ltb_spec i 2); [lia|]. cbn [p_prog p_rx p_tl p_cl].
    split; [eauto|]. split; [reflexivity|]. split; [reflexivity|]. split; reflexivity.
  - vm_compute. discriminate.
Qed.

(** an execution: the clients take turns after every step, so that both requests are
    under way at the same time *)
Definition step_of {Sv A} (react : Sv -> bytes -> reaction Sv) (p : proc A) (s : Sv) : option (bool * proc A * Sv) :=
  let (pr, c, b, t, x) := p in
  match pr with
  | Get k => Some (false, mk_proc (k c) c b t x, s)
  | Put c' k => Some (false, mk_proc k c' b t x, s)
  | Read n k => if n <=? len b then Some (false, mk_proc (k (Got (take n b))) c (drop n b) t x, s) else None
  | Write f k => match react s f with
                 | Accept s' inc t1 => Some (true, mk_proc (k None) c (fst (deliver t b inc t1)) (snd (deliver t b inc t1)) (x ++ [f]), s')
                 | _ => None end
  | _ => None
  end.
Lemma step_of_moves Sv A (react : Sv -> bytes -> reaction Sv) (p : proc A) s b q s' : step_of react p s = Some (b, q, s') -> moves react p s b q s'.
Proof.
  destruct p as [pr c rb t x]. destruct pr as [a| | |k|c' k|n k|f k]; cbn [step_of]; try discriminate.
  - intros H. injection H as <- <- <-. constructor.
  - intros H. injection H as <- <- <-. constructor.
  - destruct (N.leb_spec n (len rb)) as [Hn|Hn]; [|discriminate]. intros H. injection H as <- <- <-. now constructor.
  - destruct (react s f) eqn:Hr; [|discriminate]. intros H. injection H as <- <- <-. now constructor.
Qed.
(** two clients; [k] rounds, in which each makes a step if it can *)
Fixpoint turns {Sv A} (react : nat -> Sv -> bytes -> reaction Sv) (k : nat) (p0 p1 : proc A) (s : Sv) (l : list nat) : proc A * proc A * Sv * list nat :=
  match k with
  | O => (p0, p1, s, l)
  | S k =>
    let '(p0, s, l) := match step_of (react 0%nat) p0 s with Some (b, p, s') => (p, s', if b then l ++ [0%nat] else l) | None => (p0, s, l) end in
    let '(p1, s, l) := match step_of (react 1%nat) p1 s with Some (b, p, s') => (p, s', if b then l ++ [1%nat] else l) | None => (p1, s, l) end in
    turns react k p0 p1 s l
  end.
Lemma turns_steps Sv A (react : nat -> Sv -> bytes -> reaction Sv) k : forall g0 s0 l (g : nat -> proc A) s,
  steps react g0 s0 l g s -> forall p0 p1 s' l', turns react k (g 0%nat) (g 1%nat) s l = (p0, p1, s', l') ->
  exists g', steps react g0 s0 l' g' s' /\ g' 0%nat = p0 /\ g' 1%nat = p1.
Proof.
  induction k as [|k IH]; intros g0 s0 l g s H p0 p1 s' l' Ht; cbn [turns] in Ht.
  - injection Ht as <- <- <- <-. eauto.
  - assert (H0 : exists ga sa la, steps react g0 s0 la ga sa /\ ga 1%nat = g 1%nat
      /\ match step_of (react 0%nat) (g 0%nat) s with Some (b, p, s1) => (p, s1, if b then l ++ [0%nat] else l) | None => (g 0%nat, s, l) end = (ga 0%nat, sa, la)).
    { destruct (step_of (react 0%nat) (g 0%nat) s) as [[[b p] s1]|] eqn:Es; [|eauto 10].
      apply step_of_moves in Es. exists (upd g 0%nat p), s1, (l ++ if b then [0%nat] else []). split; [econstructor; eassumption|].
      split; [reflexivity|]. destruct b; rewrite ?app_nil_r; reflexivity. }
    destruct H0 as (ga & sa & la & Ha & E1 & Ea). rewrite Ea, <- E1 in Ht.
    assert (H1 : exists gb sb lb, steps react g0 s0 lb gb sb /\ gb 0%nat = ga 0%nat
      /\ match step_of (react 1%nat) (ga 1%nat) sa with Some (b, p, s1) => (p, s1, if b then la ++ [1%nat] else la) | None => (ga 1%nat, sa, la) end = (gb 1%nat, sb, lb)).
    { destruct (step_of (react 1%nat) (ga 1%nat) sa) as [[[b p] s1]|] eqn:Es; [|eauto 10].
      apply step_of_moves in Es. exists (upd ga 1%nat p), s1, (la ++ if b then [1%nat] else []). split; [econstructor; eassumption|].
      split; [reflexivity|]. destruct b; rewrite ?app_nil_r; reflexivity. }
    destruct H1 as (gb & sb & lb & Hb & E2 & Eb). rewrite Eb, <- E2 in Ht. exact (IH _ _ _ _ _ Hb _ _ _ _ Ht).
Qed.
Definition answer {A} (p : proc A) : option (ans A) := match p_prog p with Ret a => Some a | _ => None end.
Example C80_run : exists l g' s', steps react0 pool0 files0 l g' s' /\ l = [0; 1; 0; 1; 0; 1]%nat
  /\ answer (g' 0%nat) = Some (Good (data0 0)) /\ answer (g' 1%nat) = Some (Good (data0 1)) /\ s' = mk_files (fs_files files0) [] 3.
Proof.
  destruct (turns react0 40 (pool0 0%nat) (pool0 1%nat) files0 []) as [[[p0 p1] s'] l'] eqn:Ht.
  destruct (turns_steps _ _ react0 40 pool0 files0 [] pool0 files0 (st_none _ _ _) _ _ _ _ Ht) as (g' & H & H0 & H1).
  exists l', g', s'. rewrite H0, H1. split; [exact H|].
  assert (G : let '(p0, p1, s', l') := turns react0 40 (pool0 0%nat) (pool0 1%nat) files0 [] in
    l' = [0; 1; 0; 1; 0; 1]%nat /\ answer p0 = Some (Good (data0 0)) /\ answer p1 = Some (Good (data0 1)) /\ s' = mk_files (fs_files files0) [] 3)
    by (vm_compute; repeat split).
  rewrite Ht in G. exact G.
Qed.
