(** * Property C117: client and server never wait for each other. *)
From Verif Require Import Base Text Win Errors Common Reply Ntlm Prog Client Spec SpecReply SpecMsg Api SpecCall
  BaseFacts MsgFacts SizeFacts Flow FlowFacts SpecRemote RemoteFacts RefServer RefFacts FileService FileFacts SpecPool PoolFacts PoolFileFacts
  SpecPipe PipeFacts Sample P_Remote P_Pool.
Open Scope N_scope.

Lemma alone_follows A E fuel (p : proc A) (x : flow A * cifs) : starts E fuel p x -> typed_client (snd x) ->
  let g := fun i => match i with 0%nat => p | _ => mk_proc Panicked (snd x) [] Open [] end in
  (forall i, follows E fuel (g i) (alone x i)) /\ p_rx (g 0%nat) = [] /\ p_tl (g 0%nat) = Open.
Proof.
  intros H Ht g. split.
  - intros [|i]; apply starts_follows; [exact H|exact Ht| |exact Ht]. split; [apply tree_refl|]. repeat split.
  - destruct H as (_ & _ & H1 & H2). split; [exact H1|exact H2].
Qed.

(** C117: however few bytes (one at least) the connection holds in each direction, whether or
    not the server reads while it is writing, and in whatever pieces both sides read and
    write: as long as the client has not ended, one of the two can make a step. *)
Theorem C117_no_deadlock : forall Sv St A (react : Sv -> bytes -> reaction Sv) (B : service St) abs E fuel (x : flow A * cifs) p s cap duplex y,
  conforming react B abs -> ample (fun _ => react) fuel -> sensible E (fun _ => B) (alone x) (abs s) ->
  starts E fuel p x -> typed_client (snd x) -> 1 <= cap ->
  ticked cap duplex react (at_rest p s) y -> ended (the_client y) = false -> exists y', ticks cap duplex react y y'.
Proof.
  intros Sv St A react B abs E fuel x p s cap duplex y Hc Ha Hs Hp Ht Hcap H He. destruct (alone_follows A E fuel p x Hp Ht) as (Hg & Hr & Hto).
  refine (@goes_on Sv St A react B abs Hc E fuel Ha _ _ Hs _ s eq_refl Hg y cap duplex _ Hcap He).
  refine (@held_ticked Sv St A react B abs Hc E fuel Ha _ _ Hs _ s eq_refl Hg _ y cap duplex H _).
  exact (@held_start Sv A react E fuel _ _ s Hg Hr Hto).
Qed.
Print Assumptions C117_no_deadlock.

(** when it has ended, nothing is left on the connection, and the result and the state of the
    service are the ones of the calls made one by one. *)
Theorem C117_result : forall Sv St A (react : Sv -> bytes -> reaction Sv) (B : service St) abs E fuel (x : flow A * cifs) p s cap duplex y,
  conforming react B abs -> ample (fun _ => react) fuel -> sensible E (fun _ => B) (alone x) (abs s) ->
  starts E fuel p x -> typed_client (snd x) ->
  ticked cap duplex react (at_rest p s) y -> ended (the_client y) = true ->
  y = at_rest (the_client y) (y_srv y)
  /\ exists l f', serial (fun _ => B) (alone x) (abs s) l f' (abs (y_srv y)) /\ finished (the_client y) (f' 0%nat).
Proof.
  intros Sv St A react B abs E fuel x p s cap duplex y Hc Ha Hs Hp Ht H He. destruct (alone_follows A E fuel p x Hp Ht) as (Hg & Hr & Hto).
  destruct (@comes_to_rest Sv St A react B abs Hc E fuel Ha _ _ Hs _ s eq_refl Hg y) as (H1 & l & g' & H2 & H3 & H4); [|exact He|].
  { refine (@held_ticked Sv St A react B abs Hc E fuel Ha _ _ Hs _ s eq_refl Hg _ y cap duplex H _).
    exact (@held_start Sv A react E fuel _ _ s Hg Hr Hto). }
  split; [exact H1|].
  destruct (@simulate _ _ _ (fun _ => react) (fun _ => B) abs (fun _ => Hc) E fuel Ha _ (abs s) Hs _ s l g' _ H2 eq_refl Hg) as (h & H5 & H6).
  destruct (@finish _ _ _ (fun _ => react) (fun _ => B) abs (fun _ => Hc) E fuel Ha _ (abs s) Hs 1%nat _ g' l h H5 H6) as (h' & H7 & _ & H8).
  exists l, h'. split; [exact H7|]. specialize (H8 0%nat (le_n 1)). unfold finished, the_client in *. cbn [p_prog p_cl]. rewrite H3, H4 in H8. exact H8.
Qed.
Print Assumptions C117_result.

(** no execution is infinite, whatever the server answers. *)
Theorem C117_halts : forall Sv A (react : Sv -> bytes -> reaction Sv) cap duplex (y : line Sv A), dies_down cap duplex react y.
Proof. intros. apply dies. Qed.
Print Assumptions C117_halts.

(** a download: it gets the file, and cannot get stuck before. *)
Theorem C117_download : forall Sv (react : Sv -> bytes -> reaction Sv) tree setup accepts abs E fuel sh path d c s cap duplex y,
  conforming react (file_service tree setup accepts) abs -> ample (fun _ => react) fuel ->
  typed_client c -> contents (fs_files (abs s)) (sh_tid sh) (backslashes path) = Some d ->
  u16 (sh_tid sh) -> is_str path -> len d < 2 ^ 64 -> fits_request (use_unicode c) (OpenFile sh path) ->
  room E c (2 + pieces (len d) 65534) -> (pieces (len d) 65534 < fuel)%nat -> fs_next (abs s) + 1 <= 65536 -> 1 <= cap ->
  ticked cap duplex react (at_rest (mk_proc (download E fuel sh path) c [] Open []) s) y ->
  match y_prog y with
  | Ret a => a = Good d /\ y = at_rest (the_client y) (y_srv y) /\ fs_files (abs (y_srv y)) = fs_files (abs s)
  | Panicked | OutOfFuel => False
  | _ => exists y', ticks cap duplex react y y'
  end.
Proof.
  intros Sv react tree setup accepts abs E fuel sh path d c s cap duplex y Hc Ha Htc Hd Hu Hpath Hl Hfit Hroom Hfuel Hnext Hcap H.
  set (g := fun i : nat => match i with 0%nat => mk_proc (download E fuel sh path) c [] Open [] | _ => mk_proc (Ret (Good (@nil byte))) c [] Open [] end).
  assert (Hstart : forall i, (i < 1)%nat -> starting abs E fuel (fun _ => sh) (fun _ => path) (fun _ => d) g s i).
  { intros i Hi. assert (i = 0%nat) by lia. subst i. unfold starting, g. cbn [p_prog p_rx p_tl p_cl]. repeat (split; [first [reflexivity|assumption]|]). assumption. }
  assert (Hrest : forall i, (1 <= i)%nat -> (exists a, p_prog (g i) = Ret a) /\ p_rx (g i) = [] /\ p_tl (g i) = Open /\ typed_client (p_cl (g i))).
  { intros [|i] Hi; [lia|]. split; [exists (Good []); reflexivity|]. split; [reflexivity|]. split; [reflexivity|exact Htc]. }
  assert (Hn : fs_next (abs s) + N.of_nat 1 <= 65536) by exact Hnext.
  pose proof (@flows_sensible tree setup accepts Sv (fun _ => react) abs (fun _ => Hc) E fuel 1 _ _ _ g s Hstart Hn Hrest) as Hs.
  assert (Hg : forall i, follows E fuel (g i) (flows fuel 1 (fun _ => sh) (fun _ => path) g i)).
  { intros i. destruct (@flows_start Sv abs E fuel 1 _ _ _ g s Hstart Hrest i). now apply starts_follows. }
  assert (Hy : held react g s y).
  { refine (@held_ticked _ _ _ react _ abs Hc E fuel Ha _ _ Hs g s eq_refl Hg _ y cap duplex H _).
    exact (@held_start _ _ react E fuel _ g s Hg eq_refl eq_refl). }
  assert (Hgo : ended (the_client y) = false -> exists y', ticks cap duplex react y y') by exact (@goes_on _ _ _ react _ abs Hc E fuel Ha _ _ Hs g s eq_refl Hg y cap duplex Hy Hcap).
  assert (Hend : ended (the_client y) = true -> match y_prog y with
    | Ret a => a = Good d /\ y = at_rest (the_client y) (y_srv y) /\ fs_files (abs (y_srv y)) = fs_files (abs s)
    | Panicked | OutOfFuel => False
    | _ => True end).
  { intros He. destruct (@comes_to_rest _ _ _ react _ abs Hc E fuel Ha _ _ Hs g s eq_refl Hg y Hy He) as (H1 & l & g' & H2 & H3 & H4).
    destruct (@concurrent_downloads tree setup accepts Sv (fun _ => react) abs (fun _ => Hc) E fuel Ha 1 _ _ _ g s Hstart Hn Hrest l g' _ H2) as (H5 & _ & H6).
    specialize (H5 0%nat (le_n 1)). rewrite H3 in H5. unfold ended, the_client in He. cbn [p_prog] in He. destruct (y_prog y); try discriminate He; auto. }
  change (ended (the_client y)) with (match y_prog y with Ret _ | Panicked | OutOfFuel => true | _ => false end) in Hgo, Hend.
  destruct (y_prog y); first [exact (Hend eq_refl)|exact (Hgo eq_refl)].
Qed.
Print Assumptions C117_download.

(** ** a download of "a" over a connection that holds seven bytes in each direction, from a
    server that does not read while it is writing *)
Definition line0 : line files bytes := at_rest (mk_proc (download (env0 true) fuel0 share0 [97]) client0 [] Open []) files0.
Example C117_ex : forall cap duplex y, 1 <= cap -> ticked cap duplex (ref_server FS0) line0 y ->
  match y_prog y with
  | Ret a => a = Good [x68; x65; x6c; x6c; x6f] /\ y = at_rest (the_client y) (y_srv y) /\ fs_files (y_srv y) = fs_files files0
  | Panicked | OutOfFuel => False
  | _ => exists y', ticks cap duplex (ref_server FS0) y y'
  end.
Proof.
  intros cap duplex y Hcap. apply (C117_download files (ref_server FS0) tree0 setup0 accepts0 (fun s => s)); try reflexivity.
  - exact FS0_conforming.
  - exact (ref_ample _ _ FS0_proper).
  - split; reflexivity.
  - intros _. vm_compute. discriminate.
  - assert (Hf : forall k, (k < 70000)%N -> (N.to_nat k < fuel0)%nat) by (intros k; unfold fuel0; lia). apply (Hf 1). reflexivity.
  - vm_compute. discriminate.
  - exact Hcap.
Qed.
(** the client goes on as far as it can, then the server *)
Definition frame_of (i : bytes) : option (bytes * bytes) :=
  match i with
  | ty :: a :: b :: c :: r =>
    let n := b2n a * 65536 + b2n b * 256 + b2n c in
    if (n <=? len r) && (len (take n r) <=? NB_MAX) then
      if list_eq_dec Byte.byte_eq_dec i (nb_frame (b2n ty) (take n r) ++ drop n r) then Some (nb_frame (b2n ty) (take n r), drop n r) else None
    else None
  | _ => None
  end.
Definition tick_of {Sv A} (cap : N) (react : Sv -> bytes -> reaction Sv) (y : line Sv A) : option (line Sv A) :=
  let (p, c, n, g, u, i, s, o, d) := y in
  let server :=
    match o with
    | _ :: _ => let m := N.min (len o) (cap - len d) in if 0 <? m then Some (mk_line p c n g u i s (drop m o) (d ++ take m o)) else None
    | [] =>
      match frame_of i with
      | Some (f, rest) => match react s f with Accept s' inc Open => Some (mk_line p c n g u rest s' inc d) | _ => None end
      | None => if 0 <? len u then Some (mk_line p c n g [] (i ++ u) s o d) else None
      end
    end in
  match p with
  | Get k => Some (mk_line (k c) c n g u i s o d)
  | Put c' k => Some (mk_line k c' n g u i s o d)
  | Read x k =>
    let m := N.min (x - len g) (len d) in
    if len g =? x then Some (mk_line (k (Got g)) c n [] u i s o d)
    else if 0 <? m then Some (mk_line p c n (g ++ take m d) u i s o (drop m d)) else server
  | Write f k =>
    let m := N.min (len f - n) (cap - len u) in
    if n =? len f then Some (mk_line (k None) c 0 g u i s o d)
    else if 0 <? m then Some (mk_line p c (n + m) g (u ++ take m (drop n f)) i s o d) else server
  | _ => None
  end.
Lemma frame_of_frame i f rest : frame_of i = Some (f, rest) -> i = f ++ rest /\ a_frame f.
Proof.
  unfold frame_of. destruct i as [|ty [|a [|b [|c r]]]]; try discriminate. set (n := _ + b2n c). clearbody n. set (i := ty :: _). clearbody i.
  destruct ((n <=? len r) && (len (take n r) <=? NB_MAX)) eqn:Hb; [|discriminate].
  destruct (list_eq_dec Byte.byte_eq_dec i _) as [Hi|]; [|discriminate]. intros H. injection H as <- <-. split; [exact Hi|].
  apply andb_prop in Hb. exists (b2n ty), (take n r). split; [reflexivity|]. apply N.leb_le. apply Hb.
Qed.
Lemma tick_of_ticks Sv A cap duplex (react : Sv -> bytes -> reaction Sv) (y y' : line Sv A) : tick_of cap react y = Some y' -> ticks cap duplex react y y'.
Proof.
  destruct y as [p c n g u i s o d]. unfold tick_of. cbv zeta.
  set (server := match o with [] => _ | _ :: _ => _ end).
  assert (Hsv : server = Some y' -> ticks cap duplex react (mk_line p c n g u i s o d) y').
  { subst server. destruct o as [|b o].
    - destruct (frame_of i) as [[f rest]|] eqn:Hf.
      + destruct (react s f) as [s' inc [| |]|] eqn:Hr; try discriminate. intros H. injection H as <-. apply frame_of_frame in Hf. destruct Hf as [-> Hf].
        now apply k_serve.
      + destruct (N.ltb_spec 0 (len u)) as [Hu|]; [|discriminate]. intros H. injection H as <-.
        pose proof (@k_take Sv A cap duplex react p c n g u i s [] d (len u) Hu (N.le_refl _) (or_introl eq_refl)) as H.
        rewrite drop_all, take_all in H by apply N.le_refl. exact H.
    - set (q := b :: o). clearbody q. destruct (N.ltb_spec 0 (N.min (len q) (cap - len d))); [|discriminate]. intros H1. injection H1 as <-. apply k_give; lia. }
  clearbody server.
  destruct p as [a| | |k|c0 k|x k|f k]; try discriminate.
  - intros H. injection H as <-. apply k_get.
  - intros H. injection H as <-. apply k_put.
  - destruct (N.eqb_spec (len g) x) as [Hg|Hg]; [intros H; injection H as <-; now apply k_got|].
    destruct (N.ltb_spec 0 (N.min (x - len g) (len d))); [|exact Hsv]. intros H1. injection H1 as <-. apply k_pull; lia.
  - destruct (N.eqb_spec n (len f)) as [->|Hn]; [intros H; injection H as <-; apply k_sent|].
    destruct (N.ltb_spec 0 (N.min (len f - n) (cap - len u))); [|exact Hsv]. intros H1. injection H1 as <-. apply k_push; lia.
Qed.
(** [k] steps at most *)
Fixpoint ticking {Sv A} (cap : N) (react : Sv -> bytes -> reaction Sv) (k : nat) (y : line Sv A) : line Sv A :=
  match k with
  | O => y
  | S k => match tick_of cap react y with Some y' => ticking cap react k y' | None => y end
  end.
Lemma ticking_ticked Sv A cap duplex (react : Sv -> bytes -> reaction Sv) k : forall (y0 y : line Sv A),
  ticked cap duplex react y0 y -> ticked cap duplex react y0 (ticking cap react k y).
Proof.
  induction k as [|k IH]; intros y0 y H; cbn [ticking]; [exact H|]. destruct (tick_of cap react y) as [y'|] eqn:Ht; [|exact H].
  apply IH. econstructor; [exact H|]. now apply tick_of_ticks.
Qed.
Example C117_run : exists y, ticked 7 false (ref_server FS0) line0 y /\ y_prog y = Ret (Good [x68; x65; x6c; x6c; x6f]) /\ y_srv y = mk_files (fs_files files0) [] 2.
Proof.
  exists (ticking 7 (ref_server FS0) 300 line0). split; [apply ticking_ticked; constructor|]. split; vm_compute; reflexivity.
Qed.

(** A program that writes a second request before it has read the answer to the first does
    get stuck: each side waits until the other one reads. *)
Definition eager : prog cifs (ans unit) :=
  Write (nb_frame 0 []) (fun _ => Write (nb_frame 0 []) (fun _ => Read 8 (fun _ => Ret (Good tt)))).
Definition echo (s : unit) (f : bytes) : reaction unit := Accept s f Open.
Example C117_stuck : exists y, ticked 1 false echo (at_rest (mk_proc eager client0 [] Open []) tt) y
  /\ ended (the_client y) = false /\ forall y', ~ ticks 1 false echo y y'.
Proof.
  exists (ticking 1 echo 300 (at_rest (mk_proc eager client0 [] Open []) tt)). split; [apply ticking_ticked; constructor|]. split; [reflexivity|].
  set (y := ticking _ _ _ _). vm_compute in y. intros y' H.
  remember y as z eqn:Hz. subst y. 
  destruct H as [k c n q u i s o d|c' k c n q u i s o d|f k c n q u i s o d m Hpos Hn Hcap|f k c q u i s o d|x k c n q u i s o d m Hpos Hq Hd
    |x k c n q u i s o d Hq|p c n q u i s o d m Hpos Hu Ho|p c n q u f rest s s' inc d Hf Hr|p c n q u i s o d m Hpos Ho Hd]; try discriminate Hz.
  - injection Hz as -> -> -> -> -> -> -> -> ->. change (1 + m <= 1) in Hcap. lia.
  - injection Hz. intros. subst. discriminate.
  - injection Hz as -> -> -> -> -> -> -> -> ->. destruct Ho; discriminate.
  - injection Hz as -> -> -> -> -> -> -> -> ->. change (1 + m <= 1) in Hd. lia.
Qed.
