(** * Property C119: the size of the buffers makes no difference. *)
From Verif Require Import Base Text Win Errors Common Reply Ntlm Prog Client Spec SpecReply SpecNtlm SpecMsg Api SpecCall
  BaseFacts MsgFacts SizeFacts Flow FlowFacts SpecRemote RemoteFacts RefServer RefFacts FileService FileFacts SpecLogin SpecPool SpecPipe PipeFacts
  SpecSpace SpaceFacts Sample P_Remote P_Pool P_Pipe.
Open Scope N_scope.

(** C119: client and server at the two ends of a connection that holds at most [cap] bytes in
    each direction (SpecPipe).  The server may be any that keeps the connection: it may answer
    with anything, unasked as well, or not at all.  If the client has ended, it has ended as it
    does when every request and answer are handed over at once, with the same state.  What is
    then still on the way are whole requests [fs], and of the answers what the client has not
    read either way. *)
Theorem C119_result : forall Sv A (react : Sv -> bytes -> reaction Sv) (p : prog cifs (ans A)) c s o cap duplex y,
  keeps_open react -> frames_only p -> ticked cap duplex react (afresh p c s o) y -> ended (the_client y) = true ->
  exists w fs out, ended_as (y_prog y) w (run react p (mk_world c s o Open [])) /\ cl w = y_cl y
    /\ y_in y ++ y_up y = concat fs /\ serves react (y_srv y) fs (srv w) out /\ rx w = y_down y ++ y_out y ++ out.
Proof.
  intros Sv A react p c s o cap duplex y Hk Hp H He.
  destruct (track_ticked Hk (@any_onwards _ A react) (tracks_start react (fun _ _ => True) p c s o Hp I) H) as (w & fs & out & H1).
  destruct (track_end H1 He) as (H2 & H3 & H4 & _ & H5 & H6). exists w, fs, out. repeat (split; [assumption|]). assumption.
Qed.
Print Assumptions C119_result.

(** if the server reads while it has something to write, however few bytes (one at least) fit:
    wherever the execution has got to, it can go on until the client has ended, unless the
    client waits for ever as well when requests and answers are handed over at once.  (No
    execution is infinite, C117_halts: so every one that goes on as long as possible ends.) *)
Theorem C119_ends : forall Sv A (react : Sv -> bytes -> reaction Sv) (p : prog cifs (ans A)) c s o cap y,
  keeps_open react -> frames_only p -> 1 <= cap -> ticked cap true react (afresh p c s o) y ->
  (forall w, run react p (mk_world c s o Open []) <> Blocked w) ->
  exists y', ticked cap true react y y' /\ ended (the_client y') = true.
Proof.
  intros Sv A react p c s o cap y Hk Hp Hcap H Ho.
  destruct (track_ticked Hk (@any_onwards _ A react) (tracks_start react (fun _ _ => True) p c s o Hp I) H) as (w & fs & out & H1). exact (track_finish Hk (@any_onwards _ A react) (or_introl eq_refl) Hcap H1 Ho).
Qed.
Print Assumptions C119_ends.
Theorem C119_no_deadlock : forall Sv A (react : Sv -> bytes -> reaction Sv) (p : prog cifs (ans A)) c s o cap y,
  keeps_open react -> frames_only p -> 1 <= cap -> ticked cap true react (afresh p c s o) y -> ended (the_client y) = false ->
  (exists y', ticks cap true react y y') \/ exists w, run react p (mk_world c s o Open []) = Blocked w.
Proof.
  intros Sv A react p c s o cap y Hk Hp Hcap H He.
  destruct (track_ticked Hk (@any_onwards _ A react) (tracks_start react (fun _ _ => True) p c s o Hp I) H) as (w & fs & out & H1). exact (track_on H1 Hcap He).
Qed.
Print Assumptions C119_no_deadlock.
(** the same for a server that does not read while it has something to write, if the program
    has read all there is whenever it writes. *)
Theorem C119_half : forall Sv A (react : Sv -> bytes -> reaction Sv) (p : prog cifs (ans A)) c s o cap duplex y,
  keeps_open react -> frames_only p -> reads_first react p (mk_world c s o Open []) -> 1 <= cap -> ticked cap duplex react (afresh p c s o) y ->
  (forall w, run react p (mk_world c s o Open []) <> Blocked w) ->
  exists y', ticked cap duplex react y y' /\ ended (the_client y') = true.
Proof.
  intros Sv A react p c s o cap duplex y Hk Hp Hr Hcap H Ho.
  destruct (track_ticked Hk (@first_onwards _ A react) (tracks_start react (reads_first react) p c s o Hp Hr) H) as (w & fs & out & H1).
  refine (track_finish Hk (@first_onwards _ A react) (or_intror _) Hcap H1 Ho). intros f k w0 [H2 _]. exact H2.
Qed.
Print Assumptions C119_half.
(** and if it waits for ever then, the execution does not end. *)
Theorem C119_waits : forall Sv A (react : Sv -> bytes -> reaction Sv) (p : prog cifs (ans A)) c s o cap duplex y w,
  keeps_open react -> frames_only p -> ticked cap duplex react (afresh p c s o) y ->
  run react p (mk_world c s o Open []) = Blocked w -> ended (the_client y) = false.
Proof.
  intros Sv A react p c s o cap duplex y w Hk Hp H Hb. destruct (ended (the_client y)) eqn:He; [|reflexivity].
  destruct (C119_result _ _ react p c s o cap duplex y Hk Hp H He) as (w' & fs & out & H1 & _). rewrite Hb in H1.
  unfold ended_as in H1. destruct (y_prog y); first [discriminate H1|contradiction H1].
Qed.
Print Assumptions C119_waits.

(** everything in the crate writes whole frames: opening a connection by either port, every call,
    list, download, every program of calls. *)
Theorem C119_crate : forall E fuel,
  (forall b a, frames_only (opening E fuel b a)) /\ (forall R (c : call R), frames_only (exec E fuel c))
  /\ (forall s path, frames_only (download E fuel s path)) /\ (forall s pattern, frames_only (list_dir E fuel s pattern))
  /\ forall A (f : flow A), frames_only (interp E fuel f).
Proof.
  intros E fuel. split; [intros; apply opening_frames|]. split; [intros; apply fr_exec|]. split; [intros; apply fr_download|].
  split; [intros; apply fr_list|]. intros. apply fr_interp.
Qed.
Print Assumptions C119_crate.

(** in particular [open]: whichever port it connects to, what it gives is what the same program
    gives over the buffers. *)
Theorem C119_open : forall E Sv net (react : Sv -> bytes -> reaction Sv) fuel port maybe ports out,
  keeps_open react -> open E Sv net react fuel port maybe = (ports, OnStream out) ->
  exists session st, net (last ports 0) = Connected st /\ (session = true -> ports = [445; 139])
    /\ (st_tl _ st = Open -> forall cap duplex y,
        ticked cap duplex react (afresh (opening E fuel session (credentials maybe)) (initial_cifs (credentials maybe)) (st_srv _ st) (st_rx _ st)) y ->
        ended (the_client y) = true -> exists w, ended_as (y_prog y) w out /\ cl w = y_cl y).
Proof.
  intros E Sv net react fuel port maybe ports out Hk H. destruct (open_runs E net react fuel port maybe H) as (b & st & H1 & Hp & ->).
  exists b, st. split; [exact H1|]. split; [exact Hp|]. intros Ht cap duplex y Hy He.
  destruct (C119_result _ _ react _ _ _ _ cap duplex y Hk (opening_frames E fuel b (credentials maybe)) Hy He) as (w & fs & o & H2 & H3 & _).
  exists w. split; [|exact H3]. unfold start. rewrite Ht. exact H2.
Qed.
Print Assumptions C119_open.

(** ** a server behind port 139 that sends two keep-alives after every answer, and one at first *)
Definition chatty (s : files) (f : bytes) : reaction files :=
  match f with
  | x81 :: _ => Accept s (positive_response ++ nb_frame 0x85 [] ++ nb_frame 0x85 []) Open
  | _ => match ref_server FS0 s f with
         | Accept s' inc t => Accept s' (inc ++ nb_frame 0x85 [] ++ nb_frame 0x85 []) Open
         | Refuse s' _ _ _ _ => Accept s' [] Open
         end
  end.
Example C119_keeps : keeps_open chatty.
Proof. intros s f _. unfold chatty. destruct f as [|[] f]; try (destruct (ref_server _ _ _)); eauto. Qed.
Definition opening0 : line files unit := afresh (opening (env0 true) 1000 true default_auth) (initial_cifs default_auth) files0 [].
(** as in P_Pipe, but the server reads also while it has something to write *)
Definition tick_both {Sv A} (cap : N) (react : Sv -> bytes -> reaction Sv) (y : line Sv A) : option (line Sv A) :=
  match tick_of cap react y with
  | Some y' => Some y'
  | None => if 0 <? len (y_up y) then Some (mk_line (y_prog y) (y_cl y) (y_sent y) (y_got y) [] (y_in y ++ y_up y) (y_srv y) (y_out y) (y_down y)) else None
  end.
Fixpoint ticking_both {Sv A} (cap : N) (react : Sv -> bytes -> reaction Sv) (k : nat) (y : line Sv A) : line Sv A :=
  match k with
  | O => y
  | S k => match tick_both cap react y with Some y' => ticking_both cap react k y' | None => y end
  end.
Lemma ticking_both_ticked Sv A cap (react : Sv -> bytes -> reaction Sv) k : forall (y0 y : line Sv A),
  ticked cap true react y0 y -> ticked cap true react y0 (ticking_both cap react k y).
Proof.
  induction k as [|k IH]; intros y0 y H; cbn [ticking_both]; [exact H|]. destruct (tick_both cap react y) as [y'|] eqn:Ht; [|exact H].
  apply IH. econstructor; [exact H|]. unfold tick_both in Ht. destruct (tick_of cap react y) as [y1|] eqn:H1.
  - injection Ht as <-. now apply tick_of_ticks.
  - destruct (N.ltb_spec 0 (len (y_up y))) as [Hu|]; [|discriminate]. injection Ht as <-. destruct y as [p c n g u i s o d].
    cbn [y_prog y_cl y_sent y_got y_up y_in y_srv y_out y_down] in *.
    pose proof (@k_take Sv A cap true react p c n g u i s o d (len u) Hu (N.le_refl _) (or_intror eq_refl)) as H2.
    rewrite drop_all, take_all in H2 by apply N.le_refl. exact H2.
Qed.
(** it logs in over three bytes in each direction *)
Example C119_run : exists y, ticked 3 true chatty opening0 y /\ y_prog y = Ret (Good tt) /\ uid (y_cl y) = 7 /\ mid (y_cl y) = 2
  /\ y_down y ++ y_out y = nb_frame 0x85 [] ++ nb_frame 0x85 [].
Proof.
  exists (ticking_both 3 chatty 2000 opening0). split; [apply ticking_both_ticked; constructor|].
  split; [vm_compute; reflexivity|]. split; [vm_compute; reflexivity|]. split; vm_compute; reflexivity.
Qed.
Example C119_ex : forall cap duplex y, ticked cap duplex chatty opening0 y -> ended (the_client y) = true ->
  y_prog y = Ret (Good tt) /\ uid (y_cl y) = 7.
Proof.
  intros cap duplex y H He.
  destruct (C119_result _ _ chatty _ _ _ _ cap duplex y C119_keeps (proj1 (C119_crate _ _) _ _) H He) as (w & fs & out & H1 & H2 & _).
  rewrite <- H2. clear - H1. set (o := run _ _ _) in H1.
  assert (Ho : exists w0, o = Done (Good tt) w0 /\ uid (cl w0) = 7) by (eexists; split; [subst o; vm_compute; reflexivity|vm_compute; reflexivity]).
  clearbody o. destruct Ho as (w0 & -> & Hu).
  unfold ended_as in H1. destruct (y_prog y) as [a| | | | | |]; try contradiction; try discriminate. injection H1 as H3 H4. subst. auto.
Qed.
(** a server that does not read while it is writing can get stuck with it: the client writes the
    next request and does not read what is left of the keep-alives, as nothing in the crate reads
    while it writes *)
Example C119_stuck : exists y, ticked 3 false chatty opening0 y /\ ended (the_client y) = false /\ forall y', ~ ticks 3 false chatty y y'.
Proof.
  exists (ticking 3 chatty 2000 opening0). split; [apply ticking_ticked; constructor|]. split; [vm_compute; reflexivity|].
  set (y := ticking _ _ _ _). 
  assert (Hw : exists f k, y_prog y = Write f k /\ y_sent y <> len f /\ len (y_up y) = 3).
  { remember (y_prog y) as q eqn:Hq. destruct q as [a| | |k|c k|x k|f k]; try (exfalso; apply (f_equal (fun p => match p with Write _ _ => true | _ => false end)) in Hq; vm_compute in Hq; discriminate Hq).
    exists f, k. split; [reflexivity|].
    assert (Hf : len f = match y_prog y with Write f _ => len f | _ => 0 end) by (now rewrite <- Hq). clear Hq.
    split; [rewrite Hf; vm_compute; discriminate|vm_compute; reflexivity]. }
  assert (Ho : y_out y <> [] /\ len (y_down y) = 3) by (split; vm_compute; [discriminate|reflexivity]).
  clearbody y. destruct Hw as (f & k & Hp & Hn & Hu). destruct Ho as [Ho Hd]. intros y' H.
  destruct H; cbn [y_prog y_cl y_sent y_got y_up y_in y_srv y_out y_down] in *; try discriminate Hp; try lia; try congruence.
  destruct H1; congruence.
Qed.
(** it connects to port 139 only *)
Definition net1 (p : N) : connection files := if p =? 139 then Connected (mk_stream files0 [] Open) else ConnectError 1.
Example C119_open_ex : exists o, open (env0 true) files net1 chatty 1000 None None = ([445; 139], OnStream o).
Proof. unfold open, net1. change (445 =? 139) with false. change (139 =? 139) with true. cbv beta iota. eexists. reflexivity. Qed.
(** a server that never answers *)
Example C119_waits_ex : keeps_open script
  /\ exists w, run script (opening (env0 true) 1000 true default_auth) (mk_world (initial_cifs default_auth) [] [] Open []) = Blocked w.
Proof. split; [intros [|r s] f _; cbn [script]; eauto|]. eexists. vm_compute. reflexivity. Qed.
(** a server that speaks only when it is asked, and the download is not stuck *)
Fixpoint reads_firstb {Sv A} (react : Sv -> bytes -> reaction Sv) (p : prog cifs A) (w : world cifs Sv) : bool :=
  match p with
  | Ret _ | Panicked | OutOfFuel => true
  | Get k => reads_firstb react (k (cl w)) w
  | Put c k => reads_firstb react k (mk_world c (srv w) (rx w) (tl w) (tx w))
  | Read n k => if n <=? len (rx w) then
      reads_firstb react (k (Got (take n (rx w)))) (mk_world (cl w) (srv w) (drop n (rx w)) (tl w) (tx w)) else true
  | Write f k =>
      match rx w with
      | [] => match react (srv w) f with Accept s inc Open => reads_firstb react (k None) (mk_world (cl w) s inc Open (tx w ++ [f])) | _ => true end
      | _ => false
      end
  end.
Lemma reads_firstb_ok Sv A (react : Sv -> bytes -> reaction Sv) (p : prog cifs A) : forall w, reads_firstb react p w = true -> reads_first react p w.
Proof.
  induction p as [a| | |k IH|c k IH|n k IH|f k IH]; intros w; cbn [reads_first reads_firstb]; auto.
  - intros H Hn. apply IH. now rewrite (proj2 (N.leb_le _ _) Hn) in H.
  - destruct (rx w); [|discriminate]. intros H. split; [reflexivity|]. intros s inc Hr. rewrite Hr in H. now apply IH.
Qed.
Example C119_half_ex : keeps_open (ref_server FS0)
  /\ reads_first (ref_server FS0) (download (env0 true) 1000 share0 [97]) (mk_world client0 files0 [] Open [])
  /\ (forall w, run (ref_server FS0) (download (env0 true) 1000 share0 [97]) (mk_world client0 files0 [] Open []) <> Blocked w).
Proof.
  split; [|split; [apply reads_firstb_ok; vm_compute; reflexivity|]].
  - intros s f _. unfold ref_server. cbv zeta. destruct (understand (drop 4 f)) as [[R o]|]; [|eauto].
    destruct (u16_at (drop 4 f) 24), (u16_at (drop 4 f) 28), (u16_at (drop 4 f) 30); eauto. destruct (FS0 _ _ _ _). eauto.
  - intros w H. apply (f_equal (fun o => match o with Blocked _ => true | _ => false end)) in H. vm_compute in H. discriminate H.
Qed.
