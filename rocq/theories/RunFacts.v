(** * RunFacts: facts about programs that hold for every program. *)
From Verif Require Import Base BaseFacts Prog.
Open Scope N_scope.

Section Facts.
Variables C Sv : Type.
Variable react : Sv -> bytes -> reaction Sv.
Notation world := (world C Sv).
Notation prog := (prog C).

Definition obind {A B} (o : outcome C Sv A) (f : A -> world -> outcome C Sv B)
  : outcome C Sv B :=
  match o with
  | Done a w => f a w
  | Blocked w => Blocked w
  | Crashed w => Crashed w
  | Starved w => Starved w
  end.

Lemma run_bind {A B} (p : prog A) (f : A -> prog B) w :
  run react (pbind p f) w = obind (run react p w) (fun a w => run react (f a) w).
Proof.
  revert w; induction p as [a| | |k IH|c k IH|n k IH|b k IH]; intros w;
    cbn [pbind run obind]; auto.
  - destruct (n <=? len (rx w)); [apply IH|].
    destruct (tl w); cbn [obind]; auto.
  - destruct (react (srv w) b) as [s inc t|s n e inc t];
      destruct (deliver (tl w) (rx w) inc t); apply IH.
Qed.

(** Everything written before stays written; reading never adds. *)
Definition final {A} (o : outcome C Sv A) : world :=
  match o with Done _ w | Blocked w | Crashed w | Starved w => w end.

End Facts.

Arguments obind {C Sv A B} o f.
Arguments final {C Sv A} o.

(** ** more fuel never changes a result *)
Section Fuel.
Variable C : Type.

(** [ple p q]: q is p with some OutOfFuel leaves replaced by programs *)
Inductive ple {A} : prog C A -> prog C A -> Prop :=
| ple_fuel q : ple OutOfFuel q
| ple_ret a : ple (Ret a) (Ret a)
| ple_panic : ple Panicked Panicked
| ple_get k k' : (forall c, ple (k c) (k' c)) -> ple (Get k) (Get k')
| ple_put c k k' : ple k k' -> ple (Put c k) (Put c k')
| ple_read n k k' : (forall r, ple (k r) (k' r)) -> ple (Read n k) (Read n k')
| ple_write b k k' : (forall r, ple (k r) (k' r)) -> ple (Write b k) (Write b k').

Lemma ple_refl {A} (p : prog C A) : ple p p.
Proof. induction p; constructor; auto. Qed.

Lemma ple_bind {A B} (p q : prog C A) (f g : A -> prog C B) :
  ple p q -> (forall a, ple (f a) (g a)) -> ple (pbind p f) (pbind q g).
Proof. intros H Hf; induction H; cbn [pbind]; auto; constructor; auto. Qed.

Lemma ple_run {Sv A} (react : Sv -> bytes -> reaction Sv) (p q : prog C A) w :
  ple p q -> (forall w', run react p w <> Starved w') -> run react q w = run react p w.
Proof.
  intros H; revert w; induction H; intros w Hs; cbn [run] in *; auto.
  - now destruct (Hs w).
  - destruct (n <=? len (rx w)); [now apply H0|]. destruct (tl w); auto.
  - destruct (react (srv w) b); destruct (deliver (tl w) (rx w) inc t); now apply H0.
Qed.
End Fuel.
Arguments ple {C A} p q.
Arguments ple_refl {C A} p.
Arguments ple_bind {C A B p q f g} H Hf.
Arguments ple_run {C Sv A react p q w} H Hs.

(** ** independence of the arrival time (poll semantics) *)
Section Poll.
Variables C Sv : Type.
Variable react : Sv -> bytes -> reaction Sv.

(** Like [world], with the unread bytes divided into those that have arrived and
    those still in flight. *)
Record pworld := mk_pworld {
  pcl : C; psrv : Sv; arrived : bytes; inflight : bytes; ptl : tail; ptx : list bytes }.

(** A future: finished, or pending in a read of [n] bytes of which [acc] have
    already been taken from the stream. *)
Inductive task (A : Type) :=
| Finished (a : A)
| Panicking
| Exhausted
| Pending (n : N) (acc : bytes) (k : rd -> prog C A).
Arguments Finished {A} a.
Arguments Panicking {A}.
Arguments Exhausted {A}.
Arguments Pending {A} n acc k.

(** Run until the future completes or needs bytes that have not arrived. *)
Fixpoint poll {A} (p : prog C A) (w : pworld) : task A * pworld :=
  match p with
  | Ret a => (Finished a, w)
  | Panicked => (Panicking, w)
  | OutOfFuel => (Exhausted, w)
  | Get k => poll (k (pcl w)) w
  | Put c k => poll k (mk_pworld c (psrv w) (arrived w) (inflight w) (ptl w) (ptx w))
  | Read n k =>
    if n <=? len (arrived w) then
      poll (k (Got (take n (arrived w))))
        (mk_pworld (pcl w) (psrv w) (drop n (arrived w)) (inflight w) (ptl w) (ptx w))
    else
      let w' := mk_pworld (pcl w) (psrv w) [] (inflight w) (ptl w) (ptx w) in
      match inflight w, ptl w with
      | [], Closed => poll (k RdEof) w'
      | [], Broken e => poll (k (RdErr e)) w'
      | _, _ => (Pending n (arrived w) k, w')
      end
  | Write b k =>
    match react (psrv w) b with
    | Accept s inc t =>
      let '(fly, t') := deliver (ptl w) (inflight w) inc t in
      poll (k None) (mk_pworld (pcl w) s (arrived w) fly t' (ptx w ++ [b]))
    | Refuse s n e inc t =>
      let '(fly, t') := deliver (ptl w) (inflight w) inc t in
      poll (k (Some e)) (mk_pworld (pcl w) s (arrived w) fly t' (ptx w ++ [take n b]))
    end
  end.

(** Wake a pending future: continue its read with what has arrived. *)
Definition wake {A} (t : task A) (w : pworld) : task A * pworld :=
  match t with
  | Pending n acc k =>
    if n - len acc <=? len (arrived w) then
      poll (k (Got (acc ++ take (n - len acc) (arrived w))))
        (mk_pworld (pcl w) (psrv w) (drop (n - len acc) (arrived w)) (inflight w) (ptl w) (ptx w))
    else
      let w' := mk_pworld (pcl w) (psrv w) [] (inflight w) (ptl w) (ptx w) in
      match inflight w, ptl w with
      | [], Closed => poll (k RdEof) w'
      | [], Broken e => poll (k (RdErr e)) w'
      | _, _ => (Pending n (acc ++ arrived w) k, w')
      end
  | t => (t, w)
  end.

(** [m] bytes of those in flight arrive *)
Definition arrive (m : N) (w : pworld) : pworld :=
  mk_pworld (pcl w) (psrv w) (arrived w ++ take m (inflight w)) (drop m (inflight w))
    (ptl w) (ptx w).

(** a schedule: each entry lets bytes arrive and wakes the future *)
Fixpoint schedule {A} (l : list N) (x : task A * pworld) : task A * pworld :=
  match l with
  | [] => x
  | m :: r => schedule r (wake (fst x) (arrive m (snd x)))
  end.

Definition settle (w : pworld) : world C Sv :=
  mk_world (pcl w) (psrv w) (arrived w ++ inflight w) (ptl w) (ptx w).

(** what the task will become if everything in flight arrives at once *)
Definition complete {A} (t : task A) (w : pworld) : outcome C Sv A :=
  match t with
  | Finished a => Done a (settle w)
  | Panicking => Crashed (settle w)
  | Exhausted => Starved (settle w)
  | Pending n acc k =>
    run react (Read n k)
      (mk_world (pcl w) (psrv w) (acc ++ arrived w ++ inflight w) (ptl w) (ptx w))
  end.

Definition wf_task {A} (t : task A) (w : pworld) : Prop :=
  match t with
  | Pending n acc k => len acc < n /\ arrived w = [] /\ (inflight w <> [] \/ ptl w = Open)
  | _ => True
  end.
Definition wf_pre {A} (t : task A) : Prop :=
  match t with Pending n acc k => len acc < n | _ => True end.

Lemma leb_true a b : a <= b -> (a <=? b) = true.
Proof. intros. now apply N.leb_le. Qed.
Lemma leb_false a b : b < a -> (a <=? b) = false.
Proof. intros. now apply N.leb_gt. Qed.

Lemma poll_complete {A} (p : prog C A) w :
  complete (fst (poll p w)) (snd (poll p w)) = run react p (settle w)
  /\ wf_task (fst (poll p w)) (snd (poll p w)).
Proof.
  revert w; induction p as [a| | |k IH|c k IH|n k IH|b k IH]; intros w; cbn [poll run];
    try (split; [reflexivity|exact I]).
  - apply IH.
  - apply (IH (mk_pworld c (psrv w) (arrived w) (inflight w) (ptl w) (ptx w))).
  - destruct (N.leb_spec n (len (arrived w))) as [Hn|Hn].
    + edestruct (IH (Got (take n (arrived w)))
        (mk_pworld (pcl w) (psrv w) (drop n (arrived w)) (inflight w) (ptl w) (ptx w))) as [H1 H2].
      split; [|exact H2]. rewrite H1. unfold settle; cbn [rx cl srv tl tx pcl psrv arrived inflight ptl ptx].
      rewrite leb_true by (rewrite len_app; lia).
      rewrite take_app, drop_app.
      replace (n - len (arrived w)) with 0 by lia. rewrite take_0, drop_0, app_nil_r. reflexivity.
    + unfold settle; cbn [rx cl srv tl tx].
      destruct (inflight w) as [|x r] eqn:Hf.
      * destruct (ptl w) eqn:Ht.
        -- cbn [fst snd complete wf_task arrived inflight ptl pcl psrv ptx]. split.
           ++ cbn [run rx tl cl srv tx]. rewrite !app_nil_r. reflexivity.
           ++ auto.
        -- rewrite app_nil_r, leb_false by lia.
           destruct (IH RdEof (mk_pworld (pcl w) (psrv w) [] [] Closed (ptx w))) as [H1 H2].
           split; [rewrite H1; reflexivity|exact H2].
        -- rewrite app_nil_r, leb_false by lia.
           destruct (IH (RdErr e) (mk_pworld (pcl w) (psrv w) [] [] (Broken e) (ptx w))) as [H1 H2].
           split; [rewrite H1; reflexivity|exact H2].
      * cbn [fst snd complete wf_task arrived inflight ptl pcl psrv ptx]. split.
        -- reflexivity.
        -- repeat split; auto. left; easy.
  - unfold settle at 1; cbn [srv rx tl cl tx].
    destruct (react (psrv w) b) as [s inc t|s n e inc t];
      cbn [psrv ptl inflight]; unfold deliver; destruct (ptl w) eqn:Ht;
        cbn [tl settle arrived inflight rx psrv cl tx ptl];
      match goal with |- context [poll (k ?r) ?w'] => destruct (IH r w') as [H1 H2] end;
      (split; [rewrite H1|exact H2]);
      unfold settle; cbn [pcl psrv arrived inflight ptl ptx]; rewrite ?app_assoc, ?Ht; reflexivity.
Qed.

Lemma wake_complete {A} (t : task A) w :
  wf_pre t ->
  complete (fst (wake t w)) (snd (wake t w)) = complete t w
  /\ wf_task (fst (wake t w)) (snd (wake t w)).
Proof.
  destruct t as [a| | |n acc k]; cbn [wake complete wf_task fst snd wf_pre]; try (split; [reflexivity|exact I]).
  intros Hacc. cbn [run rx tl cl srv tx].
  rewrite !len_app.
  destruct (N.leb_spec (n - len acc) (len (arrived w))) as [Hn|Hn].
  - rewrite leb_true by lia.
    edestruct (poll_complete (k (Got (acc ++ take (n - len acc) (arrived w))))) as [H1 H2].
    split; [rewrite H1|exact H2].
    unfold settle; cbn [pcl psrv arrived inflight ptl ptx].
    rewrite !take_app, !drop_app, (take_all n acc), (drop_all n acc) by lia. cbn [app].
    replace (n - len acc - len (arrived w)) with 0 by lia.
    rewrite take_0, drop_0, app_nil_r. reflexivity.
  - destruct (inflight w) as [|x r] eqn:Hf.
    + rewrite len_nil || idtac. replace (len (@nil byte)) with 0 by reflexivity.
      rewrite leb_false by lia.
      destruct (ptl w) eqn:Ht.
      * cbn [fst snd complete wf_task arrived inflight ptl pcl psrv ptx run rx tl cl srv tx].
        rewrite !app_nil_r, leb_false by (rewrite len_app; lia). split; [reflexivity|].
        rewrite len_app. split; [lia|auto].
      * destruct (poll_complete (k RdEof) (mk_pworld (pcl w) (psrv w) [] [] Closed (ptx w))) as [H1 H2].
        split; [rewrite H1; reflexivity|exact H2].
      * destruct (poll_complete (k (RdErr e)) (mk_pworld (pcl w) (psrv w) [] [] (Broken e) (ptx w))) as [H1 H2].
        split; [rewrite H1; reflexivity|exact H2].
    + cbn [fst snd complete wf_task arrived inflight ptl pcl psrv ptx].
      cbn [run rx tl cl srv tx app]. rewrite <- !app_assoc, !len_app. split.
      * reflexivity.
      * split; [lia|]. split; [easy|]. left; easy.
Qed.

Lemma arrive_complete {A} (t : task A) m w : complete t (arrive m w) = complete t w.
Proof.
  assert (H : arrived (arrive m w) ++ inflight (arrive m w) = arrived w ++ inflight w).
  { unfold arrive; cbn [arrived inflight]. now rewrite <- app_assoc, take_drop. }
  destruct t; cbn [complete]; unfold settle; rewrite ?H; reflexivity.
Qed.

Lemma schedule_complete {A} (l : list N) (x : task A * pworld) :
  wf_task (fst x) (snd x) ->
  complete (fst (schedule l x)) (snd (schedule l x)) = complete (fst x) (snd x)
  /\ wf_task (fst (schedule l x)) (snd (schedule l x)).
Proof.
  revert x; induction l as [|m r IH]; intros [t w] Hwf; cbn [schedule fst snd] in *.
  - split; [reflexivity|exact Hwf].
  - destruct (wake_complete t (arrive m w)) as [H1 H2].
    { destruct t; cbn in *; tauto. }
    destruct (IH (wake t (arrive m w))) as [H3 H4]; [exact H2|].
    split; [|exact H4]. rewrite H3, H1. apply arrive_complete.
Qed.
End Poll.
Arguments mk_pworld {C Sv} pcl psrv arrived inflight ptl ptx.
Arguments Finished {C A} a.
Arguments Panicking {C A}.
Arguments Exhausted {C A}.
Arguments Pending {C A} n acc k.
Arguments pcl {C Sv} p.
Arguments psrv {C Sv} p.
Arguments arrived {C Sv} p.
Arguments inflight {C Sv} p.
Arguments ptl {C Sv} p.
Arguments ptx {C Sv} p.
Arguments settle {C Sv} w.
Arguments poll {C Sv} react {A} p w.
Arguments wake {C Sv} react {A} t w.
Arguments schedule {C Sv} react {A} l x.
Arguments complete {C Sv} react {A} t w.
Arguments arrive {C Sv} m w.
