(** * TurnFacts: a server that answers once, and the crate, take turns *)
From Coq Require Import Lia.
From Verif Require Import Base BaseFacts Text Win Errors Common Reply Ntlm Prog Client Spec SpecReply SpecCrash SpecNtlm SpecMsg
  Api SpecCall Flow SizeFacts SpecFacts ClientFacts MsgFacts ReqFacts CallFacts FlowFacts RunFacts SpecRemote SpecPool SpecPipe PipeFacts
  SessionFacts TwinFacts SpecLogin ConnFacts SpecFetch NoiseFacts SpecSpace SpaceFacts.
Open Scope N_scope.
Set Implicit Arguments.

Section Turns.
Variable Sv : Type.
Variable react : Sv -> bytes -> reaction Sv.
Hypothesis once : answers_once react.

Definition idle (w : world cifs Sv) : Prop := rx w = [] /\ tl w = Open.
Definition waiting (w : world cifs Sv) : Prop := (rx w = [] \/ a_frame (rx w)) /\ tl w = Open.
(** from [P], the program reads before it writes; where it ends, [Q] *)
Definition turn {A} (P : world cifs Sv -> Prop) (p : prog cifs A) (Q : A -> world cifs Sv -> Prop) : Prop :=
  forall w, P w -> reads_first react p w /\ forall a w', run react p w = Done a w' -> Q a w'.

Lemma idle_waiting w : idle w -> waiting w.
Proof. intros [H1 H2]. split; [left|]; assumption. Qed.
Lemma reads_bind A B (p : prog cifs A) (f : A -> prog cifs B) : forall w, tl w = Open -> keeps_open react -> frames_only p -> reads_first react p w ->
  (forall a w', run react p w = Done a w' -> reads_first react (f a) w') -> reads_first react (pbind p f) w.
Proof.
  induction p as [a| | |k IH|c k IH|n k IH|b k IH]; intros w Ht Hk Hf H1 H2; cbn [pbind reads_first] in *.
  - apply H2. reflexivity.
  - exact I.
  - exact I.
  - apply IH; auto.
  - apply IH; auto.
  - intros Hn. apply IH; auto. intros a w' Hr. apply H2. cbn [run]. rewrite (proj2 (N.leb_le _ _) Hn). exact Hr.
  - destruct H1 as [H1 H3]. split; [exact H1|]. intros s inc Hr. destruct Hf as [_ Hf]. apply IH; auto.
    intros a w' Hr'. apply H2. cbn [run]. rewrite Hr, Ht, H1. exact Hr'.
Qed.
Lemma once_keeps : keeps_open react.
Proof. intros s f Hf. destruct (once s Hf) as (s' & inc & H & _). eauto. Qed.
Lemma turn_bind A B (P : world cifs Sv -> Prop) (Q : A -> world cifs Sv -> Prop) (R : B -> world cifs Sv -> Prop) (p : prog cifs A) (f : A -> prog cifs B) : (forall w, P w -> tl w = Open) -> frames_only p ->
  turn P p Q -> (forall a, turn (Q a) (f a) R) -> turn P (pbind p f) R.
Proof.
  intros HP Hp H Hf w Hw. destruct (H w Hw) as [H1 H2]. split.
  - apply reads_bind; auto; [exact once_keeps|]. intros a w' Hr. exact (proj1 (Hf a w' (H2 a w' Hr))).
  - intros b w' Hr. rewrite run_bind in Hr. destruct (run react p w) as [a w1|w1|w1|w1] eqn:Hr1; try discriminate Hr.
    exact (proj2 (Hf a w1 (H2 a w1 eq_refl)) b w' Hr).
Qed.
Definition all {A} (P : world cifs Sv -> Prop) (a : A) : world cifs Sv -> Prop := P.
Lemma turn_mbind A B (P Q R : world cifs Sv -> Prop) (p : M A) (f : A -> M B) : (forall w, P w -> tl w = Open) -> frames_only p ->
  turn P p (fun a w => match a with Good _ => Q w | Bad _ => R w end) -> (forall a, turn Q (f a) (all R)) -> turn P (mbind p f) (all R).
Proof.
  intros HP Hp H Hf. refine (@turn_bind _ _ _ _ _ _ _ HP Hp H _). intros [a|e]; [apply Hf|]. intros w Hw. split; [exact I|]. intros b w' [= <- <-]. exact Hw.
Qed.
Lemma idle_open w : idle w -> tl w = Open. Proof. intros [_ H]; exact H. Qed.
Lemma waiting_open w : waiting w -> tl w = Open. Proof. intros [_ H]; exact H. Qed.
(** between two requests *)
Lemma turn_then A B (p : M A) (f : A -> M B) : frames_only p -> turn idle p (all idle) -> (forall a, turn idle (f a) (all idle)) -> turn idle (mbind p f) (all idle).
Proof.
  intros Hp H Hf. refine (@turn_mbind _ _ _ _ _ _ _ idle_open Hp _ Hf). intros w Hw. destruct (H w Hw) as [H1 H2]. split; [exact H1|]. intros [a|e] w' Hr; exact (H2 _ _ Hr).
Qed.
Lemma turn_ret A (a : A) P : turn P (Ret a) (all P).
Proof. intros w Hw. split; [exact I|]. intros b w' [= <- <-]. exact Hw. Qed.
Lemma turn_lift X A (f : X -> error) (r : res X A) P : turn P (lift f r) (all P).
Proof. destruct r; try apply turn_ret. intros w Hw. split; [exact I|]. discriminate. Qed.
Lemma turn_get : turn idle get (all idle).
Proof. intros w Hw. split; [exact I|]. intros a w' [= <- <-]. exact Hw. Qed.
Lemma turn_put c : turn idle (put c) (all idle).
Proof. intros w Hw. split; [exact I|]. intros a w' [= <- <-]. exact Hw. Qed.

Lemma quiet_reads A (p : prog cifs A) : quiet p -> forall w, reads_first react p w.
Proof. induction 1; intros w; cbn [reads_first]; auto. Qed.
Lemma turn_nb_recv : turn waiting nb_recv (all idle).
Proof.
  intros w [Hw Ht]. split; [apply quiet_reads, quiet_nb_recv|]. intros a w' Hr. rewrite run_nb_recv in Hr. destruct Hw as [Hw|(ty & m & Hw & Hm)].
  - rewrite Hw in Hr. cbn [next_frame] in Hr. unfold short_outcome in Hr. rewrite Ht in Hr. discriminate Hr.
  - rewrite nb_frame_mod in Hw. rewrite Hw, <- (app_nil_r (nb_frame _ _)), next_frame_complete in Hr; [|lia|exact Hm].
    unfold lifted in Hr. destruct (frame_new _ _); inversion Hr; subst; split; reflexivity || exact Ht.
Qed.
Lemma waits_recv A B (p : M A) (f : A -> M B) : frames_only p -> turn waiting p (all idle) -> (forall a, turn waiting (f a) (all idle)) -> turn waiting (mbind p f) (all idle).
Proof.
  intros Hp H Hf. refine (@turn_mbind _ _ waiting waiting idle _ _ waiting_open Hp _ Hf). intros w Hw. destruct (H w Hw) as [H1 H2].
  split; [exact H1|]. intros [a|e] w' Hr; pose proof (H2 _ _ Hr) as H3; [apply idle_waiting|]; exact H3.
Qed.
Lemma waits_idle A B (p : M A) (f : A -> M B) : frames_only p -> turn waiting p (all idle) -> (forall a, turn idle (f a) (all idle)) -> turn waiting (mbind p f) (all idle).
Proof.
  intros Hp H Hf. refine (@turn_mbind _ _ waiting idle idle _ _ waiting_open Hp _ Hf). intros w Hw. destruct (H w Hw) as [H1 H2].
  split; [exact H1|]. intros [a|e] w' Hr; exact (H2 _ _ Hr).
Qed.
Lemma also_idle A (p : prog cifs A) : turn waiting p (all idle) -> turn idle p (all idle).
Proof. intros H w Hw. exact (H w (idle_waiting Hw)). Qed.
Lemma turn_recv_message f : turn waiting (recv_message f) (all idle).
Proof.
  induction f as [|f IH]; cbn [recv_message]; [intros w _; split; [exact I|discriminate]|]. apply waits_idle; [apply fr_nb_recv|apply turn_nb_recv|].
  intros [m|m| |c| |]; try apply turn_ret. exact (also_idle IH).
Qed.
Lemma turn_recv_frame f g id : turn waiting (recv_frame f g id) (all idle).
Proof.
  induction f as [|f IH]; cbn [recv_frame]; [intros w _; split; [exact I|discriminate]|]. apply waits_idle; [apply fr_recv_message|apply turn_recv_message|].
  intros m. apply turn_then; [apply fr_lift|apply turn_lift|]. intros [i b]. destruct (_ =? _); [apply turn_ret|exact (also_idle IH)].
Qed.
Lemma turn_recv R f (r : reply R) id : turn waiting (recv f r id) (all idle).
Proof.
  unfold recv. apply waits_idle; [apply fr_recv_frame|apply turn_recv_frame|]. intros [i b].
  destruct (negb _); [apply turn_ret|]. destruct (negb _); [apply turn_ret|]. apply turn_lift.
Qed.
Lemma turn_collect f g id : forall ctx, turn waiting (collect f g id ctx) (all idle).
Proof.
  induction f as [|f IH]; intros ctx; cbn [collect]; [intros w _; split; [exact I|discriminate]|]. apply waits_idle; [apply fr_recv|apply turn_recv|].
  intros x. apply turn_then; [apply fr_lift|apply turn_lift|]. intros [c [|]]; [apply turn_ret|exact (also_idle (IH c))].
Qed.
Lemma turn_after f R (c : call R) id : turn waiting (after f c id) (all idle).
Proof.
  destruct c; cbn [after]; try apply turn_recv; (apply waits_idle; [apply fr_collect|apply turn_collect|]; intros x; apply turn_lift).
Qed.
Lemma turn_nb_send f : turn idle (nb_send f) (fun a w => match a with Good _ => waiting w | Bad _ => idle w end).
Proof.
  unfold nb_send. destruct (frame_encode f) as [b|e|] eqn:H; cbn [lift ret fail mbind pbind].
  - intros w [Hr Ht]. split; [split; [exact Hr|intros; exact I]|]. intros a w' Hrun. cbn [write_exactly run] in Hrun.
    destruct (once (srv w) (encoded_frame _ H)) as (s' & inc & H1 & H2). rewrite H1, Ht, Hr in Hrun. cbn [deliver app ret run] in Hrun. injection Hrun as <- <-.
    split; [exact H2|reflexivity].
  - intros w Hw. split; [exact I|]. intros a w' [= <- <-]. exact Hw.
  - intros w Hw. split; [exact I|]. discriminate.
Qed.
Lemma turn_send E m : turn idle (send E m) (fun a w => match a with Good _ => waiting w | Bad _ => idle w end).
Proof.
  assert (G : forall A B (p : M A) (f : A -> M B), frames_only p -> turn idle p (all idle) ->
    (forall a, turn idle (f a) (fun a w => match a with Good _ => waiting w | Bad _ => idle w end)) ->
    turn idle (mbind p f) (fun a w => match a with Good _ => waiting w | Bad _ => idle w end)).
  { intros A B p f Hp H Hf. refine (@turn_bind _ _ _ _ _ _ _ idle_open Hp H _). intros [a|e]; [apply Hf|]. intros w Hw. split; [exact I|]. intros b w' [= <- <-]. exact Hw. }
  unfold send. apply G; [apply fr_get|apply turn_get|]. intros c. cbv zeta. destruct (_ && _); [intros w _; split; [exact I|discriminate]|].
  apply G; [apply fr_put|apply turn_put|]. intros _. apply G; [apply fr_lift|apply turn_lift|]. intros b.
  unfold send_message. refine (@turn_bind _ _ _ _ _ _ _ idle_open (fr_nb_send _) (turn_nb_send _) _). intros [a|e]; intros w Hw; (split; [exact I|]; intros x w' [= <- <-]; exact Hw).
Qed.
Lemma turn_exec E f R (c : call R) : turn idle (exec E f c) (all idle).
Proof. rewrite exec_send. refine (@turn_mbind _ _ _ _ _ _ _ idle_open (fr_send _ _) (turn_send _ _) _). intros a. apply turn_after. Qed.
Lemma turn_create_session x y : turn idle (create_session x y) (all idle).
Proof.
  refine (@turn_mbind _ _ _ _ _ _ _ idle_open (fr_nb_send _) (turn_nb_send _) _). intros _.
  apply waits_idle; [apply fr_nb_recv|apply turn_nb_recv|]. intros [m|m| |c| |]; apply turn_ret.
Qed.
Lemma turn_interp E f A (p : flow A) : turn idle (interp E f p) (all idle).
Proof.
  induction p as [a| | |R c k IH|k IH|u k IH|m u k IH]; cbn [interp].
  - apply turn_ret.
  - intros w Hw. split; [exact I|discriminate].
  - intros w Hw. split; [exact I|discriminate].
  - exact (@turn_bind _ _ _ _ _ _ _ idle_open (fr_exec E f c) (turn_exec E f c) IH).
  - intros w Hw. exact (IH (cl w) w Hw).
  - intros w Hw. exact (IH (mk_world (set_uid u (cl w)) (srv w) (rx w) (tl w) (tx w)) Hw).
  - intros w Hw. exact (IH (mk_world (set_options m u (cl w)) (srv w) (rx w) (tl w) (tx w)) Hw).
Qed.
Lemma turn_setup E f : turn idle (setup_connection E f) (all idle).
Proof.
  unfold setup_connection. apply turn_then; [exact (fr_exec E f Negotiate)|exact (turn_exec E f Negotiate)|]. intros s.
  apply turn_then; [apply fr_get|apply turn_get|]. intros c. apply turn_then; [apply fr_put|apply turn_put|]. intros _. clear c. destruct (contains _ _).
  - unfold authenticate_ntlmv2. apply turn_then; [apply fr_get|apply turn_get|]. intros c. cbv zeta.
    apply turn_then; [apply fr_lift|apply turn_lift|]. intros m.
    apply turn_then; [exact (fr_exec E f (SetupBlob m))|exact (turn_exec E f (SetupBlob m))|]. intros r.
    apply turn_then; [apply fr_get|apply turn_get|]. intros c'. apply turn_then; [apply fr_put|apply turn_put|]. intros _.
    apply turn_then; [apply fr_lift|apply turn_lift|]. intros ch. apply turn_then; [apply fr_lift|apply turn_lift|]. intros m2.
    apply turn_then; [exact (fr_exec E f (SetupBlob m2))|exact (turn_exec E f (SetupBlob m2))|]. intros _. apply turn_ret.
  - unfold authenticate_ntlm. apply turn_then; [apply fr_get|apply turn_get|]. intros c. cbv zeta.
    apply turn_then; [apply fr_lift|apply turn_lift|]. intros m.
    apply turn_then; [exact (fr_exec E f (SetupAuth _ _ m))|exact (turn_exec E f (SetupAuth _ _ m))|]. intros r.
    apply turn_then; [apply fr_get|apply turn_get|]. intros c'. apply turn_put.
Qed.
Lemma turn_opening E f b a : turn idle (opening E f b a) (all idle).
Proof. destruct b; [apply turn_then; [apply fr_create_session|apply turn_create_session|]; intros _|]; apply turn_setup. Qed.
Lemma turn_download E f s path : turn idle (download E f s path) (all idle).
Proof.
  assert (Hl : forall g h d, frames_only (download_loop E g f h d) /\ turn idle (download_loop E g f h d) (all idle)).
  { intros g h. induction g as [|g IH]; intros d; cbn [download_loop]; [split; [exact I|]; intros w _; split; [exact I|discriminate]|].
    destruct (_ <? _); [|split; [exact I|apply turn_ret]]. split; [apply fr_mbind|apply turn_then]; [exact (fr_exec E f (ReadAt h (len d)))| |exact (fr_exec E f (ReadAt h (len d)))|exact (turn_exec E f (ReadAt h (len d)))|]; intros x; apply IH. }
  unfold download. apply turn_then; [exact (fr_exec E f (OpenFile s path))|exact (turn_exec E f (OpenFile s path))|]. intros h.
  apply turn_then; [apply Hl|apply Hl|].
  intros d. apply turn_then; [exact (fr_exec E f (Close h))|exact (turn_exec E f (Close h))|]. intros _. apply turn_ret.
Qed.
Lemma turn_list E f s pattern : turn idle (list_dir E f s pattern) (all idle).
Proof.
  unfold list_dir. apply turn_then; [exact (fr_exec E f (FindFirst s pattern))|exact (turn_exec E f (FindFirst s pattern))|]. intros r. destruct (ff_end r); [apply turn_ret|].
  generalize (ff_info r). generalize f at 1. intros g. induction g as [|g IH]; intros l; cbn [list_loop]; [intros w _; split; [exact I|discriminate]|].
  destruct (last _ _) as [d|]; [|intros w _; split; [exact I|discriminate]].
  apply turn_then; [exact (fr_exec E f (FindNext s (ff_sid r) (d_filename d)))|exact (turn_exec E f (FindNext s (ff_sid r) (d_filename d)))|]. intros x. cbv zeta.
  destruct (fn_end x); [apply turn_ret|apply IH].
Qed.
Lemma turn_fetch E f where_ path : turn idle (fetch E f where_ path) (all idle).
Proof.
  unfold fetch. apply turn_then; [exact (fr_exec E f (Mount _))|exact (turn_exec E f (Mount _))|]. intros sh. apply turn_then; [apply fr_download|apply turn_download|]. intros x.
  apply turn_then; [exact (fr_exec E f (Umount sh))|exact (turn_exec E f (Umount sh))|]. intros _. apply turn_ret.
Qed.
End Turns.
