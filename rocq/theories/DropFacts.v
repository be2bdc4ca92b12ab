(** * DropFacts: what dropped futures leave behind (C70). *)
From Verif Require Import Base Text Utils Win Errors Info Common Msg Reply Ntlm Prog Client Spec SpecReply SpecCrash
  Api SpecCall Flow SpecDrop BaseFacts RunFacts SpecFacts InfoFacts ClientFacts MsgFacts ReplyFacts CallFacts FlowFacts.
Open Scope N_scope.
Set Implicit Arguments.
Unset Strict Implicit.

Section Server.
Variable Sv : Type.
Variable react : Sv -> bytes -> reaction Sv.
Notation world := (world cifs Sv).
Notation run := (run react).
Notation dropped := (dropped react).

Lemma dropped_bind A B (p : prog cifs A) (f : A -> prog cifs B) : forall w v, dropped (pbind p f) w v ->
  dropped p w v \/ exists a w1, run p w = Done a w1 /\ dropped (f a) w1 v.
Proof.
  induction p as [a| | |k IH|c p IH|n k IH|b k IH]; intros w v H; cbn [pbind SpecDrop.dropped Prog.run] in *.
  - right. exists a, w. auto.
  - contradiction.
  - contradiction.
  - now apply IH.
  - now apply IH.
  - destruct H as [H|H]; [auto|]. destruct (n <=? len (rx w)).
    + destruct (IH _ _ _ H) as [K|K]; [left; right; exact K|right; exact K].
    + destruct (tl w) eqn:Ht; [contradiction|destruct (IH _ _ _ H) as [K|K]; [left; right; exact K|right; unfold leaving in K; rewrite Ht in K; exact K]..].
  - destruct H as [H|[H|H]]; [auto..|]. destruct (react (srv w) b) as [s inc t|s n e inc t]; destruct (deliver (tl w) (rx w) inc t);
      (destruct (IH _ _ _ H) as [K|K]; [left; right; right; exact K|right; exact K]).
Qed.
Lemma dropped_mbind A B (p : M A) (f : A -> M B) w v : dropped (mbind p f) w v ->
  dropped p w v \/ exists a w1, run p w = Done (Good a) w1 /\ dropped (f a) w1 v.
Proof.
  intros H. destruct (dropped_bind H) as [Hd|([a|e] & w1 & Hr & Hd)]; [now left|right; eauto|contradiction].
Qed.
Lemma dropped_lift X A (g : X -> error) (r : res X A) w v : ~ dropped (lift g r) w v.
Proof. destruct r; intros H; exact H. Qed.

(** ** reading *)
(** the incoming bytes between the two *)
Definition at_frame (w v : world) : Prop :=
  exists s part, rx w = s ++ part ++ rx v /\ frames s /\ inside part /\ v = leaving w (rx v).

Lemma run_read_std n w r w1 : run (read_std n) w = Done (Good r) w1 ->
  n <= len (rx w) /\ r = take n (rx w) /\ w1 = leaving w (drop n (rx w)).
Proof.
  cbn [read_std Prog.run]. destruct (N.leb_spec n (len (rx w))).
  - intros [= <- <-]. auto.
  - destruct (tl w); discriminate.
Qed.
Lemma dropped_read_std n w v : dropped (read_std n) w v -> exists j, j < n /\ j <= len (rx w) /\ v = leaving w (drop j (rx w)).
Proof. intros [H|H]; [exact H|]. destruct (n <=? len (rx w)); [contradiction|]. destruct (tl w); contradiction. Qed.
Lemma dropped_read_exactly n w v : dropped (read_exactly n) w v -> exists j, j < n /\ j <= len (rx w) /\ v = leaving w (drop j (rx w)).
Proof. intros [H|H]; [exact H|]. destruct (n <=? len (rx w)); [contradiction|]. destruct (tl w); contradiction. Qed.

Lemma dropped_nb_recv w v : dropped nb_recv w v -> exists part, rx w = part ++ rx v /\ inside part /\ v = leaving w (rx v).
Proof.
  intros H. apply dropped_mbind in H. destruct H as [H|(t & w1 & H1 & H)].
  { apply dropped_read_std in H. destruct H as (j & Hj & Hl & ->). exists (take j (rx w)). cbn [rx leaving].
    rewrite take_drop. split; [reflexivity|]. split; [left; rewrite len_take; lia|reflexivity]. }
  apply run_read_std in H1. destruct H1 as (Hl1 & -> & ->). destruct w as [c s b l x]. cbn [rx leaving cl srv tl tx] in *.
  destruct b as [|t b]; [cbn in Hl1; lia|]. change (drop 1 (t :: b)) with b in H. change (take 1 (t :: b)) with [t] in H.
  apply dropped_mbind in H. destruct H as [H|(raw & w2 & H2 & H)].
  { apply dropped_read_std in H. destruct H as (j & Hj & Hl & ->). cbn [rx leaving cl srv tl tx] in *. exists (t :: take j b).
    cbn [app]. rewrite take_drop. split; [reflexivity|]. split; [left; rewrite len_cons, len_take; lia|reflexivity]. }
  apply run_read_std in H2. destruct H2 as (Hl2 & -> & ->). cbn [rx leaving cl srv tl tx] in *.
  destruct b as [|x1 [|x2 [|x3 b]]]; try (cbn in Hl2; lia).
  change (drop 3 (x1 :: x2 :: x3 :: b)) with b in H. change (take 3 (x1 :: x2 :: x3 :: b)) with [x1; x2; x3] in H. rewrite unbe4 in H.
  cbn [leaving cl srv tl tx rx] in H.
  destruct (N.ltb_spec MAX_FRAME_LENGTH (b2n x1 * 65536 + b2n x2 * 256 + b2n x3)); [contradiction|].
  apply dropped_mbind in H. destruct H as [H|(d & w3 & _ & H)]; [|now apply dropped_lift in H].
  apply dropped_read_exactly in H. destruct H as (j & Hj & Hl & ->). cbn [rx leaving cl srv tl tx] in *.
  exists ([t; x1; x2; x3] ++ take j b). rewrite <- app_assoc, take_drop. split; [reflexivity|]. split; [|reflexivity].
  right. exists t, x1, x2, x3, (take j b). split; [reflexivity|]. split; [assumption|]. rewrite len_take. lia.
Qed.
Lemma nb_recv_frame w f w1 : run nb_recv w = Done (Good f) w1 ->
  exists t p, t < 256 /\ len p <= NB_MAX /\ rx w = nb_frame t p ++ rx w1 /\ w1 = leaving w (rx w1).
Proof.
  rewrite run_nb_recv. destruct (next_frame (rx w)) as [ty p rest|rest|] eqn:Hn; try discriminate.
  - apply next_frame_inv in Hn. destruct Hn as (Hrx & Ht & Hp). destruct (frame_new ty p); cbn [lifted]; try discriminate. intros [= _ <-].
    exists ty, p. cbn [rx with_rx]. auto.
  - intros H. now apply short_not_good in H.
Qed.
Lemma frames_app a b : frames a -> frames b -> frames (a ++ b).
Proof. induction 1; intros Hb; [exact Hb|]. rewrite <- app_assoc. constructor; auto. Qed.
(** the frames between the two *)
Definition through (w v : world) : Prop := exists s, frames s /\ rx w = s ++ rx v /\ v = leaving w (rx v).
Lemma through_refl w : through w w.
Proof. exists []. split; [constructor|]. split; [reflexivity|]. now destruct w. Qed.
Lemma through_trans w v u : through w v -> through v u -> through w u.
Proof.
  intros (s & Hs & H1 & H2) (s' & Hs' & H3 & H4). exists (s ++ s'). split; [now apply frames_app|]. split; [rewrite H1, H3; apply app_assoc|].
  rewrite H4. rewrite H2. reflexivity.
Qed.
Lemma through_at w v u : through w v -> at_frame v u -> at_frame w u.
Proof.
  intros (s & Hs & H1 & H2) (s' & part & H3 & Hs' & Hp & H4). exists (s ++ s'), part. split; [rewrite H1, H3; apply app_assoc|].
  split; [now apply frames_app|]. split; [exact Hp|]. rewrite H4, H2. reflexivity.
Qed.
Lemma nb_recv_through w f w1 : run nb_recv w = Done (Good f) w1 -> through w w1.
Proof.
  intros H. apply nb_recv_frame in H. destruct H as (t & p & Ht & Hp & Hrx & Hw). exists (nb_frame t p).
  split; [rewrite <- (app_nil_r (nb_frame t p)); constructor; auto; constructor|auto].
Qed.
Lemma nb_recv_at w v : dropped nb_recv w v -> at_frame w v.
Proof. intros H. apply dropped_nb_recv in H. destruct H as (part & H1 & H2 & H3). exists [], part. split; [exact H1|]. split; [constructor|auto]. Qed.

(** programs that only receive *)
Definition receives A (p : M A) : Prop :=
  (forall w v, dropped p w v -> at_frame w v) /\ forall w a w1, run p w = Done (Good a) w1 -> through w w1.
Lemma receives_nb : receives nb_recv.
Proof. split; [exact nb_recv_at|exact nb_recv_through]. Qed.
Lemma receives_lift X A (g : X -> error) (r : res X A) : receives (lift g r).
Proof.
  split; [intros w v H; now apply dropped_lift in H|]. intros w a w1. rewrite run_lift. destruct r; try discriminate. intros [= _ <-]. apply through_refl.
Qed.
Lemma receives_ret A (a : ans A) : receives (Ret a).
Proof. split; [intros w v []|]. intros w b w1 [= _ <-]. apply through_refl. Qed.
Lemma receives_fuel A : receives (OutOfFuel (A := ans A)).
Proof. split; [intros w v []|]. intros w b w1 [=]. Qed.
Lemma receives_bind A B (p : M A) (f : A -> M B) : receives p -> (forall a, receives (f a)) -> receives (mbind p f).
Proof.
  intros [H1 H2] Hf. split.
  - intros w v H. apply dropped_mbind in H. destruct H as [H|(a & w1 & Hr & H)]; [now apply H1|].
    exact (through_at (H2 _ _ _ Hr) (proj1 (Hf a) _ _ H)).
  - intros w b w2 H. rewrite run_mbind in H. destruct (run p w) as [[a|e] w1|w1|w1|w1] eqn:Hr; try discriminate H.
    exact (through_trans (H2 _ _ _ Hr) (proj2 (Hf a) _ _ _ H)).
Qed.
Lemma receives_if A (b : bool) (p q : M A) : receives p -> receives q -> receives (if b then p else q).
Proof. now destruct b. Qed.
Lemma receives_message fuel : receives (recv_message fuel).
Proof.
  induction fuel as [|fuel IH]; cbn [recv_message]; [apply receives_fuel|]. apply receives_bind; [exact receives_nb|].
  intros []; try apply receives_ret. exact IH.
Qed.
Lemma receives_frame fuel g id : receives (recv_frame fuel g id).
Proof.
  induction fuel as [|fuel IH]; cbn [recv_frame]; [apply receives_fuel|]. apply receives_bind; [apply receives_message|].
  intros b. apply receives_bind; [apply receives_lift|]. intros [i body]. apply receives_if; [apply receives_ret|exact IH].
Qed.
Lemma receives_recv R fuel (r : reply R) id : receives (recv fuel r id).
Proof.
  apply receives_bind; [apply receives_frame|]. intros [i body]. apply receives_if; [apply receives_ret|].
  apply receives_if; [apply receives_ret|apply receives_lift].
Qed.
Lemma receives_collect fuel g id : forall ctx, receives (collect fuel g id ctx).
Proof.
  induction fuel as [|fuel IH]; intros ctx; cbn [collect]; [apply receives_fuel|]. apply receives_bind; [apply receives_recv|].
  intros f. apply receives_bind; [apply receives_lift|]. intros [ctx' done]. apply receives_if; [apply receives_ret|apply IH].
Qed.
Lemma receives_after R fuel (c : call R) id : receives (after fuel c id).
Proof.
  destruct c; cbn [after]; try apply receives_recv; (apply receives_bind; [apply receives_collect|]; intros ctx; apply receives_lift).
Qed.

(** ** writing *)
Variable E : env.
Lemma dropped_send m w v : dropped (send E m) w v ->
  exists f, out_frame E (cl w) m = Some f /\ (left_unsent w v \/ left_cut react f w v \/ left_waiting react f w v).
Proof.
  unfold send, out_frame. cbn [mbind get pbind ret SpecDrop.dropped].
  fold (mid_panics E (cl w)). destruct (mid_panics E (cl w)); [intros []|].
  cbn [put mbind pbind ret SpecDrop.dropped info_default i_cmd i_status i_flags1 i_flags2 i_pid i_tid].
  fold (out_info (cl w) m). rewrite len_info_write. unfold smb_out.
  destruct (msg_write m (out_info (cl w) m) 32) as [body|e|]; [|intros []|intros []].
  cbn [lift ret mbind pbind rbind]. unfold send_message, nb_send. rewrite frame_encode_message.
  destruct (NB_MAX <? len (info_write (out_info (cl w) m) ++ body)); [intros []|].
  cbn [lift ret mbind pbind rbind write_exactly SpecDrop.dropped cl srv rx tl tx]. intros H. eexists. split; [reflexivity|].
  unfold left_unsent, left_cut. rewrite <- !(bump_next (cl w)). destruct H as [H|[H|H]].
  - left. exact H.
  - right. destruct H as (n & s & inc & t & Hn & Hr & H). set (f := session_message _) in *. assert (Hc : n < len f \/ n = len f) by lia.
    destruct Hc as [Hc|Hc]; [left; exists n, s, inc, t; split; [lia|auto]|right]. assert (Htk : take n f = f) by (apply take_all; lia). rewrite Htk in Hr, H.
    destruct (deliver (tl w) (rx w) inc t) as [buf t'] eqn:Hd. exists v, [], []. split; [|split; [reflexivity|split; [constructor|split; [left; cbn; lia|now destruct v]]]].
    exists s, inc, t. subst v. cbn [cl srv rx tl tx]. rewrite <- bump_next. auto.
  - exfalso. destruct (react (srv w) _) as [s inc t|s n e inc t]; destruct (deliver (tl w) (rx w) inc t); exact H.
Qed.
Theorem call_dropped fuel R (c : call R) w v : dropped (exec E fuel c) w v ->
  exists f, request (exec E fuel c) (cl w) = Some f
  /\ (left_unsent w v \/ left_cut react f w v \/ left_waiting react f w v).
Proof.
  rewrite exec_send. intros H. apply dropped_mbind in H. destruct H as [H|(id & w1 & Hr & H)].
  - apply dropped_send in H. destruct H as (f & Hf & H). exists f. rewrite request_send. auto.
  - apply receives_after in H. destruct H as (s & part & H1 & H2 & H3 & H4).
    destruct (send_cases react E (msg_of c) w) as [(f & w2 & Hf & Ha & Hs)|Hu].
    + rewrite Hs in Hr. injection Hr as _ <-. exists f. rewrite request_send. split; [exact Hf|]. right. right. exists w2, s, part. auto.
    + rewrite Hr in Hu. inversion Hu.
Qed.
Lemma dropped_bindl A B (p : prog cifs A) (g : A -> prog cifs B) : forall w v, dropped p w v -> dropped (pbind p g) w v.
Proof.
  induction p as [a| | |k IH|c k IH|n k IH|b k IH]; cbn [pbind SpecDrop.dropped]; intros w v H; try contradiction; auto.
  - destruct H as [H|H]; [auto|right]. destruct (n <=? len (rx w)); [auto|]. destruct (tl w); auto.
  - destruct H as [H|[H|H]]; [auto|auto|right; right]. destruct (react (srv w) b) as [s inc t|s n e inc t]; destruct (deliver (tl w) (rx w) inc t); auto.
Qed.
(** a future can be dropped at every point of its write *)
Lemma dropped_write fuel R (c : call R) w f : request (exec E fuel c) (cl w) = Some f ->
  dropped (exec E fuel c) w (mk_world (next_client (cl w)) (srv w) (rx w) (tl w) (tx w))
  /\ forall n s inc t buf t', 0 < n <= len f -> react (srv w) (take n f) = Accept s inc t ->
     deliver (tl w) (rx w) inc t = (buf, t') -> dropped (exec E fuel c) w (mk_world (next_client (cl w)) s buf t' (tx w ++ [take n f])).
Proof.
  rewrite exec_send, request_send. intros Hf. assert (Hd : forall v, dropped (send E (msg_of c)) w v -> dropped (mbind (send E (msg_of c)) (after fuel c)) w v).
  { intros v Hv. apply dropped_bindl, Hv. }
  cut (dropped (send E (msg_of c)) w (mk_world (next_client (cl w)) (srv w) (rx w) (tl w) (tx w))
  /\ forall n s inc t buf t', 0 < n <= len f -> react (srv w) (take n f) = Accept s inc t ->
     deliver (tl w) (rx w) inc t = (buf, t') -> dropped (send E (msg_of c)) w (mk_world (next_client (cl w)) s buf t' (tx w ++ [take n f]))).
  { intros [H1 H2]. split; [apply Hd, H1|]. intros n s inc t buf t' H3 H4 H5. apply Hd. apply (H2 n s inc t buf t' H3 H4 H5). }
  clear Hd. revert Hf. unfold send, out_frame. cbn [mbind get pbind ret SpecDrop.dropped].
  fold (mid_panics E (cl w)). destruct (mid_panics E (cl w)); [discriminate|].
  cbn [put mbind pbind ret SpecDrop.dropped info_default i_cmd i_status i_flags1 i_flags2 i_pid i_tid].
  fold (out_info (cl w) (msg_of c)). rewrite len_info_write. unfold smb_out.
  destruct (msg_write (msg_of c) (out_info (cl w) (msg_of c)) 32) as [body|e|]; [|discriminate|discriminate].
  cbn [lift ret mbind pbind rbind]. unfold send_message, nb_send. rewrite frame_encode_message.
  destruct (NB_MAX <? len (info_write (out_info (cl w) (msg_of c)) ++ body)); [discriminate|].
  cbn [lift ret mbind pbind rbind write_exactly SpecDrop.dropped cl srv rx tl tx]. intros [= <-].
  rewrite <- !(bump_next (cl w)). split; [left; reflexivity|]. intros n s inc t buf t' H3 H4 H5. right. left. exists n, s, inc, t.
  split; [exact H3|]. split; [exact H4|]. rewrite H5. reflexivity.
Qed.
Lemma left_sent f w v : left_unsent w v \/ left_cut react f w v \/ left_waiting react f w v ->
  tx v = tx w \/ left_cut react f w v \/ tx v = tx w ++ [f].
Proof.
  intros [-> |[H|(w1 & s & part & (s' & inc & t & _ & _ & _ & Ht & _) & _ & _ & _ & ->)]]; [auto|auto|right; right; exact Ht].
Qed.
Theorem conn_whole fuel w l v : conn react E fuel true w l v -> exists fs, tx v = tx w ++ fs
  /\ forall f, In f fs -> exists R (c : call R) st, In (existT call R c) l /\ is_request E st c f.
Proof.
  induction 1 as [|l v R c a u Hc IH Hr Hw|l v R c u Hc IH Hd Hw|l v s more t Hc IH].
  - exists []. rewrite app_nil_r. split; [reflexivity|]. intros f [].
  - destruct IH as (fs & Ht & Hfs). assert (Hold : forall f, In f fs -> exists R0 (c0 : call R0) st, In (existT call R0 c0) (l ++ [existT call R c]) /\ is_request E st c0 f).
    { intros f Hf. destruct (Hfs f Hf) as (R0 & c0 & st & H1 & H2). exists R0, c0, st. rewrite in_app_iff. auto. }
    destruct (call_answered Hr) as [(f & Hf & Hu)|[(_ & Hu & _)|(f & n & e & _ & _ & Ha)]].
    + exists (fs ++ [f]). rewrite Hu, Ht, app_assoc. split; [reflexivity|]. intros g [Hg|[<-|[]]]%in_app_iff; [auto|].
      exists R, c, (cl v). split; [rewrite in_app_iff; cbn; auto|now exists fuel].
    + exists fs. rewrite Hu, Ht. auto.
    + now destruct (Hw eq_refl e).
  - destruct IH as (fs & Ht & Hfs). assert (Hold : forall f, In f fs -> exists R0 (c0 : call R0) st, In (existT call R0 c0) (l ++ [existT call R c]) /\ is_request E st c0 f).
    { intros f Hf. destruct (Hfs f Hf) as (R0 & c0 & st & H1 & H2). exists R0, c0, st. rewrite in_app_iff. auto. }
    destruct (call_dropped Hd) as (f & Hf & Hl). destruct (left_sent Hl) as [Hu|[Hu|Hu]].
    + exists fs. rewrite Hu, Ht. auto.
    + now destruct (Hw eq_refl f Hf).
    + exists (fs ++ [f]). rewrite Hu, Ht, app_assoc. split; [reflexivity|]. intros g [Hg|[<-|[]]]%in_app_iff; [auto|].
      exists R, c, (cl v). split; [rewrite in_app_iff; cbn; auto|now exists fuel].
  - exact IH.
Qed.
End Server.
