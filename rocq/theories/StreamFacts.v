(** * StreamFacts: frames, arrival times, keep-alives (C01, C03, C04) *)
From Verif Require Import Base Text Win Errors Info Common Reply Ntlm Prog Client Spec SpecReply SpecCrash
  Api SpecCall BaseFacts RunFacts SpecFacts InfoFacts ClientFacts MsgFacts CallFacts FindFacts.
Open Scope N_scope.
Set Implicit Arguments.
Unset Strict Implicit.

(** ** frames *)
Section Frames.
Variable Sv : Type.
Variable react : Sv -> bytes -> reaction Sv.
Notation world := (world cifs Sv).
Notation run := (run react).

Lemma recv_message_ok n p rest fuel (w : world) : len p <= NB_MAX ->
  rx w = keepalives n ++ session_message p ++ rest -> (n < fuel)%nat ->
  run (recv_message fuel) w = Done (Good p) (leaving w rest).
Proof.
  intros Hp. revert fuel w. induction n as [|n IH]; intros [|fuel] w Hrx Hf; try lia.
  - rewrite run_recv_message, Hrx. cbn [keepalives repeat concat app]. rewrite next_message by exact Hp. reflexivity.
  - rewrite run_recv_message. unfold keepalives in *. cbn [repeat concat] in Hrx. rewrite Hrx, <- app_assoc.
    unfold keepalive at 1. rewrite next_frame_complete by easy. cbn [frame_new]. cbn.
    rewrite IH with (w := with_rx _ w); [reflexivity|reflexivity|lia].
Qed.
Lemma short_not_good A (w : world) (a : A) w' : short_outcome w <> Done (Good a) w'.
Proof. unfold short_outcome. now destruct (tl w). Qed.
Lemma recv_message_inv fuel : forall (w : world) p w', run (recv_message fuel) w = Done (Good p) w' ->
  exists n, len p <= NB_MAX /\ rx w = keepalives n ++ session_message p ++ rx w' /\ w' = leaving w (rx w').
Proof.
  induction fuel as [|fuel IH]; intros w p w' H; [discriminate|].
  rewrite run_recv_message in H. destruct (next_frame (rx w)) as [ty q rest|rest|] eqn:En.
  - apply next_frame_inv in En as (En & Hty & Hq).
    destruct (frame_new ty q) as [f| |] eqn:Ef; try discriminate. destruct f; try discriminate.
    + apply frame_new_message in Ef as [-> ->]. injection H as <- <-. exists 0%nat. auto.
    + apply frame_new_keepalive in Ef as [-> ->]. apply IH in H as (n & Hp & Hr & Hw).
      exists (S n). split; [exact Hp|]. split; [|exact Hw]. rewrite En. cbn [with_rx rx] in Hr.
      unfold keepalives. cbn [repeat concat]. rewrite <- app_assoc. fold (keepalives n). unfold keepalive at 1.
      now rewrite <- Hr.
  - discriminate.
  - now apply short_not_good in H.
Qed.

Lemma send_message_ok p (w : world) : len p <= NB_MAX ->
  exists o, run (send_message p) w = o /\
  match react (srv w) (session_message p) with
  | Accept s inc t => exists b t', deliver (tl w) (rx w) inc t = (b, t')
      /\ o = Done (Good tt) (mk_world (cl w) s b t' (tx w ++ [session_message p]))
  | Refuse s n e inc t => exists b t', deliver (tl w) (rx w) inc t = (b, t')
      /\ o = Done (Bad (ENetBios (IoError (IoOther e)))) (mk_world (cl w) s b t' (tx w ++ [take n (session_message p)]))
  end.
Proof.
  intros Hp. eexists. split; [reflexivity|]. unfold send_message, nb_send. rewrite run_mbind, run_lift, frame_encode_message.
  destruct (N.ltb_spec NB_MAX (len p)); [lia|]. cbn [lifted gbind obind write_exactly run].
  unfold write_exactly. cbn [Prog.run]. destruct (react (srv w) (session_message p)) as [s inc t|s n e inc t];
  destruct (deliver (tl w) (rx w) inc t) as [b t'] eqn:Ed; exists b, t'; auto.
Qed.
Lemma send_message_big p (w : world) : NB_MAX < len p ->
  run (send_message p) w = Done (Bad (ENetBios InvalidFrame)) w.
Proof.
  intros Hp. unfold send_message, nb_send. rewrite run_mbind, run_lift, frame_encode_message.
  destruct (N.ltb_spec NB_MAX (len p)); [reflexivity|lia].
Qed.
End Frames.

(** ** arrival times *)
Section Time.
Variables C Sv : Type.
Variable react : Sv -> bytes -> reaction Sv.
Lemma any_schedule A (p : prog C A) (w : pworld C Sv) l :
  complete react (fst (schedule react l (poll react p w))) (snd (schedule react l (poll react p w)))
  = run react p (settle w).
Proof.
  destruct (@poll_complete C Sv react A p w) as [H1 H2]. destruct (@schedule_complete C Sv react A l _ H2) as [H3 _]. congruence.
Qed.
Lemma schedule_finished A (p : prog C A) (w w' : pworld C Sv) l a :
  schedule react l (poll react p w) = (Finished a, w') -> run react p (settle w) = Done a (settle w').
Proof. intros H. rewrite <- (any_schedule p w l), H. reflexivity. Qed.
Lemma schedule_panicking A (p : prog C A) (w w' : pworld C Sv) l :
  schedule react l (poll react p w) = (Panicking, w') -> run react p (settle w) = Crashed (settle w').
Proof. intros H. rewrite <- (any_schedule p w l), H. reflexivity. Qed.
Lemma schedule_pending A (p : prog C A) (w w' : pworld C Sv) l n acc k :
  schedule react l (poll react p w) = (Pending n acc k, w') -> inflight w' = [] ->
  exists v, run react p (settle w) = Blocked v.
Proof.
  intros H Hi. destruct (@poll_complete C Sv react A p w) as [H1 H2]. destruct (@schedule_complete C Sv react A l _ H2) as [H3 H4].
  rewrite H in H3, H4. cbn [fst snd wf_task] in H3, H4. destruct H4 as (Hn & Ha & [Hx|Ht]); [contradiction|].
  rewrite <- H1, <- H3. cbn [complete]. cbn [run rx]. rewrite Ha, Hi, !app_nil_r.
  destruct (N.leb_spec n (len acc)); [lia|]. cbn [tl]. rewrite Ht. eauto.
Qed.
End Time.

(** ** skipped messages in front *)
Section Front.
Variables S1 S2 : Type.
Variable react1 : S1 -> bytes -> reaction S1.
Variable react2 : S2 -> bytes -> reaction S2.
Definition meets (w1 : world cifs S1) (w2 : world cifs S2) : Prop := cl w1 = cl w2 /\ tl w1 = tl w2 /\ rx w1 = rx w2.

Lemma short_same A (w1 : world cifs S1) (w2 : world cifs S2) : meets w1 w2 ->
  same_end (@short_outcome S1 A w1) (@short_outcome S2 A w2).
Proof. intros (H1 & H2 & H3). unfold short_outcome. rewrite H2, H3. destruct (tl w2) eqn:Ht; cbn; now rewrite ?H2, ?Ht. Qed.
Lemma lifted_same E A (f : E -> error) (r : res E A) (w1 : world cifs S1) (w2 : world cifs S2) : meets w1 w2 ->
  same_end (lifted f r w1) (lifted f r w2).
Proof. intros (H1 & H2 & H3). destruct r; cbn; auto. Qed.
Lemma received_same R (r : reply R) sc (w1 : world cifs S1) (w2 : world cifs S2) : cl w1 = cl w2 -> tl w1 = tl w2 ->
  same_end (received r w1 sc) (received r w2 sc).
Proof.
  intros H1 H2. destruct sc; cbn [received]; try (cbn; now auto).
  - unfold replied. destruct negb; [cbn; now auto|]. destruct negb; [cbn; now auto|].
    apply lifted_same. now split.
  - apply short_same. now split.
Qed.
Lemma recv_front R (r : reply R) id f1 f2 s w1 w2 : skipped id s -> cl w1 = cl w2 -> tl w1 = tl w2 -> rx w2 = s ++ rx w1 ->
  (length (rx w1) < f1)%nat -> (length (rx w2) < f2)%nat ->
  same_end (run react1 (recv f1 r id) w1) (run react2 (recv f2 r id) w2).
Proof.
  intros Hs H1 H2 H3 L1 L2. destruct (scans_total id (rx w1)) as [sc Hsc].
  rewrite (run_recv react1 r Hsc L1), (run_recv react2 r (w := w2) (sc := sc)); [|rewrite H3; now apply scans_skip|exact L2].
  now apply received_same.
Qed.
(** the first message of a collection *)
Definition left_len {Sv A} (o : outcome cifs Sv (ans A)) (n : nat) : Prop :=
  match o with Done (Good _) w => (length (rx w) < n)%nat | _ => True end.
Lemma recv_shrinks Sv (react : Sv -> bytes -> reaction Sv) R (r : reply R) id f w :
  left_len (run react (recv f r id) w) (length (rx w)).
Proof.
  destruct (run react (recv f r id) w) as [[v|e] w'| | |] eqn:H; cbn; auto.
  apply recv_good in H as (p & rest & st & i & Ha & _ & _ & _ & _ & _ & _ & ->). cbn. exact (arrives_len Ha).
Qed.
Lemma collect_front id : forall f1 f2 g1 g2 k s w1 w2, skipped id s -> cl w1 = cl w2 -> tl w1 = tl w2 -> rx w2 = s ++ rx w1 ->
  (length (rx w1) < f1)%nat -> (length (rx w2) < f2)%nat -> (length (rx w1) < g1)%nat -> (length (rx w2) < g2)%nat ->
  same_end (run react1 (collect f1 g1 id k) w1) (run react2 (collect f2 g2 id k) w2).
Proof.
  induction f1 as [|f1 IH]; intros f2 g1 g2 k s w1 w2 Hs H1 H2 H3 L1 L2 G1 G2; [lia|].
  destruct f2 as [|f2]; [lia|]. cbn [collect]. rewrite !run_mbind.
  pose proof (recv_front r_trans2 Hs H1 H2 H3 G1 G2) as HR.
  pose proof (recv_shrinks react1 r_trans2 id g1 w1) as HS1. pose proof (recv_shrinks react2 r_trans2 id g2 w2) as HS2.
  destruct (run react1 (recv g1 r_trans2 id) w1) as [[v1|e1] v| | |];
  destruct (run react2 (recv g2 r_trans2 id) w2) as [[v2|e2] v'| | |]; cbn in HR; try easy.
  2:{ destruct HR as ([= <-] & HR). cbn. now auto. }
  destruct HR as ([= <-] & HR1 & HR2 & HR3). cbn [gbind obind left_len] in *. rewrite !run_mbind, !run_lift.
  destruct (collect2_add k v1) as [[k' d]|e|]; cbn [lifted gbind obind]; [|cbn; now auto|cbn; now auto].
  destruct d; [cbn; now auto|]. apply (IH f2 g1 g2 k' [] v v'); auto; try lia. constructor.
Qed.
Lemma after_front f1 f2 R (c : call R) id s w1 w2 : skipped id s -> cl w1 = cl w2 -> tl w1 = tl w2 -> rx w2 = s ++ rx w1 ->
  (length (rx w1) < f1)%nat -> (length (rx w2) < f2)%nat ->
  same_end (run react1 (after f1 c id) w1) (run react2 (after f2 c id) w2).
Proof.
  intros Hs H1 H2 H3 L1 L2. destruct (reply_of c) as [r|] eqn:Er.
  - rewrite !(after_recv _ _ Er). eapply recv_front; eauto.
  - destruct (find_sub c) as [sub|] eqn:Es; [|destruct c; discriminate].
    rewrite !(find_after _ _ Es), !run_mbind.
    pose proof (@collect_front id f1 f2 f1 f2 collect2_new s w1 w2 Hs H1 H2 H3 L1 L2 L1 L2) as HC.
    destruct (run react1 (collect f1 f1 id collect2_new) w1) as [[v1|e1] v| | |];
    destruct (run react2 (collect f2 f2 id collect2_new) w2) as [[v2|e2] v'| | |]; cbn in HC; try easy.
    + destruct HC as ([= <-] & HR). cbn [gbind obind]. rewrite !run_lift. now apply lifted_same.
    + destruct HC as ([= <-] & HR). cbn. now auto.
Qed.
Lemma call_front E fuel R (c : call R) w1 w2 f v1 v2 s : cl w1 = cl w2 ->
  request (exec E fuel c) (cl w1) = Some f -> asked react1 w1 f v1 -> asked react2 w2 f v2 ->
  tl v1 = tl v2 -> skipped (mid (cl w1)) s -> rx v2 = s ++ rx v1 ->
  (length (rx v1) < fuel)%nat -> (length (rx v2) < fuel)%nat ->
  same_end (run react1 (exec E fuel c) w1) (run react2 (exec E fuel c) w2).
Proof.
  intros Hc Hf A1 A2 Ht Hs Hr L1 L2. rewrite (call_asked Hf A1). rewrite Hc in Hf. rewrite (call_asked Hf A2). rewrite <- Hc.
  eapply after_front; eauto. destruct A1 as (? & ? & ? & _ & -> & _), A2 as (? & ? & ? & _ & -> & _). now rewrite Hc.
Qed.
Lemma keepalives_skipped id n : skipped id (keepalives n).
Proof. unfold keepalives. induction n; cbn [repeat concat]; now constructor. Qed.
Lemma call_keepalives E fuel R (c : call R) w1 w2 f v1 v2 n : cl w1 = cl w2 ->
  request (exec E fuel c) (cl w1) = Some f -> asked react1 w1 f v1 -> asked react2 w2 f v2 ->
  tl v1 = tl v2 -> rx v2 = keepalives n ++ rx v1 ->
  (length (rx v1) < fuel)%nat -> (length (rx v2) < fuel)%nat ->
  same_end (run react1 (exec E fuel c) w1) (run react2 (exec E fuel c) w2).
Proof. intros Hc Hf A1 A2 Ht. apply (call_front Hc Hf A1 A2 Ht). apply keepalives_skipped. Qed.
End Front.
