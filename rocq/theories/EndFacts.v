(** * EndFacts: the loops of the client end (C29, C61). *)
From Verif Require Import Base Text Utils Win Errors Info Common Msg Reply Ntlm Prog Client Spec SpecReply SpecCrash
  Api SpecCall Sample BaseFacts RunFacts SpecFacts InfoFacts ClientFacts MsgFacts ReplyFacts CollectFacts CallFacts FindFacts
  AnswerFacts LoopFacts.
Open Scope N_scope.
Set Implicit Arguments.
Unset Strict Implicit.

Section Server.
Variable Sv : Type.
Variable react : Sv -> bytes -> reaction Sv.
Notation world := (world cifs Sv).
Notation run := (run react).

(** from some bound of the model's loops on, the outcome is one and the same, and it is a
    behaviour of the program (returned, waiting, crashed), not that the bound was hit *)
Definition ends {A} (p : nat -> M A) (w : world) : Prop :=
  exists f0 o, (forall w', o <> Starved w') /\ forall f, (f0 <= f)%nat -> run (p f) w = o.
(** it eventually returns this *)
Definition returns {A} (p : nat -> M A) (w : world) (a : A) (w1 : world) : Prop :=
  exists f0, forall f, (f0 <= f)%nat -> run (p f) w = Done (Good a) w1.

Lemma ends_bind A B (p : nat -> M A) (k : nat -> A -> M B) w : ends p w ->
  (forall a w1, returns p w a w1 -> ends (fun f => k f a) w1) -> ends (fun f => mbind (p f) (k f)) w.
Proof.
  intros (f0 & o & Ho & H) Hk. destruct o as [[a|e] w1|w1|w1|w1].
  - destruct (Hk a w1) as (f1 & o1 & Ho1 & H1); [now exists f0|]. exists (f0 + f1)%nat, o1. split; [exact Ho1|].
    intros f Hf. rewrite run_mbind, H by lia. rewrite gbind_good. apply H1. lia.
  - exists f0, (Done (Bad e) w1). split; [easy|]. intros f Hf. now rewrite run_mbind, H.
  - exists f0, (Blocked w1). split; [easy|]. intros f Hf. now rewrite run_mbind, H.
  - exists f0, (Crashed w1). split; [easy|]. intros f Hf. now rewrite run_mbind, H.
  - now destruct (Ho w1).
Qed.
Lemma ends_const A (p : M A) w : (forall w', run p w <> Starved w') -> ends (fun _ => p) w.
Proof. intros H. exists 0%nat, (run p w). auto. Qed.
Lemma ends_ext A (p q : nat -> M A) w : (forall f, p f = q f) -> ends p w -> ends q w.
Proof. intros He (f0 & o & Ho & H). exists f0, o. split; [exact Ho|]. intros f Hf. rewrite <- He. auto. Qed.
Lemma lift_ends A E (g : E -> error) (r : res E A) w : ends (fun _ => lift g r) w.
Proof. apply ends_const. intros w'. rewrite run_lift. now destruct r. Qed.

Lemma received_not_starved R (r : reply R) (w : world) sc (w' : world) : received r w sc <> Starved w'.
Proof.
  destruct sc; cbn [received]; try easy.
  - unfold replied. destruct (negb _); [easy|]. destruct (negb _); [easy|]. now destruct (reply_parse _ _ _).
  - unfold short_outcome. now destruct (tl _).
Qed.
Lemma recv_ends R (r : reply R) id w : ends (fun f => recv f r id) w.
Proof.
  destruct (scans_total id (rx w)) as [sc Hsc]. exists (S (length (rx w))), (received r w sc).
  split; [intros; apply received_not_starved|]. intros f Hf. apply run_recv; [exact Hsc|lia].
Qed.
(** the fragment loop: every fragment takes bytes off the stream *)
Lemma recv_shrinks R (r : reply R) id w f v w' : run (recv f r id) w = Done (Good v) w' -> (length (rx w') < length (rx w))%nat.
Proof.
  intros H. apply recv_good in H. destruct H as (p & rest & st & i & H & _ & _ & _ & _ & _ & _ & ->). apply arrives_len in H. exact H.
Qed.
Lemma collect_ends id n : forall w k, (length (rx w) <= n)%nat ->
  exists o, (forall w', o <> Starved w') /\ forall f g, (n < f)%nat -> (n < g)%nat -> run (collect f g id k) w = o.
Proof.
  induction n as [|n IH]; intros w k Hn.
  - destruct (scans_total id (rx w)) as [sc Hsc].
    exists (gbind (received r_trans2 w sc) (fun fr w1 => run (do! (ctx, d) := lift ESmb (collect2_add k fr) in if (d : bool) then ret ctx else OutOfFuel) w1)).
    assert (Hng : forall v w1, received r_trans2 w sc <> Done (Good v) w1).
    { intros v w1 H. rewrite <- (@run_recv _ react _ r_trans2 id w 1 sc Hsc) in H by lia. apply recv_shrinks in H. lia. }
    split.
    + intros w' H. destruct (received r_trans2 w sc) as [[v|e] w1|w1|w1|w1] eqn:Hr; try easy; [now destruct (Hng v w1)|].
      now apply received_not_starved in Hr.
    + intros [|f] g Hf Hg; [lia|]. cbn [collect]. rewrite run_mbind, (@run_recv _ react _ r_trans2 id w g sc Hsc) by lia.
      destruct (received r_trans2 w sc) as [[v|e] w1|w1|w1|w1] eqn:Hr; try reflexivity. now destruct (Hng v w1).
  - destruct (scans_total id (rx w)) as [sc Hsc].
    assert (Hrun : forall g, (S n < g)%nat -> run (recv g r_trans2 id) w = received r_trans2 w sc) by (intros; apply run_recv; [exact Hsc|lia]).
    destruct (received r_trans2 w sc) as [[v|e] w1|w1|w1|w1] eqn:Hr.
    + assert (Hs : (length (rx w1) <= n)%nat).
      { pose proof (Hrun (S (S n)) ltac:(lia)) as H. apply recv_shrinks in H. lia. }
      destruct (collect2_add k v) as [[k' d]|e|] eqn:Ha.
      * destruct d.
        -- exists (Done (Good k') w1). split; [easy|]. intros [|f] g Hf Hg; [lia|]. cbn [collect].
           rewrite run_mbind, Hrun, gbind_good, run_mbind, run_lift, Ha by lia. reflexivity.
        -- destruct (IH w1 k' Hs) as (o & Ho & H). exists o. split; [exact Ho|]. intros [|f] g Hf Hg; [lia|]. cbn [collect].
           rewrite run_mbind, Hrun, gbind_good, run_mbind, run_lift, Ha by lia. cbn [lifted]. rewrite gbind_good. apply H; lia.
      * exists (Done (Bad (ESmb e)) w1). split; [easy|]. intros [|f] g Hf Hg; [lia|]. cbn [collect].
        rewrite run_mbind, Hrun, gbind_good, run_mbind, run_lift, Ha by lia. reflexivity.
      * exists (Crashed w1). split; [easy|]. intros [|f] g Hf Hg; [lia|]. cbn [collect].
        rewrite run_mbind, Hrun, gbind_good, run_mbind, run_lift, Ha by lia. reflexivity.
    + exists (Done (Bad e) w1). split; [easy|]. intros [|f] g Hf Hg; [lia|]. cbn [collect]. now rewrite run_mbind, Hrun by lia.
    + exists (Blocked w1). split; [easy|]. intros [|f] g Hf Hg; [lia|]. cbn [collect]. now rewrite run_mbind, Hrun by lia.
    + exists (Crashed w1). split; [easy|]. intros [|f] g Hf Hg; [lia|]. cbn [collect]. now rewrite run_mbind, Hrun by lia.
    + now apply received_not_starved in Hr.
Qed.

Section Env.
Variable E : env.
Lemma send_ends m w : ends (fun _ => send E m) w.
Proof.
  apply ends_const. intros w' H. destruct (@send_cases _ react E m w) as [(f & w1 & _ & _ & H1)|H1]; [congruence|].
  rewrite H in H1. inversion H1.
Qed.
Lemma after_ends R (c : call R) id w : ends (fun f => after f c id) w.
Proof.
  destruct c; cbn [after]; try apply recv_ends.
  - apply (@ends_bind _ _ (fun f => collect f f id collect2_new) (fun _ ctx => lift ESmb (get_subreply find_first_parse ctx))).
    + destruct (@collect_ends id (length (rx w)) w collect2_new (Nat.le_refl _)) as (o & Ho & H).
      exists (S (length (rx w))), o. split; [exact Ho|]. intros. apply H; lia.
    + intros. apply lift_ends.
  - apply (@ends_bind _ _ (fun f => collect f f id collect2_new) (fun _ ctx => lift ESmb (get_subreply find_next_parse ctx))).
    + destruct (@collect_ends id (length (rx w)) w collect2_new (Nat.le_refl _)) as (o & Ho & H).
      exists (S (length (rx w))), o. split; [exact Ho|]. intros. apply H; lia.
    + intros. apply lift_ends.
Qed.
Lemma call_ends R (c : call R) w : ends (fun f => exec E f c) w.
Proof.
  apply (@ends_ext _ (fun f => mbind (send E (msg_of c)) (fun id => after f c id))).
  - intros f. symmetry. apply exec_send.
  - apply (@ends_bind _ _ (fun _ => send E (msg_of c)) (fun f id => after f c id)); [apply send_ends|]. intros. apply after_ends.
Qed.
(** so a call that finishes at all does so with any larger bound *)
Lemma call_returns R (c : call R) w f v w1 : run (exec E f c) w = Done (Good v) w1 -> returns (fun f => exec E f c) w v w1.
Proof.
  intros H. exists f. intros f' Hf. rewrite <- H. apply ple_run; [|congruence]. rewrite !exec_send.
  apply ple_mbind; [apply ple_refl|]. intros id.
  assert (Hc : forall f f' g g' k, (f <= f')%nat -> (g <= g')%nat -> ple (collect f g id k) (collect f' g' id k)).
  { clear. induction f as [|f IH]; intros f' g g' k H1 H2; cbn [collect]; [constructor|]. destruct f' as [|f']; [lia|]. cbn [collect].
    apply ple_mbind; [now apply recv_mono|]. intros fr. apply ple_mbind; [apply ple_refl|]. intros [k' d]. apply ple_if; [apply ple_refl|].
    apply IH; lia. }
  destruct c; cbn [after]; try (now apply recv_mono); (apply ple_mbind; [now apply Hc|]; intros; apply ple_refl).
Qed.

(** ** C29 *)
(** the reads of a download so far gave these chunks *)
Inductive chunks (h : handle) : bytes -> world -> list bytes -> world -> Prop :=
| ch_none data w : chunks h data w [] w
| ch_more data w c w1 l w2 : len data < h_size h -> returns (fun f => exec E f (ReadAt h (len data))) w c w1 ->
    chunks h (data ++ c) w1 l w2 -> chunks h data w (c :: l) w2.
(** in this world the server never answers a read of the download with no bytes at all *)
Definition feeds (s : share) (path : text) (w : world) : Prop :=
  forall h w1 l w2, returns (fun f => exec E f (OpenFile s path)) w h w1 -> chunks h [] w1 l w2 -> ~ In [] l.
Lemma download_loop_ends h n : forall data w, (forall l w2, chunks h data w l w2 -> ~ In [] l) -> h_size h <= len data + N.of_nat n ->
  exists f0 o, (forall w', o <> Starved w') /\ forall f g, (f0 <= f)%nat -> (f0 <= g)%nat -> run (download_loop E f g h data) w = o.
Proof.
  induction n as [|n IH]; intros data w Hfeed Hn.
  - exists 1%nat, (Done (Good data) w). split; [easy|]. intros [|f] g Hf Hg; [lia|]. cbn [download_loop].
    destruct (N.ltb_spec (len data) (h_size h)); [lia|reflexivity].
  - destruct (N.ltb_spec (len data) (h_size h)) as [Hlt|Hge].
    + destruct (call_ends (ReadAt h (len data)) w) as (f0 & o & Ho & H).
      destruct o as [[chunk|e] w1|w1|w1|w1].
      * assert (Hret : returns (fun f => exec E f (ReadAt h (len data))) w chunk w1) by (now exists f0).
        assert (Hc : chunk <> []).
        { intros ->. apply (Hfeed [[]] w1); [|now left]. eapply ch_more; [exact Hlt|exact Hret|constructor]. }
        assert (0 < len chunk) by (destruct chunk; [easy|unfold len; cbn; lia]).
        destruct (IH (data ++ chunk) w1) as (f1 & o1 & Ho1 & H1); [|rewrite len_app; lia|].
        { intros l w2 Hl Hi. apply (Hfeed (chunk :: l) w2); [|now right]. eapply ch_more; eauto. }
        exists (S (f0 + f1)), o1. split; [exact Ho1|]. intros [|f] g Hf Hg; [lia|]. cbn [download_loop].
        destruct (N.ltb_spec (len data) (h_size h)); [|lia]. rewrite run_mbind.
        change (read E g h (len data)) with (exec E g (ReadAt h (len data))). rewrite H, gbind_good by lia. apply H1; lia.
      * exists (S f0), (Done (Bad e) w1). split; [easy|]. intros [|f] g Hf Hg; [lia|]. cbn [download_loop].
        destruct (N.ltb_spec (len data) (h_size h)); [|lia]. rewrite run_mbind.
        change (read E g h (len data)) with (exec E g (ReadAt h (len data))). now rewrite H by lia.
      * exists (S f0), (Blocked w1). split; [easy|]. intros [|f] g Hf Hg; [lia|]. cbn [download_loop].
        destruct (N.ltb_spec (len data) (h_size h)); [|lia]. rewrite run_mbind.
        change (read E g h (len data)) with (exec E g (ReadAt h (len data))). now rewrite H by lia.
      * exists (S f0), (Crashed w1). split; [easy|]. intros [|f] g Hf Hg; [lia|]. cbn [download_loop].
        destruct (N.ltb_spec (len data) (h_size h)); [|lia]. rewrite run_mbind.
        change (read E g h (len data)) with (exec E g (ReadAt h (len data))). now rewrite H by lia.
      * now destruct (Ho w1).
    + exists 1%nat, (Done (Good data) w). split; [easy|]. intros [|f] g Hf Hg; [lia|]. cbn [download_loop].
      destruct (N.ltb_spec (len data) (h_size h)); [lia|reflexivity].
Qed.
Lemma download_finishes s path w : feeds s path w -> ends (fun f => download E f s path) w.
Proof.
  intros Hfeed. apply (@ends_bind _ _ (fun f => exec E f (OpenFile s path))
    (fun f file => do! data := download_loop E f f file [] in do! _ := close E f file in ret data)); [apply call_ends|].
  intros h w1 Hw. apply (@ends_bind _ _ (fun f => download_loop E f f h []) (fun f data => do! _ := close E f h in ret data)).
  - destruct (@download_loop_ends h (N.to_nat (h_size h)) [] w1) as (f0 & o & Ho & H); [intros l w2; now apply Hfeed|lia|].
    exists f0, o. split; [exact Ho|]. intros. apply H; lia.
  - intros data w2 _. apply (@ends_bind _ _ (fun f => exec E f (Close h)) (fun _ _ => ret data)); [apply call_ends|].
    intros. apply ends_const. easy.
Qed.
Lemma returns_unique A (p : nat -> M A) w a w1 b w2 : returns p w a w1 -> returns p w b w2 -> a = b /\ w1 = w2.
Proof.
  intros [f H] [g G]. specialize (H (f + g)%nat ltac:(lia)). specialize (G (f + g)%nat ltac:(lia)). rewrite H in G. now injection G.
Qed.

(** ** open *)
Lemma get_ends w : ends (fun _ => get) w.
Proof. apply ends_const. easy. Qed.
Lemma put_ends c w : ends (fun _ => put c) w.
Proof. apply ends_const. easy. Qed.
Lemma ntlm_ends ch w : ends (fun f => authenticate_ntlm E f ch) w.
Proof.
  apply (@ends_bind _ _ (fun _ => get) (fun f c => do! secret := lift ENtlm (ntlmv1_authenticate E (auth_of c) ch) in
    do! r := session_setup_auth E f (a_user (auth_of c)) (a_domain (auth_of c)) secret in do! c := get in put (set_uid (ss_uid r) c)));
    [apply get_ends|]. intros c w1 _.
  apply (@ends_bind _ _ (fun _ => lift ENtlm (ntlmv1_authenticate E (auth_of c) ch)) (fun f secret =>
    do! r := session_setup_auth E f (a_user (auth_of c)) (a_domain (auth_of c)) secret in do! c := get in put (set_uid (ss_uid r) c)));
    [apply lift_ends|]. intros secret w2 _.
  apply (@ends_bind _ _ (fun f => exec E f (SetupAuth (a_user (auth_of c)) (a_domain (auth_of c)) secret))
    (fun f r => do! c := get in put (set_uid (ss_uid r) c))); [apply call_ends|]. intros r w3 _.
  apply ends_const. easy.
Qed.
Lemma ntlmv2_ends w : ends (fun f => authenticate_ntlmv2 E f) w.
Proof.
  unfold authenticate_ntlmv2.
  eapply (@ends_bind _ _ (fun _ => get) (fun f c => _)); [apply get_ends|]. intros c w1 _. cbv zeta.
  eapply (@ends_bind _ _ (fun _ => lift ENtlm _) (fun f x => _)); [apply lift_ends|]. intros x w2 _.
  eapply (@ends_bind _ _ (fun f => exec E f (SetupBlob x)) (fun f r => _)); [apply call_ends|]. intros r w3 _.
  eapply (@ends_bind _ _ (fun _ => get) (fun f c => _)); [apply get_ends|]. intros c' w4 _.
  eapply (@ends_bind _ _ (fun _ => put _) (fun f c => _)); [apply put_ends|]. intros ? w5 _.
  eapply (@ends_bind _ _ (fun _ => lift ENtlm _) (fun f x => _)); [apply lift_ends|]. intros ch w6 _.
  eapply (@ends_bind _ _ (fun _ => lift ENtlm _) (fun f x => _)); [apply lift_ends|]. intros resp w7 _.
  eapply (@ends_bind _ _ (fun f => exec E f (SetupBlob resp)) (fun f r => _)); [apply call_ends|]. intros ? w8 _.
  apply ends_const. easy.
Qed.
Lemma setup_ends w : ends (fun f => setup_connection E f) w.
Proof.
  unfold setup_connection.
  eapply (@ends_bind _ _ (fun f => exec E f Negotiate) (fun f r => _)); [apply call_ends|]. intros s w1 _.
  eapply (@ends_bind _ _ (fun _ => get) (fun f c => _)); [apply get_ends|]. intros c' w4 _.
  eapply (@ends_bind _ _ (fun _ => put _) (fun f c => _)); [apply put_ends|]. intros ? w5 _.
  destruct (contains _ _); [apply ntlmv2_ends|apply ntlm_ends].
Qed.
End Env.
End Server.
