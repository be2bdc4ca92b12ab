(** * TimeoutFacts: programs with timeouts at a conforming server (C96) *)
From Coq Require Import Lia.
From Verif Require Import Base BaseFacts Text Win Errors Common Reply Ntlm Prog Client Spec SpecReply SpecMsg Api SpecCall SpecFacts
  RunFacts ClientFacts MsgFacts SizeFacts ReqFacts CallFacts FindFacts Flow FlowFacts SpecRemote RemoteFacts SpecDrop DropFacts SpecTimeout
  RefServer RefFacts EndFacts LoopFacts ListFacts.
Set Implicit Arguments.
Unset Strict Implicit.
Open Scope N_scope.

Lemma nb_frame_inj t t' p p' b b' : t < 256 -> t' < 256 -> len p <= NB_MAX -> len p' <= NB_MAX ->
  nb_frame t p ++ b = nb_frame t' p' ++ b' -> p = p' /\ b = b'.
Proof.
  unfold nb_frame, NB_MAX. intros H1 H2 H3 H4. cbn [app]. intros H. injection H as Ht Ha Hb Hc Hr.
  assert (L : len p = len p').
  { apply (f_equal b2n) in Ha, Hb, Hc. rewrite !b2n_n2b in Ha, Hb, Hc. lia. }
  assert (Hp : p = p').
  { apply (f_equal (take (len p))) in Hr. rewrite take_exact' in Hr by reflexivity. rewrite L, take_exact' in Hr by reflexivity. exact Hr. }
  subst p'. split; [reflexivity|]. now apply app_inv_head in Hr.
Qed.
Lemma skipped_app id a b : skipped id a -> skipped id b -> skipped id (a ++ b).
Proof.
  intros Ha Hb. induction Ha as [|a Ha IH|p code st m a Hp Hm Hl Ha IH]; [exact Hb|rewrite <- app_assoc; now constructor|].
  rewrite <- app_assoc. econstructor; eassumption.
Qed.
Lemma skipped_rest id s r : frames s -> skipped id (s ++ r) -> skipped id r.
Proof.
  induction 1 as [|t p b Ht Hl _ IH]; [easy|]. rewrite <- app_assoc. intros H.
  remember (nb_frame t p ++ b ++ r) as x eqn:Ex. destruct H as [|y H|q code st m y Hq Hm Hlq H].
  - discriminate Ex.
  - apply IH. unfold keepalive in Ex. apply nb_frame_inj in Ex; [|reflexivity|exact Ht|vm_compute; discriminate|exact Hl]. destruct Ex as [_ <-]. exact H.
  - apply IH. unfold session_message in Ex. apply nb_frame_inj in Ex; [|reflexivity|exact Ht|exact Hlq|exact Hl]. destruct Ex as [_ <-]. exact H.
Qed.
Lemma arrives_skip id s b p rest : skipped id s -> reply_arrives id b p rest -> reply_arrives id (s ++ b) p rest.
Proof.
  intros Hs (skip & Hk & Hl & ->). exists (s ++ skip). split; [now apply skipped_app|]. split; [exact Hl|]. now rewrite app_assoc.
Qed.
Lemma answers_skip R (c : call R) id s inc r : skipped id s -> answers c id inc r -> answers c id (s ++ inc) r.
Proof.
  intros Hs. destruct r as [v|st]; cbn [answers].
  - intros [H1 H2]. split.
    + intros Hc. destruct (H1 Hc) as (p & st & Ha & H). exists p, st. split; [now apply arrives_skip|exact H].
    + intros Hc. destruct (H2 Hc) as (fs & a & b & Hf & Hsp & Hl & Hv). exists fs, a, b. split; [|auto].
      inversion Hf as [x Hx|x p b' f fs' rest Ha Hp Hfr Hm]; subst.
      * destruct Hsp as [Hsp _]. now destruct Hsp.
      * econstructor; [eapply arrives_skip; eassumption|eassumption..].
  - intros (p & Ha & H). exists p. split; [now apply arrives_skip|exact H].
Qed.

Section Remote.
Variables Sv St : Type.
Variable react : Sv -> bytes -> reaction Sv.
Variable B : service St.
Variable abs : Sv -> St.
Hypothesis conf : conforming react B abs.
Hypothesis punctual : prompt react.
Variable E : env.
Notation world := (world cifs Sv).
Notation run := (run react).

(** what is left unread concerns none of the calls to come *)
Definition stale (w : world) : Prop := tl w = Open /\ forall id, mid (cl w) <= id -> skipped id (rx w).
Lemma idle_stale w : idle w -> stale w.
Proof. intros [H1 H2]. split; [exact H2|]. rewrite H1. intros. constructor. Qed.
Lemma next_small c : typed_client c -> mid c < 65535 -> typed_client (next_client c) /\ mid (next_client c) = mid c + 1.
Proof.
  intros [H1 H2] H. unfold next_client, typed_client, u16 in *. cbn [uid mid]. rewrite N.mod_small by lia. split; [split; [exact H1|lia]|reflexivity].
Qed.

Lemma behind_call R (c : call R) (w : world) : typed_client (cl w) -> tl w = Open -> skipped (mid (cl w)) (rx w) ->
  typed c -> unambiguous c -> fits_request (use_unicode (cl w)) c -> ~ mid_full E (cl w) ->
  exists n w', (forall fuel, (n <= fuel)%nat -> run (exec E fuel c) w
      = Done (returned (fst (B (uid (cl w)) (op_of c) (abs (srv w))))) w')
    /\ idle w' /\ cl w' = next_client (cl w) /\ abs (srv w') = snd (B (uid (cl w)) (op_of c) (abs (srv w))).
Proof.
  intros Ht Htl Hst Hc Hun Hfit Hmid.
  destruct (proj2 (request_iff E 0 c (cl w)) (conj Hfit Hmid)) as [f Hf].
  destruct (request_asks Ht Hc Hf) as (p & words & data & -> & Hlp & Hp & Hh & Hq).
  destruct (conf (srv w) Hc Hun Hlp Hp Hh Hq) as (s' & inc & Hr & Habs & Ha).
  apply (answers_skip Hst) in Ha.
  set (w1 := mk_world (next_client (cl w)) s' (rx w ++ inc) Open (tx w ++ [session_message p])).
  assert (Hask : asked react w (session_message p) w1).
  { exists s', inc, Open. split; [exact Hr|]. split; [reflexivity|]. split; [reflexivity|]. split; [reflexivity|].
    unfold w1. cbn. rewrite Htl. reflexivity. }
  exists (S (length (rx w ++ inc))), (leaving w1 []).
  split; [|split; [split; reflexivity|]; split; [reflexivity|exact Habs]].
  intros fuel Hfuel. rewrite (request_fuel E 0 fuel) in Hf.
  assert (Hl : (length (rx w1) < fuel)%nat) by exact Hfuel.
  destruct (fst (B (uid (cl w)) (op_of c) (abs (srv w)))) as [v|st]; cbn [returned].
  - destruct Ha as [Ha1 Ha2]. destruct (single_dec c) as [Hs|Hs].
    + destruct (Ha1 Hs) as (q & st & H1 & H2 & H3 & H4).
      exact (single_complete Hs Hl Hf Hask H1 H2 H3 H4).
    + destruct (Ha2 Hs) as (fs & a & b & H1 & H2 & H3 & H4).
      exact (find_complete Hs Hl Hf Hask H1 H2 H3 H4).
  - destruct Ha as (q & H1 & H2 & H3). destruct (single_dec c) as [Hs|Hs].
    + exact (single_server_error Hs Hl Hf Hask H1 H2 H3).
    + assert (Ho : opcode c = 0x32) by (destruct c; cbn in Hs; [tauto..|reflexivity|reflexivity|tauto|tauto|tauto]).
      rewrite Ho in H2. apply (@find_server_error _ react E _ _ c w _ w1 [] 0 0 (rx w1) q st [] Hs Hl Hf Hask); auto.
      * apply no_fragment.
      * split; [constructor|]. split; [constructor|]. split; [constructor|]. intros fs1 fs2 H.
        symmetry in H. apply app_eq_nil in H as [-> _]. intros X. now destruct X.
      * intros ->. apply H3. left. reflexivity.
Qed.

Lemma stale_call R (c : call R) (w : world) : typed_client (cl w) -> stale w ->
  typed c -> unambiguous c -> fits_request (use_unicode (cl w)) c -> mid (cl w) < 65535 ->
  exists n w', (forall fuel, (n <= fuel)%nat -> run (exec E fuel c) w
      = Done (returned (fst (B (uid (cl w)) (op_of c) (abs (srv w))))) w')
    /\ idle w' /\ cl w' = next_client (cl w) /\ abs (srv w') = snd (B (uid (cl w)) (op_of c) (abs (srv w))).
Proof.
  intros Ht [Htl Hst] Hc Hun Hfit Hm. apply behind_call; auto; [apply Hst, N.le_refl|intros [_ X]; lia].
Qed.

(** a call given up *)
Lemma stale_given_up R (c : call R) (w v : world) : typed_client (cl w) -> stale w ->
  typed c -> unambiguous c -> fits_request (use_unicode (cl w)) c -> mid (cl w) < 65535 -> given_up react E c w v ->
  stale v /\ cl v = next_client (cl w)
  /\ (abs (srv v) = abs (srv w) \/ abs (srv v) = snd (B (uid (cl w)) (op_of c) (abs (srv w)))).
Proof.
  intros Ht [Htl Hst] Hc Hun Hfit Hm (fuel & f & _ & Hf & H). destruct (next_small Ht Hm) as [Ht' Hm'].
  destruct H as [->|(w1 & s & (s' & inc & t & Hr & Hcl & Hs & Htx & Hrx) & Hread & Hfr & Hv)].
  - cbn [cl srv rx tl]. split; [|split; [reflexivity|now left]]. split; [exact Htl|]. cbn [cl rx]. rewrite Hm'. intros id Hid. apply Hst. lia.
  - destruct (request_asks Ht Hc Hf) as (p & words & data & -> & Hlp & Hp & Hh & Hq).
    destruct (conf (srv w) Hc Hun Hlp Hp Hh Hq) as (s1 & inc1 & Hr1 & Habs & _).
    pose proof (punctual Hc Hun Hlp Hp Hh Hq Hr) as Hpu. rewrite Hr in Hr1. injection Hr1 as -> -> ->.
    rewrite Htl in Hrx. cbn [deliver] in Hrx. injection Hrx as Hrx Htl1.
    assert (Ecl : cl v = next_client (cl w)) by (rewrite Hv; exact Hcl).
    split; [|split; [exact Ecl|right; rewrite Hv; cbn [leaving srv]; rewrite Hs; exact Habs]]. split.
    + rewrite Hv. exact Htl1.
    + rewrite Ecl, Hm'. intros id Hid. apply (skipped_rest Hfr). rewrite <- Hread, Hrx. apply skipped_app; [apply Hst; lia|apply Hpu; lia].
Qed.

Definition fine (unicode : bool) (who : N) (n : nat) (w : world) : Prop :=
  typed_client (cl w) /\ stale w /\ use_unicode (cl w) = unicode /\ uid (cl w) = who /\ mid (cl w) + N.of_nat n <= 65535.
Lemma times_local A (p : tprog A) (w : world) n a w' : times react E p w n a w' -> forall unicode who extra,
  fine unicode who (n + extra) w -> sensible B who unicode p (abs (srv w)) ->
  tlocal B who p (abs (srv w)) a (abs (srv w')) /\ fine unicode who extra w'.
Proof.
  assert (K : forall R (c : call R) fuel r w w1, typed_client (cl w) -> stale w -> typed c -> unambiguous c ->
    fits_request (use_unicode (cl w)) c -> mid (cl w) < 65535 -> run (exec E fuel c) w = Done r w1 ->
    stale w1 /\ cl w1 = next_client (cl w) /\ exists r0, r = returned r0 /\ B (uid (cl w)) (op_of c) (abs (srv w)) = (r0, abs (srv w1))).
  { intros R c fuel r w0 w1 Ht Hs Hc Hun Hfit Hm Hrun. destruct (stale_call Ht Hs Hc Hun Hfit Hm) as (k & w2 & Hk & Hi & Hcl & Habs).
    pose proof (Hk (k + fuel)%nat ltac:(lia)) as Hk'. pose proof (@call_mono E _ c fuel (k + fuel)%nat ltac:(lia)) as Hple.
    apply (@ple_run _ _ _ react _ _ w0) in Hple; [|rewrite Hrun; discriminate]. rewrite Hrun, Hk' in Hple. injection Hple as <- <-.
    split; [now apply idle_stale|]. split; [exact Hcl|].
    eexists. split; [reflexivity|]. rewrite Habs. now destruct (B (uid (cl w0)) (op_of c) (abs (srv w0))). }
  assert (F : forall unicode who n (w w1 : world), fine unicode who (S n) w -> stale w1 -> cl w1 = next_client (cl w) -> fine unicode who n w1).
  { intros unicode who n0 w0 w1 (H1 & H2 & H3 & H4 & H5) Hs Hcl. destruct (@next_small (cl w0) H1 ltac:(lia)) as [Ht Hm].
    unfold fine. rewrite Hcl. split; [exact Ht|]. split; [exact Hs|]. split; [exact H3|]. split; [exact H4|]. lia. }
  induction 1 as [a w|R c k w fuel r w1 n a w' Hrun _ IH|R c k w fuel r w1 n a w' Hrun _ IH|R c k w v n a w' Hup _ IH]; intros unicode who extra Hf Hs.
  - split; [split; reflexivity|exact Hf].
  - destruct Hs as ((S1 & S2 & S3) & S4). pose proof Hf as (F1 & F2 & F3 & F4 & F5). rewrite <- F3 in S3.
    destruct (K _ c fuel r w w1 F1 F2 S1 S2 S3 ltac:(lia) Hrun) as (G1 & G2 & r0 & -> & G3). rewrite F4 in G3. rewrite G3 in S4.
    destruct (IH unicode who extra (F _ _ _ _ _ Hf G1 G2) S4) as [I1 I2]. split; [|exact I2]. cbn [tlocal]. rewrite G3. exact I1.
  - destruct Hs as ((S1 & S2 & S3) & S4). pose proof Hf as (F1 & F2 & F3 & F4 & F5). rewrite <- F3 in S3.
    destruct (K _ c fuel r w w1 F1 F2 S1 S2 S3 ltac:(lia) Hrun) as (G1 & G2 & r0 & -> & G3). rewrite F4 in G3. rewrite G3 in S4.
    destruct (IH unicode who extra (F _ _ _ _ _ Hf G1 G2) (proj1 S4)) as [I1 I2]. split; [|exact I2]. cbn [tlocal]. rewrite G3. left. exact I1.
  - destruct Hs as ((S1 & S2 & S3) & S4). pose proof Hf as (F1 & F2 & F3 & F4 & F5). rewrite <- F3 in S3.
    destruct (stale_given_up F1 F2 S1 S2 S3 ltac:(lia) Hup) as (G1 & G2 & G3). rewrite F4 in G3.
    destruct (B who (op_of c) (abs (srv w))) as [r0 st1] eqn:Eb. destruct S4 as (_ & S5 & S6).
    assert (HS : sensible B who unicode (k None) (abs (srv v))) by (destruct G3 as [->| ->]; assumption).
    destruct (IH unicode who extra (F _ _ _ _ _ Hf G1 G2) HS) as [I1 I2]. split; [|exact I2].
    cbn [tlocal]. rewrite Eb. destruct G3 as [G3|G3]; rewrite G3 in I1; [right; right; exact I1|right; left; exact I1].
Qed.
Lemma at_most_once A (p : tprog A) (w : world) n a w' : typed_client (cl w) -> idle w ->
  sensible B (uid (cl w)) (use_unicode (cl w)) p (abs (srv w)) -> mid (cl w) + N.of_nat n <= 65535 -> times react E p w n a w' ->
  tlocal B (uid (cl w)) p (abs (srv w)) a (abs (srv w')).
Proof.
  intros Ht Hi Hs Hm H. apply (times_local H (unicode := use_unicode (cl w)) (extra := 0)); [|exact Hs].
  split; [exact Ht|]. split; [now apply idle_stale|]. split; [reflexivity|]. split; [reflexivity|]. lia.
Qed.
Lemma goes_on A (p : tprog A) (w : world) n a w' R (c : call R) : typed_client (cl w) -> idle w ->
  sensible B (uid (cl w)) (use_unicode (cl w)) p (abs (srv w)) -> mid (cl w) + N.of_nat n < 65535 -> times react E p w n a w' ->
  typed c -> unambiguous c -> fits_request (use_unicode (cl w)) c ->
  exists k w2, (forall fuel, (k <= fuel)%nat -> run (exec E fuel c) w'
      = Done (returned (fst (B (uid (cl w)) (op_of c) (abs (srv w'))))) w2) /\ idle w2.
Proof.
  intros Ht Hi Hs Hm H Hc Hun Hfit. destruct (@times_local _ _ _ _ _ _ H (use_unicode (cl w)) (uid (cl w)) 1) as [_ (F1 & F2 & F3 & F4 & F5)].
  - split; [exact Ht|]. split; [now apply idle_stale|]. split; [reflexivity|]. split; [reflexivity|]. lia.
  - exact Hs.
  - rewrite <- F3 in Hfit. destruct (stale_call F1 F2 Hc Hun Hfit ltac:(lia)) as (k & w2 & Hk & Hi2 & _). rewrite F4 in Hk. exists k, w2. split; assumption.
Qed.
(** whole programs afterwards *)
Lemma stale_local A (f : flow A) c st n a c' st' : local B f c st n a c' st' ->
  forall w : world, cl w = c -> abs (srv w) = st -> typed_client c -> stale w -> mid c + N.of_nat n <= 65535 ->
  exists k w', (forall fuel, (k <= fuel)%nat -> run (interp E fuel f) w = Done a w')
    /\ stale w' /\ cl w' = c' /\ abs (srv w') = st'.
Proof.
  induction 1 as [a c st|R q k c st r st1 n a c' st' Hq Hun Hfit HB HL _|k c st n a c' st' _ IH|u k c st n a c' st' Hu _ IH|m u k c st n a c' st' _ IH];
    intros w Hcl Habs Ht Hi Hm.
  - exists 0%nat, w. repeat split; try assumption; apply Hi.
  - subst c st. destruct (stale_call Ht Hi Hq Hun Hfit ltac:(lia)) as (k1 & w1 & Hrun & Hi1 & Hcl1 & Habs1).
    rewrite HB in Hrun, Habs1. cbn [fst snd] in Hrun, Habs1. destruct (@next_small (cl w) Ht ltac:(lia)) as [Ht1 Hm1].
    destruct (remote_local conf (E := E) HL Hcl1 Habs1 Ht1 Hi1) as (k2 & w2 & fs & Hrun2 & Hi2 & Hcl2 & Habs2 & _); [intros _; lia|].
    exists (Nat.max k1 k2), w2. split; [|split; [now apply idle_stale|split; [exact Hcl2|exact Habs2]]].
    intros fuel Hf. cbn [interp]. rewrite run_bind, (Hrun fuel) by lia. cbn [obind]. apply Hrun2. lia.
  - subst c. destruct (IH w eq_refl Habs Ht Hi Hm) as (k2 & w2 & H). exists k2, w2. exact H.
  - subst c. set (w1 := mk_world (set_uid u (cl w)) (srv w) (rx w) (tl w) (tx w)).
    destruct (IH w1 eq_refl Habs) as (k2 & w2 & H); [split; [exact Hu|apply Ht]|exact Hi|exact Hm|]. exists k2, w2. exact H.
  - subst c. set (w1 := mk_world (set_options m u (cl w)) (srv w) (rx w) (tl w) (tx w)).
    destruct (IH w1 eq_refl Habs) as (k2 & w2 & H); [exact Ht|exact Hi|exact Hm|]. exists k2, w2. exact H.
Qed.
Lemma goes_on_program A (p : tprog A) (w : world) n a w' X (f : flow X) m b c' st' : typed_client (cl w) -> idle w ->
  sensible B (uid (cl w)) (use_unicode (cl w)) p (abs (srv w)) -> mid (cl w) + N.of_nat (n + m) <= 65535 -> times react E p w n a w' ->
  local B f (cl w') (abs (srv w')) m b c' st' ->
  exists k w2, (forall fuel, (k <= fuel)%nat -> run (interp E fuel f) w' = Done b w2) /\ cl w2 = c' /\ abs (srv w2) = st'.
Proof.
  intros Ht Hi Hs Hm H HL. destruct (@times_local _ _ _ _ _ _ H (use_unicode (cl w)) (uid (cl w)) m) as [_ (F1 & F2 & F3 & F4 & F5)].
  - split; [exact Ht|]. split; [now apply idle_stale|]. split; [reflexivity|]. split; [reflexivity|]. lia.
  - exact Hs.
  - destruct (stale_local HL eq_refl eq_refl F1 F2 F5) as (k & w2 & Hk & _ & H2 & H3). exists k, w2. auto.
Qed.
End Remote.

(** ** the reference server sends nothing else *)
Lemma ref_exact St (B : service St) : proper B -> exact_replies (ref_server B).
Proof.
  intros HB s R c unicode who id p words data Ht Hun _ Hp Hh Ha s' inc t.
  pose proof (understood Ht Hun Hp Hh Ha) as Hu. pose proof Hh as [_ _ _ _ _ _ _ _ Htid _ Huid Hid].
  pose proof (u16_at_bound _ _ _ Hid) as [_ Hid']. fold (u16 id) in Hid'.
  unfold ref_server. cbv zeta. replace (drop 4 (session_message p)) with p by reflexivity.
  rewrite Hu, Htid, Huid, Hid. specialize (HB R who (op_of c) s). destruct (B R who (op_of c) s) as [r s1] eqn:Er. cbn [fst snd] in *.
  intros H. injection H as _ <- _. intros id' Hlt. rewrite <- (app_nil_r (session_message _)).
  destruct r as [v|st]; cbn [write_reply].
  - pose proof (written_small HB) as [Hw Hd].
    eapply skip_reply; [apply header_reply; [apply code_known| |exact Hid']|lia| |constructor]; [lia|].
    rewrite len_app, header_len, len_body. unfold NB_MAX. lia.
  - destruct HB as (H1 & H2 & H3).
    eapply skip_reply; [apply header_reply; [apply code_known|exact H1|exact Hid']|lia| |constructor].
    rewrite len_app, header_len, len_body. vm_compute. discriminate.
Qed.
Lemma exact_prompt Sv (react : Sv -> bytes -> reaction Sv) : exact_replies react -> prompt react.
Proof. intros H s R c unicode who id p words data H1 H2 H3 H4 H5 H6 s' inc t H7 id' H8. eapply H; try eassumption. lia. Qed.
Lemma ref_prompt St (B : service St) : proper B -> prompt (ref_server B).
Proof. intros HB. now apply exact_prompt, ref_exact. Qed.

(** ** every call can be given up, before its request is written and after it *)
Lemma gives_up Sv (react : Sv -> bytes -> reaction Sv) E fuel R (c : call R) w f : request (exec E fuel c) (cl w) = Some f ->
  given_up react E c w (mk_world (next_client (cl w)) (srv w) (rx w) (tl w) (tx w))
  /\ forall s inc, tl w = Open -> 0 < len f -> react (srv w) f = Accept s inc Open ->
     given_up react E c w (mk_world (next_client (cl w)) s (rx w ++ inc) Open (tx w ++ [f])).
Proof.
  intros Hf. destruct (@dropped_write _ react E fuel R c w f Hf) as [D1 D2]. split.
  - exists fuel, f. split; [exact D1|]. split; [exact Hf|]. left. reflexivity.
  - intros s inc Ht Hl Hr. assert (Hk : take (len f) f = f) by (apply take_all, N.le_refl).
    exists fuel, f. split; [|split; [exact Hf|right]].
    + pose proof (D2 (len f) s inc Open (rx w ++ inc) Open ltac:(lia)) as D. rewrite Hk, Ht in D. exact (D Hr eq_refl).
    + exists (mk_world (next_client (cl w)) s (rx w ++ inc) Open (tx w ++ [f])), []. split; [|split; [reflexivity|split; [constructor|reflexivity]]].
      exists s, inc, Open. repeat split; [exact Hr|]. now rewrite Ht.
Qed.
