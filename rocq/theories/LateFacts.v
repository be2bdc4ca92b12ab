(** * LateFacts: late replies, on connections that outlast the multiplex ids. *)
From Verif Require Import Base BaseFacts Text Win Errors Common Reply Ntlm Prog Client Spec SpecReply SpecMsg Api SpecCall
  RunFacts ClientFacts MsgFacts SizeFacts ReqFacts CallFacts ListFacts Flow FlowFacts SpecRemote RemoteFacts SpecDrop SpecTimeout TimeoutFacts.
Open Scope N_scope.
Set Implicit Arguments.

Section Age.
Local Ltac Zify.zify_post_hook ::= Z.div_mod_to_equations.
Lemma age_step m id : id < 65536 -> m < 65536 -> ((m + 1) mod 65536 + 65536 - id) mod 65536 = ((m + 65536 - id) mod 65536 + 1) mod 65536.
Proof. intros. lia. Qed.
Lemma age_self m : (m + 65536 - m) mod 65536 = 0.
Proof. lia. Qed.
Lemma age_recent g a : a < 65536 -> g < 65535 -> (a + 1) mod 65536 = 0 \/ g + 1 < (a + 1) mod 65536 -> a <> 0 /\ g < a.
Proof. intros. lia. Qed.
End Age.

Section Late.
Variables Sv St : Type.
Variable react : Sv -> bytes -> reaction Sv.
Variable B : service St.
Variable abs : Sv -> St.
Hypothesis conf : conforming react B abs.
Hypothesis exact : exact_replies react.
Variable E : env.
Notation world := (world cifs Sv).
Notation run := (run react).

(** how many calls ago the id was used *)
Definition age (c : cifs) (id : N) : N := (mid c + 65536 - id) mod 65536.
(** what is left unread are replies to the last [g] calls *)
Definition late (g : N) (w : world) : Prop :=
  tl w = Open /\ forall id, id < 65536 -> age (cl w) id = 0 \/ g < age (cl w) id -> skipped id (rx w).
Lemma idle_late g w : idle w -> late g w.
Proof. intros [H1 H2]. split; [exact H2|]. rewrite H1. intros. constructor. Qed.
Lemma typed_next c : typed_client c -> typed_client (next_client c).
Proof. intros [H1 H2]. split; [exact H1|]. unfold next_client, u16. cbn [mid]. now apply N.mod_lt. Qed.
Lemma late_call R (c : call R) g (w : world) fuel r w1 : g < 65536 -> typed_client (cl w) -> late g w ->
  typed c -> unambiguous c -> fits_request (use_unicode (cl w)) c -> run (exec E fuel c) w = Done r w1 ->
  idle w1 /\ cl w1 = next_client (cl w) /\ exists r0, r = returned r0 /\ B (uid (cl w)) (op_of c) (abs (srv w)) = (r0, abs (srv w1)).
Proof.
  intros Hg Ht [Htl Hl] Hc Hun Hfit Hrun. pose proof Ht as [_ Hm].
  destruct (@behind_call _ _ react B abs conf E _ c w Ht Htl) as (k & w2 & Hk & Hi & Hcl & Habs); try assumption.
  - apply Hl; [exact Hm|]. left. apply age_self.
  - intros Hfull. rewrite (call_mid_full react fuel c Hfull) in Hrun. discriminate Hrun.
  - pose proof (Hk (k + fuel)%nat ltac:(lia)) as Hk'. pose proof (@call_mono E _ c fuel (k + fuel)%nat ltac:(lia)) as Hple.
    apply (@ple_run _ _ _ react _ _ w) in Hple; [|rewrite Hrun; discriminate]. rewrite Hrun, Hk' in Hple. injection Hple as <- <-.
    split; [exact Hi|]. split; [exact Hcl|].
    eexists. split; [reflexivity|]. rewrite Habs. now destruct (B (uid (cl w)) (op_of c) (abs (srv w))).
Qed.
Lemma late_given_up R (c : call R) g (w v : world) : g < 65535 -> typed_client (cl w) -> late g w ->
  typed c -> unambiguous c -> fits_request (use_unicode (cl w)) c -> given_up react E c w v ->
  late (g + 1) v /\ cl v = next_client (cl w)
  /\ (abs (srv v) = abs (srv w) \/ abs (srv v) = snd (B (uid (cl w)) (op_of c) (abs (srv w)))).
Proof.
  intros Hg Ht [Htl Hst] Hc Hun Hfit (fuel & f & _ & Hf & H). pose proof Ht as [_ Hm].
  assert (Hage : forall id, id < 65536 -> age (next_client (cl w)) id = 0 \/ g + 1 < age (next_client (cl w)) id ->
    skipped id (rx w) /\ id <> mid (cl w)).
  { intros id Hid Ha. unfold age, next_client in Ha. cbn [mid] in Ha. rewrite age_step in Ha by assumption.
    apply age_recent in Ha; [|now apply N.mod_lt|exact Hg]. split; [apply Hst; [exact Hid|now right]|].
    intros ->. destruct Ha as [Ha _]. apply Ha, age_self. }
  destruct H as [->|(w1 & s & (s' & inc & t & Hr & Hcl & Hs & Htx & Hrx) & Hread & Hfr & Hv)].
  - cbn [cl srv rx tl]. split; [|split; [reflexivity|now left]]. split; [exact Htl|]. cbn [cl rx]. intros id Hid Ha. now apply Hage.
  - destruct (request_asks Ht Hc Hf) as (p & words & data & -> & Hlp & Hp & Hh & Hq).
    destruct (@conf (srv w) _ _ _ _ _ _ _ _ Hc Hun Hlp Hp Hh Hq) as (s1 & inc1 & Hr1 & Habs & _).
    pose proof (fun id => @exact _ _ _ _ _ _ _ _ _ Hc Hun Hlp Hp Hh Hq _ _ _ Hr id) as Hpu. rewrite Hr in Hr1. injection Hr1 as -> -> ->.
    rewrite Htl in Hrx. cbn [deliver] in Hrx. injection Hrx as Hrx Htl1.
    assert (Ecl : cl v = next_client (cl w)) by (rewrite Hv; exact Hcl).
    split; [|split; [exact Ecl|right; rewrite Hv; cbn [leaving srv]; rewrite Hs; exact Habs]]. split.
    + rewrite Hv. exact Htl1.
    + rewrite Ecl. intros id Hid Ha. destruct (Hage id Hid Ha) as [K1 K2].
      apply (skipped_rest Hfr). rewrite <- Hread, Hrx. apply skipped_app; [exact K1|apply Hpu, K2].
Qed.
Lemma steady_local A (p : tprog A) (w : world) g a w' : steady react E 65535 p w g a w' -> forall unicode who,
  g <= 65535 -> typed_client (cl w) -> late g w -> use_unicode (cl w) = unicode -> uid (cl w) = who ->
  sensible B who unicode p (abs (srv w)) -> tlocal B who p (abs (srv w)) a (abs (srv w')).
Proof.
  induction 1 as [a w g|R c k w g fuel r w1 a w' Hrun _ IH|R c k w g fuel r w1 a w' Hrun _ IH|R c k w g v a w' Hup Hlim _ IH];
    intros unicode who Hg F1 F2 F3 F4 Hs.
  - split; reflexivity.
  - destruct Hs as ((S1 & S2 & S3) & S4). rewrite <- F3 in S3.
    destruct (@late_call _ c g w fuel r w1 ltac:(lia) F1 F2 S1 S2 S3 Hrun) as (G1 & G2 & r0 & -> & G3). rewrite F4 in G3. rewrite G3 in S4.
    cbn [tlocal]. rewrite G3. apply (IH unicode who); try assumption; rewrite ?G2; try assumption; [lia|now apply typed_next|now apply idle_late].
  - destruct Hs as ((S1 & S2 & S3) & S4). rewrite <- F3 in S3.
    destruct (@late_call _ c g w fuel r w1 ltac:(lia) F1 F2 S1 S2 S3 Hrun) as (G1 & G2 & r0 & -> & G3). rewrite F4 in G3. rewrite G3 in S4.
    cbn [tlocal]. rewrite G3. left. apply (IH unicode who); try apply S4; rewrite ?G2; try assumption; [lia|now apply typed_next|now apply idle_late].
  - destruct Hs as ((S1 & S2 & S3) & S4). rewrite <- F3 in S3.
    destruct (@late_given_up _ c g w v ltac:(lia) F1 F2 S1 S2 S3 Hup) as (G1 & G2 & G3). rewrite F4 in G3.
    destruct (B who (op_of c) (abs (srv w))) as [r0 st1] eqn:Eb. destruct S4 as (_ & S5 & S6).
    assert (HS : sensible B who unicode (k None) (abs (srv v))) by (destruct G3 as [->| ->]; assumption).
    assert (I1 : tlocal B who (k None) (abs (srv v)) a (abs (srv w'))).
    { apply (IH unicode who); rewrite ?G2; try assumption; [lia|now apply typed_next]. }
    cbn [tlocal]. rewrite Eb. destruct G3 as [G3|G3]; rewrite G3 in I1; [right; right; exact I1|right; left; exact I1].
Qed.
Lemma never_mistaken A (p : tprog A) (w : world) a w' : typed_client (cl w) -> idle w ->
  sensible B (uid (cl w)) (use_unicode (cl w)) p (abs (srv w)) -> steady react E 65535 p w 0 a w' ->
  tlocal B (uid (cl w)) p (abs (srv w)) a (abs (srv w')).
Proof. intros H1 H2 H3 H4. apply (steady_local H4 (unicode := use_unicode (cl w))); auto; [lia|now apply idle_late]. Qed.
End Late.

(** ** going once round the ids without an answer *)
(** [c] tried [n] times, then [p] *)
Fixpoint vainly {A R} (n : nat) (c : call R) (p : tprog A) : tprog A :=
  match n with O => p | S n => TTry c (fun _ => vainly n c p) end.
Definition after (n : N) (c : cifs) : cifs := mk_cifs (auth_of c) (max_smb_size c) (use_unicode c) (uid c) ((mid c + n) mod 65536).
Lemma after_next n c : after n (next_client c) = after (n + 1) c.
Proof.
  unfold after, next_client. cbn [auth_of max_smb_size use_unicode uid mid]. f_equal.
  rewrite N.add_mod_idemp_l by discriminate. f_equal. lia.
Qed.
Lemma vain_times Sv (react : Sv -> bytes -> reaction Sv) E A R (c : call R) (p : tprog A) n : overflow_checks E = false ->
  forall (w : world cifs Sv) m a w', typed_client (cl w) -> fits_request (use_unicode (cl w)) c ->
  times react E p (mk_world (after (N.of_nat n) (cl w)) (srv w) (rx w) (tl w) (tx w)) m a w' -> times react E (vainly n c p) w (n + m) a w'.
Proof.
  intros Ho. induction n as [|n IH]; intros w m a w' Ht Hf H; cbn [vainly].
  - change (after (N.of_nat 0) (cl w)) with (after 0 (cl w)) in H. replace (after 0 (cl w)) with (cl w) in H; [destruct w; exact H|].
    destruct Ht as [_ Hm]. unfold after. rewrite N.add_0_r, N.mod_small by exact Hm. now destruct (cl w).
  - destruct (proj2 (request_iff E 0 c (cl w))) as [f Hr]; [split; [exact Hf|intros [X _]; congruence]|].
    cbn [Nat.add]. eapply t_given_up; [exact (proj1 (@gives_up _ react E 0 _ c w f Hr))|].
    apply IH; cbn [cl srv rx tl tx]; [now apply typed_next|exact Hf|]. rewrite after_next. replace (N.of_nat n + 1) with (N.of_nat (S n)) by lia. exact H.
Qed.
Lemma vain_local St (B : service St) who A R (c : call R) (p : tprog A) n st a st' : snd (B R who (op_of c) st) = st ->
  tlocal B who (vainly n c p) st a st' -> tlocal B who p st a st'.
Proof.
  intros Hs. induction n as [|n IH]; [auto|]. cbn [vainly tlocal]. destruct (B R who (op_of c) st) as [r st1]. cbn [snd] in Hs. subst st1.
  intros [H|[H|H]]; auto.
Qed.
Lemma vain_sensible St (B : service St) who unicode A R (c : call R) (p : tprog A) n st : snd (B R who (op_of c) st) = st -> sendable unicode c ->
  sensible B who unicode p st -> sensible B who unicode (vainly n c p) st.
Proof.
  intros Hs Hc Hp. induction n as [|n IH]; [exact Hp|]. cbn [vainly sensible]. split; [exact Hc|].
  destruct (B R who (op_of c) st) as [r st1]. cbn [snd] in Hs. subst st1. auto.
Qed.
