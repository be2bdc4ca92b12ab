(** * HalfFacts: a program that stops at the first error, over a connection that breaks (C111) *)
From Coq Require Import Lia.
From Verif Require Import Base BaseFacts Text Win Errors Common Reply Ntlm Prog Client Spec SpecReply SpecMsg Api SpecCall SizeFacts ShareFacts Flow FlowFacts
  SpecRemote RemoteFacts FileFacts RunFacts FateFacts SpecLost LostFacts SpecCutoff CutoffFacts SpecFetch FetchFacts SpecHalf.
Open Scope N_scope.
Set Implicit Arguments.

(** ** which programs stop at the first error *)
Lemma strict_bind A X (p : flow A) (k : A -> flow X) : strict p -> (forall a, strict (k a)) -> strict (fbind p k).
Proof.
  intros Hp Hk. induction Hp as [[a|e]| | |R q f He _ IH|f _ IH|u f _ IH|m u f _ IH]; cbn [fbind]; try (now constructor); [apply Hk|].
  constructor; [|exact IH]. intros e. now rewrite He.
Qed.
Lemma strict_fcall R (q : call R) : strict (fcall q).
Proof. constructor; [reflexivity|]. intros y. constructor. Qed.
Lemma strict_lift X A (f : X -> error) (r : res X A) : strict (flift f r).
Proof. destruct r; constructor. Qed.
Lemma strict_reads n h data : strict (download_reads n h data).
Proof.
  revert data. induction n as [|n IH]; intros data; cbn [download_reads]; [constructor|].
  destruct (_ <? _); [|constructor]. apply strict_bind; [apply strict_fcall|]. intros chunk. apply IH.
Qed.
Lemma strict_download n s path : strict (download_flow n s path).
Proof.
  unfold download_flow. apply strict_bind; [apply strict_fcall|]. intros h. apply strict_bind; [apply strict_reads|]. intros d.
  apply strict_bind; [apply strict_fcall|]. intros u. constructor.
Qed.
Lemma strict_nexts n s sid l : strict (list_nexts n s sid l).
Proof.
  revert l. induction n as [|n IH]; intros l; cbn [list_nexts]; [constructor|]. destruct (last _ _) as [d|]; [|constructor].
  apply strict_bind; [apply strict_fcall|]. intros r. destruct (fn_end r); [constructor|apply IH].
Qed.
Lemma strict_list n s pattern : strict (list_flow n s pattern).
Proof. unfold list_flow. apply strict_bind; [apply strict_fcall|]. intros r. destruct (ff_end r); [constructor|apply strict_nexts]. Qed.
Lemma strict_setup E : strict (setup_flow E).
Proof.
  unfold setup_flow. apply strict_bind; [apply strict_fcall|]. intros s. constructor. constructor. intros c. cbv zeta.
  destruct (N.testbit (s_capabilities s) 31).
  - apply strict_bind; [apply strict_lift|]. intros m1. apply strict_bind; [apply strict_fcall|]. intros r. constructor.
    apply strict_bind; [apply strict_lift|]. intros ch. apply strict_bind; [apply strict_lift|]. intros m2.
    apply strict_bind; [apply strict_fcall|]. intros r2. constructor.
  - apply strict_bind; [apply strict_lift|]. intros nt. apply strict_bind; [apply strict_fcall|]. intros r. constructor. constructor.
Qed.
Lemma strict_fetch n share path : strict (fetch_flow n share path).
Proof.
  unfold fetch_flow. apply strict_bind; [apply strict_fcall|]. intros s. apply strict_bind; [apply strict_download|]. intros d.
  apply strict_bind; [apply strict_fcall|]. intros u. constructor.
Qed.
Lemma strict_call_inv A R (q : call R) (k : ans R -> flow A) : strict (FCall q k) -> (forall e, k (Bad e) = FRet (Bad e)) /\ (forall y, strict (k (Good y))).
Proof.
  intros H. change (match FCall q k with FCall _ k => (forall e, k (Bad e) = FRet (Bad e)) /\ (forall y, strict (k (Good y))) | _ => True end).
  destruct H; try exact I. split; assumption.
Qed.
Lemma strict_state_inv A (k : cifs -> flow A) : strict (FState k) -> forall c, strict (k c).
Proof. intros H. change (match FState k with FState k => forall c, strict (k c) | _ => True end). destruct H; try exact I. assumption. Qed.
Lemma strict_uid_inv A u (f : flow A) : strict (FUid u f) -> strict f.
Proof. intros H. change (match FUid u f with FUid _ f => strict f | _ => True end). destruct H; try exact I. assumption. Qed.
Lemma strict_options_inv A m u (f : flow A) : strict (FOptions m u f) -> strict f.
Proof. intros H. change (match FOptions m u f with FOptions _ _ f => strict f | _ => True end). destruct H; try exact I. assumption. Qed.

Section Net.
Variables Sn Sv St : Type.
Variable net : Sn -> bytes -> reaction Sn.
Variable react : Sv -> bytes -> reaction Sv.
Variable inner : Sn -> Sv.
Variable up : Sn -> Prop.
Hypothesis Hnet : unreliable net react inner up.
Variable B : service St.
Variable abs : Sv -> St.
Hypothesis conf : conforming react B abs.
Variable E : env.
Notation world := (world cifs Sn).
Notation run := (run net).

Definition with_client (c : cifs) (w : world) : world := mk_world c (srv w) (rx w) (tl w) (tx w).

(** the connection is gone before the program begins (or before its next call) *)
Lemma silent_strict A (f : flow A) c st n r c' st' : local B f c st n r c' st' -> strict f ->
  forall w : world, cl w = c -> silent w -> ~ up (srv w) -> room E c n ->
  exists k a w', (forall fuel, (k <= fuel)%nat -> run (interp E fuel f) w = Done a w') /\ inner (srv w') = inner (srv w) /\ (silent w' /\ ~ up (srv w'))
  /\ ((a = r /\ cl w' = c' /\ st' = st) \/ exists e, a = Bad (ENetBios e)).
Proof.
  induction 1 as [a c st|R q k c st r st1 n a c' st' Hty Hun Hfit HB _ _|k c st n a c' st' _ IH|u f c st n a c' st' Hu _ IH|m u f c st n a c' st' _ IH];
    intros Hs w Hcl Hw Hup Hr.
  - exists 0%nat, a, w. split; [reflexivity|]. split; [reflexivity|]. split; [split; assumption|]. left. auto.
  - subst c. assert (Hmid : ~ mid_full E (cl w)) by (intros [Ho Hm]; specialize (Hr Ho); lia).
    assert (Hp : ~ pattern_window q) by (intros Hp; exact (@window_unfit R q (use_unicode (cl w)) Hp Hfit)).
    destruct (@silent_call _ net E R q w Hw Hmid Hp) as (e & w1 & (k1 & Hk1) & Hca & Hs1 & _).
    assert (Hin : inner (srv w1) = inner (srv w) /\ ~ up (srv w1)).
    { pose proof (@run_peer _ net (fun s => inner s = inner (srv w) /\ ~ up s)) as K. specialize (K ltac:(
        intros s b (K1 & K2); pose proof (proj2 Hnet s b K2) as K3; destruct (net s b); rewrite <- K1; exact K3) _ (exec E k1 q) w (conj eq_refl Hup)).
      rewrite Hk1 in K by lia. exact K. }
    assert (He : exists x, e = ENetBios x) by (destruct Hca as [H|? ? ? ? ? ? _ _|? ? ? ? ? _ _ _]; [now destruct H|eauto..]). destruct He as (x & ->).
    exists k1, (Bad (ENetBios x)), w1. split; [|split; [apply Hin|split; [split; [exact Hs1|apply Hin]|right; eauto]]].
    intros fuel Hfu. cbn [interp]. rewrite run_bind, Hk1 by lia. cbn [obind]. rewrite (proj1 (strict_call_inv Hs)). reflexivity.
  - destruct (IH (strict_state_inv Hs c) w Hcl Hw Hup Hr) as (k1 & a1 & w1 & H1 & H2). exists k1, a1, w1. split; [|exact H2].
    intros fuel Hf. cbn [interp Prog.run]. rewrite Hcl. now apply H1.
  - destruct (IH (strict_uid_inv Hs) (with_client (set_uid u c) w) eq_refl Hw Hup Hr) as (k1 & a1 & w1 & H1 & H2). exists k1, a1, w1. split; [|exact H2].
    intros fuel Hf. cbn [interp Prog.run]. rewrite Hcl. now apply H1.
  - destruct (IH (strict_options_inv Hs) (with_client (set_options m u c) w) eq_refl Hw Hup Hr) as (k1 & a1 & w1 & H1 & H2). exists k1, a1, w1. split; [|exact H2].
    intros fuel Hf. cbn [interp Prog.run]. rewrite Hcl. now apply H1.
Qed.

Theorem half_program A (f : flow A) c st n r c' st' : local B f c st n r c' st' -> strict f ->
  forall w : world, cl w = c -> abs (inner (srv w)) = st -> typed_client c -> idle w -> up (srv w) -> room E c n ->
  exists k a w', (forall fuel, (k <= fuel)%nat -> run (interp E fuel f) w = Done a w')
  /\ ((a = r /\ cl w' = c' /\ abs (inner (srv w')) = st' /\ (idle w' /\ up (srv w') \/ silent w' /\ ~ up (srv w')))
      \/ ((exists e, a = Bad (ENetBios e)) /\ visited B f c st (abs (inner (srv w'))) /\ ~ up (srv w'))).
Proof.
  induction 1 as [a c st|R q k c st r st1 n a c' st' Hty Hun Hfit HB HL IH|k c st n a c' st' _ IH|u f c st n a c' st' Hu _ IH|m u f c st n a c' st' _ IH];
    intros Hs w Hcl Hst Htc Hi Hup Hr.
  - exists 0%nat, a, w. split; [reflexivity|]. left. auto 6.
  - subst c st. assert (Hmid : ~ mid_full E (cl w)) by (intros [Ho Hm]; specialize (Hr Ho); lia).
    destruct (@cutoff_call _ _ _ net react inner up Hnet B abs conf E R q w Htc Hi Hup Hty Hun Hfit Hmid) as (k1 & a1 & w1 & Hk1 & Hc1 & H). rewrite HB in H. cbn [fst snd] in H.
    assert (Hr1 : room E (cl w1) n) by (rewrite Hc1; apply room_after, Hr).
    assert (Hgo : forall k2 a w2, (forall fuel, (k2 <= fuel)%nat -> run (interp E fuel (k a1)) w1 = Done a w2) ->
      forall fuel, (Nat.max k1 k2 <= fuel)%nat -> run (interp E fuel (FCall q k)) w = Done a w2).
    { intros k2 a0 w2 H2 fuel Hfu. cbn [interp]. rewrite run_bind, Hk1 by lia. cbn [obind]. apply H2. lia. }
    assert (Hsk : strict (k (returned r))).
    { destruct (strict_call_inv Hs) as (S1 & S2). destruct r as [y|code]; cbn [returned]; [apply S2|rewrite S1; constructor]. }
    destruct H as [(-> & Ha & Hi1 & Hu1)|[(-> & Ha & Hs1 & Hu1)|((e & ->) & Ha & Hs1 & Hu1)]].
    + destruct (IH Hsk w1 Hc1 Ha) as (k2 & a2 & w2 & H2 & H3).
      * destruct Htc as [Ht1 Ht2]. split; [exact Ht1|]. unfold next_client, u16. cbn. apply N.mod_lt. lia.
      * exact Hi1.
      * exact Hu1.
      * now rewrite <- Hc1.
      * exists (Nat.max k1 k2), a2, w2. split; [apply Hgo, H2|]. destruct H3 as [H3|(He & Hv & Hu2)]; [left; exact H3|right].
        split; [exact He|]. split; [|exact Hu2]. eapply v_call; [exact HB|exact Hv].
    + destruct (@silent_strict _ _ _ _ _ _ _ _ HL Hsk w1 Hc1 Hs1 Hu1) as (k2 & a2 & w2 & H2 & Hin & Hu2 & H3); [now rewrite <- Hc1|].
      exists (Nat.max k1 k2), a2, w2. split; [apply Hgo, H2|]. destruct H3 as [(-> & Hc2 & ->)|He].
      * left. split; [reflexivity|]. split; [exact Hc2|]. rewrite Hin. split; [exact Ha|]. right. exact Hu2.
      * right. split; [exact He|]. split; [|apply Hu2]. rewrite Hin, Ha. eapply v_call; [exact HB|]. apply v_none.
    + exists k1, (Bad (ENetBios e)), w1. split; [intros fuel Hf; apply (Hgo 0%nat); [|lia]; intros fu _; rewrite (proj1 (strict_call_inv Hs)); reflexivity|].
      right. split; [eauto|]. split; [|exact Hu1]. destruct Ha as [-> | ->]; [apply v_none|eapply v_call; [exact HB|apply v_none]].
  - destruct (IH (strict_state_inv Hs c) w Hcl Hst Htc Hi Hup Hr) as (k1 & a1 & w1 & H1 & H2). exists k1, a1, w1. split.
    + intros fuel Hf. cbn [interp Prog.run]. rewrite Hcl. now apply H1.
    + destruct H2 as [H2|(He & Hv & Hu2)]; [left; exact H2|right]. split; [exact He|]. split; [now apply v_state|exact Hu2].
  - destruct (IH (strict_uid_inv Hs) (with_client (set_uid u c) w) eq_refl Hst) as (k1 & a1 & w1 & H1 & H2); auto.
    { destruct Htc as [Ht1 Ht2]. split; [exact Hu|exact Ht2]. }
    exists k1, a1, w1. split.
    + intros fuel Hf. cbn [interp Prog.run]. rewrite Hcl. now apply H1.
    + destruct H2 as [H2|(He & Hv & Hu2)]; [left; exact H2|right]. split; [exact He|]. split; [now apply v_uid|exact Hu2].
  - destruct (IH (strict_options_inv Hs) (with_client (set_options m u c) w) eq_refl Hst) as (k1 & a1 & w1 & H1 & H2); auto.
    exists k1, a1, w1. split.
    + intros fuel Hf. cbn [interp Prog.run]. rewrite Hcl. now apply H1.
    + destruct H2 as [H2|(He & Hv & Hu2)]; [left; exact H2|right]. split; [exact He|]. split; [now apply v_options|exact Hu2].
Qed.
End Net.

(** ** download, list and open *)
From Verif Require Import SpecLogin SpecNtlm SpecAccount AccountFacts SpecKept KeptFacts.
Section Calls.
Variables Sn Sv St : Type.
Variable net : Sn -> bytes -> reaction Sn.
Variable react : Sv -> bytes -> reaction Sv.
Variable inner : Sn -> Sv.
Variable up : Sn -> Prop.
Hypothesis Hnet : unreliable net react inner up.
Variable B : service St.
Variable abs : Sv -> St.
Hypothesis conf : conforming react B abs.
Variable E : env.

Lemma half_download w s path d q h over : typed_client (cl w) -> idle w -> up (srv w) ->
  file_at B (uid (cl w)) (sh_tid s) (backslashes path) d q (abs (inner (srv w))) h over ->
  u16 (sh_tid s) -> is_str path -> fits_request (use_unicode (cl w)) (OpenFile s path) -> len d < 2 ^ 64 ->
  room E (cl w) (2 + pieces (len d) q) ->
  exists k a w', (forall fuel, (k <= fuel)%nat -> run net (download E fuel s path) w = Done a w')
  /\ ((a = Good d /\ over (abs (inner (srv w')))) \/ exists e, a = Bad (ENetBios e)).
Proof.
  intros Ht Hi Hup Hfa Hts Hpath Hfit Hd Hroom.
  destruct (local_download (n := S (length d)) Hfa Hts Hpath Hfit eq_refl Hd ltac:(lia)) as (m & c' & st' & HL & Hov & Hu & Hm & Huc).
  destruct (@half_program _ _ _ net react inner up Hnet B abs conf E _ _ _ _ _ _ _ _ HL (strict_download _ _ _) w eq_refl eq_refl Ht Hi Hup) as (k & a & w' & Hrun & Hres).
  { intros Ho. specialize (Hroom Ho). lia. }
  exists (Nat.max k (S (length d))), a, w'. split.
  - intros fuel Hf. rewrite (download_same E fuel s path). eapply run_less; [|apply Hrun; lia]. apply less_download. lia.
  - destruct Hres as [(-> & _ & -> & _)|(He & _)]; [left; split; [reflexivity|exact Hov]|right; exact He].
Qed.
Lemma half_list w s pattern m l st' : typed_client (cl w) -> idle w -> up (srv w) ->
  searched B (uid (cl w)) (use_unicode (cl w)) s pattern (abs (inner (srv w))) m l st' ->
  u16 (sh_tid s) -> is_str pattern -> fits_request (use_unicode (cl w)) (FindFirst s pattern) -> room E (cl w) m ->
  exists k a w', (forall fuel, (k <= fuel)%nat -> run net (list_dir E fuel s pattern) w = Done a w')
  /\ ((a = Good l /\ abs (inner (srv w')) = st') \/ exists e, a = Bad (ENetBios e)).
Proof.
  intros Ht Hi Hup Hse Hts Hpath Hfit Hroom.
  destruct (local_searched Hts Hpath Hfit Hse (cl w) eq_refl eq_refl) as (k0 & c' & HL & _ & Hk0).
  destruct (@half_program _ _ _ net react inner up Hnet B abs conf E _ _ _ _ _ _ _ _ HL (strict_list _ _ _) w eq_refl eq_refl Ht Hi Hup Hroom) as (k & a & w' & Hrun & Hres).
  exists (Nat.max k k0), a, w'. split.
  - intros fuel Hf. rewrite (list_same E fuel s pattern). eapply run_less; [|apply Hrun; lia]. apply less_list. lia.
  - destruct Hres as [(-> & _ & -> & _)|(He & _)]; [left; split; reflexivity|right; exact He].
Qed.
Lemma half_login_v1 known w s st1 entered : typed_client (cl w) -> idle w -> up (srv w) -> typed_auth (auth_of (cl w)) ->
  ~ In 0 (a_user (auth_of (cl w))) -> ~ In 0 (a_domain (auth_of (cl w))) ->
  B (uid (cl w)) ONegotiate (abs (inner (srv w))) = (inl s, st1) -> N.testbit (s_capabilities s) 31 = false -> len (s_challenge s) = 8 ->
  checks_v1 E known B (s_challenge s) st1 entered -> fits_v1 (N.testbit (s_capabilities s) 2) (auth_of (cl w)) ->
  room E (cl w) 2 ->
  exists r k w', (forall fuel, (k <= fuel)%nat -> run net (setup_connection E fuel) w = Done r w')
  /\ (decided (admitted_v1 E known (auth_of (cl w)) (s_challenge s)) entered r (uid (cl w')) (abs (inner (srv w')))
      \/ ((exists e, r = Bad (ENetBios e)) /\ ~ up (srv w'))).
Proof.
  intros Ht Hi Hup Ha Hu Hd HB Hc Hl Hck Hfit Hroom.
  destruct (local_login_v1 Ha Hu Hd HB Hc Hl Hck Hfit) as (r & c' & st' & HL & Hdec).
  destruct (@half_program _ _ _ net react inner up Hnet B abs conf E _ _ _ _ _ _ _ _ HL (strict_setup _) w eq_refl eq_refl Ht Hi Hup Hroom) as (k & a & w' & Hrun & Hres).
  exists a, k, w'. split; [intros fuel Hf; rewrite setup_same; now apply Hrun|].
  destruct Hres as [(-> & -> & -> & _)|(He & _ & Hu')]; [left; exact Hdec|right; split; [exact He|exact Hu']].
Qed.
Lemma half_login_v2 known w s st1 most t entered : typed_client (cl w) -> idle w -> up (srv w) -> typed_auth (auth_of (cl w)) -> clock E t ->
  B (uid (cl w)) ONegotiate (abs (inner (srv w))) = (inl s, st1) -> N.testbit (s_capabilities s) 31 = true ->
  checks_v2 E known B most st1 entered -> fits_v2 most (auth_of (cl w)) -> room E (cl w) 3 ->
  exists r k w' m1 r1 st2 ch, (forall fuel, (k <= fuel)%nat -> run net (setup_connection E fuel) w = Done r w')
  /\ negotiate_message (a_domain (auth_of (cl w))) (a_workstation (auth_of (cl w))) m1
  /\ B (uid (cl w)) (OSetupBlob m1) st1 = (inl r1, st2) /\ challenge_of (ss_blob r1) ch
  /\ (decided (admitted_v2 E known (auth_of (cl w)) t (ch_challenge ch) (ch_info ch)) entered r (uid (cl w')) (abs (inner (srv w')))
      \/ ((exists e, r = Bad (ENetBios e)) /\ ~ up (srv w'))).
Proof.
  intros Ht Hi Hup Ha Htime HB Hc Hck Hfit Hroom.
  destruct (local_login_v2 Ha Htime HB Hc Hck Hfit) as (r & c' & st' & m1 & r1 & st2 & ch & HL & Hneg & HB1 & Hch & Hdec).
  destruct (@half_program _ _ _ net react inner up Hnet B abs conf E _ _ _ _ _ _ _ _ HL (strict_setup _) w eq_refl eq_refl Ht Hi Hup Hroom) as (k & a & w' & Hrun & Hres).
  exists a, k, w', m1, r1, st2, ch. split; [intros fuel Hf; rewrite setup_same; now apply Hrun|]. split; [exact Hneg|]. split; [exact HB1|]. split; [exact Hch|].
  destruct Hres as [(-> & -> & -> & _)|(He & _ & Hu')]; [left; exact Hdec|right; split; [exact He|exact Hu']].
Qed.
End Calls.
