(** * OpenFacts: opening a connection (C34-C36, C39-C42, C59) *)
From Verif Require Import Base Text Utils Win Errors Info Common Msg Reply Ntlm Prog Client Spec SpecReply SpecCrash
  SpecNtlm Api SpecCall Flow BaseFacts TextFacts RunFacts SpecFacts InfoFacts ClientFacts MsgFacts ReplyFacts CallFacts
  AnswerFacts FlowFacts EndFacts AskFacts NtlmFacts SpecLogin.
Open Scope N_scope.
Set Implicit Arguments.
Unset Strict Implicit.

(** ** the NTLM messages are determined by their contents *)
Lemma at_join m o n k x y : bytes_at m o n = Some x -> bytes_at m (o + n) k = Some y -> bytes_at m o (n + k) = Some (x ++ y).
Proof.
  unfold bytes_at. destruct (N.leb_spec (o + n) (len m)) as [H1|H1]; [|easy].
  destruct (N.leb_spec (o + n + k) (len m)) as [H2|H2]; [|easy]. intros Hx Hy.
  apply some_inj in Hx. apply some_inj in Hy. subst x y.
  destruct (N.leb_spec (o + (n + k)) (len m)) as [H3|H3]; [|lia]. f_equal.
  rewrite <- (take_drop n (take (n + k) (drop o m))). f_equal.
  - rewrite take_take. f_equal. lia.
  - rewrite drop_take, drop_drop. f_equal. lia.
Qed.
Lemma at_all m n x : bytes_at m 0 n = Some x -> n = len m -> m = x.
Proof.
  intros H ->. unfold bytes_at in H. destruct (N.leb_spec (0 + len m) (len m)) as [H2|H2]; [|lia].
  apply some_inj in H. rewrite drop_0, take_all in H by lia. exact H.
Qed.
Lemma at_u16 m o v : u16_at m o = Some v -> bytes_at m o 2 = Some (le 2 v).
Proof.
  intros H. pose proof (@u16_at_bound _ _ _ H) as [Hb Hv]. unfold bytes_at.
  destruct (N.leb_spec (o + 2) (len m)) as [H2|H2]; [|lia]. f_equal.
  pose proof (take_drop o m) as E. assert (Ho : len (take o m) = o) by (rewrite len_take; lia).
  rewrite <- E, u16_at_app2 in H by lia. rewrite Ho in H. replace (o - o) with 0 in H by lia.
  assert (Hl : 2 <= len (drop o m)) by (rewrite len_drop; lia).
  destruct (drop o m) as [|x [|y r]]; [change (len (@nil byte)) with 0 in Hl; lia|change (len [x]) with 1 in Hl; lia|].
  rewrite u16_at_cons in H. apply some_inj in H. subst v. change (take 2 (x :: y :: r)) with [x; y].
  replace (b2n x + 256 * b2n y) with (unle [x; y]) by (cbn [unle]; lia). symmetry. apply (le_unle [x; y]).
Qed.
Lemma at_u32 m o v : u32_at m o = Some v -> bytes_at m o 4 = Some (le 4 v).
Proof.
  unfold u32_at. destruct (u16_at m o) as [x|] eqn:H1; [|easy]. destruct (u16_at m (o + 2)) as [y|] eqn:H2; [|easy].
  intros H. apply some_inj in H. subst v. pose proof (@u16_at_bound _ _ _ H1) as [_ B1]. pose proof (@u16_at_bound _ _ _ H2) as [_ B2].
  apply at_u16 in H1. apply at_u16 in H2.
  pose proof (at_join H1 H2) as H. change (2 + 2) with 4 in H. rewrite H. f_equal.
  assert (Hv : x + 65536 * y = unle (le 2 x ++ le 2 y)).
  { rewrite unle_app, !unle_le_small by (change (256 ^ N.of_nat 2) with 65536; lia). reflexivity. }
  rewrite Hv. symmetry. now apply le_unle'.
Qed.

Lemma at_sec m o n a : u16_at m o = Some n -> u16_at m (o + 2) = Some n -> u32_at m (o + 4) = Some a ->
  bytes_at m o 8 = Some (sec_bytes n a).
Proof.
  intros H1 H2 H3. apply at_u16 in H1. apply at_u16 in H2. apply at_u32 in H3.
  pose proof (at_join H2 (eq_ind_r (fun x => bytes_at m x 4 = _) H3 (eq_sym (N.add_assoc o 2 2)))) as H.
  change (2 + 4) with 6 in H. exact (at_join H1 H).
Qed.
Lemma oem_encoded u s b : oem_or_wide u s b -> b = encoded u s.
Proof.
  destruct u; cbn [oem_or_wide encoded]; intros H; [now apply utf16le_of_encode in H|now apply utf8_of_inv in H].
Qed.
Lemma at_next m o n k x y o' : bytes_at m o' k = Some y -> bytes_at m o n = Some x -> o' = o + n -> bytes_at m o (n + k) = Some (x ++ y).
Proof. intros H1 H2 ->. now apply at_join. Qed.
Lemma designates_at m o a payload : designates m o a payload ->
  bytes_at m o 8 = Some (sec_bytes (len payload) a) /\ bytes_at m a (len payload) = Some payload
  /\ len payload < 65536 /\ a < 4294967296.
Proof.
  intros (H1 & H2 & H3 & H4). split; [now apply at_sec|]. split; [exact H4|].
  pose proof (@u16_at_bound _ _ _ H1). pose proof (@u32_at_bound _ _ _ H3). lia.
Qed.
Lemma init_complete domain workstation m : negotiate_message domain workstation m -> init_msg domain workstation = Ok m.
Proof.
  intros (d & w & Hd & Hw & H0 & H1 & H2 & H3 & H4 & H5 & Hl).
  apply utf8_of_inv in Hd. apply utf8_of_inv in Hw. destruct Hd as [_ ->]. destruct Hw as [_ ->].
  rewrite init_msg_eq. cbv zeta. apply designates_at in H3. apply designates_at in H4.
  destruct H3 as (A3 & B3 & C3 & _). destruct H4 as (A4 & B4 & C4 & _).
  destruct (N.ltb_spec (len (utf8 domain)) 65536); [|lia]. destruct (N.ltb_spec (len (utf8 workstation)) 65536); [|lia].
  cbn [andb]. f_equal. symmetry. eapply at_all.
  - unfold init_bytes. repeat (eapply at_next; [|eauto using at_u32..]). exact B4.
  - lia.
Qed.
Lemma response_complete u domain user workstation nt m : authenticate_message u domain user workstation nt m ->
  response_packet nt (encoded u domain) (encoded u user) (encoded u workstation) = Ok m.
Proof.
  intros (d & us & w & Hd & Hu & Hw & H0 & H1 & H2 & H3 & H4 & H5 & H6 & Hl).
  apply oem_encoded in Hd. apply oem_encoded in Hu. apply oem_encoded in Hw. subst d us w.
  rewrite response_packet_eq. 
  apply designates_at in H2. apply designates_at in H3. apply designates_at in H4. apply designates_at in H5. apply designates_at in H6.
  destruct H2 as (A2 & B2 & C2 & _). destruct H3 as (A3 & B3 & C3 & _). destruct H4 as (A4 & B4 & C4 & _).
  destruct H5 as (A5 & B5 & C5 & _). destruct H6 as (A6 & B6 & C6 & _). apply at_u32 in H1.
  destruct (N.ltb_spec (len nt) 65536); [|lia]. destruct (N.ltb_spec (len (encoded u domain)) 65536); [|lia].
  destruct (N.ltb_spec (len (encoded u user)) 65536); [|lia]. destruct (N.ltb_spec (len (encoded u workstation)) 65536); [|lia].
  cbn [andb]. f_equal. symmetry. change (len (zeros 24)) with 24 in *. eapply at_all.
  - unfold response_bytes. 
    eapply at_next; [|exact H0|]. eapply at_next; [|exact H1|]. eapply at_next; [|exact A2|]. eapply at_next; [|exact A3|].
    eapply at_next; [|exact A4|]. eapply at_next; [|exact A5|]. eapply at_next; [|exact A6|].
    eapply at_next; [|exact B2|]. eapply at_next; [|exact B3|]. eapply at_next; [|exact B4|]. eapply at_next; [|exact B5|].
    exact B6. all: lia.
  - lia.
Qed.
Lemma authenticate_iff E a c t m : typed_auth a -> clock E t ->
  (challenge_response E c a = Ok m <->
   exists nt, v2_response E (a_password a) (a_user a) (a_domain a) t (ch_challenge c) (ch_info c) nt
   /\ authenticate_message (N.testbit (ch_flags c) 0) (a_domain a) (a_user a) (a_workstation a) nt m).
Proof.
  intros (Tu & Tw & Td & Tp) Hc. split; [now apply authenticate_good|].
  intros (nt & Hn & Hm). rewrite challenge_response_eq. apply (@v2_good E a c t nt) in Hn; auto. rewrite Hn. cbn [rbind].
  cbv zeta. now apply response_complete.
Qed.

Section Server.
Variable Sv : Type.
Variable react : Sv -> bytes -> reaction Sv.
Notation world := (world cifs Sv).
Notation run := (run react).
Notation outcome := (outcome cifs Sv).
Variable E : env.

(** ** the login as a sequence of calls *)
Definition v2_run (fuel : nat) (a : auth) (w : world) : outcome (ans unit) :=
  gbind (lifted ENtlm (init_msg (a_domain a) (a_workstation a)) w) (fun m1 w =>
  gbind (run (exec E fuel (SetupBlob m1)) w) (fun r w1 =>
  gbind (lifted ENtlm (challenge_parse (ss_blob r)) (adopt (set_uid (ss_uid r)) w1)) (fun ch w1 =>
  gbind (lifted ENtlm (challenge_response E ch a) w1) (fun m3 w1 =>
  gbind (run (exec E fuel (SetupBlob m3)) w1) (fun _ w2 => Done (Good tt) w2))))).
Definition v1_run (fuel : nat) (a : auth) (challenge : bytes) (w : world) : outcome (ans unit) :=
  gbind (lifted ENtlm (ntlmv1_authenticate E a challenge) w) (fun nt w =>
  gbind (run (exec E fuel (SetupAuth (a_user a) (a_domain a) nt)) w) (fun r w1 =>
  Done (Good tt) (adopt (set_uid (ss_uid r)) w1))).
Lemma gbind_ext A B (o : outcome (ans A)) (f g : A -> world -> outcome (ans B)) :
  (forall a w, f a w = g a w) -> gbind o f = gbind o g.
Proof. intros H. unfold gbind. destruct o as [[a|e] w|w|w|w]; cbn [obind]; auto. Qed.
Lemma setup_run fuel w : run (setup_connection E fuel) w =
  gbind (run (exec E fuel Negotiate) w) (fun s w1 =>
    let w2 := adopt (set_options (s_max_buffer_size s) (N.testbit (s_capabilities s) 2)) w1 in
    if N.testbit (s_capabilities s) 31 then v2_run fuel (auth_of (cl w2)) w2
    else v1_run fuel (auth_of (cl w2)) (s_challenge s) w2).
Proof.
  unfold setup_connection. rewrite run_mbind. apply gbind_ext. intros s w1. cbv zeta.
  rewrite run_mbind, run_get. cbn [gbind obind]. rewrite run_mbind, run_put. cbn [gbind obind].
  rewrite (contains_pow2 (s_capabilities s) 31 : contains (s_capabilities s) CAP_EXTENDED_SECURITY = _).
  rewrite (contains_pow2 (s_capabilities s) 2 : contains (s_capabilities s) CAP_UNICODE = _).
  change (with_cl ?c w1) with (adopt (fun _ => c) w1). destruct (N.testbit (s_capabilities s) 31).
  - unfold authenticate_ntlmv2, v2_run. rewrite run_mbind, run_get. cbn [gbind obind].
    rewrite run_mbind, run_lift. apply gbind_ext. intros m1 w2. rewrite run_mbind. apply gbind_ext. intros r w3.
    rewrite run_mbind, run_get. cbn [gbind obind]. rewrite run_mbind, run_put. cbn [gbind obind].
    rewrite run_mbind, run_lift. apply gbind_ext. intros ch w4. rewrite run_mbind, run_lift. apply gbind_ext. intros m3 w5.
    rewrite run_mbind. reflexivity.
  - unfold authenticate_ntlm, v1_run. rewrite run_mbind, run_get. cbn [gbind obind].
    rewrite run_mbind, run_lift. apply gbind_ext. intros nt w2. rewrite run_mbind. reflexivity.
Qed.

Lemma gbind_done A B (o : outcome (ans A)) (f : A -> world -> outcome (ans B)) b w' : gbind o f = Done (Good b) w' ->
  exists a w1, o = Done (Good a) w1 /\ f a w1 = Done (Good b) w'.
Proof. unfold gbind. destruct o as [[a|e] w|w|w|w]; cbn [obind]; try discriminate. eauto. Qed.
Lemma gbind_crash A B (o : outcome (ans A)) (f : A -> world -> outcome (ans B)) w' : gbind o f = Crashed w' ->
  o = Crashed w' \/ exists a w1, o = Done (Good a) w1 /\ f a w1 = Crashed w'.
Proof. unfold gbind. destruct o as [[a|e] w|w|w|w]; cbn [obind]; try discriminate; intros H; [right; eauto|left; injection H as ->; reflexivity]. Qed.
Lemma lifted_done X A (g : X -> error) (r : res X A) (w : world) a w' : lifted g r w = Done (Good a) w' -> r = Ok a /\ w' = w.
Proof. destruct r; cbn [lifted]; try discriminate. intros H. injection H. now intros -> ->. Qed.
Lemma lifted_crash X A (g : X -> error) (r : res X A) (w : world) w' : lifted g r w = Crashed w' -> r = Panic /\ w' = w.
Proof. destruct r; cbn [lifted]; try discriminate. intros H. injection H. now intros ->. Qed.

Lemma exchange_good fuel R (c : call R) w v w' : single_reply c -> run (exec E fuel c) w = Done (Good v) w' ->
  exists p st, exchange react E c w p st v w'.
Proof.
  intros Hs H. apply single_good in H; [|exact Hs]. destruct H as (f & w1 & p & st & H1 & H2 & H3 & H4 & H5 & H6 & H7).
  exists p, st, f, w1. unfold is_request. eauto 12.
Qed.
Lemma exchange_returns R (c : call R) w p st v w' : single_reply c -> exchange react E c w p st v w' ->
  returns react (fun f => exec E f c) w v w'.
Proof.
  intros Hs (f & w1 & (f0 & H1) & H2 & H3 & H4 & H5 & H6 & H7). exists (S (length (rx w1))). intros n Hn. rewrite H7.
  eapply single_complete; eauto. rewrite <- H1. apply request_fuel.
Qed.
Lemma exchange_client R (c : call R) w p st v w' : exchange react E c w p st v w' -> cl w' = next_client (cl w).
Proof. intros (f & w1 & _ & (s & inc & t & _ & H & _) & _ & _ & _ & _ & ->). exact H. Qed.

Lemma login_good fuel t w w' : typed_auth (auth_of (cl w)) -> clock E t ->
  run (setup_connection E fuel) w = Done (Good tt) w' ->
  exists s user last, login react E t w s user last w'.
Proof.
  intros Ta Ht H. rewrite setup_run in H. apply gbind_done in H. destruct H as (s & w1 & H1 & H).
  apply exchange_good in H1; [|exact I]. destruct H1 as (p & st & H1). pose proof (exchange_client H1) as Hc.
  assert (st = 0).
  { destruct H1 as (? & ? & _ & _ & _ & _ & [->|[Hx _]] & _); [reflexivity|]. discriminate Hx. }
  subst st. cbv zeta in H. cbn [adopt set_options cl auth_of] in H.
  assert (Ha : auth_of (cl w1) = auth_of (cl w)) by now rewrite Hc. rewrite Ha in H. set (a := auth_of (cl w)) in *.
  set (w2 := adopt _ w1) in H. unfold login. fold a.
  assert (Hx : exists user last,
    if N.testbit (s_capabilities s) 31 then login_v2 react E a t w2 user last w' else login_v1 react E a (s_challenge s) w2 user last w').
  { destruct (N.testbit (s_capabilities s) 31).
    - unfold v2_run in H. apply gbind_done in H. destruct H as (m1 & v & Hm & H). apply lifted_done in Hm. destruct Hm as [Hm ->].
      apply gbind_done in H. destruct H as (r & w3 & H2 & H). apply exchange_good in H2; [|exact I]. destruct H2 as (p2 & st2 & H2).
      apply gbind_done in H. destruct H as (ch & v & Hch & H). apply lifted_done in Hch. destruct Hch as [Hch ->].
      apply gbind_done in H. destruct H as (m3 & v & Hm3 & H). apply lifted_done in Hm3. destruct Hm3 as [Hm3 ->].
      apply gbind_done in H. destruct H as (r3 & w4 & H3 & H). apply exchange_good in H3; [|exact I]. destruct H3 as (p3 & st3 & H3).
      injection H as ->. apply challenge_ok in Hch. apply (authenticate_iff (t := t) ch m3 Ta Ht) in Hm3. destruct Hm3 as (nt & Hn & Hm3).
      destruct Ta as (Tu & Tw & Td & Tp). apply init_good in Hm; auto.
      exists (ss_uid r), st3. unfold login_v2. exists m1, p2, st2, r, w3, ch, nt, m3, p3, r3. auto 10.
    - unfold v1_run in H. apply gbind_done in H. destruct H as (nt & v & Hn & H). apply lifted_done in Hn. destruct Hn as [Hn ->].
      apply gbind_done in H. destruct H as (r & w3 & H2 & H). apply exchange_good in H2; [|exact I]. destruct H2 as (p2 & st2 & H2).
      injection H as <-. exists (ss_uid r), st2. unfold login_v1. exists nt, p2, r, w3.
      assert (Hl : len (s_challenge s) = 8).
      { destruct (N.eq_dec (len (s_challenge s)) 8) as [Hl|Hl]; [exact Hl|]. apply (v1_crash E a) in Hl. congruence. }
      destruct Ta as (Tu & Tw & Td & Tp). apply v1_good in Hn; auto 10. }
  destruct Hx as (user & last & Hx). exists s, user, last, p, w1. split; [exact H1|]. exact Hx.
Qed.
Lemma login_complete t w s user last w' : typed_auth (auth_of (cl w)) -> clock E t -> login react E t w s user last w' ->
  returns react (fun f => setup_connection E f) w tt w'.
Proof.
  intros Ta Ht (p & w1 & H1 & H). pose proof (exchange_client H1) as Hc.
  assert (Ha : auth_of (cl w1) = auth_of (cl w)) by now rewrite Hc.
  destruct (exchange_returns (c := Negotiate) I H1) as [f1 R1]. cbv zeta in H.
  set (w2 := adopt _ w1) in H. set (a := auth_of (cl w)) in *.
  destruct (N.testbit (s_capabilities s) 31) eqn:Hb.
  - destruct H as (m1 & p1 & st1 & r1 & v1 & ch & nt & m3 & p3 & r3 & Hm1 & H2 & <- & Hch & Hn & Hm3 & H3).
    destruct (exchange_returns (c := SetupBlob m1) I H2) as [f2 R2]. destruct (exchange_returns (c := SetupBlob m3) I H3) as [f3 R3].
    exists (Nat.max f1 (Nat.max f2 f3)). intros f Hf. rewrite setup_run, R1 by lia. cbn [gbind obind]. cbv zeta. fold w2.
    rewrite Hb. unfold v2_run. change (auth_of (cl w2)) with (auth_of (cl w1)). rewrite Ha.
    rewrite (init_complete Hm1). cbn [lifted gbind obind]. rewrite R2 by lia. cbn [gbind obind].
    apply challenge_ok in Hch. rewrite Hch. cbn [lifted gbind obind].
    assert (Hr : challenge_response E ch a = Ok m3) by (apply (authenticate_iff ch m3 Ta Ht); eauto).
    rewrite Hr. cbn [lifted gbind obind]. rewrite R3 by lia. reflexivity.
  - destruct H as (nt & p2 & r & v1 & Hl & Hn & H2 & <- & ->).
    destruct (exchange_returns (c := SetupAuth _ _ _) I H2) as [f2 R2].
    exists (Nat.max f1 f2). intros f Hf. rewrite setup_run, R1 by lia. cbn [gbind obind]. cbv zeta. fold w2.
    rewrite Hb. unfold v1_run. change (auth_of (cl w2)) with (auth_of (cl w1)). rewrite Ha.
    destruct Ta as (Tu & Tw & Td & Tp). apply v1_good in Hn; auto. rewrite Hn. cbn [lifted gbind obind].
    rewrite R2 by lia. reflexivity.
Qed.

(** ** what is sent, whatever happens *)
Definition sends (P : bytes -> Prop) (w : world) {A} (o : outcome A) : Prop :=
  exists l, tx (final o) = tx w ++ l /\ Forall P l.
Lemma sends_nothing P w A (o : outcome A) : tx (final o) = tx w -> sends P w o.
Proof. intros H. exists []. rewrite app_nil_r. auto. Qed.
Lemma sends_gbind P w A B (o : outcome (ans A)) (f : A -> world -> outcome (ans B)) : sends P w o ->
  (forall a w1, o = Done (Good a) w1 -> sends P w1 (f a w1)) -> sends P w (gbind o f).
Proof.
  intros (l & Hl & Hp) H. unfold sends. rewrite final_gbind.
  destruct o as [[a|e] w1|w1|w1|w1]; try (exists l; split; [exact Hl|exact Hp]).
  destruct (H a w1 eq_refl) as (l2 & H2 & Hp2). exists (l ++ l2). cbn [final] in Hl. rewrite H2, Hl, app_assoc.
  split; [reflexivity|]. apply Forall_app. auto.
Qed.
Lemma sends_adopt P g (w : world) A (o : outcome A) : sends P (adopt g w) o -> sends P w o.
Proof. auto. Qed.
Lemma sends_lifted P w X A (g : X -> error) (r : res X A) : sends P w (lifted g r w).
Proof. apply sends_nothing. destruct r; reflexivity. Qed.
Lemma call_sends fuel a t R (c : call R) w : login_call E a t c -> sends (login_frame E a t) w (run (exec E fuel c) w).
Proof.
  intros Hc. destruct (@call_once Sv react E fuel R c w) as (l & Hl & Hw). exists l. split; [exact Hl|].
  destruct Hw as [f H|f n H|H _|H]; constructor; try constructor; exists (cl w), R, c, f; split; auto; split; eauto; now exists fuel.
Qed.
Lemma setup_sends fuel t w : typed_auth (auth_of (cl w)) -> clock E t ->
  sends (login_frame E (auth_of (cl w)) t) w (run (setup_connection E fuel) w).
Proof.
  intros Ta Ht. rewrite setup_run. apply sends_gbind; [now apply call_sends|]. intros s w1 H1. cbv zeta.
  apply exchange_good in H1; [|exact I]. destruct H1 as (p & st & H1). pose proof (exchange_client H1) as Hc.
  cbn [adopt set_options cl auth_of].
  assert (Ha : auth_of (cl w1) = auth_of (cl w)) by now rewrite Hc. rewrite Ha. set (a := auth_of (cl w)) in *.
  apply sends_adopt with (g := set_options (s_max_buffer_size s) (N.testbit (s_capabilities s) 2)).
  set (w2 := adopt _ w1). destruct (N.testbit (s_capabilities s) 31).
  - unfold v2_run. apply sends_gbind; [apply sends_lifted|]. intros m1 v Hm. apply lifted_done in Hm. destruct Hm as [Hm ->].
    apply sends_gbind. { apply call_sends. left. destruct Ta as (Tu & Tw & Td & Tp). now apply init_good. }
    intros r w3 _. apply sends_adopt with (g := set_uid (ss_uid r)).
    apply sends_gbind; [apply sends_lifted|]. intros ch v Hch. apply lifted_done in Hch. destruct Hch as [Hch ->].
    apply sends_gbind; [apply sends_lifted|]. intros m3 v Hm3. apply lifted_done in Hm3. destruct Hm3 as [Hm3 ->].
    apply sends_gbind.
    { apply call_sends. right. apply challenge_ok in Hch. apply (authenticate_iff (t := t) ch m3 Ta Ht) in Hm3.
      destruct Hm3 as (nt & Hn & Hm3). exists (ss_blob r), ch, nt. auto. }
    intros r3 w4 _. now apply sends_nothing.
  - unfold v1_run. apply sends_gbind; [apply sends_lifted|]. intros nt v Hn. apply lifted_done in Hn. destruct Hn as [Hn ->].
    apply sends_gbind.
    { apply call_sends. split; [reflexivity|]. split; [reflexivity|]. exists (s_challenge s).
      assert (Hl : len (s_challenge s) = 8).
      { destruct (N.eq_dec (len (s_challenge s)) 8) as [Hl|Hl]; [exact Hl|]. apply (v1_crash E a) in Hl. congruence. }
      split; [exact Hl|]. destruct Ta as (Tu & Tw & Td & Tp). now apply v1_good. }
    intros r w3 _. now apply sends_nothing.
Qed.

(** ** crashes *)
Lemma init_no_crash domain workstation : init_msg domain workstation <> Panic.
Proof. rewrite init_msg_eq. cbv zeta. now destruct (_ && _). Qed.
Lemma response_no_crash ch a t : clock E t -> challenge_response E ch a <> Panic.
Proof.
  intros Ht. rewrite challenge_response_eq. unfold ntlmv2_authenticate.
  rewrite (@clock_ticks E ntlm_error t Ht). cbn [rbind]. cbv zeta. rewrite response_packet_eq. now destruct (_ && _ && _ && _).
Qed.
Lemma setup_crash fuel t w w' : typed_auth (auth_of (cl w)) -> clock E t -> run (setup_connection E fuel) w = Crashed w' ->
  login_crashes react E w w'
  \/ exists R (c : call R) v, single_reply c /\ login_call E (auth_of (cl w)) t c /\ run (exec E fuel c) v = Crashed w'.
Proof.
  intros Ta Ht H. rewrite setup_run in H. apply gbind_crash in H. destruct H as [H|(s & w1 & H1 & H)].
  { right. exists _, Negotiate, w. repeat split; auto. }
  apply exchange_good in H1; [|exact I]. destruct H1 as (p & st & H1). pose proof (exchange_client H1) as Hc.
  assert (st = 0).
  { destruct H1 as (? & ? & _ & _ & _ & _ & [->|[Hx _]] & _); [reflexivity|]. discriminate Hx. }
  subst st. cbv zeta in H. cbn [adopt set_options cl auth_of] in H.
  assert (Ha : auth_of (cl w1) = auth_of (cl w)) by now rewrite Hc. rewrite Ha in H. set (a := auth_of (cl w)) in *.
  set (w2 := adopt _ w1) in H. unfold login_crashes. fold a.
  destruct (N.testbit (s_capabilities s) 31) eqn:Hb.
  - unfold v2_run in H. apply gbind_crash in H. destruct H as [H|(m1 & v & Hm & H)].
    { apply lifted_crash in H. destruct H as [H _]. now apply init_no_crash in H. }
    apply lifted_done in Hm. destruct Hm as [Hm ->].
    assert (Hm1 : negotiate_message (a_domain a) (a_workstation a) m1).
    { destruct Ta as (Tu & Tw & Td & Tp). now apply init_good. }
    apply gbind_crash in H. destruct H as [H|(r & w3 & H2 & H)].
    { right. exists _, (SetupBlob m1), w2. split; [exact I|]. split; [|exact H]. now left. }
    apply exchange_good in H2; [|exact I]. destruct H2 as (p2 & st2 & H2).
    apply gbind_crash in H. destruct H as [H|(ch & v & Hch & H)].
    { apply lifted_crash in H. destruct H as [H ->]. apply challenge_crash in H. left. exists p, s, w1. split; [exact H1|].
      cbv zeta. rewrite Hb. exists m1, p2, st2, r, w3. auto. }
    apply lifted_done in Hch. destruct Hch as [Hch ->].
    apply gbind_crash in H. destruct H as [H|(m3 & v & Hm3 & H)].
    { apply lifted_crash in H. destruct H as [H _]. now apply (response_no_crash (t := t)) in H. }
    apply lifted_done in Hm3. destruct Hm3 as [Hm3 ->].
    apply gbind_crash in H. destruct H as [H|(r3 & w4 & H3 & H)]; [|discriminate].
    right. eexists _, (SetupBlob m3), _. split; [exact I|]. split; [|exact H]. right.
    apply challenge_ok in Hch. apply (authenticate_iff (t := t) ch m3 Ta Ht) in Hm3.
    destruct Hm3 as (nt & Hn & Hm3). exists (ss_blob r), ch, nt. auto.
  - unfold v1_run in H. apply gbind_crash in H. destruct H as [H|(nt & v & Hn & H)].
    { apply lifted_crash in H. destruct H as [H ->]. left. exists p, s, w1. split; [exact H1|]. cbv zeta. rewrite Hb.
      split; [|reflexivity]. now apply v1_crash in H. }
    apply lifted_done in Hn. destruct Hn as [Hn ->].
    apply gbind_crash in H. destruct H as [H|(r & w3 & H2 & H)]; [|discriminate].
    right. eexists _, (SetupAuth (a_user a) (a_domain a) nt), _. split; [exact I|]. split; [|exact H].
    split; [reflexivity|]. split; [reflexivity|]. exists (s_challenge s).
    assert (Hl : len (s_challenge s) = 8).
    { destruct (N.eq_dec (len (s_challenge s)) 8) as [Hl|Hl]; [exact Hl|]. apply (v1_crash E a) in Hl. congruence. }
    split; [exact Hl|]. destruct Ta as (Tu & Tw & Td & Tp). now apply v1_good.
Qed.
Lemma setup_crashes w w' : login_crashes react E w w' ->
  exists f0, forall f, (f0 <= f)%nat -> run (setup_connection E f) w = Crashed w'.
Proof.
  intros (p & s & w1 & H1 & H). pose proof (exchange_client H1) as Hc.
  assert (Ha : auth_of (cl w1) = auth_of (cl w)) by now rewrite Hc.
  destruct (exchange_returns (c := Negotiate) I H1) as [f1 R1]. cbv zeta in H.
  set (w2 := adopt _ w1) in H. set (a := auth_of (cl w)) in *.
  destruct (N.testbit (s_capabilities s) 31) eqn:Hb.
  - destruct H as (m1 & p1 & st1 & r1 & v1 & Hm1 & H2 & Hch & ->).
    destruct (exchange_returns (c := SetupBlob m1) I H2) as [f2 R2].
    exists (Nat.max f1 f2). intros f Hf. rewrite setup_run, R1 by lia. cbn [gbind obind]. cbv zeta. fold w2.
    rewrite Hb. unfold v2_run. change (auth_of (cl w2)) with (auth_of (cl w1)). rewrite Ha.
    rewrite (init_complete Hm1). cbn [lifted gbind obind]. rewrite R2 by lia. cbn [gbind obind].
    apply challenge_crash in Hch. rewrite Hch. reflexivity.
  - destruct H as (Hl & ->).
    exists f1. intros f Hf. rewrite setup_run, R1 by lia. cbn [gbind obind]. cbv zeta. fold w2.
    rewrite Hb. unfold v1_run. change (auth_of (cl w2)) with (auth_of (cl w1)). rewrite Ha.
    apply (v1_crash E a) in Hl. rewrite Hl. reflexivity.
Qed.
End Server.
