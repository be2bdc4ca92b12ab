(** * ForeignFacts: replies that name someone else; requests sent back (C94) *)
From Verif Require Import Base BaseFacts Text Utils Win Errors Info Common Msg Reply Ntlm Prog
  RunFacts Client Spec SpecFacts TextFacts InfoFacts ClientFacts Api MsgFacts SpecReply SpecCrash SpecMsg
  SpecCall ReplyFacts CollectFacts CallFacts FindFacts NoiseFacts SizeFacts ReqFacts FlowFacts AskFacts SpecForeign.
Set Implicit Arguments.
Unset Strict Implicit.
Open Scope N_scope.

(** ** the header *)
Definition alike {R} (c : call R) (i i' : info) : Prop :=
  i_cmd i = i_cmd i' /\ i_status i = i_status i' /\ i_flags2 i = i_flags2 i' /\ i_mid i = i_mid i'
  /\ (returns_tree c = true -> i_tid i = i_tid i') /\ (returns_user c = true -> i_uid i = i_uid i').
Definition parsed_alike {R} (c : call R) (a b : res smb_error (info * bytes)) : Prop :=
  match a, b with
  | Ok (i, d), Ok (i', d') => alike c i i' /\ d = d'
  | Err e, Err e' => e = e'
  | Panic, Panic => True
  | _, _ => False
  end.
Lemma le_same n a b : a < 256 ^ N.of_nat n -> b < 256 ^ N.of_nat n -> le n a = le n b -> a = b.
Proof. intros Ha Hb H. rewrite <- (unle_le_small n a Ha), <- (unle_le_small n b Hb). now rewrite H. Qed.
Lemma app_same A (a a' b b' : list A) : len a = len a' -> a ++ b = a' ++ b' -> a = a' /\ b = b'.
Proof. intros Hl H. split; [rewrite <- (take_exact a b), H, Hl; apply take_exact|rewrite <- (drop_exact a b), H, Hl; apply drop_exact]. Qed.
Lemma parse_alike R (c : call R) p p' : same_but_sender c p p' -> parsed_alike c (info_parse p) (info_parse p').
Proof.
  intros (Hl & Ht & Hd & Htree & Huser). destruct (N.ltb_spec (len p) 32) as [Hs|Hs].
  { unfold info_parse, SMB_HEADER_LEN. rewrite <- Hl. destruct (N.ltb_spec (len p) 32); [reflexivity|lia]. }
  assert (Hs' : 32 <= len p') by lia.
  destruct (header_split Hs) as (m4 & cc & st & f1 & f2 & ph & sg & rs & tid & pl & uid & mid & r & Ep & Hp).
  destruct (header_split Hs') as (n4 & dc & su & g1 & g2 & qh & sh & rt & uie & ql & vid & nid & s & Eq & Hq).
  assert (H12 : m4 ++ le 1 cc ++ le 4 st ++ le 1 f1 ++ le 2 f2 = n4 ++ le 1 dc ++ le 4 su ++ le 1 g1 ++ le 2 g2).
  { destruct Hp, Hq. rewrite Ep, Eq in Ht. unfold header_bytes in Ht.
    assert (A : forall m c s f g (t : bytes), len m = 4 -> take 12 (m ++ le 1 c ++ le 4 s ++ le 1 f ++ le 2 g ++ t) = m ++ le 1 c ++ le 4 s ++ le 1 f ++ le 2 g).
    { intros m c0 s0 f g t Hm. rewrite !app_assoc. rewrite take_exact' by (rewrite ?len_app, ?len_le; lia). reflexivity. }
    rewrite !A in Ht by assumption. exact Ht. }
  assert (H30 : le 2 mid ++ r = le 2 nid ++ s).
  { destruct Hp, Hq. rewrite Ep, Eq in Hd. unfold header_bytes in Hd.
    assert (A : forall m c s f g h a b t l u (x : bytes), len m = 4 -> len a = 8 -> len b = 2 ->
      drop 30 (m ++ le 1 c ++ le 4 s ++ le 1 f ++ le 2 g ++ le 2 h ++ a ++ b ++ le 2 t ++ le 2 l ++ le 2 u ++ x) = x).
    { intros. rewrite !app_assoc. apply drop_exact'. rewrite ?len_app, ?len_le. lia. }
    rewrite !A in Hd by assumption. exact Hd. }
  pose proof (header_tid r Hp) as T1. pose proof (header_tid s Hq) as T2. pose proof (header_uid r Hp) as U1. pose proof (header_uid s Hq) as U2.
  rewrite <- Ep in T1, U1. rewrite <- Eq in T2, U2. rewrite T1, T2 in Htree. rewrite U1, U2 in Huser.
  rewrite Ep, Eq, (info_parse_header r Hp), (info_parse_header s Hq). destruct Hp, Hq.
  apply app_same in H12 as [<- H12]; [|lia]. apply app_same in H12 as [E1 H12]; [|now rewrite !len_le]. apply app_same in H12 as [E2 H12]; [|now rewrite !len_le].
  apply app_same in H12 as [E3 E4]; [|now rewrite !len_le]. apply app_same in H30 as [E5 <-]; [|now rewrite !len_le].
  apply le_same in E1, E2, E3, E4, E5; try assumption. subst dc su g1 g2 nid.
  destruct (list_eq_dec _ _ _); [|reflexivity]. destruct (cmd_of_code cc) as [cm|]; [|reflexivity]. destruct (N.testbit f1 7); [|reflexivity].
  cbn [parsed_alike]. split; [|reflexivity]. unfold alike, header_info. cbn [i_cmd i_status i_flags2 i_mid i_tid i_uid].
  do 4 (split; [reflexivity|]). split; intros H; apply some_inj; auto.
Qed.
Lemma reply_alike R (c : call R) r i i' b : reply_of c = Some r -> alike c i i' -> reply_parse r i b = reply_parse r i' b.
Proof.
  intros Hr (H1 & H2 & H3 & H4 & H5 & H6). unfold reply_parse. destruct (get_u8 b) as [[n b1]|e|]; cbn [rbind]; try reflexivity.
  destruct (copy_to_bytes _ b1) as [[w b2]|e|]; cbn [rbind]; try reflexivity. destruct (get_u16_le b2) as [[m b3]|e|]; cbn [rbind]; try reflexivity.
  destruct (copy_to_bytes m b3) as [[d b4]|e|]; cbn [rbind]; try reflexivity.
  match goal with |- rbind ?x _ = rbind ?x _ => destruct x as [w'|e|] end; cbn [rbind]; try reflexivity.
  destruct i as [i1 i2 i3 i4 i5 i6 i7 i8], i' as [j1 j2 j3 j4 j5 j6 j7 j8]. cbn in H1, H2, H3, H4, H5, H6. subst j1 j2 j4 j8.
  destruct c; cbn [reply_of] in Hr; try discriminate Hr; apply some_inj in Hr; subst r;
    try (rewrite (H5 eq_refl)); try (rewrite (H6 eq_refl)); reflexivity.
Qed.

(** ** the stream *)
Definition alike_scan {R} (c : call R) (r r' : scan) : Prop :=
  match r, r' with
  | ScReply i p rest, ScReply i' p' rest' => alike c i i' /\ drop 32 p = drop 32 p' /\ readdressed c rest rest'
  | ScSmbError e rest, ScSmbError e' rest' => e = e' /\ readdressed c rest rest'
  | ScNbError e rest, ScNbError e' rest' => e = e' /\ readdressed c rest rest'
  | ScShort l, ScShort l' => l = l'
  | _, _ => False
  end.
Lemma alike_refl R (c : call R) i : alike c i i.
Proof. repeat split. Qed.
Lemma alike_scan_refl R (c : call R) r : alike_scan c r r.
Proof. destruct r; cbn; repeat split; constructor. Qed.
Lemma same_drop R (c : call R) p p' : same_but_sender c p p' -> drop 32 p = drop 32 p'.
Proof. intros (_ & _ & H & _). change 32 with (30 + 2). rewrite <- !drop_drop, H. reflexivity. Qed.
Lemma same_length R (c : call R) b b' : readdressed c b b' -> length b = length b'.
Proof.
  assert (X : forall A (x y : list A), len x = len y -> length x = length y) by (unfold len; lia).
  induction 1 as [b|ty p b b' _ _ IH|p p' b b' _ (Hl & _) _ IH]; [reflexivity|rewrite !app_length; lia|].
  rewrite !app_length, IH. unfold session_message, nb_frame. rewrite !app_length. rewrite (X _ _ _ Hl). rewrite Hl. reflexivity.
Qed.
Lemma scans_readdressed R (c : call R) id b b' : readdressed c b b' -> forall r, scans id b r ->
  exists r', scans id b' r' /\ alike_scan c r r'.
Proof.
  induction 1 as [b|ty p b b' Hp Hb IH|p p' b b' Hp Hs Hb IH]; intros r Hr.
  - exists r. split; [exact Hr|apply alike_scan_refl].
  - rewrite nb_frame_mod in Hr |- *.
    assert (Hn : forall x, next_frame (nb_frame (ty mod 256) p ++ x) = NFrame (ty mod 256) p x)
      by (intros x; apply next_frame_complete; [lia|exact Hp]).
    pose proof (Hn b) as Nb. pose proof (Hn b') as Nb'.
    inversion Hr as [x Hx|x rest Hx|x y q rest e Hx He|x y q rest r0 Hx He Hk|x y q rest f Hx He Hm Hk
      |x y q rest m e Hx He Hi|x y q rest m i bd Hx He Hi Hid|x y q rest m i bd r0 Hx He Hi Hid Hk]; subst;
      rewrite Nb in Hx; try discriminate Hx; injection Hx as <- <- <-.
    + eexists. split; [eapply sc_bad; eauto|]. now cbn.
    + destruct (IH _ Hk) as (r' & H1 & H2). exists r'. split; [eapply sc_keep; eauto|exact H2].
    + eexists. split; [eapply sc_other; eauto|]. now cbn.
    + eexists. split; [eapply sc_smb; eauto|]. now cbn.
    + eexists. split; [eapply sc_reply; eauto|]. split; [apply alike_refl|now split].
    + destruct (IH _ Hk) as (r' & H1 & H2). exists r'. split; [eapply sc_stale; eauto|exact H2].
  - assert (Hp' : len p' <= NB_MAX) by (destruct Hs as (<- & _); exact Hp).
    pose proof (next_message b Hp) as Nb. pose proof (next_message b' Hp') as Nb'. pose proof (parse_alike Hs) as Ha.
    assert (Hf : forall q, frame_new 0 q = Ok (FMessage q)) by reflexivity.
    inversion Hr as [x Hx|x rest Hx|x y q rest e Hx He|x y q rest r0 Hx He Hk|x y q rest f Hx He Hm Hk
      |x y q rest m e Hx He Hi|x y q rest m i bd Hx He Hi Hid|x y q rest m i bd r0 Hx He Hi Hid Hk]; subst;
      rewrite Nb in Hx; try discriminate Hx; injection Hx as <- <- <-; rewrite Hf in He; try discriminate He; injection He as <-.
    + exfalso. now apply (Hm p).
    + rewrite Hi in Ha. destruct (info_parse p') as [[]|e'|] eqn:Hi'; cbn in Ha; try contradiction. subst e'.
      eexists. split; [eapply sc_smb; eauto|]. now cbn.
    + rewrite Hi in Ha. destruct (info_parse p') as [[i' d']|e'|] eqn:Hi'; cbn in Ha; try contradiction. destruct Ha as [Ha _].
      eexists. split; [eapply sc_reply; eauto; symmetry; apply Ha|]. split; [exact Ha|]. split; [exact (same_drop Hs)|exact Hb].
    + rewrite Hi in Ha. destruct (info_parse p') as [[i' d']|e'|] eqn:Hi'; cbn in Ha; try contradiction. destruct Ha as [Ha _].
      destruct (IH _ Hk) as (r' & H1 & H2). exists r'. split; [eapply sc_stale; eauto; destruct Ha as (_ & _ & _ & <- & _); exact Hid|exact H2].
Qed.

Section Two.
Variables S1 S2 : Type.
Variable react1 : S1 -> bytes -> reaction S1.
Variable react2 : S2 -> bytes -> reaction S2.
Definition close_by {R} (c : call R) (w1 : world cifs S1) (w2 : world cifs S2) : Prop :=
  cl w1 = cl w2 /\ tl w1 = tl w2 /\ readdressed c (rx w1) (rx w2).
Lemma status_alike R (c : call R) i i' : alike c i i' -> status_ok i = status_ok i' /\ i_cmd i = i_cmd i' /\ i_status i = i_status i'.
Proof. clear react1 react2. intros (H1 & H2 & _). unfold status_ok. now rewrite H1, H2. Qed.
Lemma recv_alike X (k : call X) R (r : reply R) id w1 w2 f1 f2 : (forall i i' b, alike k i i' -> reply_parse r i b = reply_parse r i' b) ->
  close_by k w1 w2 -> (length (rx w1) < f1)%nat -> (length (rx w2) < f2)%nat ->
  same_but_senders k (run react1 (recv f1 r id) w1) (run react2 (recv f2 r id) w2)
  /\ (forall v w1', run react1 (recv f1 r id) w1 = Done (Good v) w1' -> (length (rx w1') < length (rx w1))%nat)
  /\ (forall v w2', run react2 (recv f2 r id) w2 = Done (Good v) w2' -> (length (rx w2') < length (rx w2))%nat).
Proof.
  intros Hpar (Hc & Ht & Hi) H1 H2. destruct (scans_total id (rx w1)) as [sc Hs].
  destruct (scans_readdressed Hi Hs) as (sc' & Hs' & Hsame).
  rewrite (run_recv react1 r Hs H1), (run_recv react2 r Hs' H2).
  destruct sc as [i p rest|e rest|e rest|l], sc' as [i' p' rest'|e' rest'|e' rest'|l']; cbn [alike_scan] in Hsame; try contradiction.
  - destruct Hsame as (Ha & Hd & Hr). cbn [received]. unfold replied. destruct (status_alike Ha) as (E1 & E2 & E3). rewrite <- E1, <- E2, <- E3, <- Hd, <- (Hpar _ _ _ Ha).
    pose proof (scans_shorter Hs). pose proof (scans_shorter Hs').
    destruct (negb (cmd_eqb (i_cmd i) (r_cmd r))); [cbn; repeat split; auto; easy|].
    destruct (negb (status_ok i)); [cbn; repeat split; auto; easy|].
    destruct (reply_parse r i (drop 32 p)); cbn; repeat split; auto; intros v' w' HH; try discriminate HH; injection HH as _ <-; assumption.
  - destruct Hsame as (<- & Hr). cbn. repeat split; auto; easy.
  - destruct Hsame as (<- & Hr). cbn. repeat split; auto; easy.
  - subst l'. cbn [received]. unfold short_outcome. cbn. rewrite <- Ht. destruct (tl w1) eqn:Hw; cbn; repeat split; auto; try easy; try congruence; constructor.
Qed.
Lemma collect_alike X (k : call X) id : forall f1 f2 g1 g2 q w1 w2, close_by k w1 w2 ->
  (length (rx w1) < f1)%nat -> (length (rx w2) < f2)%nat -> (length (rx w1) < g1)%nat -> (length (rx w2) < g2)%nat ->
  same_but_senders k (run react1 (collect f1 g1 id q) w1) (run react2 (collect f2 g2 id q) w2).
Proof.
  induction f1 as [|f1 IH]; intros f2 g1 g2 q w1 w2 Hn F1 F2 G1 G2; [lia|]. destruct f2 as [|f2]; [lia|].
  cbn [collect]. rewrite !run_mbind.
  assert (Hpar : forall i i' b, alike k i i' -> reply_parse r_trans2 i b = reply_parse r_trans2 i' b).
  { reflexivity. }
  destruct (recv_alike id Hpar Hn G1 G2) as (H & L1 & L2).
  destruct (run react1 (recv g1 r_trans2 id) w1) as [a1 w1'|w1'|w1'|w1'],
    (run react2 (recv g2 r_trans2 id) w2) as [a2 w2'|w2'|w2'|w2']; cbn in H; try contradiction; cbn [gbind obind]; try exact H.
  destruct H as (<- & Hc & Ht & Hi). destruct a1 as [v|e]; [|cbn; auto].
  pose proof (L1 _ _ eq_refl). pose proof (L2 _ _ eq_refl). rewrite !run_mbind, !run_lift.
  destruct (collect2_add q v) as [[q' d]|e|]; cbn [lifted gbind obind].
  - destruct d; [cbn; auto|]. apply IH; [now repeat split|lia|lia|lia|lia].
  - cbn. auto.
  - cbn. auto.
Qed.
Lemma after_alike fuel1 fuel2 R (c : call R) id w1 w2 : close_by c w1 w2 -> (length (rx w1) < fuel1)%nat -> (length (rx w2) < fuel2)%nat ->
  same_but_senders c (run react1 (after fuel1 c id) w1) (run react2 (after fuel2 c id) w2).
Proof.
  intros Hn H1 H2. destruct (reply_of c) as [r|] eqn:Hr.
  - rewrite (after_recv fuel1 _ Hr), (after_recv fuel2 _ Hr). apply recv_alike; auto. intros i i' b Ha. exact (reply_alike b Hr Ha).
  - assert (Hf : ~ single_reply c) by (destruct c; try discriminate Hr; cbn; auto).
    destruct (find_is Hf) as [sub Hsub]. rewrite (find_after fuel1 _ Hsub), (find_after fuel2 _ Hsub), !run_mbind.
    pose proof (@collect_alike _ c id fuel1 fuel2 fuel1 fuel2 collect2_new w1 w2 Hn H1 H2 H1 H2) as H.
    destruct (run react1 (collect fuel1 fuel1 id collect2_new) w1) as [a1 w1'|w1'|w1'|w1'],
      (run react2 (collect fuel2 fuel2 id collect2_new) w2) as [a2 w2'|w2'|w2'|w2']; cbn in H; try contradiction; cbn [gbind obind]; try exact H.
    destruct H as (<- & Hc & Ht & Hi). destruct a1 as [v|e]; [|cbn; auto]. rewrite !run_lift.
    destruct (get_subreply sub v); cbn; auto.
Qed.
Lemma call_readdressed E fuel R (c : call R) w1 w2 f v1 v2 : cl w1 = cl w2 ->
  request (exec E fuel c) (cl w1) = Some f -> asked react1 w1 f v1 -> asked react2 w2 f v2 ->
  tl v1 = tl v2 -> readdressed c (rx v1) (rx v2) -> (length (rx v1) < fuel)%nat ->
  same_but_senders c (run react1 (exec E fuel c) w1) (run react2 (exec E fuel c) w2).
Proof.
  intros Hc Hf A1 A2 Ht Hi L1. rewrite (call_asked Hf A1). rewrite Hc in Hf. rewrite (call_asked Hf A2), <- Hc.
  apply after_alike; auto; [|now rewrite <- (same_length Hi)]. split; [|auto].
  destruct A1 as (s & i & t & _ & C1 & _). destruct A2 as (s' & i' & t' & _ & C2 & _). now rewrite C1, C2, Hc.
Qed.
End Two.

(** ** messages that are no replies *)
Lemma request_rejected p c f : 32 <= len p -> take 4 p = magic -> u8_at p 4 = Some c -> In c known_codes ->
  u8_at p 9 = Some f -> N.testbit f 7 = false -> info_parse p = Err ReplyExpected.
Proof.
  intros H1 H2 H3 Hk H4 H5.
  destruct (info_parse_total p) as [[H _]|[(_ & H & _)|[(_ & _ & c' & Hc & Hn & H)|[(_ & _ & _ & _ & H)|(code & st & m & H)]]]].
  - lia.
  - contradiction.
  - rewrite H3 in Hc. injection Hc as <-. contradiction.
  - exact H.
  - exfalso. destruct H as (_ & _ & _ & _ & _ & (g & Hg & Hb) & _). rewrite H4 in Hg. injection Hg as <-. congruence.
Qed.
Section Back.
Variable Sv : Type.
Variable react : Sv -> bytes -> reaction Sv.
Variable E : env.
Lemma aborts fuel R (c : call R) w f w1 skip p e rest : (length (rx w1) < fuel)%nat ->
  request (exec E fuel c) (cl w) = Some f -> asked react w f w1 ->
  rx w1 = skip ++ session_message p ++ rest -> skipped (mid (cl w)) skip -> len p <= NB_MAX -> info_parse p = Err e ->
  run react (exec E fuel c) w = Done (Bad (ESmb e)) (leaving w1 rest).
Proof.
  intros Hl Hr Ha Hx Hs Hn Hp. rewrite (call_asked Hr Ha).
  assert (Hsc : scans (mid (cl w)) (rx w1) (ScSmbError e rest)).
  { rewrite Hx. apply scans_skip; [exact Hs|]. eapply sc_smb with (ty := 0) (p := p); [now apply next_message|reflexivity|exact Hp]. }
  destruct (reply_of c) as [r|] eqn:Hrc.
  - rewrite (after_recv fuel _ Hrc). rewrite (@run_recv _ react _ r _ _ _ _ Hsc Hl). reflexivity.
  - destruct fuel as [|g]; [lia|].
    assert (Hcol : run react (collect (S g) (S g) (mid (cl w)) collect2_new) w1 = Done (Bad (ESmb e)) (leaving w1 rest)).
    { cbn [collect]. unfold mbind. rewrite run_bind, (@run_recv _ react _ r_trans2 _ _ _ _ Hsc Hl). reflexivity. }
    destruct c; try discriminate Hrc; cbn [after]; unfold mbind; rewrite run_bind, Hcol; reflexivity.
Qed.
End Back.
Lemma opcode_known R (c : call R) : In (opcode c) known_codes.
Proof. destruct c; cbn; tauto. Qed.
(** a request of any client that arrives instead of a reply *)
Lemma request_returned Sv (react : Sv -> bytes -> reaction Sv) E fuel R (c : call R) w f w1 skip fuel' st' X (d : call X) g rest :
  typed_client st' -> typed d -> request (exec E fuel' d) st' = Some g ->
  (length (rx w1) < fuel)%nat -> request (exec E fuel c) (cl w) = Some f -> asked react w f w1 ->
  rx w1 = skip ++ g ++ rest -> skipped (mid (cl w)) skip ->
  run react (exec E fuel c) w = Done (Bad (ESmb ReplyExpected)) (leaving w1 rest).
Proof.
  intros Ht Hd Hg Hl Hr Ha Hx Hs. destruct (request_consistent Hg) as (q & ? & ? & Hq & _ & Hn).
  destruct (request_asks Ht Hd Hg) as (p & words & data & Hf & _ & Hp & Hh & _).
  assert (p = q) as <- by (rewrite Hf in Hq; exact (f_equal (skipn 4) Hq)).
  rewrite Hf in Hx. eapply aborts; eauto; [unfold NB_MAX; lia|].
  eapply request_rejected; try apply Hh; [apply opcode_known|reflexivity].
Qed.
Lemma mirror_refused E fuel R (c : call R) (w : world cifs unit) f : typed_client (cl w) -> typed c -> rx w = [] -> tl w = Open ->
  request (exec E fuel c) (cl w) = Some f -> (length f < fuel)%nat ->
  exists w', run mirror_server (exec E fuel c) w = Done (Bad (ESmb ReplyExpected)) w' /\ rx w' = [].
Proof.
  intros Ht Hc Hrx Htl Hr Hl.
  set (w1 := mk_world (next_client (cl w)) tt f Open (tx w ++ [f])).
  assert (Ha : asked mirror_server w f w1).
  { exists tt, f, Open. unfold w1. cbn [cl srv tx rx tl]. rewrite Hrx, Htl. repeat split. }
  exists (leaving w1 []). split; [|reflexivity].
  eapply (@request_returned _ mirror_server E fuel R c w f w1 [] fuel (cl w) R c f []); eauto.
  - unfold w1. cbn [rx]. now rewrite app_nil_r.
  - constructor.
Qed.
