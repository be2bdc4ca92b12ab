(** * NoiseFacts: messages that are skipped make no difference. *)
From Verif Require Import Base BaseFacts Text Utils Win Errors Info Common Msg Reply Ntlm Prog
  RunFacts Client Spec SpecFacts TextFacts InfoFacts ClientFacts Api MsgFacts SpecReply SpecCrash
  SpecCall ReplyFacts CollectFacts CallFacts FindFacts.
Set Implicit Arguments.
Unset Strict Implicit.
Open Scope N_scope.

Definition same_scan (id : N) (r r' : scan) : Prop :=
  match r, r' with
  | ScReply i p rest, ScReply i' p' rest' => i = i' /\ p = p' /\ inserted id rest rest'
  | ScSmbError e rest, ScSmbError e' rest' => e = e' /\ inserted id rest rest'
  | ScNbError e rest, ScNbError e' rest' => e = e' /\ inserted id rest rest'
  | ScShort l, ScShort l' => l = l'
  | _, _ => False
  end.
Lemma same_scan_refl id r : same_scan id r r.
Proof. destruct r; cbn; repeat split; constructor. Qed.

Lemma nb_frame_mod ty p : nb_frame ty p = nb_frame (ty mod 256) p.
Proof. unfold nb_frame. do 2 f_equal. apply b2n_inj. rewrite !b2n_n2b. lia. Qed.

Lemma scans_inserted id b b' : inserted id b b' -> forall r, scans id b r ->
  exists r', scans id b' r' /\ same_scan id r r'.
Proof.
  induction 1 as [b|s b b' Hs Hb IH|ty p b b' Hp Hb IH]; intros r Hr.
  - exists r. split; [exact Hr|apply same_scan_refl].
  - destruct (IH _ Hr) as (r' & H1 & H2). exists r'. split; [now apply scans_skip|exact H2].
  - rewrite nb_frame_mod in Hr |- *.
    assert (Hn : forall x, next_frame (nb_frame (ty mod 256) p ++ x) = NFrame (ty mod 256) p x)
      by (intros x; apply next_frame_complete; [lia|exact Hp]).
    pose proof (Hn b) as Nb. pose proof (Hn b') as Nb'.
    inversion Hr as [x Hx|x rest Hx|x y q rest e Hx He|x y q rest r0 Hx He Hk|x y q rest f Hx He Hm Hk
      |x y q rest m e Hx He Hi|x y q rest m i bd Hx He Hi Hid|x y q rest m i bd r0 Hx He Hi Hid Hk]; subst;
      rewrite Nb in Hx; try discriminate Hx; injection Hx as <- <- <-.
    + eexists. split; [eapply sc_bad; eauto|]. now cbn.
    + destruct (IH _ Hk) as (r' & H1 & H2). exists r'. split; [eapply sc_keep; eauto|exact H2].
    + eexists. split; [eapply sc_other; eauto|]. now cbn.
    + eexists. split; [eapply sc_smb; eauto|]. now cbn.
    + eexists. split; [eapply sc_reply; eauto|]. now cbn.
    + destruct (IH _ Hk) as (r' & H1 & H2). exists r'. split; [eapply sc_stale; eauto|exact H2].
Qed.

Section Two.
Variables S1 S2 : Type.
Variable react1 : S1 -> bytes -> reaction S1.
Variable react2 : S2 -> bytes -> reaction S2.

Definition near (id : N) (w1 : world cifs S1) (w2 : world cifs S2) : Prop :=
  cl w1 = cl w2 /\ tl w1 = tl w2 /\ inserted id (rx w1) (rx w2).

Lemma scans_shorter id b i p rest : scans id b (ScReply i p rest) -> (length rest < length b)%nat.
Proof. clear react1 react2. intros H. apply scans_reply_inv in H. destruct H as [H _]. eapply arrives_len; eauto. Qed.

Lemma recv_near R (r : reply R) id w1 w2 f1 f2 : near id w1 w2 ->
  (length (rx w1) < f1)%nat -> (length (rx w2) < f2)%nat ->
  same_but_inserted id (run react1 (recv f1 r id) w1) (run react2 (recv f2 r id) w2)
  /\ (forall v w1', run react1 (recv f1 r id) w1 = Done (Good v) w1' -> (length (rx w1') < length (rx w1))%nat)
  /\ (forall v w2', run react2 (recv f2 r id) w2 = Done (Good v) w2' -> (length (rx w2') < length (rx w2))%nat).
Proof.
  intros (Hc & Ht & Hi) H1 H2. destruct (scans_total id (rx w1)) as [sc Hs].
  destruct (scans_inserted Hi Hs) as (sc' & Hs' & Hsame).
  rewrite (run_recv react1 r Hs H1), (run_recv react2 r Hs' H2).
  destruct sc as [i p rest|e rest|e rest|l], sc' as [i' p' rest'|e' rest'|e' rest'|l']; cbn in Hsame; try contradiction.
  - destruct Hsame as (<- & <- & Hr). cbn [received]. unfold replied.
    pose proof (scans_shorter Hs). pose proof (scans_shorter Hs').
    destruct (negb (cmd_eqb (i_cmd i) (r_cmd r))); [cbn; repeat split; auto; easy|].
    destruct (negb (status_ok i)); [cbn; repeat split; auto; easy|].
    destruct (reply_parse r i (drop 32 p)); cbn; repeat split; auto; intros v' w' HH; try discriminate HH; injection HH as _ <-; assumption.
  - destruct Hsame as (<- & Hr). cbn. repeat split; auto; easy.
  - destruct Hsame as (<- & Hr). cbn. repeat split; auto; easy.
  - subst l'. cbn [received]. unfold short_outcome. cbn. rewrite <- Ht. destruct (tl w1) eqn:Hw; cbn; repeat split; auto; try easy; try congruence; constructor.
Qed.

Lemma collect_near id : forall f1 f2 g1 g2 k w1 w2, near id w1 w2 ->
  (length (rx w1) < f1)%nat -> (length (rx w2) < f2)%nat -> (length (rx w1) < g1)%nat -> (length (rx w2) < g2)%nat ->
  same_but_inserted id (run react1 (collect f1 g1 id k) w1) (run react2 (collect f2 g2 id k) w2).
Proof.
  induction f1 as [|f1 IH]; intros f2 g1 g2 k w1 w2 Hn F1 F2 G1 G2; [lia|]. destruct f2 as [|f2]; [lia|].
  cbn [collect]. rewrite !run_mbind.
  destruct (recv_near r_trans2 Hn G1 G2) as (H & L1 & L2).
  destruct (run react1 (recv g1 r_trans2 id) w1) as [a1 w1'|w1'|w1'|w1'],
    (run react2 (recv g2 r_trans2 id) w2) as [a2 w2'|w2'|w2'|w2']; cbn in H; try contradiction; cbn [gbind obind]; try exact H.
  destruct H as (<- & Hc & Ht & Hi). destruct a1 as [v|e]; [|cbn; auto].
  pose proof (L1 _ _ eq_refl). pose proof (L2 _ _ eq_refl). rewrite !run_mbind, !run_lift.
  destruct (collect2_add k v) as [[k' d]|e|]; cbn [lifted gbind obind].
  - destruct d; [cbn; auto|]. apply IH; [now repeat split|lia|lia|lia|lia].
  - cbn. auto.
  - cbn. auto.
Qed.

Lemma after_near fuel1 fuel2 R (c : call R) id w1 w2 : near id w1 w2 -> (length (rx w1) < fuel1)%nat -> (length (rx w2) < fuel2)%nat ->
  same_but_inserted id (run react1 (after fuel1 c id) w1) (run react2 (after fuel2 c id) w2).
Proof.
  intros Hn H1 H2. destruct (reply_of c) as [r|] eqn:Hr.
  - rewrite (after_recv fuel1 _ Hr), (after_recv fuel2 _ Hr). now apply recv_near.
  - assert (Hf : ~ single_reply c) by (destruct c; try discriminate Hr; cbn; auto).
    destruct (find_is Hf) as [sub Hsub]. rewrite (find_after fuel1 _ Hsub), (find_after fuel2 _ Hsub), !run_mbind.
    pose proof (@collect_near id fuel1 fuel2 fuel1 fuel2 collect2_new w1 w2 Hn H1 H2 H1 H2) as H.
    destruct (run react1 (collect fuel1 fuel1 id collect2_new) w1) as [a1 w1'|w1'|w1'|w1'],
      (run react2 (collect fuel2 fuel2 id collect2_new) w2) as [a2 w2'|w2'|w2'|w2']; cbn in H; try contradiction; cbn [gbind obind]; try exact H.
    destruct H as (<- & Hc & Ht & Hi). destruct a1 as [v|e]; [|cbn; auto]. rewrite !run_lift.
    destruct (get_subreply sub v); cbn; auto.
Qed.

Lemma call_inserted E fuel R (c : call R) w1 w2 f v1 v2 : cl w1 = cl w2 ->
  request (exec E fuel c) (cl w1) = Some f -> asked react1 w1 f v1 -> asked react2 w2 f v2 ->
  tl v1 = tl v2 -> inserted (mid (cl w1)) (rx v1) (rx v2) ->
  (length (rx v1) < fuel)%nat -> (length (rx v2) < fuel)%nat ->
  same_but_inserted (mid (cl w1)) (run react1 (exec E fuel c) w1) (run react2 (exec E fuel c) w2).
Proof.
  intros Hc Hf A1 A2 Ht Hi L1 L2. rewrite (call_asked Hf A1). rewrite Hc in Hf. rewrite (call_asked Hf A2), <- Hc.
  apply after_near; auto. split; [|auto].
  destruct A1 as (s & i & t & _ & C1 & _). destruct A2 as (s' & i' & t' & _ & C2 & _). now rewrite C1, C2, Hc.
Qed.
End Two.

(** ** a cancelled call *)
Lemma scans_only_skipped id s : skipped id s -> scans id s (ScShort []).
Proof. intros H. rewrite <- (app_nil_r s). apply scans_skip; [exact H|]. now apply sc_short. Qed.

Section Cancel.
Variable Sv : Type.
Variable react : Sv -> bytes -> reaction Sv.
Variable E : env.

Lemma cancel_waits fuel R (c : call R) w f w1 : single_reply c -> (length (rx w1) < fuel)%nat ->
  request (exec E fuel c) (cl w) = Some f -> asked react w f w1 ->
  skipped (mid (cl w)) (rx w1) -> tl w1 = Open ->
  run react (exec E fuel c) w = Blocked (leaving w1 []).
Proof.
  intros Hs Hl Hf Ha Hk Ht. destruct (reply_of_single Hs) as [r Hr].
  rewrite (call_asked Hf Ha), (after_recv fuel _ Hr), (run_recv react r (scans_only_skipped Hk) Hl).
  cbn [received]. unfold short_outcome. cbn. now rewrite Ht.
Qed.

Lemma next_mid m : m < 65536 -> (m + 1) mod 65536 <> m.
Proof. clear react E. intros H. destruct (N.eq_dec m 65535) as [->|]; [easy|]. rewrite N.mod_small by lia. lia. Qed.

(** late replies do not disturb the next call *)
Lemma late_skipped id id' ps : late_replies id ps -> id <> id' -> skipped id' (concat (map session_message ps)).
Proof.
  clear react E. intros H Hid. induction H as [|p ps (Hl & code & st & Hp) H IH]; [constructor|]. cbn [map concat].
  econstructor; [exact Hp|exact Hid|exact Hl|exact IH].
Qed.
Lemma cancel_late fuel R2 (c2 : call R2) w f w1 ps b f2 v v' :
  mid (cl w) < 65536 -> asked react w f w1 -> tl w1 = Open -> late_replies (mid (cl w)) ps ->
  request (exec E fuel c2) (cl w1) = Some f2 ->
  asked react (leaving w1 b) f2 v -> asked react (leaving w1 (concat (map session_message ps) ++ b)) f2 v' ->
  (length (rx v') < fuel)%nat ->
  same_but_inserted (mid (cl w1)) (run react (exec E fuel c2) (leaving w1 b))
    (run react (exec E fuel c2) (leaving w1 (concat (map session_message ps) ++ b))).
Proof.
  intros Hm (s0 & i0 & t0 & _ & Hc & _) Ht Hp Hf A1 A2 Hfuel.
  assert (Hid : mid (cl w) <> mid (cl w1)).
  { rewrite Hc. cbn [next_client mid]. intros H. now apply (next_mid Hm). }
  apply (fun H => late_skipped H Hid) in Hp. revert A2 Hp. generalize (concat (map session_message ps)). intros late A2 Hp.
  destruct A1 as (s & inc & t & R1' & C1 & S1 & T1 & D1). destruct A2 as (s' & inc' & t' & R2' & C2 & S2 & T2 & D2).
  cbn [leaving srv cl tl rx tx] in *. rewrite R1' in R2'. injection R2' as <- <- <-.
  rewrite Ht in D1, D2. cbn [deliver] in D1, D2. injection D1 as D1 D1'. injection D2 as D2 D2'.
  eapply (@call_inserted Sv Sv react react E fuel R2 c2 (leaving w1 b) (leaving w1 (late ++ b)) f2 v v'); try reflexivity; auto.
  - exists s, inc, t. cbn [leaving srv cl tl rx tx]. rewrite Ht. cbn [deliver]. rewrite D1, D1'. auto.
  - exists s, inc, t. cbn [leaving srv cl tl rx tx]. rewrite Ht. cbn [deliver]. rewrite D2, D2'. auto.
  - congruence.
  - rewrite D1, D2, <- app_assoc. apply ins_skip; [exact Hp|constructor].
  - assert (D3 : length (rx v') = (length late + length (b ++ inc))%nat) by now rewrite D2, <- app_assoc, app_length.
    rewrite D1. lia.
Qed.
End Cancel.

(** ** refused frames *)
Lemma scans_big id s x y z t rest : skipped id s -> NB_MAX < b2n x * 65536 + b2n y * 256 + b2n z ->
  scans id (s ++ [t; x; y; z] ++ rest) (ScNbError FrameTooBig rest).
Proof.
  intros Hs Hb. apply scans_skip; [exact Hs|]. apply sc_big. cbn [app next_frame].
  destruct (N.ltb_spec NB_MAX (b2n x * 65536 + b2n y * 256 + b2n z)); [reflexivity|lia].
Qed.
Lemma too_big Sv (react : Sv -> bytes -> reaction Sv) E fuel R (c : call R) w f w1 s t x y z rest :
  single_reply c -> (length (rx w1) < fuel)%nat ->
  request (exec E fuel c) (cl w) = Some f -> asked react w f w1 ->
  skipped (mid (cl w)) s -> NB_MAX < b2n x * 65536 + b2n y * 256 + b2n z ->
  rx w1 = s ++ [t; x; y; z] ++ rest ->
  run react (exec E fuel c) w = Done (Bad (ENetBios FrameTooBig)) (leaving w1 rest).
Proof.
  intros Hs Hl Hf Ha Hk Hb Hrx. destruct (reply_of_single Hs) as [r Hr].
  rewrite (call_asked Hf Ha), (after_recv fuel _ Hr).
  pose proof (scans_big (id := mid (cl w)) t rest Hk Hb) as Hsc. rewrite <- Hrx in Hsc.
  now rewrite (run_recv react r Hsc Hl).
Qed.

Lemma kept_inserted id b b' : kept_alive b b' -> inserted id b b'.
Proof.
  induction 1 as [b|b b' H IH|ty p b b' Hp H IH]; [constructor| |now apply ins_frame].
  apply ins_skip; [|exact IH]. rewrite <- (app_nil_r keepalive). repeat constructor.
Qed.
Lemma call_kept_alive S1 S2 (react1 : S1 -> bytes -> reaction S1) (react2 : S2 -> bytes -> reaction S2)
  E fuel R (c : call R) w1 w2 f v1 v2 : cl w1 = cl w2 ->
  request (exec E fuel c) (cl w1) = Some f -> asked react1 w1 f v1 -> asked react2 w2 f v2 ->
  tl v1 = tl v2 -> kept_alive (rx v1) (rx v2) ->
  (length (rx v1) < fuel)%nat -> (length (rx v2) < fuel)%nat ->
  same_but_inserted (mid (cl w1)) (run react1 (exec E fuel c) w1) (run react2 (exec E fuel c) w2).
Proof. intros H1 H2 H3 H4 H5 H6. apply (call_inserted H1 H2 H3 H4 H5). now apply kept_inserted. Qed.
