(** * FaultFacts: what can be wrong with what arrives (C88) *)
From Verif Require Import Base BaseFacts Text Utils Win Errors Info Common Msg Reply Ntlm Prog
  RunFacts Client Spec SpecFacts TextFacts InfoFacts ClientFacts Api MsgFacts SpecReply SpecCrash
  SpecCall ReplyFacts CollectFacts CallFacts FindFacts NoiseFacts LeaveFacts SpecFault.
Set Implicit Arguments.
Unset Strict Implicit.
Open Scope N_scope.

(** ** frames *)
Lemma frame_new_bad ty p e : bad_frame ty p e <->
  (frame_new ty p = Err e \/ (e = UnexpectedFrame /\ exists f, frame_new ty p = Ok f /\ (forall m, f <> FMessage m) /\ f <> FKeepalive)).
Proof.
  unfold frame_new. split.
  - intros [H|H|H].
    + left. cbn [In] in H. repeat match goal with |- context [ty =? ?k] => destruct (N.eqb_spec ty k); [exfalso; lia|] end. reflexivity.
    + left. destruct H as [[[-> | ->] H]|[[-> H]|[-> H]]]; cbn [N.eqb Pos.eqb].
      * destruct (N.eqb_spec (len p) 0); [contradiction|reflexivity].
      * destruct (N.eqb_spec (len p) 0); [contradiction|reflexivity].
      * destruct p as [|x [|y r]]; try reflexivity. exfalso. apply H. reflexivity.
      * destruct (N.eqb_spec (len p) 6); [contradiction|reflexivity].
    + right. split; [reflexivity|]. destruct H as [->|[[-> H]|[[-> H]|[-> H]]]]; cbn [N.eqb Pos.eqb].
      * eexists. split; [reflexivity|]. split; discriminate.
      * rewrite H. eexists. split; [reflexivity|]. split; discriminate.
      * destruct p as [|x [|y r]]; try (rewrite ?len_cons in H; cbn in H; lia). eexists. split; [reflexivity|]. split; discriminate.
      * rewrite H. eexists. split; [reflexivity|]. split; discriminate.
  - destruct (N.eqb_spec ty 0) as [H0|H0]; [|destruct (N.eqb_spec ty 0x81) as [H1|H1]; [|destruct (N.eqb_spec ty 0x82) as [H2|H2];
      [|destruct (N.eqb_spec ty 0x83) as [H3|H3]; [|destruct (N.eqb_spec ty 0x84) as [H4|H4]; [|destruct (N.eqb_spec ty 0x85) as [H5|H5]]]]]].
    + intros [H|(_ & f & H & H' & _)]; [discriminate H|]. injection H as <-. destruct (H' _ eq_refl).
    + intros [H|(-> & _)]; [discriminate H|]. apply bad_place. auto.
    + destruct (N.eqb_spec (len p) 0) as [Hl|Hl]; cbn [negb]; (intros [H|(-> & f & H & _)]; [try discriminate H|try discriminate H]).
      * apply bad_place. auto.
      * injection H as <-. apply bad_length. auto.
    + destruct p as [|x [|y r]]; (intros [H|(-> & f & H & _)]; [try discriminate H|try discriminate H]).
      * injection H as <-. apply bad_length. right. left. split; [exact H3|]. discriminate.
      * apply bad_place. auto.
      * injection H as <-. apply bad_length. right. left. split; [exact H3|]. rewrite !len_cons. lia.
    + destruct (N.eqb_spec (len p) 6) as [Hl|Hl]; cbn [negb]; (intros [H|(-> & f & H & _)]; [try discriminate H|try discriminate H]).
      * apply bad_place. auto.
      * injection H as <-. apply bad_length. auto.
    + destruct (N.eqb_spec (len p) 0) as [Hl|Hl]; cbn [negb]; (intros [H|(-> & f & H & H' & H'')]; [try discriminate H|try discriminate H]).
      * injection H as <-. contradiction.
      * injection H as <-. apply bad_length. auto.
    + intros [H|(_ & f & H & _)]; [|discriminate H]. injection H as <-. apply bad_type. cbn [In]. intros [H|[H|[H|[H|[H|[H|H]]]]]]; congruence.
Qed.
Lemma bad_header_parse p e : bad_header p e <-> info_parse p = Err e.
Proof.
  split.
  - destruct (info_parse_total p) as [(H1 & H)|[(H1 & H2 & H)|[(H1 & H2 & c & H3 & H4 & H)|[(H1 & H2 & (c & H3 & H4) & (f & H5 & H6) & H)|(code & st & m & H)]]]].
    + intros [K|c' K1|c' f' K1]; [exact H|lia|lia].
    + intros [K|c' K1 K2|c' f' K1 K2]; [exact H|contradiction|contradiction].
    + intros [[K|K]|c' K1 K2 K3 K4|c' f' K1 K2 K3 K4]; [lia|contradiction|congruence|]. rewrite H3 in K3. injection K3 as <-. contradiction.
    + intros [[K|K]|c' K1 K2 K3 K4|c' f' K1 K2 K3 K4]; [lia|contradiction| |exact H]. rewrite H3 in K3. injection K3 as <-. contradiction.
    + destruct H as (H1 & H2 & H3 & H4 & _ & (f & H5 & H6) & _).
      intros [[K|K]|c' K1 K2 K3 K4|c' f' K1 K2 K3 K4 K5 K6]; [lia|contradiction| |]; exfalso.
      * rewrite H3 in K3. injection K3 as <-. contradiction.
      * congruence.
  - destruct (info_parse_total p) as [(H1 & H)|[(H1 & H2 & H)|[(H1 & H2 & c & H3 & H4 & H)|[(H1 & H2 & (c & H3 & H4) & (f & H5 & H6) & H)|(code & st & m & H)]]]].
    + rewrite H. intros [= <-]. apply bad_magic. auto.
    + rewrite H. intros [= <-]. apply bad_magic. auto.
    + rewrite H. intros [= <-]. apply bad_command; auto.
    + rewrite H. intros [= <-]. apply bad_direction with c f; auto.
    + apply info_parse_reply in H as (i & -> & _). discriminate.
Qed.

(** ** scans *)
Lemma scans_fun id b r : scans id b r -> forall r', scans id b r' -> r = r'.
Proof.
  induction 1 as [b Hb|b rs Hb|b ty q rs e Hb Hn|b ty q rs r Hb Hn Hr IH
    |b ty q rs fr Hb Hn Hm Hk|b ty q rs m e Hb Hn Hi|b ty q rs m j body Hb Hn Hi Hid
    |b ty q rs m j body r Hb Hn Hi Hid Hr IH]; intros r' H';
  destruct H' as [b' Hb'|b' rs' Hb'|b' ty' q' rs' e' Hb' Hn'|b' ty' q' rs' r' Hb' Hn' Hr'
    |b' ty' q' rs' fr' Hb' Hn' Hm' Hk'|b' ty' q' rs' m' e' Hb' Hn' Hi'|b' ty' q' rs' m' j' body' Hb' Hn' Hi' Hid'
    |b' ty' q' rs' m' j' body' r' Hb' Hn' Hi' Hid' Hr']; rewrite Hb in Hb'; try discriminate Hb';
  try (injection Hb'; clear Hb'; intros; subst); try reflexivity;
  try (rewrite Hn in Hn'; try discriminate Hn'; try (injection Hn'; clear Hn'; intros; subst)); try congruence; auto;
  try (exfalso; eapply Hm; reflexivity); try (exfalso; eapply Hm'; reflexivity);
  rewrite Hi in Hi'; try discriminate Hi'; injection Hi'; intros; subst; try congruence; auto.
Qed.

Lemma fine_ok i code st : cmd_code (i_cmd i) = code -> i_status i = status_of_code st -> (status_ok i = true <-> fine_status code st).
Proof.
  intros Hc Hs. unfold status_ok, fine_status. rewrite Hs.
  assert (K : forall x, status_of_code st = Known x <-> st = nt_code x).
  { intros x. split; [|intros ->; apply status_of_code_known].
    intros H. apply (f_equal status_code) in H. rewrite status_code_of in H. exact H. }
  destruct (status_of_code st) as [x|u] eqn:Ex.
  - pose proof (proj1 (K x) eq_refl) as ->.
    destruct x; cbn [nt_code]; try (split; [easy|intros [H|[_ H]]; discriminate H]).
    + split; auto.
    + rewrite cmd_eqb_eq. split.
      * intros H. right. split; [|reflexivity]. rewrite <- Hc, H. reflexivity.
      * intros [H|[H _]]; [discriminate H|]. apply cmd_code_inj. rewrite Hc, H. reflexivity.
  - split; [easy|]. intros [->|[_ ->]]; discriminate Ex.
Qed.
(** the error of a receiver of the command [want] *)
Definition scan_fault (want : cmd) (sc : scan) : option (error * bytes) :=
  match sc with
  | ScNbError e r => Some (ENetBios e, r)
  | ScSmbError e r => Some (ESmb e, r)
  | ScReply i p r => if cmd_eqb (i_cmd i) want then if status_ok i then None else Some (ServerError (i_status i), r)
                     else Some (UnexpectedReply want (i_cmd i), r)
  | ScShort _ => None
  end.
Lemma next_message' p rest : len p <= NB_MAX -> next_frame (session_message p ++ rest) = NFrame 0 p rest.
Proof. intros H. now apply next_frame_complete. Qed.
Lemma faulty_scans id code want b e rest : faulty id code b e rest -> cmd_code want = code ->
  exists sc, scans id b sc /\ scan_fault want sc = Some (e, rest).
Proof.
  intros H Hw. induction H as [s b e rest Hs _ (sc & H1 & H2)|t x y z rest H|ty p rest e Ht Hl H|p rest e Hl H|p want' got st rest Hl H Hc Hn|p st rest Hl H Hn].
  - exists sc. split; [now apply scans_skip|exact H2].
  - exists (ScNbError FrameTooBig rest). split; [exact (@scans_big id [] x y z t rest (skip_none _) H)|reflexivity].
  - exists (ScNbError e rest). split; [|reflexivity]. apply frame_new_bad in H as [H|(-> & f & H & H' & H'')].
    + eapply sc_bad; [apply next_frame_complete; assumption|exact H].
    + eapply sc_other; [apply next_frame_complete; assumption|exact H|exact H'|exact H''].
  - exists (ScSmbError e rest). split; [|reflexivity]. eapply sc_smb with (m := p); [now apply next_message'|reflexivity|]. now apply bad_header_parse.
  - destruct (info_parse_reply H) as (i & Hi & Hci & Hst & Hm). apply cmd_of_code_inv in Hci. apply cmd_code_inj in Hci.
    exists (ScReply i p rest). split; [eapply sc_reply with (m := p); [now apply next_message'|reflexivity|exact Hi|exact Hm]|].
    cbn [scan_fault]. assert (want' = want) as -> by (apply cmd_code_inj; congruence). rewrite Hci.
    destruct (cmd_eqb got want) eqn:He; [|reflexivity]. apply cmd_eqb_eq in He. congruence.
  - destruct (info_parse_reply H) as (i & Hi & Hci & Hst & Hm). apply cmd_of_code_inv in Hci.
    exists (ScReply i p rest). split; [eapply sc_reply with (m := p); [now apply next_message'|reflexivity|exact Hi|exact Hm]|].
    cbn [scan_fault]. assert (i_cmd i = want) as Hiw by (apply cmd_code_inj; congruence). rewrite Hiw at 1. rewrite cmd_eqb_refl.
    destruct (status_ok i) eqn:Hok; [|rewrite Hst; reflexivity]. apply (fine_ok Hci Hst) in Hok. contradiction.
Qed.
(** one error only *)
Lemma faulty_fun id want b e rest e' rest' : faulty id (cmd_code want) b e rest -> faulty id (cmd_code want) b e' rest' -> e = e' /\ rest = rest'.
Proof.
  intros H H'. destruct (faulty_scans H eq_refl) as (sc & S1 & S2). destruct (faulty_scans H' eq_refl) as (sc' & S1' & S2').
  rewrite (scans_fun S1 S1') in S2. rewrite S2 in S2'. injection S2' as -> ->. auto.
Qed.
(** [b] is used up but for the incomplete [r] *)
Lemma scans_cases id b sc : scans id b sc -> exists s r, skipped id s /\ b = s ++ r /\
  match sc with
  | ScShort l => l = r /\ incomplete r
  | ScNbError e rest => forall code, faulty id code r (ENetBios e) rest
  | ScSmbError e rest => forall code, faulty id code r (ESmb e) rest
  | ScReply i p rest => r = session_message p ++ rest /\ len p <= NB_MAX
      /\ exists st, smb_reply p (cmd_code (i_cmd i)) st id /\ i_status i = status_of_code st
  end.
Proof.
  induction 1 as [b Hb|b rs Hb|b ty q rs e Hb Hn|b ty q rs r Hb Hn Hr IH
    |b ty q rs fr Hb Hn Hm Hk|b ty q rs m e Hb Hn Hi|b ty q rs m j body Hb Hn Hi Hid
    |b ty q rs m j body r Hb Hn Hi Hid Hr IH].
  - exists [], b. split; [constructor|]. split; [reflexivity|]. split; [reflexivity|]. unfold incomplete.
    destruct b as [|t [|x [|y [|z r]]]]; try (left; cbn; lia). right. exists t, x, y, z, r. split; [reflexivity|]. cbn [next_frame] in Hb.
    destruct (N.ltb_spec NB_MAX (b2n x * 65536 + b2n y * 256 + b2n z)); [discriminate Hb|].
    destruct (N.leb_spec (b2n x * 65536 + b2n y * 256 + b2n z) (len r)); [discriminate Hb|]. auto.
  - exists [], b. split; [constructor|]. split; [reflexivity|]. intros code.
    destruct b as [|t [|x [|y [|z r]]]]; try discriminate Hb. cbn [next_frame] in Hb.
    destruct (N.ltb_spec NB_MAX (b2n x * 65536 + b2n y * 256 + b2n z)) as [Hx|Hx].
    + injection Hb as <-. exact (@faulty_big id code t x y z r Hx).
    + destruct (_ <=? _); discriminate Hb.
  - exists [], b. split; [constructor|]. split; [reflexivity|]. intros code. apply next_frame_inv in Hb as (-> & Ht & Hl).
    apply faulty_frame; auto. apply frame_new_bad. auto.
  - destruct IH as (s & r0 & H1 & -> & H2). apply frame_new_keepalive in Hn as [-> ->]. apply next_frame_inv in Hb as (-> & _).
    exists (keepalive ++ s), r0. split; [now constructor|]. split; [unfold keepalive; now rewrite app_assoc|exact H2].
  - exists [], b. split; [constructor|]. split; [reflexivity|]. intros code. apply next_frame_inv in Hb as (-> & Ht & Hl).
    apply faulty_frame; auto. apply frame_new_bad. eauto 6.
  - exists [], b. split; [constructor|]. split; [reflexivity|]. intros code. apply frame_new_message in Hn as [-> ->].
    apply next_frame_inv in Hb as (-> & Ht & Hl). apply faulty_header; [exact Hl|]. now apply bad_header_parse.
  - exists [], b. split; [constructor|]. split; [reflexivity|]. apply frame_new_message in Hn as [-> ->].
    apply next_frame_inv in Hb as (-> & Ht & Hl). split; [reflexivity|]. split; [exact Hl|].
    pose proof (info_parse_ok_fields Hi) as (Hp & _). exists (status_code (i_status j)). rewrite <- Hid. split; [exact Hp|].
    apply info_parse_reply in Hp as (j' & Hj & _ & Hst & _). rewrite Hi in Hj. injection Hj as <- _. exact Hst.
  - destruct IH as (s & r0 & H1 & -> & H2). apply frame_new_message in Hn as [-> ->]. apply next_frame_inv in Hb as (-> & _ & Hl).
    pose proof (info_parse_ok_fields Hi) as (Hp & _).
    exists (session_message q ++ s), r0. split; [econstructor; eauto|]. split; [unfold session_message; now rewrite <- app_assoc|exact H2].
Qed.
Lemma arrival_cases id want b :
  (exists e rest, faulty id (cmd_code want) b e rest)
  \/ (exists s r, skipped id s /\ incomplete r /\ b = s ++ r)
  \/ exists p st rest, reply_arrives id b p rest /\ smb_reply p (cmd_code want) st id /\ fine_status (cmd_code want) st.
Proof.
  destruct (scans_total id b) as [sc Hsc]. destruct (scans_cases Hsc) as (s & r & Hs & -> & H).
  destruct sc as [i p rest|e rest|e rest|l].
  - destruct H as (-> & Hl & st & Hp & Hst). destruct (cmd_eqb (i_cmd i) want) eqn:He.
    + apply cmd_eqb_eq in He. rewrite <- He in *. destruct (status_ok i) eqn:Hok.
      * right. right. exists p, st, rest. split; [exists s; auto|]. split; [exact Hp|]. now apply (fine_ok eq_refl Hst).
      * left. eexists _, rest. apply faulty_skip; [exact Hs|]. eapply faulty_status; eauto. intros K. apply (fine_ok eq_refl Hst) in K. congruence.
    + left. eexists _, rest. apply faulty_skip; [exact Hs|]. eapply faulty_reply with (want := want) (got := i_cmd i); eauto.
      intros ->. rewrite cmd_eqb_refl in He. discriminate He.
  - left. eexists _, rest. apply faulty_skip; [exact Hs|]. apply H.
  - left. eexists _, rest. apply faulty_skip; [exact Hs|]. apply H.
  - right. left. destruct H as [-> H]. eauto.
Qed.
Lemma incomplete_scans id s r : skipped id s -> incomplete r -> scans id (s ++ r) (ScShort r).
Proof.
  intros Hs Hr. apply scans_skip; [exact Hs|]. apply sc_short. destruct Hr as [H|(t & x & y & z & r' & -> & H1 & H2)].
  - destruct r as [|t [|x [|y [|z r]]]]; try reflexivity. rewrite !len_cons in H. lia.
  - cbn [app next_frame]. destruct (N.ltb_spec NB_MAX (b2n x * 65536 + b2n y * 256 + b2n z)); [lia|].
    destruct (N.leb_spec (b2n x * 65536 + b2n y * 256 + b2n z) (len r')); [lia|reflexivity].
Qed.

Section Server.
Variable Sv : Type.
Variable react : Sv -> bytes -> reaction Sv.
Notation run := (run react).
Variable E : env.
Lemma recv_faulty R (r : reply R) id w f e rest : (length (rx w) < f)%nat -> faulty id (cmd_code (r_cmd r)) (rx w) e rest ->
  run (recv f r id) w = Done (Bad e) (leaving w rest).
Proof.
  intros Hf H. destruct (faulty_scans H eq_refl) as (sc & S1 & S2). rewrite (run_recv react r S1 Hf).
  destruct sc as [i p rs|e' rs|e' rs|l]; cbn [scan_fault received] in *; try discriminate S2; [|injection S2 as <- <-; reflexivity|injection S2 as <- <-; reflexivity].
  unfold replied. destruct (cmd_eqb (i_cmd i) (r_cmd r)); cbn [negb]; [destruct (status_ok i); [discriminate S2|]|]; injection S2 as <- <-; reflexivity.
Qed.
Definition cut_outcome {A} (w : world cifs Sv) (o : outcome cifs Sv (ans A)) (r : bytes) : Prop :=
  match tl w with
  | Open => o = Blocked (leaving w [])
  | t => exists e, cut r t e /\ o = Done (Bad (ENetBios e)) (leaving w [])
  end.
Lemma recv_cut R (r : reply R) id w f s b : (length (rx w) < f)%nat -> rx w = s ++ b -> skipped id s -> incomplete b ->
  cut_outcome w (run (recv f r id) w) b.
Proof.
  intros Hf Hx Hs Hb. pose proof (incomplete_scans Hs Hb) as Hsc. rewrite <- Hx in Hsc. rewrite (run_recv react r Hsc Hf). cbn [received].
  unfold short_outcome, cut_outcome. cbn [with_rx tl rx]. destruct (tl w); try reflexivity.
  - destruct (N.ltb_spec (len b) 4); (eexists; split; [|reflexivity]); constructor; assumption.
  - eexists. split; [|reflexivity]. constructor.
Qed.
Lemma call_faulty fuel R (c : call R) w f w1 e rest : (length (rx w1) < fuel)%nat ->
  request (exec E fuel c) (cl w) = Some f -> asked react w f w1 ->
  faulty (mid (cl w)) (opcode c) (rx w1) e rest -> run (exec E fuel c) w = Done (Bad e) (leaving w1 rest).
Proof.
  intros Hl Hr Ha Hx. rewrite (call_asked Hr Ha). destruct (reply_of c) as [r|] eqn:Hrc.
  - rewrite (after_recv fuel _ Hrc). apply recv_faulty; [exact Hl|]. rewrite (reply_of_cmd Hrc). exact Hx.
  - destruct fuel as [|g]; [lia|].
    assert (Hcol : run (collect (S g) (S g) (mid (cl w)) collect2_new) w1 = Done (Bad e) (leaving w1 rest)).
    { cbn [collect]. unfold mbind. rewrite run_bind, (@recv_faulty _ r_trans2 _ _ _ e rest Hl); [reflexivity|].
      destruct c; try discriminate Hrc; exact Hx. }
    destruct c; try discriminate Hrc; cbn [after]; unfold mbind; rewrite run_bind, Hcol; reflexivity.
Qed.
Lemma call_cut fuel R (c : call R) w f w1 s b : (length (rx w1) < fuel)%nat ->
  request (exec E fuel c) (cl w) = Some f -> asked react w f w1 ->
  rx w1 = s ++ b -> skipped (mid (cl w)) s -> incomplete b -> cut_outcome w1 (run (exec E fuel c) w) b.
Proof.
  intros Hl Hr Ha Hx Hs Hb. rewrite (call_asked Hr Ha). destruct (reply_of c) as [r|] eqn:Hrc.
  - rewrite (after_recv fuel _ Hrc). exact (recv_cut r Hl Hx Hs Hb).
  - destruct fuel as [|g]; [lia|]. pose proof (recv_cut r_trans2 Hl Hx Hs Hb) as Hc. unfold cut_outcome in *.
    destruct c; try discriminate Hrc; cbn [after collect]; unfold mbind; rewrite !run_bind;
      (destruct (tl w1); [rewrite Hc; reflexivity| |]; destruct Hc as (e0 & He & Hc); rewrite Hc; exists e0; split; [exact He|reflexivity|exact He|reflexivity]).
Qed.
Lemma find_faulty fuel R (c : call R) w f w1 fs tp td b e rest : ~ single_reply c -> (length (rx w1) < fuel)%nat ->
  request (exec E fuel c) (cl w) = Some f -> asked react w f w1 ->
  fragments_arrive (mid (cl w)) (rx w1) fs b -> collecting fs tp td ->
  faulty (mid (cl w)) 0x32 b e rest -> run (exec E fuel c) w = Done (Bad e) (leaving w1 rest).
Proof.
  intros Hs Hfuel Hf Ha Hfa Hco Hx. pose proof (arrive_length Hfa) as Hlen.
  destruct (find_reads Hs Hfuel Hf Ha Hfa Hco ltac:(lia)) as (k & sub & n & Hsub & Hh & ->).
  rewrite (@recv_faulty _ r_trans2 _ (leaving w1 b) fuel e rest); [reflexivity|cbn [leaving rx]; lia|exact Hx].
Qed.
Lemma find_cut fuel R (c : call R) w f w1 fs tp td b s r : ~ single_reply c -> (length (rx w1) < fuel)%nat ->
  request (exec E fuel c) (cl w) = Some f -> asked react w f w1 ->
  fragments_arrive (mid (cl w)) (rx w1) fs b -> collecting fs tp td ->
  b = s ++ r -> skipped (mid (cl w)) s -> incomplete r -> cut_outcome w1 (run (exec E fuel c) w) r.
Proof.
  intros Hs Hfuel Hf Ha Hfa Hco Hx Hk Hr. pose proof (arrive_length Hfa) as Hlen.
  destruct (find_reads Hs Hfuel Hf Ha Hfa Hco ltac:(lia)) as (k & sub & n & Hsub & Hh & ->).
  assert (Hg : (length (rx (leaving w1 b)) < fuel)%nat) by (cbn [leaving rx]; lia).
  pose proof (@recv_cut _ r_trans2 _ (leaving w1 b) fuel s r Hg Hx Hk Hr) as Hc. unfold cut_outcome in *. cbn [leaving tl] in Hc.
  destruct (tl w1); [rewrite Hc; reflexivity| |]; destruct Hc as (e0 & He & Hc); rewrite Hc; exists e0; (split; [exact He|reflexivity]).
Qed.
End Server.
