(** * WhyFacts: the errors of a call, of the login and of open are those of SpecWhy, and only
    those *)
From Coq Require Import Permutation.
From Verif Require Import Base BaseFacts Text Win Errors Info Common Msg Reply Ntlm Prog Client Spec SpecReply SpecCrash SpecNtlm SpecMsg
  Api SpecCall Flow SpecFacts RunFacts ClientFacts InfoFacts ReplyFacts MsgFacts CollectFacts CallFacts FindFacts AnswerFacts SpecBlame BlameFacts
  SpecFault FaultFacts SizeFacts TransFacts FlowFacts ListFacts RemoteFacts NtlmFacts TextFacts SpecLogin OpenFacts SessionFacts GateFacts SpecWhy.
Open Scope N_scope.
Set Implicit Arguments.

Section Server.
Variable Sv : Type.
Variable react : Sv -> bytes -> reaction Sv.
Notation world := (world cifs Sv).
Notation run := (run react).
Variable E : env.

Lemma search_code R (c : call R) : ~ single_reply c -> opcode c = 0x32.
Proof. destruct c; cbn; tauto. Qed.
Lemma more_fuel fuel n R (c : call R) w x w' : (fuel <= n)%nat -> run (exec E fuel c) w = Done x w' -> run (exec E n c) w = Done x w'.
Proof. intros Hn H. rewrite <- H. apply ple_run; [now apply call_mono|]. intros v Hv. rewrite H in Hv. discriminate Hv. Qed.
Lemma cut_done A (w : world) (o : outcome cifs Sv (ans A)) r e w' : cut_outcome w o r -> o = Done (Bad e) w' ->
  exists x, cut r (tl w) x /\ e = ENetBios x /\ w' = leaving w [].
Proof.
  unfold cut_outcome. destruct (tl w) as [| |x] eqn:Ht.
  - intros -> H. discriminate H.
  - intros (x & Hx & ->) H. injection H as <- <-. eauto.
  - intros (y & Hy & ->) H. injection H as <- <-. eauto.
Qed.
Lemma cut_fun r t e e' : cut r t e -> cut r t e' -> e = e'.
Proof. intros [H|H|x] H'; inversion H'; subst; try lia; reflexivity. Qed.

(** ** the calls *)
Lemma collecting_nil tp td : collecting [] tp td.
Proof.
  split; [constructor|]. split; [constructor|]. split; [constructor|]. intros fs1 fs2 H Hne. destruct fs1; [now contradiction Hne|discriminate H].
Qed.
Lemma collecting_snoc fs g tp td : collecting fs tp td -> f_parameter_total g = tp -> f_data_total g = td ->
  distinct (parameter_pieces (fs ++ [g])) -> distinct (data_pieces (fs ++ [g])) -> ~ enough (fs ++ [g]) tp td ->
  collecting (fs ++ [g]) tp td.
Proof.
  intros (H1 & _ & _ & H4) E1 E2 D1 D2 Hen. split; [apply Forall_app; split; [exact H1|constructor; [auto|constructor]]|].
  split; [exact D1|]. split; [exact D2|]. intros fs1 fs2 H Hne.
  destruct fs2 as [|y fs2 _] using rev_ind.
  - rewrite app_nil_r in H. subst fs1. exact Hen.
  - rewrite app_assoc in H. apply app_inj_tail in H. destruct H as [H _]. eapply H4; eauto.
Qed.
Lemma last_snoc fs g tp td : collecting fs tp td -> last_completes (fs ++ [g]) tp td.
Proof.
  intros (_ & _ & _ & H4) fs1 fs2 H N1 N2. destruct fs2 as [|y fs2 _] using rev_ind; [now contradiction N2|].
  rewrite app_assoc in H. apply app_inj_tail in H. destruct H as [H _]. eapply H4; eauto.
Qed.
Lemma distinct_snoc ps t o d t' : distinct ps -> piece_right ps t o d t' -> distinct (ps ++ [(o, d)]).
Proof.
  unfold distinct, nonempty. intros D [_ H]. rewrite filter_app, map_app. cbn [filter snd].
  destruct (N.eqb_spec (len d) 0) as [Hz|Hz]; cbn [negb map]; [now rewrite app_nil_r|].
  apply Permutation_NoDup with (l := o :: map fst (filter (fun e => negb (len (snd e) =? 0)) ps)); [apply Permutation_cons_append|].
  constructor; [|exact D]. intros Hi. apply in_map_iff in Hi. destruct Hi as ([x d'] & Hx & Hi). cbn [fst] in Hx. subst x.
  apply filter_In in Hi. destruct Hi as [Hi Hn]. cbn [snd] in Hn. destruct H as [->|H]; [now apply Hz|].
  rewrite (H d' Hi) in Hn. discriminate Hn.
Qed.
Lemma enough_dec fs tp td : enough fs tp td \/ ~ enough fs tp td.
Proof. unfold enough. lia. Qed.

(** the message of a search: no fragment, a fragment, or one that crashes the client *)
Lemma piece_or_not p id : smb_reply p 0x32 0 id -> (exists g, fragment_of p g) \/ crash_fragment p \/ (~ crash_fragment p /\ forall g, ~ fragment_of p g).
Proof.
  intros H. assert (Hl : 32 <= len p) by apply H. pose (i := mk_info CTransact2 (status_of_code 0) 0 0 0 0 0 0).
  destruct (reply_parse r_trans2 i (drop 32 p)) as [v|e|] eqn:Hv.
  - left. exists v. now apply (fragment_ok i v Hl).
  - right. right. split; [intros Hc; apply (fragment_panic i Hl) in Hc; congruence|].
    intros g Hg. apply (fragment_ok i g Hl) in Hg. congruence.
  - right. left. now apply (fragment_panic i Hl).
Qed.

Lemma search_why n R (c : call R) w f w1 e w' : ~ single_reply c -> (length (rx w1) < n)%nat ->
  request (exec E n c) (cl w) = Some f -> asked react w f w1 -> run (exec E n c) w = Done (Bad e) w' ->
  forall k fs tp td b, (length b < k)%nat -> fragments_arrive (mid (cl w)) (rx w1) fs b -> collecting fs tp td ->
  fails react E c w e w'.
Proof.
  intros Hs Hn Hf Ha H. assert (Hq : is_request E (cl w) c f) by (exists n; exact Hf).
  induction k as [|k IH]; intros fs tp td b Hk Hfa Hco; [lia|].
  destruct (@arrival_cases (mid (cl w)) CTransact2 b) as [(e0 & rest & Hx)|[(s & r & H1 & H2 & H3)|(p & st & rest & H1 & H2 & H3)]].
  - rewrite (find_faulty Hs Hn Hf Ha Hfa Hco Hx) in H. injection H as <- <-.
    eapply fails_arrival; [exact Hq|exact Ha|right; split; [exact Hs|]; eauto|]. rewrite (search_code c Hs). exact Hx.
  - subst b. pose proof (find_cut Hs Hn Hf Ha Hfa Hco eq_refl H1 H2) as Hc. destruct (cut_done _ _ Hc H) as (x & Hx & -> & ->).
    eapply fails_cut; [exact Hq|exact Ha|right; split; [exact Hs|]; eauto|..]; eauto.
  - assert (st = 0) as -> by (destruct H3 as [H3|[H3 _]]; [exact H3|discriminate H3]). change (cmd_code CTransact2) with 0x32 in H2.
    destruct (piece_or_not H2) as [(g & Hg)|[Hc|[Hc Hno]]].
    + assert (Hstep : exists tp' td', collecting fs tp' td' /\ ((exists x, fs <> [] /\ fragment_wrong fs tp' td' g x)
        \/ (piece_right (parameter_pieces fs) tp' (f_parameter_offset g) (f_parameter g) (f_parameter_total g)
            /\ piece_right (data_pieces fs) td' (f_data_offset g) (f_data g) (f_data_total g)))).
      { destruct fs as [|h fs].
        - exists (f_parameter_total g), (f_data_total g). split; [apply collecting_nil|]. right. cbn.
          split; (split; [reflexivity|]; right; intros d' []).
        - exists tp, td. split; [exact Hco|]. destruct (fragment_cases (h :: fs) tp td g) as [(x & Hx)|Hr]; [left; exists x; split; [discriminate|exact Hx]|right; exact Hr]. }
      clear tp td Hco. destruct Hstep as (tp & td & Hco & [(x & Hne & Hx)|(P1 & P2)]).
      * rewrite (fragment_blame Hs Hn Hf Ha Hfa Hne Hco H1 H2 Hg Hx) in H. injection H as <- <-.
        eapply fails_search; eauto. eapply bad_piece; eauto.
      * pose proof (arrive_snoc Hfa H1 H2 Hg) as Hfa'.
        assert (D1 : distinct (parameter_pieces (fs ++ [g]))).
        { unfold parameter_pieces. rewrite map_app. eapply distinct_snoc; [apply Hco|exact P1]. }
        assert (D2 : distinct (data_pieces (fs ++ [g]))).
        { unfold data_pieces. rewrite map_app. eapply distinct_snoc; [apply Hco|exact P2]. }
        destruct P1 as [T1 _], P2 as [T2 _].
        destruct (enough_dec (fs ++ [g]) tp td) as [Hen|Hen].
        -- assert (Htot : totals (fs ++ [g]) tp td).
           { apply Forall_app. split; [apply Hco|]. constructor; [auto|constructor]. }
           destruct (@blocks_cases (fs ++ [g]) tp td) as [(x & Hx)|(y & z & Hsp & Ly & Lz)]; auto; [now destruct fs|..].
           ++ rewrite (blocks_blame Hs Hn Hf Ha Hfa' Hco T1 T2 D1 D2 Hen Hx) in H. injection H as <- <-.
              eapply fails_search; eauto. eapply bad_blocks; eauto.
           ++ pose proof (@last_snoc fs g tp td Hco) as Hlast. rewrite <- Ly, <- Lz in Hlast.
              destruct (find_is Hs) as [sub Hsub]. pose proof (find_run Hsub Hn Hf Ha Hfa' Hsp Hlast) as Hrun.
              assert (Hcr : ~ find_crashes c y z).
              { intros Hcr. apply (find_panic y z Hsub) in Hcr. rewrite Hcr in Hrun. rewrite Hrun in H. discriminate H. }
              assert (Hno : forall v, ~ found_in c y z v).
              { intros v Hv. apply (find_ok y z v Hsub) in Hv. rewrite Hv in Hrun. rewrite Hrun in H. discriminate H. }
              rewrite (batch_blame Hs Hn Hf Ha Hfa' Hsp Hlast Hcr Hno) in H. injection H as <- <-.
              eapply fails_search; eauto. eapply bad_batch; eauto.
        -- eapply IH; [|exact Hfa'|eapply collecting_snoc; eauto]. pose proof (arrives_len H1). lia.
    + rewrite (find_crashes_fragment Hs Hn Hf Ha Hfa Hco H1 H2 Hc) in H. discriminate H.
    + rewrite (nofragment_blame Hs Hn Hf Ha Hfa Hco H1 H2 Hc Hno) in H. injection H as <- <-.
      eapply fails_search; eauto. eapply no_piece; eauto.
Qed.

Lemma call_why fuel R (c : call R) w e w' : run (exec E fuel c) w = Done (Bad e) w' -> fails react E c w e w'.
Proof.
  intros H. destruct (call_cases react E fuel c w) as [(f & w1 & Hf & Ha & _)|(o & Hu & Ho)].
  - assert (Hq : is_request E (cl w) c f) by (exists fuel; exact Hf).
    set (n := Nat.max fuel (S (length (rx w1)))). assert (Hn : (length (rx w1) < n)%nat) by lia.
    apply (@more_fuel fuel n) in H; [|lia]. rewrite (request_fuel E fuel n c (cl w)) in Hf. clearbody n. clear fuel.
    destruct (single_dec c) as [Hs|Hs].
    + destruct (@arrival_cases (mid (cl w)) (m_cmd (msg_of c)) (rx w1)) as [(e0 & rest & Hx)|[(s & r & H1 & H2 & H3)|(p & st & rest & H1 & H2 & H3)]].
      * rewrite msg_of_cmd in Hx. rewrite (call_faulty Hn Hf Ha Hx) in H. injection H as <- <-.
        eapply fails_arrival; eauto. now left.
      * pose proof (call_cut Hn Hf Ha H3 H1 H2) as Hc. destruct (cut_done _ _ Hc H) as (x & Hx & -> & ->).
        eapply fails_cut; eauto. left. now symmetry.
      * rewrite msg_of_cmd in H2, H3. assert (Hop : op_status c st) by exact H3.
        destruct (reply_of c) as [r|] eqn:Hrc; [|destruct c; cbn in Hs, Hrc; try discriminate Hrc; contradiction].
        destruct (single_replied Hrc Hn Hf Ha H1 H2) as (i & Hi & _ & Hok & Hrun). rewrite (proj2 Hok Hop) in Hrun.
        assert (Hcr : ~ crashes c p).
        { intros Hcr. apply (reply_panic Hrc Hi) in Hcr. rewrite Hcr in Hrun. rewrite Hrun in H. discriminate H. }
        assert (Hno : forall v, ~ decodes c p v).
        { intros v Hv. apply (reply_ok v Hrc Hi) in Hv. rewrite Hv in Hrun. rewrite Hrun in H. discriminate H. }
        assert (Han : answered react E n c w w1 p rest) by (split; [eauto|split; eauto]).
        destruct (single_blame Hs Hn Han Hcr Hno) as (x & Hx & Hb). rewrite Hb in H. injection H as <- <-.
        eapply fails_contents; eauto.
    + eapply search_why with (fs := []) (tp := 0) (td := 0); eauto; [apply no_fragment|apply collecting_nil].
  - rewrite Ho in H. destruct Hu as [H0|H0 H1|e0 H0 H1|b H0 H1 H2|f s n e0 inc t b t' H0 H1 H2]; cbn [gbind obind] in H; try discriminate H.
    + injection H as <- <-. pose proof (body_sized (cl w) c) as Hz. rewrite H1 in Hz. inversion Hz; subst.
      apply fails_unfit; auto. now apply mid_panics_not.
    + exfalso. apply smb_out_len in H1. unfold NB_MAX in H2. lia.
    + injection H as <- <-. eapply fails_write; eauto. exists fuel. rewrite request_exec. exact H0.
Qed.

Lemma cut_outcome_bad A (w : world) (o : outcome cifs Sv (ans A)) r e : cut_outcome w o r -> cut r (tl w) e ->
  o = Done (Bad (ENetBios e)) (leaving w []).
Proof.
  unfold cut_outcome. intros H Hc. destruct (tl w) as [| |x]; [inversion Hc|..]; destruct H as (y & Hy & ->); now rewrite (cut_fun Hc Hy).
Qed.
Lemma why_call R (c : call R) w e w' : fails react E c w e w' -> exists n, forall fuel, (n <= fuel)%nat -> run (exec E fuel c) w = Done (Bad e) w'.
Proof.
  intros H.
  destruct H as [H1 H2 H3|f s n e inc t b t' (f0 & H1) H2 H3|f w1 b e rest (f0 & H1) Ha Hw Hx|f w1 s r e (f0 & H1) Ha Hw Hk Hi Hc
    |f w1 p st rest e (f0 & H1) Ha Hs Hr Hp Ho Hcr Hno Hb|f w1 rest e (f0 & H1) Ha Hs Hw].
  - exists 0%nat. intros fuel _. now apply call_refused.
  - exists 0%nat. intros fuel _. rewrite (request_fuel E f0 fuel c (cl w)) in H1.
    destruct (call_cases react E fuel c w) as [(g & w1 & Hg & (s' & inc' & t'' & Ha & _) & _)|(o & Hu & Ho)].
    + rewrite H1 in Hg. injection Hg as <-. rewrite H2 in Ha. discriminate Ha.
    + rewrite Ho. rewrite request_exec in H1. unfold out_frame in H1.
      destruct Hu as [U0|U0 U1|e0 U0 U1|b0 U0 U1 U2|g s' n' e0 inc' t0 b0 t'' U0 U1 U2].
      * rewrite U0 in H1. discriminate H1.
      * rewrite U0, U1 in H1. discriminate H1.
      * rewrite U0, U1 in H1. discriminate H1.
      * exfalso. apply smb_out_len in U1. unfold NB_MAX in U2. lia.
      * unfold out_frame in U0. rewrite H1 in U0. injection U0 as <-. rewrite H2 in U1. injection U1 as <- <- <- <- <-.
        rewrite H3 in U2. injection U2 as <- <-. reflexivity.
  - exists (S (length (rx w1))). intros fuel Hf. rewrite (request_fuel E f0 fuel c (cl w)) in H1.
    destruct Hw as [->|(Hs & fs & tp & td & Hfa & Hco)]; [eapply call_faulty; eauto; lia|].
    rewrite (search_code c Hs) in Hx. eapply find_faulty; eauto; lia.
  - exists (S (length (rx w1))). intros fuel Hf. rewrite (request_fuel E f0 fuel c (cl w)) in H1.
    apply (@cut_outcome_bad _ w1 _ r); [|exact Hc].
    destruct Hw as [Hw|(Hs & fs & tp & td & Hfa & Hco)]; [eapply call_cut; eauto; lia|].
    eapply find_cut; eauto; lia.
  - exists (S (length (rx w1))). intros fuel Hf. rewrite (request_fuel E f0 fuel c (cl w)) in H1.
    assert (Han : answered react E fuel c w w1 p rest) by (split; [eauto|split; eauto]).
    assert (Hl : (length (rx w1) < fuel)%nat) by lia.
    destruct (single_blame Hs Hl Han Hcr Hno) as (x & Hx & ->). now rewrite (blames_fun Hx Hb).
  - exists (S (length (rx w1))). intros fuel Hf. rewrite (request_fuel E f0 fuel c (cl w)) in H1.
    destruct Hw.
    + eapply nofragment_blame; eauto; lia.
    + eapply fragment_blame; eauto; lia.
    + eapply blocks_blame; eauto; lia.
    + eapply batch_blame; eauto; lia.
Qed.
Theorem call_fails_iff R (c : call R) w e w' : (exists fuel, run (exec E fuel c) w = Done (Bad e) w') <-> fails react E c w e w'.
Proof.
  split; [intros (fuel & H); now apply call_why in H|]. intros H. apply why_call in H. destruct H as (n & H). exists n. now apply H.
Qed.

(** ** the login *)
Lemma gbind_bad A B (o : outcome cifs Sv (ans A)) (f : A -> world -> outcome cifs Sv (ans B)) e w' : gbind o f = Done (Bad e) w' ->
  o = Done (Bad e) w' \/ exists a w1, o = Done (Good a) w1 /\ f a w1 = Done (Bad e) w'.
Proof. unfold gbind. destruct o as [[a|x] w|w|w|w]; cbn [obind]; try discriminate; intros H; [right; eauto|left]. injection H as -> ->. reflexivity. Qed.
Lemma lifted_bad X A (g : X -> error) (r : res X A) (w : world) e w' : lifted g r w = Done (Bad e) w' -> exists x, r = Err x /\ e = g x /\ w' = w.
Proof. destruct r; cbn [lifted]; try discriminate. intros H. injection H as <- <-. eauto. Qed.
Lemma challenge_only m e : challenge_parse m = Err e -> e = InvalidPacket.
Proof.
  rewrite challenge_parse_eq. unfold challenge_tail. cbv zeta.
  repeat first [discriminate | (intros H; injection H as <-; reflexivity) | destruct (_ <? _) | destruct (list_eq_dec _ _ _); cbn [negb]
    | destruct (_ =? _); cbn [negb] | destruct (bytes_at _ _ _)].
  all: destruct (N.testbit _ 0); [destruct (decode_utf16le _) as [t|x|]|destruct (utf8_decode _) as [t|]]; cbn [map_err ok_or rbind];
    first [discriminate | intros H; injection H as <-; reflexivity].
Qed.
Lemma v1_no_error a challenge e : is_str (a_password a) -> ntlmv1_authenticate E (X := ntlm_error) a challenge <> Err e.
Proof.
  intros Hp H. destruct (N.eq_dec (len challenge) 8) as [Hl|Hl].
  - destruct (v1_exists E challenge Hp) as (nt & Hn). apply v1_good in Hn; auto. congruence.
  - apply (v1_crash E a) in Hl. congruence.
Qed.
Lemma encoded_inv u s b : oem_or_wide u s b -> b = encoded u s.
Proof. unfold oem_or_wide, encoded. destruct u; intros H; [now apply utf16le_of_encode in H|now apply utf8_of_inv in H]. Qed.
Lemma names_iff a : typed_auth a -> (names_too_long a <-> exists e, init_msg (a_domain a) (a_workstation a) = Err e).
Proof.
  intros (Tu & Tw & Td & Tp). split.
  - intros (d & w & Hd & Hw & H). exists InputParameter. apply init_too_long. apply utf8_of_inv in Hd, Hw. destruct Hd as [_ ->], Hw as [_ ->]. exact H.
  - intros (e & H). exists (utf8 (a_domain a)), (utf8 (a_workstation a)). split; [now apply utf8_of_utf8, is_text_str|]. split; [now apply utf8_of_utf8, is_text_str|].
    destruct (N.ltb_spec (len (utf8 (a_domain a))) 65536) as [L1|L1]; [|now left].
    destruct (N.ltb_spec (len (utf8 (a_workstation a))) 65536) as [L2|L2]; [|now right].
    destruct (init_fits L1 L2) as (m & Hm). congruence.
Qed.
Lemma names_error a e : init_msg (a_domain a) (a_workstation a) = Err e -> e = InputParameter.
Proof.
  intros H. destruct (N.ltb_spec (len (utf8 (a_domain a))) 65536) as [L1|L1];
    [|rewrite (@init_too_long (a_domain a) (a_workstation a) (or_introl L1)) in H; injection H as <-; reflexivity].
  destruct (N.ltb_spec (len (utf8 (a_workstation a))) 65536) as [L2|L2];
    [|rewrite (@init_too_long (a_domain a) (a_workstation a) (or_intror L2)) in H; injection H as <-; reflexivity].
  destruct (init_fits L1 L2) as (m & Hm). congruence.
Qed.
Lemma response_iff a ch t : typed_auth a -> clock E t -> (response_too_long a ch <-> exists e, challenge_response E ch a = Err e).
Proof.
  intros (Tu & Tw & Td & Tp) Ht. unfold response_too_long. cbv zeta. set (u := N.testbit (ch_flags ch) 0). split.
  - intros (d & n & w & Hd & Hn & Hw & H). exists InputParameter. apply encoded_inv in Hd, Hn, Hw. subst.
    apply (authenticate_too_long (t := t)); [exact Ht|]. cbv zeta. fold u. lia.
  - intros (e & H). exists (encoded u (a_domain a)), (encoded u (a_user a)), (encoded u (a_workstation a)).
    split; [now apply encoded_ok|]. split; [now apply encoded_ok|]. split; [now apply encoded_ok|].
    destruct (N.ltb_spec (len (ch_info ch)) 65488) as [L1|L1]; [|left; lia]. right.
    destruct (N.ltb_spec (len (encoded u (a_domain a))) 65536) as [L2|L2]; [|now left].
    destruct (N.ltb_spec (len (encoded u (a_user a))) 65536) as [L3|L3]; [|right; now left].
    destruct (N.ltb_spec (len (encoded u (a_workstation a))) 65536) as [L4|L4]; [|right; now right].
    destruct (authenticate_fits (E := E) (a := a) (c := ch) (t := t) Ht L1 L2 L3 L4) as (m & Hm). congruence.
Qed.
Lemma response_error a ch t e : typed_auth a -> clock E t -> challenge_response E ch a = Err e -> e = InputParameter.
Proof.
  intros Ta Ht H. destruct (proj2 (@response_iff a ch t Ta Ht)) as (d & n & w & Hd & Hn & Hw & Hl); [eauto|].
  apply encoded_inv in Hd, Hn, Hw. subst. rewrite (authenticate_too_long (t := t)) in H; [injection H as <-; reflexivity|exact Ht|cbv zeta; lia].
Qed.

Lemma login_why fuel t w e w' : typed_auth (auth_of (cl w)) -> clock E t ->
  run (setup_connection E fuel) w = Done (Bad e) w' -> login_fails react E t w e w'.
Proof.
  intros Ta Ht H. rewrite setup_run in H. apply gbind_bad in H. destruct H as [H|(s & w1 & H1 & H)]; [left; now apply call_why in H|right].
  apply exchange_good in H1; [|exact I]. destruct H1 as (p & st & H1). pose proof (exchange_client H1) as Hc.
  assert (st = 0).
  { destruct H1 as (? & ? & _ & _ & _ & _ & [->|[Hx _]] & _); [reflexivity|]. discriminate Hx. }
  subst st. cbv zeta in H. cbn [adopt set_options cl auth_of] in H.
  assert (Ha : auth_of (cl w1) = auth_of (cl w)) by now rewrite Hc. rewrite Ha in H. set (a := auth_of (cl w)) in *.
  exists p, s, w1. split; [exact H1|]. cbv zeta. set (w2 := adopt _ w1) in *. destruct (N.testbit (s_capabilities s) 31).
  - unfold v2_run in H. apply gbind_bad in H. destruct H as [H|(m1 & v & Hm & H)].
    { apply lifted_bad in H. destruct H as (x & Hx & -> & ->). pose proof (@names_error a _ Hx) as ->.
      apply v2_names. apply names_iff; eauto. }
    apply lifted_done in Hm. destruct Hm as [Hm ->].
    assert (Hm1 : negotiate_message (a_domain a) (a_workstation a) m1) by (destruct Ta as (Tu & Tw & Td & Tp); now apply init_good).
    apply gbind_bad in H. destruct H as [H|(r & w3 & H2 & H)]; [eapply v2_first; [exact Hm1|]; now apply call_why in H|].
    apply exchange_good in H2; [|exact I]. destruct H2 as (p2 & st2 & H2).
    apply gbind_bad in H. destruct H as [H|(ch & v & Hch & H)].
    { apply lifted_bad in H. destruct H as (x & Hx & -> & ->). pose proof (challenge_only _ Hx) as ->.
      eapply v2_challenge; eauto.
      - intros Hcr. apply challenge_crash in Hcr. congruence.
      - intros ch Hch. apply challenge_ok in Hch. congruence. }
    apply lifted_done in Hch. destruct Hch as [Hch ->]. apply challenge_ok in Hch.
    apply gbind_bad in H. destruct H as [H|(m3 & v & Hm3 & H)].
    { apply lifted_bad in H. destruct H as (x & Hx & -> & ->). pose proof (@response_error _ _ _ _ Ta Ht Hx) as ->.
      eapply v2_size; eauto. eapply response_iff; eauto. }
    apply lifted_done in Hm3. destruct Hm3 as [Hm3 ->]. apply (authenticate_iff (t := t) ch m3 Ta Ht) in Hm3. destruct Hm3 as (nt & Hn & Hm3).
    apply gbind_bad in H. destruct H as [H|(r3 & w4 & _ & H)]; [|discriminate H].
    apply call_why in H. eapply v2_second; eauto.
  - unfold v1_run in H. apply gbind_bad in H. destruct H as [H|(nt & v & Hn & H)].
    { exfalso. apply lifted_bad in H. destruct H as (x & Hx & -> & ->). revert Hx. apply v1_no_error, Ta. }
    apply lifted_done in Hn. destruct Hn as [Hn ->].
    apply gbind_bad in H. destruct H as [H|(r & w3 & _ & H)]; [|discriminate H].
    exists nt. assert (Hl : len (s_challenge s) = 8).
    { destruct (N.eq_dec (len (s_challenge s)) 8) as [Hl|Hl]; [exact Hl|]. apply (v1_crash E a) in Hl. congruence. }
    split; [exact Hl|]. destruct Ta as (Tu & Tw & Td & Tp). split; [now apply v1_good in Hn|]. now apply call_why in H.
Qed.
Lemma why_login t w e w' : typed_auth (auth_of (cl w)) -> clock E t -> login_fails react E t w e w' ->
  exists n, forall fuel, (n <= fuel)%nat -> run (setup_connection E fuel) w = Done (Bad e) w'.
Proof.
  intros Ta Ht [H|(p & s & w1 & H1 & H)].
  { apply why_call in H. destruct H as (n & H). exists n. intros fuel Hf. rewrite setup_run, H by exact Hf. reflexivity. }
  pose proof (exchange_client H1) as Hc.
  assert (Ha : auth_of (cl w1) = auth_of (cl w)) by now rewrite Hc. 
  destruct (exchange_returns (c := Negotiate) I H1) as [f1 R1]. cbv zeta in H.
  set (w2 := adopt _ w1) in H. set (a := auth_of (cl w)) in *.
  assert (G : (exists n, forall fuel, (n <= fuel)%nat -> (if N.testbit (s_capabilities s) 31 then v2_run react E fuel a w2 else v1_run react E fuel a (s_challenge s) w2) = Done (Bad e) w')).
  2:{ destruct G as (n & G). exists (Nat.max f1 n). intros fuel Hf. rewrite setup_run, R1 by lia. cbn [gbind obind]. cbv zeta. fold w2.
      change (auth_of (cl w2)) with (auth_of (cl w1)). rewrite Ha. apply G. lia. }
  clear R1 f1. destruct (N.testbit (s_capabilities s) 31).
  - assert (Hi : forall m1, negotiate_message (a_domain a) (a_workstation a) m1 -> init_msg (a_domain a) (a_workstation a) = Ok m1)
      by (intros m1 Hm; now apply init_complete).
    assert (Hr : forall ch nt m3, v2_response E (a_password a) (a_user a) (a_domain a) t (ch_challenge ch) (ch_info ch) nt ->
      authenticate_message (N.testbit (ch_flags ch) 0) (a_domain a) (a_user a) (a_workstation a) nt m3 -> challenge_response E ch a = Ok m3)
      by (intros ch nt m3 Hn Hm; apply (authenticate_iff ch m3 Ta Ht); eauto).
    unfold v2_run. destruct H as [Hl|m1 e w' Hm Hx|m1 p1 st r v1 Hm Hx Hcr Hno|m1 p1 st r v1 ch Hm Hx Hch Hl|m1 p1 st r v1 ch nt m3 e w' Hm Hx Hch Hn Hm3 Hz].
    + exists 0%nat. intros fuel _. apply names_iff in Hl; [|exact Ta]. destruct Hl as (x & Hl). pose proof (@names_error a _ Hl) as ->. rewrite Hl. reflexivity.
    + apply why_call in Hx. destruct Hx as (n & Hx). exists n. intros fuel Hf. rewrite (Hi _ Hm). cbn [lifted gbind obind]. rewrite Hx by exact Hf. reflexivity.
    + destruct (exchange_returns (c := SetupBlob m1) I Hx) as [n R2]. exists n. intros fuel Hf. rewrite (Hi _ Hm). cbn [lifted gbind obind]. rewrite R2 by exact Hf.
      cbn [gbind obind]. destruct (challenge_parse (ss_blob r)) as [ch|x|] eqn:Hp; [apply challenge_ok, Hno in Hp; contradiction| |apply challenge_crash in Hp; contradiction].
      rewrite (challenge_only _ Hp). reflexivity.
    + destruct (exchange_returns (c := SetupBlob m1) I Hx) as [n R2]. exists n. intros fuel Hf. rewrite (Hi _ Hm). cbn [lifted gbind obind]. rewrite R2 by exact Hf.
      cbn [gbind obind]. apply challenge_ok in Hch. rewrite Hch. cbn [lifted gbind obind].
      apply (@response_iff a ch t Ta Ht) in Hl. destruct Hl as (x & Hl). pose proof (@response_error _ _ _ _ Ta Ht Hl) as ->. rewrite Hl. reflexivity.
    + destruct (exchange_returns (c := SetupBlob m1) I Hx) as [n R2]. apply why_call in Hz. destruct Hz as (n' & Hz).
      exists (Nat.max n n'). intros fuel Hf. rewrite (Hi _ Hm). cbn [lifted gbind obind]. rewrite R2 by lia.
      cbn [gbind obind]. apply challenge_ok in Hch. rewrite Hch. cbn [lifted gbind obind]. rewrite (Hr _ _ _ Hn Hm3). cbn [lifted gbind obind].
      rewrite Hz by lia. reflexivity.
  - destruct H as (nt & Hl & Hn & Hx). apply why_call in Hx. destruct Hx as (n & Hx). exists n. intros fuel Hf. unfold v1_run.
    destruct Ta as (Tu & Tw & Td & Tp). apply v1_good in Hn; auto. rewrite Hn. cbn [lifted gbind obind]. rewrite Hx by exact Hf. reflexivity.
Qed.
Theorem login_fails_iff t w e w' : typed_auth (auth_of (cl w)) -> clock E t ->
  ((exists fuel, run (setup_connection E fuel) w = Done (Bad e) w') <-> login_fails react E t w e w').
Proof.
  intros Ta Ht. split; [intros (fuel & H); now apply (login_why _ _ Ta Ht) in H|]. intros H. apply why_login in H; auto. destruct H as (n & H). exists n. now apply H.
Qed.

(** ** the session request *)
Lemma next_cases b : match next_frame b with
  | NFrame ty p rest => b = nb_frame ty p ++ rest /\ ty < 256 /\ len p <= NB_MAX
  | NTooBig rest => exists t x y z, b = [t; x; y; z] ++ rest /\ NB_MAX < b2n x * 65536 + b2n y * 256 + b2n z
  | NShort => incomplete b end.
Proof.
  destruct (next_frame b) as [ty p rest|rest|] eqn:H.
  - apply next_frame_inv in H. tauto.
  - destruct b as [|t [|x [|y [|z r]]]]; try discriminate H. cbn [next_frame] in H.
    destruct (N.ltb_spec NB_MAX (b2n x * 65536 + b2n y * 256 + b2n z)) as [L|L].
    + injection H as <-. exists t, x, y, z. auto.
    + destruct (_ <=? _); discriminate H.
  - destruct b as [|t [|x [|y [|z r]]]]; try (left; rewrite ?len_cons; change (len (@nil byte)) with 0; lia). cbn [next_frame] in H.
    destruct (N.ltb_spec NB_MAX (b2n x * 65536 + b2n y * 256 + b2n z)) as [L|L]; [discriminate H|].
    destruct (N.leb_spec (b2n x * 65536 + b2n y * 256 + b2n z) (len r)); [discriminate H|]. right. exists t, x, y, z, r. auto.
Qed.
Lemma next_incomplete b : incomplete b -> next_frame b = NShort.
Proof.
  intros [H|(t & x & y & z & r' & -> & H1 & H2)].
  - destruct b as [|t [|x [|y [|z r]]]]; try reflexivity. rewrite !len_cons in H. lia.
  - cbn [app next_frame]. destruct (N.ltb_spec NB_MAX (b2n x * 65536 + b2n y * 256 + b2n z)); [lia|].
    destruct (N.leb_spec (b2n x * 65536 + b2n y * 256 + b2n z) (len r')); [lia|reflexivity].
Qed.
Lemma frame_kinds ty p : match frame_new ty p with
  | Ok FPositiveResponse => ty = 0x82 /\ p = []
  | Ok (FNegativeResponse c) => ty = 0x83 /\ exists x, p = [x] /\ c = b2n x
  | Ok _ => ty = 0x00 \/ ty = 0x81 \/ (ty = 0x84 /\ len p = 6) \/ (ty = 0x85 /\ len p = 0)
  | Err e => bad_frame ty p e /\ e <> UnexpectedFrame
  | Panic => False end.
Proof.
  destruct (frame_new ty p) as [f|e|] eqn:Hf.
  - revert Hf. unfold frame_new. 
    destruct (N.eqb_spec ty 0x00) as [->|_]; [|
    destruct (N.eqb_spec ty 0x81) as [->|_]; [|
    destruct (N.eqb_spec ty 0x82) as [->|_]; [|
    destruct (N.eqb_spec ty 0x83) as [->|_]; [|
    destruct (N.eqb_spec ty 0x84) as [->|_]; [|
    destruct (N.eqb_spec ty 0x85) as [->|_]; [|discriminate]]]]]].
    + intros H. injection H as <-. auto.
    + intros H. injection H as <-. auto.
    + destruct (N.eqb_spec (len p) 0) as [Hl|]; cbn [negb]; intros H; [|discriminate H]. injection H as <-. split; [reflexivity|now apply len_0].
    + destruct p as [|x [|]]; intros H; try discriminate H. injection H as <-. split; [reflexivity|]. eauto.
    + destruct (N.eqb_spec (len p) 6) as [Hl|]; cbn [negb]; intros H; [|discriminate H]. injection H as <-. auto.
    + destruct (N.eqb_spec (len p) 0) as [Hl|]; cbn [negb]; intros H; [|discriminate H]. injection H as <-. auto.
  - split; [apply frame_new_bad; now left|]. intros ->. revert Hf. unfold frame_new. 
    repeat (destruct (ty =? _)); try discriminate; try (destruct (negb _); discriminate). destruct p as [|x [|]]; discriminate.
  - revert Hf. unfold frame_new. 
    repeat (destruct (ty =? _)); try discriminate; try (destruct (negb _); discriminate). destruct p as [|x [|]]; discriminate.
Qed.
Lemma session_write_out src w f s n e inc t b t' : session_request smb_server src f ->
  react (srv w) f = Refuse s n e inc t -> deliver (tl w) (rx w) inc t = (b, t') ->
  run (create_session smb_server src) w = Done (Bad (ENetBios (IoError (IoOther e)))) (mk_world (cl w) s b t' (tx w ++ [take n f])).
Proof.
  intros Hf H Hd. rewrite (session_request_fun Hf (session_request_ok _ _)) in *.
  unfold create_session. fold (session_payload smb_server src). cbv zeta. rewrite run_mbind. unfold nb_send.
  rewrite session_encode. cbn [lift]. rewrite run_mbind, run_ret. cbn [gbind obind]. unfold write_exactly. cbn [run].
  rewrite H, Hd. cbn [gbind obind run fail]. reflexivity.
Qed.
Theorem session_fails_iff src w e w' : run (create_session smb_server src) w = Done (Bad e) w' <-> session_fails react src w e w'.
Proof.
  pose proof (session_request_ok smb_server src) as Hf. split.
  - destruct (react (srv w) (nb_frame 0x81 (session_payload smb_server src))) as [s inc t|s n x inc t] eqn:Hr.
    + destruct (deliver (tl w) (rx w) inc t) as [b t'] eqn:Hd.
      set (w1 := mk_world (cl w) s b t' (tx w ++ [nb_frame 0x81 (session_payload smb_server src)])).
      assert (Ha : session_asked react w (nb_frame 0x81 (session_payload smb_server src)) w1). { exists s, inc, t. cbn. auto. }
      clearbody w1. rewrite (session_accepted Ha), run_nb_recv. pose proof (next_cases (rx w1)) as Hn.
      destruct (next_frame (rx w1)) as [ty p rest|rest|].
      * destruct Hn as (Hx & Ht & Hl). pose proof (frame_kinds ty p) as Hk.
        destruct (frame_new ty p) as [[m|m| |c| |]|x|]; cbn [lifted gbind obind]; intros H; try discriminate H; injection H as <- <-;
          (eapply session_arrival with (w1 := w1); [exact Hf|exact Ha|]); rewrite Hx.
        -- now apply session_other.
        -- now apply session_other.
        -- destruct Hk as (-> & x & -> & ->). apply session_no.
        -- now apply session_other.
        -- now apply session_other.
        -- destruct Hk as [Hk Hu]. now apply session_frame.
      * destruct Hn as (t0 & x & y & z & Hx & Hb). cbn [gbind obind]. intros H. injection H as <- <-.
        eapply session_arrival with (w1 := w1); [exact Hf|exact Ha|]. rewrite Hx. now apply session_big.
      * unfold short_outcome. intros H.
        assert (exists x, cut (rx w1) (tl w1) x /\ e = ENetBios x /\ w' = leaving w1 []) as (x & Hx & -> & ->).
        { destruct (tl w1) as [| |x]; cbn [gbind obind] in H; try discriminate H; injection H as <- <-;
            [destruct (N.ltb_spec (len (rx w1)) 4)|]; eexists; (split; [|split; reflexivity]); now constructor. }
        eapply session_cut; eauto.
    + destruct (deliver (tl w) (rx w) inc t) as [b t'] eqn:Hd. rewrite (@session_write_out _ _ _ _ _ _ _ _ _ _ Hf Hr Hd).
      intros H. injection H as <- <-. eapply session_write; eauto.
  - intros [f s n x inc t b t' H1 H2 H3|f w1 x rest H1 H2 H3|f w1 x H1 H2 H3 H4].
    + eapply session_write_out; eauto.
    + rewrite (session_request_fun H1 Hf) in H2. rewrite (session_accepted H2), run_nb_recv.
      destruct H3 as [t x y z rest H|ty p rest x H4 H5 H6 H7|code rest|ty p rest H4 H5].
      * cbn [app next_frame]. destruct (N.ltb_spec NB_MAX (b2n x * 65536 + b2n y * 256 + b2n z)); [reflexivity|lia].
      * rewrite next_frame_complete by auto. apply frame_new_bad in H6. destruct H6 as [->|[Hu _]]; [reflexivity|contradiction].
      * rewrite next_frame_complete; [reflexivity|lia|]. change (len [code]) with 1. unfold NB_MAX. lia.
      * rewrite next_frame_complete by (auto; lia). pose proof (frame_kinds ty p) as Hk.
        destruct (frame_new ty p) as [[m|m| |c| |]|y|]; try reflexivity; exfalso.
        -- destruct Hk as [-> ->]. lia.
        -- lia.
        -- destruct Hk as [Hk Hu]. destruct Hk as [Hk|Hk|Hk]; [apply Hk; cbn [In]; lia|lia|now apply Hu].
        -- exact Hk.
    + rewrite (session_request_fun H1 Hf) in H2. rewrite (session_accepted H2), run_nb_recv, (next_incomplete H3).
      unfold short_outcome. destruct H4 as [H4|H4|y]; cbn [gbind obind]; [| |reflexivity];
        destruct (N.ltb_spec (len (rx w1)) 4); (reflexivity || lia).
Qed.

(** ** open *)
Variable net : N -> connection Sv.
Notation opens := (open E Sv net react).
Lemma on_inj (x y : outcome cifs Sv (ans unit)) : OnStream x = OnStream y -> x = y.
Proof. congruence. Qed.
Lemma starts_start maybe st w : starts maybe st w <-> w = start Sv (credentials maybe) st.
Proof.
  split.
  - intros (((H1 & H2 & H3 & H4) & H5 & H6 & H7 & H8) & H9). destruct w as [[a m u i k] s b t x]. cbn in *. subst. reflexivity.
  - intros ->. split; [apply start_begins|reflexivity].
Qed.
Theorem open_fails_iff maybe t port e : typed_auth (credentials maybe) -> clock E t ->
  ((exists fuel, failed (snd (opens fuel port maybe)) e) <-> open_fails react E net maybe t port e).
Proof.
  intros Ta Ht.
  assert (L : forall w, auth_of (cl w) = credentials maybe ->
    ((exists fuel w', run (setup_connection E fuel) w = Done (Bad e) w') <-> exists w', login_fails react E t w e w')).
  { intros w Hw. rewrite <- Hw in Ta. split.
    - intros (fuel & w' & H). exists w'. apply (login_fails_iff w e w' Ta Ht). eauto.
    - intros (w' & H). apply (login_fails_iff w e w' Ta Ht) in H. destruct H as (fuel & H). eauto. }
  assert (M : forall st, (exists fuel, failed (OnStream (run (setup_connection E fuel) (start Sv (credentials maybe) st))) e)
    <-> exists w w', starts maybe st w /\ login_fails react E t w e w').
  { intros st. split.
    - intros (fuel & [H|(w' & H)]); [discriminate H|]. apply on_inj in H. destruct (proj1 (L (start Sv (credentials maybe) st) eq_refl)) as (v & Hv); [eauto|].
      exists (start Sv (credentials maybe) st), v. split; [now apply starts_start|exact Hv].
    - intros (w & w' & Hw & H). apply starts_start in Hw. subst w. destruct (proj2 (L (start Sv (credentials maybe) st) eq_refl)) as (fuel & v & Hv); [eauto|].
      exists fuel. right. exists v. now rewrite Hv. }
  unfold open. change (match maybe with Some a => a | None => default_auth end) with (credentials maybe). change SMBSERVER with smb_server.
  destruct port as [p|]; cbn [snd].
  - destruct (net p) as [st|x] eqn:Hp.
    + rewrite M. split.
      * intros (w & w' & Hw & H). eapply open_login; eauto.
      * intros H. inversion H; subst; [congruence|]. assert (st0 = st) by congruence. subst. eauto.
    + split.
      * intros (fuel & [H|(w' & H)]); [|discriminate H]. injection H as <-. now apply open_unreachable.
      * intros H. exists 0%nat. left. inversion H; subst; congruence.
  - destruct (net 445) as [st|x] eqn:Hp; cbn [snd].
    + rewrite M. split.
      * intros (w & w' & Hw & H). eapply open_default; eauto.
      * intros H. inversion H; subst; try congruence. assert (st0 = st) by congruence. subst. eauto.
    + destruct (net 139) as [st|y] eqn:Hq.
      * set (w0 := start Sv (credentials maybe) st) in *.
        assert (Hw0 : starts maybe st w0) by now apply starts_start. split.
        -- intros (fuel & [H|(w' & H)]); [discriminate H|]. apply on_inj in H. rewrite run_mbind in H. apply gbind_bad in H.
           destruct H as [H|([] & w1 & H1 & H)].
           ++ apply session_fails_iff in H. eapply open_no_session; eauto.
           ++ destruct (session_cases react (a_workstation (credentials maybe)) w0) as (f & Hf & [(w2 & rest & H2 & H3 & H4)|(H2 & _)]);
                [|exfalso; eapply H2; exact H1]. rewrite H1 in H4. injection H4 as ->.
              assert (Hcr : auth_of (cl (leaving w2 rest)) = credentials maybe).
              { cbn [leaving cl]. destruct H2 as (? & ? & ? & _ & -> & _). reflexivity. }
              destruct (proj1 (L (leaving w2 rest) Hcr)) as (v & Hv); [eauto|].
              eapply open_second; eauto.
        -- intros H. inversion H as [| | | |x' st' w e' w' N1 N2 Hw Hs|x' st' w f w1 rest e' w' N1 N2 Hw Hf Ha Hx Hl]; subst; try congruence.
           ++ assert (st' = st) by congruence. subst st'. apply starts_start in Hw. subst w. fold w0 in Hs.
              exists 0%nat. right. exists w'. rewrite run_mbind. apply session_fails_iff in Hs. now rewrite Hs.
           ++ assert (st' = st) by congruence. subst st'. apply starts_start in Hw. subst w. fold w0 in Ha.
              assert (Hcr : auth_of (cl (leaving w1 rest)) = credentials maybe).
              { cbn [leaving cl]. destruct Ha as (? & ? & ? & _ & -> & _). reflexivity. }
              destruct (proj2 (L (leaving w1 rest) Hcr)) as (fuel & v & Hv); [eauto|].
              exists fuel. right. exists v. rewrite run_mbind, (session_positive Hf Ha Hx). cbn [gbind obind]. now rewrite Hv.
      * split.
        -- intros (fuel & [H|(w' & H)]); [|discriminate H]. injection H as <-. eapply open_neither; eauto.
        -- intros H. exists 0%nat. left. inversion H; subst; congruence.
Qed.
(** ** one error only *)
Lemma fails_one R (c : call R) w e w1 e' w2 : fails react E c w e w1 -> fails react E c w e' w2 -> e = e' /\ w1 = w2.
Proof.
  intros H H'. apply why_call in H, H'. destruct H as (n & H), H' as (n' & H'). specialize (H (Nat.max n n') ltac:(lia)).
  specialize (H' (Nat.max n n') ltac:(lia)). rewrite H in H'. injection H' as <- <-. auto.
Qed.
Lemma fails_not_good fuel R (c : call R) w e w1 v w2 : fails react E c w e w1 -> run (exec E fuel c) w <> Done (Good v) w2.
Proof.
  intros H H'. apply why_call in H. destruct H as (n & H). specialize (H (Nat.max n fuel) ltac:(lia)).
  apply (@more_fuel fuel (Nat.max n fuel)) in H'; [|lia]. congruence.
Qed.
Lemma login_fails_one t w e w1 e' w2 : typed_auth (auth_of (cl w)) -> clock E t ->
  login_fails react E t w e w1 -> login_fails react E t w e' w2 -> e = e' /\ w1 = w2.
Proof.
  intros Ta Ht H H'. apply why_login in H, H'; auto. destruct H as (n & H), H' as (n' & H'). specialize (H (Nat.max n n') ltac:(lia)).
  specialize (H' (Nat.max n n') ltac:(lia)). rewrite H in H'. injection H' as <- <-. auto.
Qed.
Lemma open_fails_one maybe t port e e' : typed_auth (credentials maybe) -> clock E t ->
  open_fails react E net maybe t port e -> open_fails react E net maybe t port e' -> e = e'.
Proof.
  intros Ta Ht H H'.
  assert (L : forall st w1 w2 e1 e2 v1 v2, starts maybe st w1 -> starts maybe st w2 ->
    login_fails react E t w1 e1 v1 -> login_fails react E t w2 e2 v2 -> e1 = e2).
  { intros st w1 w2 e1 e2 v1 v2 H1 H2 L1 L2. apply starts_start in H1, H2. subst.
    exact (proj1 (@login_fails_one t (start Sv (credentials maybe) st) _ _ _ _ Ta Ht L1 L2)). }
  destruct H as [p x Hp|p st w x w' Hp Hw Hl|st w x w' Hp Hw Hl|y x Hp Hq|y st w x w' Hp Hq Hw Hs|y st w f w1 rest x w' Hp Hq Hw Hf Ha Hx Hl];
    inversion H'; subst; try congruence;
    repeat match goal with A : ?n = Connected ?s, B : ?n = Connected ?s' |- _ => assert (s' = s) by congruence; subst s'; clear B end; eauto.
  - apply starts_start in Hw. match goal with A : starts _ _ _ |- _ => apply starts_start in A end. subst.
    apply session_fails_iff in Hs. match goal with A : session_fails _ _ _ _ _ |- _ => apply session_fails_iff in A end. congruence.
  - exfalso. apply starts_start in Hw. match goal with A : starts _ _ _ |- _ => apply starts_start in A end. subst.
    apply session_fails_iff in Hs. match goal with A : session_request _ _ _, B : session_asked _ _ _ _, C : rx _ = _ |- _ => pose proof (session_positive A B C) end.
    congruence.
  - exfalso. apply starts_start in Hw. match goal with A : starts _ _ _ |- _ => apply starts_start in A end. subst.
    match goal with A : session_fails _ _ _ _ _ |- _ => apply session_fails_iff in A end.
    pose proof (session_positive Hf Ha Hx). congruence.
  - apply starts_start in Hw. match goal with A : starts _ _ _ |- _ => apply starts_start in A end. subst.
    match goal with A : session_request _ _ ?g, B : session_asked _ _ ?g _, C : rx ?v = _ ++ ?r, D : login_fails _ _ _ (leaving ?v ?r) e' _ |- _ =>
      pose proof (session_positive A B C) as Q; assert (Q' : leaving v r = leaving w1 rest) by (pose proof (session_positive Hf Ha Hx); congruence);
      rewrite Q' in D; rename D into Hl' end.
    eapply (fun T => @login_fails_one t (leaving w1 rest) _ _ _ _ T Ht Hl Hl').
    cbn [leaving cl]. destruct Ha as (? & ? & ? & _ & -> & _). exact Ta.
Qed.
End Server.
