(** * FateFacts: a call, and a sequence of calls, do what SpecFate says, in every case *)
From Verif Require Import Base BaseFacts Text Win Errors Info Common Msg Reply Ntlm Prog Client Spec SpecReply SpecCrash SpecNtlm SpecMsg
  Api SpecCall Flow SpecFacts RunFacts ClientFacts InfoFacts ReplyFacts MsgFacts CollectFacts CallFacts FindFacts AnswerFacts SpecBlame BlameFacts
  SpecFault FaultFacts SizeFacts TransFacts FlowFacts ListFacts RemoteFacts SpecLogin FileFacts SpecWhy WhyFacts SpecFate.
Open Scope N_scope.
Set Implicit Arguments.

Section Server.
Variable Sv : Type.
Variable react : Sv -> bytes -> reaction Sv.
Notation world := (world cifs Sv).
Notation run := (run react).
Variable E : env.
Notation fate := (fate react E).
Notation flow_fate := (flow_fate react E).

(** ** the calls *)
Lemma cut_blocked A (w : world) (o : outcome cifs Sv (ans A)) r : cut_outcome w o r -> tl w = Prog.Open -> o = Blocked (leaving w []).
Proof. unfold cut_outcome. intros H Ht. rewrite Ht in H. exact H. Qed.
Lemma cut_or_open r t : (exists e, cut r t e) \/ t = Prog.Open.
Proof.
  destruct t as [| |x]; [now right|left..].
  - destruct (N.lt_ge_cases (len r) 4) as [H|H]; eexists; constructor; exact H.
  - eexists. constructor.
Qed.
Lemma cut_fate R (c : call R) w f w1 s r : is_request E (cl w) c f -> asked react w f w1 ->
  waits c (mid (cl w)) (rx w1) (s ++ r) -> skipped (mid (cl w)) s -> incomplete r -> exists o, fate c w o.
Proof.
  intros Hq Ha Hw Hk Hi. destruct (cut_or_open r (tl w1)) as [(e & He)|Ho]; eexists.
  - apply fate_bad. eapply fails_cut; eauto.
  - apply fate_wait. eapply stalls_open; eauto.
Qed.

Lemma search_fate R (c : call R) w f w1 : ~ single_reply c -> is_request E (cl w) c f -> asked react w f w1 ->
  forall k fs tp td b, (length b < k)%nat -> fragments_arrive (mid (cl w)) (rx w1) fs b -> collecting fs tp td ->
  exists o, fate c w o.
Proof.
  intros Hs Hq Ha. induction k as [|k IH]; intros fs tp td b Hk Hfa Hco; [lia|].
  destruct (@arrival_cases (mid (cl w)) CTransact2 b) as [(e0 & rest & Hx)|[(s & r & H1 & H2 & H3)|(p & st & rest & H1 & H2 & H3)]].
  - eexists. apply fate_bad. eapply fails_arrival; [exact Hq|exact Ha|right; split; [exact Hs|]; eauto|]. rewrite (search_code c Hs). exact Hx.
  - subst b. eapply cut_fate; [exact Hq|exact Ha|right; split; [exact Hs|]; eauto|..]; eauto.
  - assert (st = 0) as -> by (destruct H3 as [H3|[H3 _]]; [exact H3|discriminate H3]). change (cmd_code CTransact2) with 0x32 in H2.
    destruct (piece_or_not H2) as [(g & Hg)|[Hc|[Hc Hno]]].
    + assert (Hstep : exists tp' td', collecting fs tp' td' /\ ((exists x, fs <> [] /\ fragment_wrong fs tp' td' g x)
        \/ (piece_right (parameter_pieces fs) tp' (f_parameter_offset g) (f_parameter g) (f_parameter_total g)
            /\ piece_right (data_pieces fs) td' (f_data_offset g) (f_data g) (f_data_total g)))).
      { destruct fs as [|h fs].
        - exists (f_parameter_total g), (f_data_total g). split; [apply collecting_nil|]. right. cbn.
          split; (split; [reflexivity|]; right; intros d' []).
        - exists tp, td. split; [exact Hco|]. destruct (fragment_cases (h :: fs) tp td g) as [(x & Hx)|Hr]; [left; exists x; split; [discriminate|exact Hx]|right; exact Hr]. }
      clear tp td Hco. destruct Hstep as (tp & td & Hco & [(x & Hne & Hx)|(P1 & P2)]).
      * eexists. apply fate_bad. eapply fails_search; eauto. eapply bad_piece; eauto.
      * pose proof (arrive_snoc Hfa H1 H2 Hg) as Hfa'.
        assert (D1 : distinct (parameter_pieces (fs ++ [g]))).
        { unfold parameter_pieces. rewrite map_app. eapply distinct_snoc; [apply Hco|exact P1]. }
        assert (D2 : distinct (data_pieces (fs ++ [g]))).
        { unfold data_pieces. rewrite map_app. eapply distinct_snoc; [apply Hco|exact P2]. }
        destruct P1 as [T1 _], P2 as [T2 _].
        destruct (enough_dec (fs ++ [g]) tp td) as [Hen|Hen].
        -- assert (Htot : totals (fs ++ [g]) tp td).
           { apply Forall_app. split; [apply Hco|]. constructor; [auto|constructor]. }
           destruct (@blocks_cases (fs ++ [g]) tp td) as [(x & Hx)|(y & z & Hsp & Ly & Lz)]; auto; [now destruct fs|..].
           ++ eexists. apply fate_bad. eapply fails_search; eauto. eapply bad_blocks; eauto.
           ++ pose proof (@last_snoc fs g tp td Hco) as Hlast. rewrite <- Ly, <- Lz in Hlast.
              destruct (find_is Hs) as [sub Hsub]. destruct (sub y z) as [v|x|] eqn:Hyz.
              ** eexists. apply fate_good. eapply answers_search; eauto. now apply (find_ok y z v Hsub).
              ** eexists. apply fate_bad. eapply fails_search; eauto. eapply bad_batch; eauto.
                 { intros Hcr. apply (find_panic y z Hsub) in Hcr. congruence. }
                 intros v Hv. apply (find_ok y z v Hsub) in Hv. congruence.
              ** eexists. apply fate_crash. eapply panics_blocks; eauto. now apply (find_panic y z Hsub).
        -- eapply IH; [|exact Hfa'|eapply collecting_snoc; eauto]. pose proof (arrives_len H1). lia.
    + eexists. apply fate_crash. eapply panics_fragment; eauto.
    + eexists. apply fate_bad. eapply fails_search; eauto. eapply no_piece; eauto.
Qed.

(** every call in every world has a fate *)
Theorem call_has_fate R (c : call R) w : exists o, fate c w o.
Proof.
  destruct (call_cases react E 0 c w) as [(f & w1 & Hf & Ha & _)|(o & Hu & _)].
  - assert (Hq : is_request E (cl w) c f) by (exists 0%nat; exact Hf).
    destruct (single_dec c) as [Hs|Hs]; [|eapply search_fate with (fs := []) (tp := 0) (td := 0); eauto; [apply no_fragment|apply collecting_nil]].
    destruct (@arrival_cases (mid (cl w)) (m_cmd (msg_of c)) (rx w1)) as [(e0 & rest & Hx)|[(s & r & H1 & H2 & H3)|(p & st & rest & H1 & H2 & H3)]].
    + rewrite msg_of_cmd in Hx. eexists. apply fate_bad. eapply fails_arrival; eauto. now left.
    + eapply cut_fate; eauto. left. now symmetry.
    + rewrite msg_of_cmd in H2, H3. assert (Hop : op_status c st) by exact H3.
      set (n := S (length (rx w1))). assert (Hn : (length (rx w1) < n)%nat) by lia. rewrite (request_fuel E 0 n c (cl w)) in Hf.
      destruct (reply_of c) as [r|] eqn:Hrc; [|destruct c; cbn in Hs, Hrc; try discriminate Hrc; contradiction].
      destruct (single_replied Hrc Hn Hf Ha H1 H2) as (i & Hi & _ & Hok & _).
      destruct (reply_parse r i (drop 32 p)) as [v|x|] eqn:Hv.
      * eexists. apply fate_good. eapply answers_reply; eauto. now apply (reply_ok v Hrc Hi).
      * assert (Hcr : ~ crashes c p) by (intros Hcr; apply (reply_panic Hrc Hi) in Hcr; congruence).
        assert (Hno : forall v, ~ decodes c p v) by (intros v Hd; apply (reply_ok v Hrc Hi) in Hd; congruence).
        assert (Han : answered react E n c w w1 p rest) by (split; [eauto|split; eauto]).
        destruct (single_blame Hs Hn Han Hcr Hno) as (y & Hy & _). eexists. apply fate_bad. eapply fails_contents; eauto.
      * eexists. apply fate_crash. eapply panics_reply; eauto. now apply (reply_panic Hrc Hi).
  - destruct Hu as [H0|H0 H1|e0 H0 H1|b H0 H1 H2|f s n e0 inc t b t' H0 H1 H2].
    + eexists. apply fate_crash, panics_ids. now apply mid_panics_iff.
    + eexists. apply fate_crash, panics_pattern; [now apply mid_panics_not|]. pose proof (body_sized (cl w) c) as Hz. rewrite H1 in Hz. now inversion Hz.
    + eexists. apply fate_bad. pose proof (body_sized (cl w) c) as Hz. rewrite H1 in Hz. inversion Hz; subst.
      apply fails_unfit; auto. now apply mid_panics_not.
    + exfalso. apply smb_out_len in H1. unfold NB_MAX in H2. lia.
    + eexists. apply fate_bad. eapply fails_write; eauto. exists 0%nat. rewrite request_exec. exact H0.
Qed.

(** and that is what happens *)
Theorem fate_happens R (c : call R) w o : fate c w o -> exists n, forall fuel, (n <= fuel)%nat -> run (exec E fuel c) w = o.
Proof.
  intros [v w' H|e w' H|w' H|w' H].
  - destruct H as [f w1 p st rest v (f0 & Hf) Ha Hs Hr Hp Ho Hd|f w1 fs x y rest v (f0 & Hf) Ha Hs Hr Hsp Hl Hd];
      exists (S (length (rx w1))); intros fuel Hn; rewrite (request_fuel E f0 fuel c (cl w)) in Hf.
    + eapply single_complete; eauto; lia.
    + eapply find_complete; eauto; lia.
  - now apply why_call.
  - destruct H as [H|H1 H2|f w1 p st rest (f0 & Hf) Ha Hs Hr Hp Ho Hc|f w1 fs tp td b p rest (f0 & Hf) Ha Hs Hfa Hco Hr Hp Hc
      |f w1 fs x y rest (f0 & Hf) Ha Hs Hr Hsp Hl Hc].
    + exists 0%nat. intros fuel _. now apply call_mid_full.
    + exists 0%nat. intros fuel _. now apply call_window.
    + exists (S (length (rx w1))). intros fuel Hn. rewrite (request_fuel E f0 fuel c (cl w)) in Hf. eapply single_crashes; eauto; lia.
    + exists (S (length (rx w1))). intros fuel Hn. rewrite (request_fuel E f0 fuel c (cl w)) in Hf. eapply find_crashes_fragment; eauto; lia.
    + exists (S (length (rx w1))). intros fuel Hn. rewrite (request_fuel E f0 fuel c (cl w)) in Hf.
      assert (Hlt : (length (rx w1) < fuel)%nat) by lia. now apply (proj1 (find_crash_iff Hs Hlt Hf Ha Hr Hsp Hl)).
  - destruct H as [f w1 s r (f0 & Hf) Ha Hw Hk Hi Ho]. exists (S (length (rx w1))). intros fuel Hn.
    rewrite (request_fuel E f0 fuel c (cl w)) in Hf. apply (@cut_blocked _ w1 _ r); [|exact Ho].
    destruct Hw as [Hw|(Hs & fs & tp & td & Hfa & Hco)]; [eapply call_cut; eauto; lia|].
    eapply find_cut; eauto; lia.
Qed.
Lemma fate_not_starved R (c : call R) w o w' : fate c w o -> o <> Starved w'.
Proof. intros [ | | | ]; discriminate. Qed.
Lemma fate_one R (c : call R) w o o' : fate c w o -> fate c w o' -> o = o'.
Proof.
  intros H H'. apply fate_happens in H, H'. destruct H as (n & H), H' as (n' & H').
  rewrite <- (H (Nat.max n n')) by lia. apply H'. lia.
Qed.
Lemma more_any fuel n R (c : call R) w o : (fuel <= n)%nat -> run (exec E fuel c) w = o -> (forall w', o <> Starved w') -> run (exec E n c) w = o.
Proof. intros Hn H Ho. rewrite <- H. apply ple_run; [now apply call_mono|]. intros v. rewrite H. apply Ho. Qed.
Theorem call_fate R (c : call R) w o : (forall w', o <> Starved w') -> ((exists fuel, run (exec E fuel c) w = o) <-> fate c w o).
Proof.
  intros Ho. split.
  - intros (fuel & H). destruct (call_has_fate c w) as (o' & Hf). destruct (fate_happens Hf) as (n & Hn).
    apply (@more_any fuel (Nat.max fuel n)) in H; [|lia|exact Ho]. rewrite Hn in H by lia. now subst o'.
  - intros H. apply fate_happens in H. destruct H as (n & H). exists n. now apply H.
Qed.
(** exactly one of the four *)
Theorem four_fates R (c : call R) w :
  (exists v w', answers react E c w v w') \/ (exists e w', fails react E c w e w') \/ (exists w', panics react E c w w') \/ (exists w', stalls react E c w w').
Proof.
  destruct (call_has_fate c w) as (o & [v w' H|e w' H|w' H|w' H]);
    [left; eauto|right; left; eauto|right; right; left; eauto|right; right; right; eauto].
Qed.
Lemma answers_iff R (c : call R) w v w' : answers react E c w v w' <-> fate c w (Done (Good v) w').
Proof. split; [apply fate_good|]. intros H. inversion H. assumption. Qed.
Lemma fails_iff R (c : call R) w e w' : fails react E c w e w' <-> fate c w (Done (Bad e) w').
Proof. split; [apply fate_bad|]. intros H. inversion H. assumption. Qed.
Lemma panics_iff R (c : call R) w w' : panics react E c w w' <-> fate c w (Crashed w').
Proof. split; [apply fate_crash|]. intros H. inversion H. assumption. Qed.
Lemma stalls_iff R (c : call R) w w' : stalls react E c w w' <-> fate c w (Blocked w').
Proof. split; [apply fate_wait|]. intros H. inversion H. assumption. Qed.

(** ** sequences of calls *)
Lemma interp_mono A (f : flow A) n m : (n <= m)%nat -> ple (interp E n f) (interp E m f).
Proof.
  intros H. induction f as [a| | |R c k IH|k IH|u k IH|mm u k IH]; cbn [interp]; try apply ple_refl.
  - apply ple_bind; [now apply call_mono|exact IH].
  - constructor. exact IH.
  - constructor. intros c. constructor. exact IH.
  - constructor. intros c. constructor. exact IH.
Qed.
Lemma flow_done A (f : flow A) : forall w o, flow_fate f w o -> (forall w', o <> Starved w')
  /\ exists n, forall fuel, (n <= fuel)%nat -> run (interp E fuel f) w = o.
Proof.
  induction f as [a| | |R c k IH|k IH|u k IH|mm u k IH]; intros w o; cbn [SpecFate.flow_fate interp].
  - intros ->. split; [discriminate|]. exists 0%nat. reflexivity.
  - intros ->. split; [discriminate|]. exists 0%nat. reflexivity.
  - intros [].
  - intros [(r & w' & H & Hk)|[(w' & H & ->)|(w' & H & ->)]].
    + apply fate_happens in H. destruct H as (n & H). apply IH in Hk. destruct Hk as (Hs & m & Hk). split; [exact Hs|].
      exists (Nat.max n m). intros fuel Hf. rewrite run_bind, H by lia. cbn [obind]. apply Hk. lia.
    + apply fate_crash, fate_happens in H. destruct H as (n & H). split; [discriminate|].
      exists n. intros fuel Hf. rewrite run_bind, H by lia. reflexivity.
    + apply fate_wait, fate_happens in H. destruct H as (n & H). split; [discriminate|].
      exists n. intros fuel Hf. rewrite run_bind, H by lia. reflexivity.
  - intros H. apply IH in H. exact H.
  - intros H. apply IH in H. exact H.
  - intros H. apply IH in H. exact H.
Qed.
Lemma flow_run A (f : flow A) fuel : forall w o, run (interp E fuel f) w = o -> (forall w', o <> Starved w') -> flow_fate f w o.
Proof.
  induction f as [a| | |R c k IH|k IH|u k IH|mm u k IH]; intros w o; cbn [SpecFate.flow_fate interp].
  - intros <- _. reflexivity.
  - intros <- _. reflexivity.
  - intros <- H. now contradiction (H w).
  - rewrite run_bind. intros H Ho. destruct (run (exec E fuel c) w) as [r w'|w'|w'|w'] eqn:Hr; cbn [obind] in H.
    + left. exists r, w'. split; [|now apply IH]. apply call_fate; [discriminate|eauto].
    + right. right. exists w'. split; [|now subst]. apply stalls_iff, call_fate; [discriminate|eauto].
    + right. left. exists w'. split; [|now subst]. apply panics_iff, call_fate; [discriminate|eauto].
    + subst o. now contradiction (Ho w').
  - apply IH.
  - apply IH.
  - apply IH.
Qed.
Theorem flow_fate_iff A (f : flow A) w o : (forall w', o <> Starved w') -> ((exists fuel, run (interp E fuel f) w = o) <-> flow_fate f w o).
Proof.
  intros Ho. split; [intros (fuel & H); eapply flow_run; eauto|]. intros H. apply flow_done in H. destruct H as (_ & n & H). exists n. now apply H.
Qed.
Lemma flow_fate_one A (f : flow A) w o o' : flow_fate f w o -> flow_fate f w o' -> o = o'.
Proof.
  intros H H'. apply flow_done in H, H'. destruct H as (_ & n & H), H' as (_ & n' & H').
  rewrite <- (H (Nat.max n n')) by lia. apply H'. lia.
Qed.
Lemma flow_fate_less A (f g : flow A) : less f g -> forall w o, flow_fate f w o -> flow_fate g w o.
Proof.
  induction 1 as [g|a| |R c k k' _ IH|k k' _ IH|u k k' _ IH|m u k k' _ IH]; intros w o; cbn [SpecFate.flow_fate]; auto.
  - intros [].
  - intros [(r & w' & H & Hk)|H]; [left; eauto|now right].
Qed.

(** one call, then the rest *)
Lemma then_fate A R (c : call R) (k : R -> flow A) w o : flow_fate (fbind (fcall c) k) w o <->
  (exists r w', answers react E c w r w' /\ flow_fate (k r) w' o)
  \/ (exists e w', fails react E c w e w' /\ o = Done (Bad e) w')
  \/ (exists w', panics react E c w w' /\ o = Crashed w') \/ (exists w', stalls react E c w w' /\ o = Blocked w').
Proof.
  cbn [fcall fbind SpecFate.flow_fate]. split.
  - intros [([r|e] & w' & H & Hk)|H].
    + left. exists r, w'. split; [now apply answers_iff|exact Hk].
    + right. left. exists e, w'. split; [now apply fails_iff|exact Hk].
    + right. right. exact H.
  - intros [(r & w' & H & Hk)|[(e & w' & H & ->)|H]].
    + left. exists (Good r), w'. split; [now apply answers_iff|exact Hk].
    + left. exists (Bad e), w'. split; [now apply fails_iff|reflexivity].
    + right. exact H.
Qed.

(** ** download *)
Notation reads_on := (reads_on react E).
(** the reading, with what is done after it *)
Inductive reading_fate A (h : handle) (k : bytes -> flow A) (data : bytes) (w : world) : outcome cifs Sv (ans A) -> Prop :=
| rf_all data' w' o : reads_on h data w data' w' -> h_size h <= len data' -> flow_fate (k data') w' o -> reading_fate h k data w o
| rf_bad data' w1 e w' : reads_on h data w data' w1 -> len data' < h_size h -> fails react E (ReadAt h (len data')) w1 e w' ->
    reading_fate h k data w (Done (Bad e) w')
| rf_crash data' w1 w' : reads_on h data w data' w1 -> len data' < h_size h -> panics react E (ReadAt h (len data')) w1 w' ->
    reading_fate h k data w (Crashed w')
| rf_wait data' w1 w' : reads_on h data w data' w1 -> len data' < h_size h -> stalls react E (ReadAt h (len data')) w1 w' ->
    reading_fate h k data w (Blocked w').
Lemma fbind_assoc A B C (p : flow A) (f : A -> flow B) (g : B -> flow C) w o :
  flow_fate (fbind (fbind p f) g) w o <-> flow_fate (fbind p (fun a => fbind (f a) g)) w o.
Proof.
  revert w o. induction p as [[a|e]| | |R c k IH|k IH|u k IH|mm u k IH]; intros w o; cbn [fbind SpecFate.flow_fate]; try tauto.
  - split; (intros [(r & w' & H & Hk)|H]; [left; exists r, w'; split; [exact H|now apply IH]|now right]).
  - apply IH.
  - apply IH.
  - apply IH.
Qed.
Lemma reading_sound A h (k : bytes -> flow A) n : forall data w o, flow_fate (fbind (download_reads n h data) k) w o -> reading_fate h k data w o.
Proof.
  induction n as [|n IH]; intros data w o; cbn [download_reads]; [intros []|].
  destruct (N.ltb_spec (len data) (h_size h)) as [L|L].
  - intros H. apply fbind_assoc, then_fate in H.
    destruct H as [(x & w1 & H & Hk)|[(e & w' & H & ->)|[(w' & H & ->)|(w' & H & ->)]]].
    + apply IH in Hk. destruct Hk as [data' w' o H1 H2 H3|data' w2 e w' H1 H2 H3|data' w2 w' H1 H2 H3|data' w2 w' H1 H2 H3].
      * eapply rf_all; eauto. eapply reads_more; eauto.
      * eapply rf_bad; eauto. eapply reads_more; eauto.
      * eapply rf_crash; eauto. eapply reads_more; eauto.
      * eapply rf_wait; eauto. eapply reads_more; eauto.
    + eapply rf_bad; eauto. constructor.
    + eapply rf_crash; eauto. constructor.
    + eapply rf_wait; eauto. constructor.
  - intros H. eapply rf_all; [constructor|exact L|exact H].
Qed.
Lemma reading_one A h (k : bytes -> flow A) data w data' w' : reads_on h data w data' w' -> forall n o,
  flow_fate (fbind (download_reads n h data') k) w' o -> exists m, flow_fate (fbind (download_reads m h data) k) w o.
Proof.
  induction 1 as [data w|data w x w1 data' w' L H _ IH]; intros n o Hn; [eauto|].
  apply IH in Hn. destruct Hn as (m & Hm). exists (S m). cbn [download_reads].
  destruct (N.ltb_spec (len data) (h_size h)) as [_|L']; [|lia]. apply fbind_assoc, then_fate. left. eauto.
Qed.
Lemma reading_complete A h (k : bytes -> flow A) data w o : reading_fate h k data w o -> exists n, flow_fate (fbind (download_reads n h data) k) w o.
Proof.
  intros [data' w' o' H1 H2 H3|data' w2 e w' H1 H2 H3|data' w2 w' H1 H2 H3|data' w2 w' H1 H2 H3];
    (eapply reading_one with (n := 1%nat); [exact H1|]); cbn [download_reads].
  - destruct (N.ltb_spec (len data') (h_size h)) as [L|_]; [lia|exact H3].
  - destruct (N.ltb_spec (len data') (h_size h)) as [_|L]; [|lia]. apply fbind_assoc, then_fate. right. left. eauto.
  - destruct (N.ltb_spec (len data') (h_size h)) as [_|L]; [|lia]. apply fbind_assoc, then_fate. right. right. left. eauto.
  - destruct (N.ltb_spec (len data') (h_size h)) as [_|L]; [|lia]. apply fbind_assoc, then_fate. right. right. right. eauto.
Qed.
Lemma download_flow_iff s path w o : (exists n, flow_fate (download_flow n s path) w o) <-> download_fate react E s path w o.
Proof.
  unfold download_flow. split.
  - intros (n & H). apply then_fate in H.
    destruct H as [(h & w1 & H & Hk)|[(e & w' & H & ->)|[(w' & H & ->)|(w' & H & ->)]]].
    + apply reading_sound in Hk. destruct Hk as [data w2 o H1 H2 H3|data w2 e w' H1 H2 H3|data w2 w' H1 H2 H3|data w2 w' H1 H2 H3].
      * apply then_fate in H3. destruct H3 as [([] & w3 & H3 & ->)|[(e & w' & H3 & ->)|[(w' & H3 & ->)|(w' & H3 & ->)]]].
        -- eapply download_data; eauto.
        -- eapply download_no_close; eauto.
        -- apply download_crash. right. exists h, w1, data, w2. split; [exact H|]. split; [exact H1|]. destruct (N.ltb_spec (len data) (h_size h)); [lia|exact H3].
        -- apply download_wait. right. exists h, w1, data, w2. split; [exact H|]. split; [exact H1|]. destruct (N.ltb_spec (len data) (h_size h)); [lia|exact H3].
      * eapply download_no_read; eauto.
      * apply download_crash. right. exists h, w1, data, w2. split; [exact H|]. split; [exact H1|]. destruct (N.ltb_spec (len data) (h_size h)); [exact H3|lia].
      * apply download_wait. right. exists h, w1, data, w2. split; [exact H|]. split; [exact H1|]. destruct (N.ltb_spec (len data) (h_size h)); [exact H3|lia].
    + now apply download_no_open.
    + apply download_crash. now left.
    + apply download_wait. now left.
  - assert (Hopen : forall o h w1, answers react E (OpenFile s path) w h w1 ->
      reading_fate h (fun data => fbind (fcall (Close h)) (fun _ => FRet (Good data))) [] w1 o -> exists n, flow_fate (download_flow n s path) w o).
    { clear. intros o h w1 H Hk. apply reading_complete in Hk. destruct Hk as (n & Hk). exists n. unfold download_flow. apply then_fate. left. eauto. }
    intros [h w1 data w2 w' H1 H2 H3 H4|e w' H|h w1 data w2 e w' H1 H2 H3 H4|h w1 data w2 e w' H1 H2 H3 H4|w' H|w' H].
    + eapply Hopen; [exact H1|]. eapply rf_all; eauto. apply then_fate. left. exists tt, w'. split; [exact H4|reflexivity].
    + exists 0%nat. apply then_fate. right. left. eauto.
    + eapply Hopen; [exact H1|]. eapply rf_bad; eauto.
    + eapply Hopen; [exact H1|]. eapply rf_all; eauto. apply then_fate. right. left. eauto.
    + destruct H as [H|(h & w1 & data & w2 & H1 & H2 & H3)]; [exists 0%nat; apply then_fate; right; right; left; eauto|].
      eapply Hopen; [exact H1|]. destruct (N.ltb_spec (len data) (h_size h)) as [L|L]; [eapply rf_crash; eauto|].
      eapply rf_all; eauto. apply then_fate. right. right. left. eauto.
    + destruct H as [H|(h & w1 & data & w2 & H1 & H2 & H3)]; [exists 0%nat; apply then_fate; right; right; right; eauto|].
      eapply Hopen; [exact H1|]. destruct (N.ltb_spec (len data) (h_size h)) as [L|L]; [eapply rf_wait; eauto|].
      eapply rf_all; eauto. apply then_fate. right. right. right. eauto.
Qed.
(** a program whose flow has a bound of its own *)
Lemma less_run a b A (g h : flow A) w o : less g h -> (a <= b)%nat -> (forall w', o <> Starved w') ->
  run (interp E a g) w = o -> run (interp E b h) w = o.
Proof.
  intros Hgh Hab Hx Hr. rewrite <- (@ple_run _ _ _ react (interp E a g) (interp E b g) w) in Hr;
    [|now apply interp_mono|rewrite Hr; exact Hx]. subst o. clear Hab a. revert w Hx.
  induction Hgh as [h|a| |R c k k' _ IH|k k' _ IH|u k k' _ IH|m u k k' _ IH]; intros w Hx; cbn [interp] in *; auto.
  - now contradiction (Hx w).
  - rewrite !run_bind in *. destruct (run (exec E b c) w) as [r w1|w1|w1|w1]; cbn [obind] in *; auto.
  - cbn [Prog.run] in *. now apply IH.
  - cbn [Prog.run] in *. now apply IH.
  - cbn [Prog.run] in *. now apply IH.
Qed.
Lemma bounded_stays A (p : nat -> M A) (f : nat -> flow A) w o n m : (forall n, same_prog (p n) (interp E n (f n))) ->
  (forall n m, (n <= m)%nat -> less (f n) (f m)) -> (forall w', o <> Starved w') ->
  (n <= m)%nat -> run (p n) w = o -> run (p m) w = o.
Proof. intros Hp Hl Ho Hn. rewrite !Hp. eapply less_run; eauto. Qed.
Lemma bounded_fate A (p : nat -> M A) (f : nat -> flow A) w o : (forall n, same_prog (p n) (interp E n (f n))) ->
  (forall n m, (n <= m)%nat -> less (f n) (f m)) -> (forall w', o <> Starved w') ->
  ((exists fuel, run (p fuel) w = o) <-> exists n, flow_fate (f n) w o).
Proof.
  intros Hp Hl Ho. split.
  - intros (fuel & H). exists fuel. rewrite Hp in H. eapply flow_run; eauto.
  - intros (n & H). apply flow_done in H. destruct H as (_ & m & Hm). exists (Nat.max n m). rewrite Hp.
    specialize (Hm (Nat.max n m) ltac:(lia)). eapply less_run; [apply (Hl n); lia|apply Nat.le_refl|exact Ho|exact Hm].
Qed.
Lemma download_stays s path w o n m : (forall w', o <> Starved w') -> (n <= m)%nat -> run (download E n s path) w = o -> run (download E m s path) w = o.
Proof. intros Ho Hn H. eapply (@bounded_stays _ (fun n => download E n s path) (fun n => download_flow n s path)); eauto; [intros k; apply download_same|intros k l; apply less_download]. Qed.
Lemma list_stays s pattern w o n m : (forall w', o <> Starved w') -> (n <= m)%nat -> run (list_dir E n s pattern) w = o -> run (list_dir E m s pattern) w = o.
Proof. intros Ho Hn H. eapply (@bounded_stays _ (fun n => list_dir E n s pattern) (fun n => list_flow n s pattern)); eauto; [intros k; apply list_same|intros k l; apply less_list]. Qed.
Theorem download_fate_iff s path w o : (forall w', o <> Starved w') ->
  ((exists fuel, run (download E fuel s path) w = o) <-> download_fate react E s path w o).
Proof.
  intros Ho. rewrite <- download_flow_iff. apply bounded_fate; [intros n; apply download_same|intros n m; apply less_download|exact Ho].
Qed.

(** ** list *)
Notation finds_on := (finds_on react E).
Lemma last_some (l : list dir_info) d : last (map Some (l ++ [d])) None = Some d.
Proof. rewrite map_app. apply last_last. Qed.
Lemma answers_more s sid name w r w' : answers react E (FindNext s sid name) w r w' -> fn_end r = false -> fn_info r <> [].
Proof.
  intros H. inversion H as [|f w1 fs x y rest v ? ? ? ? ? ? Hf]; subst; [cbn in *; contradiction|].
  intros He Hn. apply Hf in Hn. congruence.
Qed.
Lemma answers_first s pattern w r w' : answers react E (FindFirst s pattern) w r w' -> ff_end r = false -> ff_info r <> [].
Proof.
  intros H. inversion H as [|f w1 fs x y rest v ? ? ? ? ? ? Hf]; subst; [cbn in *; contradiction|].
  intros He Hn. apply Hf in Hn. congruence.
Qed.
Inductive finding_fate (s : share) (sid : N) (l : list dir_info) (w : world) : outcome cifs Sv (ans (list dir_info)) -> Prop :=
| ff_last l' d w1 r w' : finds_on s sid l w (l' ++ [d]) w1 -> answers react E (FindNext s sid (d_filename d)) w1 r w' -> fn_end r = true ->
    finding_fate s sid l w (Done (Good ((l' ++ [d]) ++ fn_info r)) w')
| ff_bad l' d w1 e w' : finds_on s sid l w (l' ++ [d]) w1 -> fails react E (FindNext s sid (d_filename d)) w1 e w' ->
    finding_fate s sid l w (Done (Bad e) w')
| ff_crash l' d w1 w' : finds_on s sid l w (l' ++ [d]) w1 -> panics react E (FindNext s sid (d_filename d)) w1 w' ->
    finding_fate s sid l w (Crashed w')
| ff_wait l' d w1 w' : finds_on s sid l w (l' ++ [d]) w1 -> stalls react E (FindNext s sid (d_filename d)) w1 w' ->
    finding_fate s sid l w (Blocked w').
Lemma finding_sound s sid n : forall l w o, l <> [] -> flow_fate (list_nexts n s sid l) w o -> finding_fate s sid l w o.
Proof.
  induction n as [|n IH]; intros l w o Hl; cbn [list_nexts]; [intros []|].
  destruct l as [|d l _] using rev_ind; [contradiction|]. rewrite last_some. intros H. apply then_fate in H.
  destruct H as [(r & w1 & H & Hk)|[(e & w' & H & ->)|[(w' & H & ->)|(w' & H & ->)]]].
  - destruct (fn_end r) eqn:He; [cbn [SpecFate.flow_fate] in Hk; subst o; eapply ff_last; eauto; constructor|].
    apply IH in Hk; [|now destruct l].
    destruct Hk as [l' d' w2 r' w' H1 H2 H3|l' d' w2 e w' H1 H2|l' d' w2 w' H1 H2|l' d' w2 w' H1 H2].
    + eapply ff_last; eauto. eapply finds_more; eauto.
    + eapply ff_bad; eauto. eapply finds_more; eauto.
    + eapply ff_crash; eauto. eapply finds_more; eauto.
    + eapply ff_wait; eauto. eapply finds_more; eauto.
  - eapply ff_bad; eauto. constructor.
  - eapply ff_crash; eauto. constructor.
  - eapply ff_wait; eauto. constructor.
Qed.
Lemma finding_one s sid l w l' w' : finds_on s sid l w l' w' -> forall n o,
  flow_fate (list_nexts n s sid l') w' o -> exists m, flow_fate (list_nexts m s sid l) w o.
Proof.
  induction 1 as [l w|l d w r w1 l' w' H He _ IH]; intros n o Hn; [eauto|].
  apply IH in Hn. destruct Hn as (m & Hm). exists (S m). cbn [list_nexts]. rewrite last_some. apply then_fate. left. exists r, w1. split; [exact H|].
  now rewrite He.
Qed.
Lemma finding_complete s sid l w o : finding_fate s sid l w o -> exists n, flow_fate (list_nexts n s sid l) w o.
Proof.
  intros [l' d w1 r w' H1 H2 H3|l' d w1 e w' H1 H2|l' d w1 w' H1 H2|l' d w1 w' H1 H2];
    (eapply finding_one with (n := 1%nat); [exact H1|]); cbn [list_nexts]; rewrite last_some; apply then_fate.
  - left. exists r, w'. split; [exact H2|]. now rewrite H3.
  - right. left. eauto.
  - right. right. left. eauto.
  - right. right. right. eauto.
Qed.
Lemma list_flow_iff s pattern w o : (exists n, flow_fate (list_flow n s pattern) w o) <-> list_fate react E s pattern w o.
Proof.
  unfold list_flow. split.
  - intros (n & H). apply then_fate in H.
    destruct H as [(r & w1 & H & Hk)|[(e & w' & H & ->)|[(w' & H & ->)|(w' & H & ->)]]].
    + destruct (ff_end r) eqn:He; [cbn [SpecFate.flow_fate] in Hk; subst o; now apply list_at_once|].
      apply finding_sound in Hk; [|eapply answers_first; eauto].
      destruct Hk as [l' d w2 r' w' H1 H2 H3|l' d w2 e w' H1 H2|l' d w2 w' H1 H2|l' d w2 w' H1 H2].
      * eapply list_in_parts; eauto.
      * eapply list_no_next; eauto.
      * apply list_crash. right. exists r, w1, l', d, w2. auto.
      * apply list_wait. right. exists r, w1, l', d, w2. auto.
    + now apply list_no_first.
    + apply list_crash. now left.
    + apply list_wait. now left.
  - assert (Hfirst : forall o r w1, answers react E (FindFirst s pattern) w r w1 -> ff_end r = false -> finding_fate s (ff_sid r) (ff_info r) w1 o ->
      exists n, flow_fate (list_flow n s pattern) w o).
    { clear. intros o r w1 H He Hk. apply finding_complete in Hk. destruct Hk as (n & Hk). exists n. unfold list_flow. apply then_fate. left.
      exists r, w1. split; [exact H|]. now rewrite He. }
    intros [r w' H He|r w1 l d w2 r' w' H He H1 H2 H3|e w' H|r w1 l d w2 e w' H He H1 H2|w' H|w' H].
    + exists 0%nat. apply then_fate. left. exists r, w'. split; [exact H|]. now rewrite He.
    + eapply Hfirst; eauto. eapply ff_last; eauto.
    + exists 0%nat. apply then_fate. right. left. eauto.
    + eapply Hfirst; eauto. eapply ff_bad; eauto.
    + destruct H as [H|(r & w1 & l & d & w2 & H & He & H1 & H2)]; [exists 0%nat; apply then_fate; right; right; left; eauto|].
      eapply Hfirst; eauto. eapply ff_crash; eauto.
    + destruct H as [H|(r & w1 & l & d & w2 & H & He & H1 & H2)]; [exists 0%nat; apply then_fate; right; right; right; eauto|].
      eapply Hfirst; eauto. eapply ff_wait; eauto.
Qed.
Theorem list_fate_iff s pattern w o : (forall w', o <> Starved w') ->
  ((exists fuel, run (list_dir E fuel s pattern) w = o) <-> list_fate react E s pattern w o).
Proof.
  intros Ho. rewrite <- list_flow_iff. apply bounded_fate; [intros n; apply list_same|intros n m; apply less_list|exact Ho].
Qed.

(** ** without a fate *)
Lemma answers_one R (c : call R) w v w1 v' w1' : answers react E c w v w1 -> answers react E c w v' w1' -> v = v' /\ w1 = w1'.
Proof. intros H H'. apply answers_iff in H, H'. pose proof (fate_one H H') as K. injection K as -> ->. auto. Qed.
Lemma answers_not R (c : call R) w v w1 : answers react E c w v w1 ->
  (forall e w', ~ fails react E c w e w') /\ (forall w', ~ panics react E c w w') /\ (forall w', ~ stalls react E c w w').
Proof.
  intros H. apply answers_iff in H. split; [|split].
  - intros e w' H'. apply fails_iff in H'. pose proof (fate_one H H') as K. discriminate K.
  - intros w' H'. apply panics_iff in H'. pose proof (fate_one H H') as K. discriminate K.
  - intros w' H'. apply stalls_iff in H'. pose proof (fate_one H H') as K. discriminate K.
Qed.
Lemma reads_snoc h data w data' w' x w2 : reads_on h data w data' w' -> len data' < h_size h -> answers react E (ReadAt h (len data')) w' x w2 ->
  reads_on h data w (data' ++ x) w2.
Proof. induction 1 as [data w|data w y w1 data' w' L H _ IH]; intros L' H'; eapply reads_more; eauto. constructor. Qed.
Theorem download_no_fate s path w : (forall o, ~ download_fate react E s path w o) <-> reads_for_ever react E s path w.
Proof.
  split.
  - intros No. destruct (four_fates (OpenFile s path) w) as [(h & w1 & Ho)|[(e & w' & H)|[(w' & H)|(w' & H)]]].
    + exists h, w1. split; [exact Ho|]. intros data w2 Hr.
      destruct (N.lt_ge_cases (len data) (h_size h)) as [L|L].
      * split; [exact L|]. destruct (four_fates (ReadAt h (len data)) w2) as [(x & w3 & H)|[(e & w' & H)|[(w' & H)|(w' & H)]]]; [eauto|exfalso..].
        -- eapply No, download_no_read; eauto.
        -- apply (No (Crashed w')), download_crash. right. exists h, w1, data, w2. split; [exact Ho|]. split; [exact Hr|].
           destruct (N.ltb_spec (len data) (h_size h)); [exact H|lia].
        -- apply (No (Blocked w')), download_wait. right. exists h, w1, data, w2. split; [exact Ho|]. split; [exact Hr|].
           destruct (N.ltb_spec (len data) (h_size h)); [exact H|lia].
      * exfalso. destruct (four_fates (Close h) w2) as [([] & w3 & H)|[(e & w' & H)|[(w' & H)|(w' & H)]]].
        -- eapply No, download_data; eauto.
        -- eapply No, download_no_close; eauto.
        -- apply (No (Crashed w')), download_crash. right. exists h, w1, data, w2. split; [exact Ho|]. split; [exact Hr|].
           destruct (N.ltb_spec (len data) (h_size h)); [lia|exact H].
        -- apply (No (Blocked w')), download_wait. right. exists h, w1, data, w2. split; [exact Ho|]. split; [exact Hr|].
           destruct (N.ltb_spec (len data) (h_size h)); [lia|exact H].
    + exfalso. eapply No, download_no_open; eauto.
    + exfalso. eapply No, download_crash. left. exact H.
    + exfalso. eapply No, download_wait. left. exact H.
  - intros (h & w1 & Ho & Hall) o Hf. pose proof (answers_not Ho) as (N1 & N2 & N3).
    destruct Hf as [h' w1' data w2 w' H1 H2 H3 H4|e w' H|h' w1' data w2 e w' H1 H2 H3 H4|h' w1' data w2 e w' H1 H2 H3 H4|w' H|w' H].
    + destruct (answers_one Ho H1) as [<- <-]. apply Hall in H2. lia.
    + now apply N1 in H.
    + destruct (answers_one Ho H1) as [<- <-]. apply Hall in H2. destruct H2 as (_ & x & w3 & H2). now apply (proj1 (answers_not H2)) in H4.
    + destruct (answers_one Ho H1) as [<- <-]. apply Hall in H2. lia.
    + destruct H as [H|(h' & w1' & data & w2 & H1 & H2 & H3)]; [now apply N2 in H|].
      destruct (answers_one Ho H1) as [<- <-]. apply Hall in H2. destruct H2 as (L & x & w3 & H2).
      destruct (N.ltb_spec (len data) (h_size h)); [|lia]. now apply (proj1 (proj2 (answers_not H2))) in H3.
    + destruct H as [H|(h' & w1' & data & w2 & H1 & H2 & H3)]; [now apply N3 in H|].
      destruct (answers_one Ho H1) as [<- <-]. apply Hall in H2. destruct H2 as (L & x & w3 & H2).
      destruct (N.ltb_spec (len data) (h_size h)); [|lia]. now apply (proj2 (proj2 (answers_not H2))) in H3.
Qed.
Lemma finds_nonempty s sid l w l' w' : finds_on s sid l w l' w' -> l <> [] -> l' <> [].
Proof. induction 1 as [|l d w r w1 l' w' H He _ IH]; intros Hl; auto. apply IH. now destruct l. Qed.
Theorem list_no_fate s pattern w : (forall o, ~ list_fate react E s pattern w o) <-> finds_for_ever react E s pattern w.
Proof.
  split.
  - intros No. destruct (four_fates (FindFirst s pattern) w) as [(r & w1 & Hf)|[(e & w' & H)|[(w' & H)|(w' & H)]]].
    + exists r, w1. split; [exact Hf|]. destruct (ff_end r) eqn:He; [exfalso; eapply No, list_at_once; eauto|]. split; [reflexivity|].
      intros l w2 Hl. pose proof (finds_nonempty Hl (answers_first Hf He)) as Hn.
      destruct l as [|d l _] using rev_ind; [contradiction|]. exists l, d.
      destruct (four_fates (FindNext s (ff_sid r) (d_filename d)) w2) as [(x & w3 & H)|[(e & w' & H)|[(w' & H)|(w' & H)]]].
      * exists x, w3. split; [reflexivity|]. split; [exact H|]. destruct (fn_end x) eqn:Hx; [|reflexivity]. exfalso. eapply No, list_in_parts; eauto.
      * exfalso. eapply No, list_no_next; eauto.
      * exfalso. apply (No (Crashed w')), list_crash. right. exists r, w1, l, d, w2. auto.
      * exfalso. apply (No (Blocked w')), list_wait. right. exists r, w1, l, d, w2. auto.
    + exfalso. eapply No, list_no_first; eauto.
    + exfalso. eapply No, list_crash. left. exact H.
    + exfalso. eapply No, list_wait. left. exact H.
  - intros (r & w1 & Ho & He & Hall) o Hf. pose proof (answers_not Ho) as (N1 & N2 & N3).
    assert (Hnext : forall l d w2, finds_on s (ff_sid r) (ff_info r) w1 (l ++ [d]) w2 ->
      exists r' w3, answers react E (FindNext s (ff_sid r) (d_filename d)) w2 r' w3 /\ fn_end r' = false).
    { intros l d w2 H. apply Hall in H. destruct H as (l' & d' & r' & w3 & H & H'). apply app_inj_tail in H. destruct H as [-> ->]. eauto. }
    destruct Hf as [r0 w' H He'|r0 w1' l d w2 r' w' H He' H1 H2 H3|e w' H|r0 w1' l d w2 e w' H He' H1 H2|w' H|w' H].
    + destruct (answers_one Ho H) as [<- <-]. congruence.
    + destruct (answers_one Ho H) as [<- <-]. apply Hnext in H1. destruct H1 as (x & w3 & H1 & Hx). destruct (answers_one H1 H2) as [<- <-]. congruence.
    + now apply N1 in H.
    + destruct (answers_one Ho H) as [<- <-]. apply Hnext in H1. destruct H1 as (x & w3 & H1 & Hx). now apply (proj1 (answers_not H1)) in H2.
    + destruct H as [H|(r0 & w1' & l & d & w2 & H & He' & H1 & H2)]; [now apply N2 in H|].
      destruct (answers_one Ho H) as [<- <-]. apply Hnext in H1. destruct H1 as (x & w3 & H1 & Hx). now apply (proj1 (proj2 (answers_not H1))) in H2.
    + destruct H as [H|(r0 & w1' & l & d & w2 & H & He' & H1 & H2)]; [now apply N3 in H|].
      destruct (answers_one Ho H) as [<- <-]. apply Hnext in H1. destruct H1 as (x & w3 & H1 & Hx). now apply (proj2 (proj2 (answers_not H1))) in H2.
Qed.
(** as observed: starved with whatever bound *)
Lemma download_starves s path w : reads_for_ever react E s path w <-> forall fuel, exists w', run (download E fuel s path) w = Starved w'.
Proof.
  rewrite <- download_no_fate. split.
  - intros H fuel. destruct (run (download E fuel s path) w) as [a w'|w'|w'|w'] eqn:Hr; [exfalso..|eauto];
      (eapply H; apply download_fate_iff; [|exists fuel; exact Hr]; discriminate).
  - intros H o Ho. assert (Hs : forall w', o <> Starved w') by (intros w' ->; inversion Ho).
    apply download_fate_iff in Ho; [|exact Hs]. destruct Ho as (fuel & Ho). destruct (H fuel) as (w' & H'). congruence.
Qed.
Lemma list_starves s pattern w : finds_for_ever react E s pattern w <-> forall fuel, exists w', run (list_dir E fuel s pattern) w = Starved w'.
Proof.
  rewrite <- list_no_fate. split.
  - intros H fuel. destruct (run (list_dir E fuel s pattern) w) as [a w'|w'|w'|w'] eqn:Hr; [exfalso..|eauto];
      (eapply H; apply list_fate_iff; [|exists fuel; exact Hr]; discriminate).
  - intros H o Ho. assert (Hs : forall w', o <> Starved w') by (intros w' ->; inversion Ho).
    apply list_fate_iff in Ho; [|exact Hs]. destruct Ho as (fuel & Ho). destruct (H fuel) as (w' & H'). congruence.
Qed.
End Server.
