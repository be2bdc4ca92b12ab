(** * LostFacts: a connection whose stream has ended *)
From Coq Require Import Lia.
From Verif Require Import Base BaseFacts Text Win Errors Common Reply Ntlm Prog Client Spec SpecReply SpecCrash SpecNtlm SpecMsg
  Api SpecCall Flow SpecFault SpecBlame SpecLogin SizeFacts SpecWhy SpecFate SpecFacts ClientFacts CallFacts FaultFacts WhyFacts
  FateFacts RunFacts SpecLost.
Open Scope N_scope.
Set Implicit Arguments.

(** ** bytes without a whole frame *)
Lemma next_short b : incomplete b -> next_frame b = NShort.
Proof. exact (@next_incomplete unit (fun s _ => Accept s [] Prog.Open) b). Qed.
Lemma whole_frame ty p rest : ty < 256 -> len p <= NB_MAX -> ~ incomplete (nb_frame ty p ++ rest).
Proof. intros H1 H2 H. apply next_short in H. rewrite next_frame_complete in H by assumption. discriminate H. Qed.
Lemma whole_message p rest : len p <= NB_MAX -> ~ incomplete (session_message p ++ rest).
Proof. apply whole_frame. reflexivity. Qed.
Lemma skipped_whole id s b : skipped id s -> incomplete (s ++ b) -> s = [].
Proof.
  intros [|x _|p code st m x _ _ Hp _] H; [reflexivity|exfalso..].
  - rewrite <- app_assoc in H. revert H. apply whole_frame; [reflexivity|]. vm_compute. discriminate.
  - rewrite <- app_assoc in H. revert H. now apply whole_message.
Qed.
Lemma no_reply id b p rest : incomplete b -> ~ reply_arrives id b p rest.
Proof.
  intros Hi (s & Hs & Hp & ->). rewrite (skipped_whole _ Hs Hi) in Hi. revert Hi. now apply whole_message.
Qed.
Lemma no_fragments id b fs rest : incomplete b -> fragments_arrive id b fs rest -> fs = [] /\ rest = b.
Proof. intros Hi H. revert Hi. destruct H as [|b0 p b' f fs' rest' H _ _ _]; intros Hi; [auto|]. exfalso; exact (no_reply Hi H). Qed.
Lemma no_fault id code b e rest : faulty id code b e rest -> ~ incomplete b.
Proof.
  induction 1 as [s b e rest Hs H IH|t x y z rest H|ty p rest e H1 H2 _|p rest e H _|p want got st rest H _ _ _|p st rest H _ _].
  - intros Hi. apply IH. now rewrite (skipped_whole _ Hs Hi) in Hi.
  - intros Hi. apply next_short in Hi. cbn [app next_frame] in Hi.
    destruct (N.ltb_spec NB_MAX (b2n x * 65536 + b2n y * 256 + b2n z)); [discriminate Hi|lia].
  - now apply whole_frame.
  - now apply whole_message.
  - now apply whole_message.
  - now apply whole_message.
Qed.
Lemma no_wait R (c : call R) id b b' : incomplete b -> waits c id b b' -> b' = b.
Proof. intros Hi [H|(_ & fs & tp & td & H & _)]; [exact H|]. now apply (no_fragments Hi) in H. Qed.
Lemma no_search R (c : call R) id b e rest : incomplete b -> ~ search_wrong c id b e rest.
Proof.
  intros Hi [fs tp td b' p rest0 H _ Hr _ _ _|fs tp td b' p g rest0 e0 H Hf _ _ _ _ _|fs g tp td rest0 e0 H _ _ _ _ _ _ _|fs x y rest0 H Hs _ _ _].
  - apply (no_fragments Hi) in H. destruct H as (_ & ->). exfalso; exact (no_reply Hi Hr).
  - apply (no_fragments Hi) in H. now destruct H.
  - apply (no_fragments Hi) in H. destruct H as (H & _). now destruct fs.
  - apply (no_fragments Hi) in H. destruct H as (-> & _). now destruct Hs as (Hs & _).
Qed.

(** ** a reply is as long as frame and header *)
Lemma reply_len id b p rest code st m : reply_arrives id b p rest -> smb_reply p code st m -> len rest + 36 <= len b.
Proof.
  intros (s & _ & _ & ->) (Hp & _). rewrite !len_app. unfold session_message. rewrite len_nb_frame. lia.
Qed.
Lemma fragments_len id b fs rest : fragments_arrive id b fs rest -> len rest + 36 * len fs <= len b.
Proof.
  induction 1 as [b|b p b' f fs rest Hr Hp Hg H IH]; [change (len (@nil trans2_reply)) with 0; lia|].
  pose proof (reply_len Hr Hp). rewrite len_cons. lia.
Qed.

Section Server.
Variable Sv : Type.
Variable react : Sv -> bytes -> reaction Sv.
Notation world := (world cifs Sv).
Notation run := (run react).
Variable E : env.

(** ** nothing is added to a stream that has ended *)
Lemma deliver_lost t b inc t' : t <> Prog.Open -> deliver t b inc t' = (b, t).
Proof. destruct t; [|reflexivity..]. intros H. now destruct H. Qed.
Lemma asked_lost w f w1 : lost w -> asked react w f w1 -> rx w1 = rx w /\ tl w1 = tl w /\ cl w1 = next_client (cl w)
  /\ exists s inc t, react (srv w) f = Accept s inc t.
Proof.
  intros Hl (s & inc & t & Hr & Hc & _ & _ & Hd). rewrite (deliver_lost _ _ _ Hl) in Hd. injection Hd as -> ->. eauto 7.
Qed.
Lemma run_lost A (p : prog cifs A) : forall w, lost w -> tl (world_of (run p w)) = tl w /\ len (rx (world_of (run p w))) <= len (rx w)
  /\ (forall w', run p w <> Blocked w').
Proof.
  unfold lost.
  induction p as [a| | |k IH|c k IH|n k IH|b k IH]; intros w Hl; cbn [Prog.run].
  - split; [reflexivity|]. split; [apply N.le_refl|discriminate].
  - split; [reflexivity|]. split; [apply N.le_refl|discriminate].
  - split; [reflexivity|]. split; [apply N.le_refl|discriminate].
  - now apply IH.
  - exact (IH (mk_world c (srv w) (rx w) (tl w) (tx w)) Hl).
  - destruct (n <=? len (rx w)).
    + destruct (IH (Got (take n (rx w))) (mk_world (cl w) (srv w) (drop n (rx w)) (tl w) (tx w)) Hl) as (H1 & H2 & H3).
      split; [exact H1|]. split; [|exact H3]. cbn [rx] in H2. rewrite len_drop in H2. lia.
    + destruct (tl w) as [| |e] eqn:Ht; [now destruct Hl|..].
      * destruct (IH RdEof (mk_world (cl w) (srv w) [] Closed (tx w)) Hl) as (H1 & H2 & H3). rewrite H1. split; [reflexivity|]. split; [|exact H3].
        cbn [rx] in H2. change (len (@nil byte)) with 0 in H2. lia.
      * destruct (IH (RdErr e) (mk_world (cl w) (srv w) [] (Broken e) (tx w)) Hl) as (H1 & H2 & H3). rewrite H1. split; [reflexivity|]. split; [|exact H3].
        cbn [rx] in H2. change (len (@nil byte)) with 0 in H2. lia.
  - destruct (react (srv w) b) as [s inc t|s n e inc t]; rewrite (deliver_lost _ _ _ Hl).
    + exact (IH None (mk_world (cl w) s (rx w) (tl w) (tx w ++ [b])) Hl).
    + exact (IH (Some e) (mk_world (cl w) s (rx w) (tl w) (tx w ++ [take n b])) Hl).
Qed.
Lemma fate_lost R (c : call R) w o : lost w -> fate react E c w o -> tl (world_of o) = tl w /\ len (rx (world_of o)) <= len (rx w) /\ (forall w', o <> Blocked w').
Proof. intros Hl H. apply fate_happens in H. destruct H as (n & H). specialize (H n (le_n n)). subst o. now apply run_lost. Qed.
Theorem lost_stalls R (c : call R) w w' : lost w -> ~ stalls react E c w w'.
Proof. intros Hl H. apply stalls_iff, (fate_lost Hl) in H. destruct H as (_ & _ & H). now apply (H w'). Qed.
Theorem lost_answers R (c : call R) w v w' : lost w -> answers react E c w v w' -> tl w' = tl w /\ len (rx w') + 36 <= len (rx w).
Proof.
  intros Hl H. split; [apply answers_iff, (fate_lost Hl) in H; apply H|].
  destruct H as [f w1 p st rest v _ Ha _ Hr Hp _ _|f w1 fs x y rest v _ Ha _ Hr Hs _ _]; destruct (asked_lost Hl Ha) as (H & _); rewrite H in Hr; cbn [leaving rx].
  - exact (reply_len Hr Hp).
  - pose proof (fragments_len Hr). destruct Hs as (Hs & _). destruct fs as [|g fs]; [now destruct Hs|]. rewrite len_cons in *. lia.
Qed.

(** ** sequences of calls *)
Lemma carried_fate A (f : flow A) : forall w o, flow_fate react E f w o <-> exists n, carried react E f w n o.
Proof.
  induction f as [a| | |R c k IH|k IH|u k IH|m u k IH]; intros w o; cbn [flow_fate carried].
  - split; [intros H; exists 0; auto|intros (n & _ & H); exact H].
  - split; [intros H; exists 0; auto|intros (n & _ & H); exact H].
  - split; [intros []|intros (n & [])].
  - split.
    + intros [(r & w' & Hf & H)|[(w' & Hp & H)|(w' & Hs & H)]].
      * apply IH in H. destruct H as (n & H). destruct r as [v|e].
        -- exists (n + 1). left. exists v, w', n. split; [now apply answers_iff|]. auto.
        -- exists n. right. left. exists e, w'. split; [now apply fails_iff|exact H].
      * exists 0. right. right. left. eauto.
      * exists 0. right. right. right. eauto.
    + intros (n & [(v & w' & m & Hf & _ & H)|[(e & w' & Hf & H)|[(w' & Hp & _ & H)|(w' & Hs & _ & H)]]]).
      * left. exists (Good v), w'. split; [now apply answers_iff|]. apply IH. eauto.
      * left. exists (Bad e), w'. split; [now apply fails_iff|]. apply IH. eauto.
      * right. left. eauto.
      * right. right. eauto.
  - apply IH.
  - apply IH.
  - apply IH.
Qed.
Theorem lost_carried A (f : flow A) : forall w n o, lost w -> carried react E f w n o ->
  36 * n <= len (rx w) /\ tl (world_of o) = tl w /\ len (rx (world_of o)) + 36 * n <= len (rx w) /\ (forall w', o <> Blocked w').
Proof.
  induction f as [a| | |R c k IH|k IH|u k IH|m u k IH]; intros w n o Hl; cbn [carried].
  - intros (-> & ->). cbn [world_of]. split; [lia|]. split; [reflexivity|]. split; [lia|discriminate].
  - intros (-> & ->). cbn [world_of]. split; [lia|]. split; [reflexivity|]. split; [lia|discriminate].
  - intros [].
  - intros [(v & w' & m & Hf & -> & H)|[(e & w' & Hf & H)|[(w' & Hp & -> & ->)|(w' & Hs & _ & _)]]].
    + destruct (lost_answers Hl Hf) as (H1 & H2). assert (Hl' : lost w') by (unfold lost; rewrite H1; exact Hl).
      destruct (IH _ w' m o Hl' H) as (H3 & H4 & H5 & H6). rewrite <- H1. split; [lia|]. split; [exact H4|]. split; [lia|exact H6].
    + apply fails_iff, (fate_lost Hl) in Hf. cbn [world_of] in Hf. destruct Hf as (H1 & H2 & _).
      assert (Hl' : lost w') by (unfold lost; rewrite H1; exact Hl).
      destruct (IH _ w' n o Hl' H) as (H3 & H4 & H5 & H6). rewrite <- H1. split; [lia|]. split; [exact H4|]. split; [lia|exact H6].
    + apply panics_iff, (fate_lost Hl) in Hp. cbn [world_of] in *. destruct Hp as (H1 & H2 & _). split; [lia|]. split; [exact H1|]. split; [lia|discriminate].
    + now apply (lost_stalls Hl) in Hs.
  - apply IH. exact Hl.
  - exact (IH (mk_world (set_uid u (cl w)) (srv w) (rx w) (tl w) (tx w)) n o Hl).
  - exact (IH (mk_world (set_options m u (cl w)) (srv w) (rx w) (tl w) (tx w)) n o Hl).
Qed.

(** ** nothing left *)
Lemma incomplete_nil : incomplete [].
Proof. left. reflexivity. Qed.
Lemma silent_fails R (c : call R) w e w' : silent w -> fails react E c w e w' -> cause react E c w e /\ silent w' /\ tl w' = tl w.
Proof.
  intros (Hl & Hi) Hf. unfold silent, lost.
  destruct Hf as [H1 H2 H3|f s n e inc t b t' H1 H2 H3|f w1 b e rest H1 H2 H3 H4|f w1 s r e H1 H2 H3 H4 H5 H6|f w1 p st rest e H1 H2 _ H3 _ _ _ _ _|f w1 rest e H1 H2 _ H3].
  - split; [now apply cause_unfit|]. split; [split; [exact Hl|exact Hi]|reflexivity].
  - rewrite (deliver_lost _ _ _ Hl) in H3. injection H3 as <- <-. split; [eapply cause_write; eauto|]. split; [split; [exact Hl|exact Hi]|reflexivity].
  - destruct (asked_lost Hl H2) as (A1 & _). rewrite A1 in H3. apply (no_wait Hi) in H3. subst b. exfalso; exact (no_fault H4 Hi).
  - destruct (asked_lost Hl H2) as (A1 & A2 & _ & s' & inc & t & A3). rewrite A1 in H3. apply (no_wait Hi) in H3. cbn [leaving rx tl].
    assert (s = []) by (apply (@skipped_whole (mid (cl w)) s r); [exact H4|rewrite H3; exact Hi]). subst s. cbn [app] in H3. subst r. rewrite A2 in *.
    split; [eapply cause_end; eauto|]. split; [split; [exact Hl|exact incomplete_nil]|reflexivity].
  - destruct (asked_lost Hl H2) as (A1 & _). rewrite A1 in H3. exfalso; exact (no_reply Hi H3).
  - destruct (asked_lost Hl H2) as (A1 & _). rewrite A1 in H3. exfalso; exact (no_search Hi H3).
Qed.
Lemma silent_answers R (c : call R) w v w' : silent w -> ~ answers react E c w v w'.
Proof.
  intros (Hl & Hi) [f w1 p st rest v0 _ Ha _ Hr _ _ _|f w1 fs x y rest v0 _ Ha _ Hr Hs _ _]; destruct (asked_lost Hl Ha) as (H & _); rewrite H in Hr.
  - exact (no_reply Hi Hr).
  - apply (no_fragments Hi) in Hr. destruct Hr as (-> & _). destruct Hs as (Hs & _). now apply Hs.
Qed.
Lemma silent_panics R (c : call R) w w' : silent w -> panics react E c w w' -> mid_full E (cl w) \/ pattern_window c.
Proof.
  intros (Hl & Hi) [H|_ H|f w1 p st rest _ Ha _ Hr _ _ _|f w1 fs tp td b p rest _ Ha _ Hf _ Hr _ _|f w1 fs x y rest _ Ha _ Hr Hs _ _]; auto;
    destruct (asked_lost Hl Ha) as (H & _); [rewrite H in Hr|rewrite H in Hf|rewrite H in Hr].
  - exfalso; exact (no_reply Hi Hr).
  - apply (no_fragments Hi) in Hf. destruct Hf as (_ & ->). exfalso; exact (no_reply Hi Hr).
  - apply (no_fragments Hi) in Hr. destruct Hr as (-> & _). destruct Hs as (Hs & _). now destruct Hs.
Qed.
Theorem silent_call R (c : call R) w : silent w -> ~ mid_full E (cl w) -> ~ pattern_window c ->
  exists e w', (exists n, forall fuel, (n <= fuel)%nat -> run (exec E fuel c) w = Done (Bad e) w')
  /\ cause react E c w e /\ silent w' /\ tl w' = tl w.
Proof.
  intros Hs Hm Hp. destruct (four_fates react E c w) as [(v & w' & H)|[(e & w' & H)|[(w' & H)|(w' & H)]]].
  - now apply (silent_answers Hs) in H.
  - exists e, w'. split; [apply fate_happens, fate_bad, H|now apply silent_fails].
  - apply (silent_panics Hs) in H. now destruct H.
  - exfalso. exact (lost_stalls (proj1 Hs) H).
Qed.
(** no call of a program is answered *)
Theorem silent_carried A (f : flow A) : forall w n o, silent w -> carried react E f w n o -> n = 0.
Proof.
  induction f as [a| | |R c k IH|k IH|u k IH|m u k IH]; intros w n o Hs; cbn [carried].
  - now intros (-> & _).
  - now intros (-> & _).
  - intros [].
  - intros [(v & w' & m & Hf & _)|[(e & w' & Hf & H)|[(w' & _ & -> & _)|(w' & _ & -> & _)]]]; [now apply (silent_answers Hs) in Hf| |reflexivity..].
    apply (silent_fails Hs) in Hf. destruct Hf as (_ & Hs' & _). exact (IH _ w' n o Hs' H).
  - apply IH. exact Hs.
  - exact (IH (mk_world (set_uid u (cl w)) (srv w) (rx w) (tl w) (tx w)) n o Hs).
  - exact (IH (mk_world (set_options m u (cl w)) (srv w) (rx w) (tl w) (tx w)) n o Hs).
Qed.
(** from outside: a program run with a bound large enough *)
Theorem lost_program A (f : flow A) fuel w o : lost w -> run (interp E fuel f) w = o -> (forall w', o <> Starved w') ->
  (forall w', o <> Blocked w') /\ tl (world_of o) = tl w
  /\ exists n, carried react E f w n o /\ 36 * n <= len (rx w) /\ (silent w -> n = 0).
Proof.
  intros Hl H Ho. assert (Hf : flow_fate react E f w o) by (apply flow_fate_iff; eauto). apply carried_fate in Hf. destruct Hf as (n & Hf).
  destruct (@lost_carried _ f w n o Hl Hf) as (H1 & H2 & _ & H3). split; [exact H3|]. split; [exact H2|]. exists n. split; [exact Hf|]. split; [exact H1|].
  intros Hs. exact (@silent_carried _ f w n o Hs Hf).
Qed.
(** download and list come to an end *)
Lemma reads_snoc h data w data' w' x w2 : reads_on react E h data w data' w' -> len data' < h_size h ->
  answers react E (ReadAt h (len data')) w' x w2 -> reads_on react E h data w (data' ++ x) w2.
Proof.
  intros H. induction H as [data w|data w y w1 data' w' H1 H2 H3 IH]; intros H4 H5.
  - eapply reads_more; [exact H4|exact H5|apply reads_none].
  - eapply reads_more; [exact H1|exact H2|]. now apply IH.
Qed.
Lemma lost_reads s path w h w1 : answers react E (OpenFile s path) w h w1 -> forall k data w2, (length (rx w2) < k)%nat -> lost w2 ->
  reads_on react E h [] w1 data w2 -> exists o, download_fate react E s path w o.
Proof.
  intros Ho. induction k as [|k IH]; intros data w2 Hk Hl Hr; [lia|].
  destruct (N.ltb_spec (len data) (h_size h)) as [L|L].
  - destruct (four_fates react E (ReadAt h (len data)) w2) as [(v & w' & H)|[(e & w' & H)|[(w' & H)|(w' & H)]]].
    + destruct (lost_answers Hl H) as (T & L'). apply (IH (data ++ v) w'); [unfold len in L'; lia|unfold lost; rewrite T; exact Hl|eapply reads_snoc; eauto].
    + eexists. eapply download_no_read; eauto.
    + eexists. apply download_crash. right. exists h, w1, data, w2. split; [exact Ho|]. split; [exact Hr|].
      replace (len data <? h_size h) with true by (symmetry; now apply N.ltb_lt). exact H.
    + exfalso. exact (lost_stalls Hl H).
  - destruct (four_fates react E (Close h) w2) as [([] & w' & H)|[(e & w' & H)|[(w' & H)|(w' & H)]]].
    + eexists. eapply download_data; eauto.
    + eexists. eapply download_no_close; eauto.
    + eexists. apply download_crash. right. exists h, w1, data, w2. split; [exact Ho|]. split; [exact Hr|].
      replace (len data <? h_size h) with false by (symmetry; now apply N.ltb_ge). exact H.
    + exfalso. exact (lost_stalls Hl H).
Qed.
Lemma download_some s path w o w' : download_fate react E s path w o -> o <> Starved w'.
Proof. intros [ | | | | | ]; discriminate. Qed.
Theorem lost_download s path w : lost w -> exists n o, (forall fuel, (n <= fuel)%nat -> run (download E fuel s path) w = o)
  /\ (forall w', o <> Starved w' /\ o <> Blocked w').
Proof.
  intros Hl. assert (H : exists o, download_fate react E s path w o).
  { destruct (four_fates react E (OpenFile s path) w) as [(h & w' & H)|[(e & w' & H)|[(w' & H)|(w' & H)]]].
    - destruct (lost_answers Hl H) as (T & L). eapply (lost_reads H (le_n _)); [unfold lost; rewrite T; exact Hl|apply reads_none].
    - eexists. eapply download_no_open, H.
    - eexists. eapply download_crash. left. exact H.
    - exfalso. exact (lost_stalls Hl H). }
  destruct H as (o & H). assert (Ho : forall w', o <> Starved w') by (intros w'; eapply download_some; eauto).
  apply download_fate_iff in H; [|exact Ho]. destruct H as (n & H). exists n, o. split.
  - intros fuel Hf. exact (@download_stays _ react E s path w o n fuel Ho Hf H).
  - intros w'. split; [apply Ho|]. rewrite <- H. exact (proj2 (proj2 (run_lost _ Hl)) w').
Qed.
Lemma finds_snoc s sid l w l' d w' r w2 : finds_on react E s sid l w (l' ++ [d]) w' ->
  answers react E (FindNext s sid (d_filename d)) w' r w2 -> fn_end r = false -> finds_on react E s sid l w ((l' ++ [d]) ++ fn_info r) w2.
Proof.
  intros H. remember (l' ++ [d]) as l1 eqn:E1. induction H as [l w|l d0 w r0 w1 l1 w' H1 H2 H3 IH]; intros H4 H5.
  - subst l. eapply finds_more; [exact H4|exact H5|apply finds_none].
  - eapply finds_more; [exact H1|exact H2|]. now apply IH.
Qed.
Lemma lost_finds s pattern w r w1 : answers react E (FindFirst s pattern) w r w1 -> ff_end r = false ->
  forall k l w2, (length (rx w2) < k)%nat -> lost w2 -> l <> [] ->
  finds_on react E s (ff_sid r) (ff_info r) w1 l w2 -> exists o, list_fate react E s pattern w o.
Proof.
  intros Ho He. induction k as [|k IH]; intros l w2 Hk Hl Hn Hr; [lia|].
  destruct (exists_last Hn) as (l' & d & ->).
  destruct (four_fates react E (FindNext s (ff_sid r) (d_filename d)) w2) as [(v & w' & H)|[(e & w' & H)|[(w' & H)|(w' & H)]]].
  - destruct (fn_end v) eqn:Hv; [eexists; exact (@list_in_parts _ react E s pattern w r w1 l' d w2 v w' Ho He Hr H Hv)|].
    destruct (lost_answers Hl H) as (T & L'). apply (IH ((l' ++ [d]) ++ fn_info v) w'); [unfold len in L'; lia|unfold lost; rewrite T; exact Hl| |exact (@finds_snoc s (ff_sid r) (ff_info r) w1 l' d w2 v w' Hr H Hv)].
    destruct l'; discriminate.
  - eexists. exact (@list_no_next _ react E s pattern w r w1 l' d w2 e w' Ho He Hr H).
  - eexists. eapply list_crash. right. exists r, w1, l', d, w2. eauto.
  - exfalso. exact (lost_stalls Hl H).
Qed.
Lemma list_some s pattern w o w' : list_fate react E s pattern w o -> o <> Starved w'.
Proof. intros [ | | | | | ]; discriminate. Qed.
Theorem lost_list s pattern w : lost w -> exists n o, (forall fuel, (n <= fuel)%nat -> run (list_dir E fuel s pattern) w = o)
  /\ (forall w', o <> Starved w' /\ o <> Blocked w').
Proof.
  intros Hl. assert (H : exists o, list_fate react E s pattern w o).
  { destruct (four_fates react E (FindFirst s pattern) w) as [(r & w' & H)|[(e & w' & H)|[(w' & H)|(w' & H)]]].
    - destruct (ff_end r) eqn:He; [eexists; eapply list_at_once; eauto|].
      destruct (lost_answers Hl H) as (T & L). eapply (lost_finds H He (le_n _)); [unfold lost; rewrite T; exact Hl|exact (answers_first H He)|apply finds_none].
    - eexists. eapply list_no_first, H.
    - eexists. eapply list_crash. left. exact H.
    - exfalso. exact (lost_stalls Hl H). }
  destruct H as (o & H). assert (Ho : forall w', o <> Starved w') by (intros w'; eapply list_some; eauto).
  apply list_fate_iff in H; [|exact Ho]. destruct H as (n & H). exists n, o. split.
  - intros fuel Hf. exact (@list_stays _ react E s pattern w o n fuel Ho Hf H).
  - intros w'. split; [apply Ho|]. rewrite <- H. exact (proj2 (proj2 (run_lost _ Hl)) w').
Qed.
End Server.
