(** * PipeFacts: client and server at the two ends of a connection with bounded buffers *)
From Coq Require Import Lia Wf_nat.
From Verif Require Import Base BaseFacts Text Win Errors Common Reply Ntlm Prog Client Spec SpecReply SpecCrash SpecNtlm SpecMsg
  Api SpecCall Flow SpecFault SpecBlame SpecLogin SizeFacts SpecWhy SpecFate SpecFacts ClientFacts MsgFacts ReqFacts CallFacts FindFacts FlowFacts
  FaultFacts RunFacts SpecRemote RemoteFacts SpecLost LostFacts SpecPool PoolFacts SpecPipe.
Open Scope N_scope.
Set Implicit Arguments.

(** ** frames *)
Lemma frame_prefix f f' x : a_frame f -> a_frame f' -> f' = f ++ x -> f' = f /\ x = [].
Proof.
  intros (ty & p & -> & Hp) (ty' & p' & -> & Hp') H. unfold nb_frame in H. cbn [app] in H. injection H as H0 H1 H2 H3 H4.
  unfold NB_MAX in *.
  assert (Hl : len p' = len p).
  { apply (f_equal b2n) in H1, H2, H3. rewrite !b2n_n2b in H1, H2, H3.
    assert (len p' / 65536 < 256) by (apply N.div_lt_upper_bound; lia). assert (len p / 65536 < 256) by (apply N.div_lt_upper_bound; lia).
    rewrite (N.mod_small (len p' / 65536)), (N.mod_small (len p / 65536)) in H1 by assumption.
    pose proof (N.div_mod (len p') 65536 ltac:(lia)). pose proof (N.div_mod (len p) 65536 ltac:(lia)).
    pose proof (N.div_mod (len p') 256 ltac:(lia)). pose proof (N.div_mod (len p) 256 ltac:(lia)).
    pose proof (N.div_mod (len p' / 256) 256 ltac:(lia)). pose proof (N.div_mod (len p / 256) 256 ltac:(lia)).
    rewrite !N.div_div in * by lia. change (256 * 256) with 65536 in *. lia. }
  assert (Hx : len x = 0) by (rewrite H4, len_app in Hl; lia).
  assert (x = []) by (destruct x; [reflexivity|rewrite len_cons in Hx; lia]). subst x. rewrite app_nil_r in H4. subst p'.
  split; [|reflexivity]. unfold nb_frame. cbn [app]. congruence.
Qed.
Lemma frame_long f : a_frame f -> 4 <= len f.
Proof. intros (ty & p & -> & _). unfold nb_frame. rewrite len_app. change (len [n2b ty; n2b (len p / 65536); n2b (len p / 256); n2b (len p)]) with 4. lia. Qed.
Lemma frame_not_nil f x : a_frame f -> f ++ x <> [].
Proof. intros H Hn. apply app_eq_nil in Hn. destruct Hn as [-> _]. apply frame_long in H. change (len (@nil byte)) with 0 in H. lia. Qed.
Lemma answer_some R (c : call R) id r : ~ answers c id [] r.
Proof.
  destruct r as [v|st]; cbn [answers].
  - intros [H1 H2]. destruct (single_dec c) as [Hs|Hs].
    + destruct (H1 Hs) as (p & st & H & _). exact (no_reply incomplete_nil H).
    + destruct (H2 Hs) as (fs & a & b & H & (H3 & _) & _). apply (no_fragments incomplete_nil) in H. destruct H as [-> _]. now apply H3.
  - intros (p & H & _). exact (no_reply incomplete_nil H).
Qed.
Lemma take_more {X} a b (l : list X) : take (a + b) l = take a l ++ take b (drop a l).
Proof.
  destruct (N.leb_spec (len l) a) as [H|H].
  - rewrite (@take_all _ (a + b)), (@take_all _ a), (@drop_all _ a) by lia. rewrite (@take_all _ b) by (rewrite len_nil; lia). now rewrite app_nil_r.
  - rewrite <- (take_drop a l) at 1. rewrite take_app, len_take, take_take. f_equal; f_equal; lia.
Qed.
Lemma none_len {X} (l : list X) : len l = 0 -> l = [].
Proof. destruct l; [reflexivity|]. rewrite len_cons. lia. Qed.

(** ** executions end *)
Section Down.
Variables Sv A : Type.
Variable react : Sv -> bytes -> reaction Sv.
Variable cap : N.
Variable duplex : bool.
Notation line := (line Sv A).
Definition unsent_part (y : line) : N := match y_prog y with Write f _ => len f - y_sent y | _ => 0 end.
Definition m1 (y : line) : nat := N.to_nat (3 * unsent_part y + 2 * len (y_up y) + len (y_in y)).
Definition m2 (y : line) : nat := N.to_nat (2 * len (y_out y) + len (y_down y)).
Lemma tick_measure y y' : ticks cap duplex react y y' ->
  child (y_prog y') (y_prog y) \/ (y_prog y' = y_prog y /\ ((m1 y' < m1 y)%nat \/ (m1 y' = m1 y /\ m2 y' < m2 y)%nat)).
Proof.
  intros H. unfold m1, m2, unsent_part.
  destruct H as [k c n g u i s o d|c' k c n g u i s o d|f k c n g u i s o d m Hm Hn Hc|f k c g u i s o d|x k c n g u i s o d m Hm Hg Hd
    |x k c n g u i s o d Hg|p c n g u i s o d m Hm Hu Ho|p c n g u f rest s s' inc d Hf Hr|p c n g u i s o d m Hm Ho Hd]; cbn [y_prog y_sent y_up y_in y_out y_down child].
  - left. cbn [child]. eexists; reflexivity.
  - left. reflexivity.
  - right. split; [reflexivity|]. left. rewrite len_app, len_take, len_drop. lia.
  - left. cbn [child]. eexists; reflexivity.
  - right. split; [reflexivity|]. right. rewrite len_drop. lia.
  - left. cbn [child]. eexists; reflexivity.
  - right. split; [reflexivity|]. left. rewrite len_app, len_take, len_drop. lia.
  - right. split; [reflexivity|]. left. rewrite len_app. apply frame_long in Hf. lia.
  - right. split; [reflexivity|]. right. rewrite len_app, len_take, len_drop. lia.
Qed.
Lemma dies (y : line) : dies_down cap duplex react y.
Proof.
  assert (H : forall p (y : line), y_prog y = p -> dies_down cap duplex react y).
  { assert (Hc : forall p, (forall q, child q p -> forall y : line, y_prog y = q -> dies_down cap duplex react y) -> forall y : line, y_prog y = p -> dies_down cap duplex react y).
    { intros p IHp. assert (Hm : forall a b (y : line), m1 y = a -> m2 y = b -> y_prog y = p -> dies_down cap duplex react y).
      { induction a as [a IHa] using lt_wf_ind. induction b as [b IHb] using lt_wf_ind. intros y0 Ha Hb Hp. constructor. intros y1 Ht.
        destruct (tick_measure Ht) as [H|(H1 & [H2|(H2 & H3)])].
        - rewrite Hp in H. exact (IHp _ H y1 eq_refl).
        - apply (IHa (m1 y1)) with (b := m2 y1); [lia|reflexivity|reflexivity|congruence].
        - apply (IHb (m2 y1)); [lia|lia|reflexivity|congruence]. }
      intros y0. exact (Hm _ _ y0 eq_refl eq_refl). }
    intros p. induction p as [a| | |k IH|c k IH|m k IH|f k IH]; apply Hc; cbn [child]; try contradiction.
    - intros q [c ->]. apply IH.
    - intros q ->. apply IH.
    - intros q [r ->]. apply IH.
    - intros q [r ->]. apply IH. }
  exact (H _ y eq_refl).
Qed.
End Down.

(** ** the client writes when it has read everything *)
Section Pipe.
Variables Sv St A : Type.
Variable react : Sv -> bytes -> reaction Sv.
Variable B : service St.
Variable abs : Sv -> St.
Hypothesis conf : conforming react B abs.
Variable E : env.
Variable fuel : nat.
Hypothesis enough : ample (fun _ => react) fuel.
Notation flow := (flow A).
Notation line := (line Sv A).
Variable g0 : nat -> flow * cifs.
Variable st0 : St.
Hypothesis sens : sensible E (fun _ => B) g0 st0.
Variable g : nat -> proc A.
Variable s0 : Sv.
Hypothesis Hs0 : abs s0 = st0.
Hypothesis Hg0 : forall i, follows E fuel (g i) (g0 i).
Notation reach := (steps (fun _ => react) g s0).

Lemma lockstep l g' s i f k : reach l g' s -> p_prog (g' i) = Write f k ->
  p_rx (g' i) = [] /\ p_tl (g' i) = Open /\ a_frame f /\ exists s' inc, react s f = Accept s' inc Open /\ inc <> [].
Proof.
  intros H Hp. destruct (@simulate _ _ _ (fun _ => react) (fun _ => B) abs (fun _ => conf) E fuel enough g0 st0 sens _ _ _ _ _ H Hs0 Hg0) as (h & Hser & Hf).
  destruct (h i) as [fi ci] eqn:Hi. pose proof (Hf i) as [Hal Hti]. rewrite Hi in Hal, Hti. cbn [snd] in Hti.
  destruct (@serial_stays _ _ (fun _ => B) E fuel g0 st0 sens i _ _ _ _ _ Hser Hi Hti) as (h1 & f1 & c1 & Hser1 & Hi1 & Hst & Ht1 & Hco & Hoth).
  assert (Hset : settled (g' i) = g' i).
  { unfold settled. rewrite Hp. cbn [settle]. destruct (g' i) as [pp pc px pt py]; cbn [p_prog p_cl p_rx p_tl p_tx] in *. now rewrite Hp. }
  rewrite <- Hco, Hset in Hal. destruct Hal as (Htree & Hcl & Hrx & Htl). rewrite Hp in Htree.
  destruct f1 as [a| | |R q kk|kk|u kk|m u kk]; try contradiction; try (inversion Htree; fail).
  pose proof (sens Hser1 i) as Hcan. rewrite Hi1 in Hcan. destruct Hcan as (Hq & Hun & Hfit & Hm). cbn [fst snd] in *.
  assert (Hmid : ~ mid_full E c1) by (intros [Ho Hmf]; specialize (Hm Ho); cbn in Hmf; lia).
  destruct (proj2 (request_iff E fuel q c1) (conj Hfit Hmid)) as [f2 Hf2].
  destruct (request_settle (exec E fuel q) (fun r => interp E fuel (kk r)) c1 [] Open [] Hf2) as (k2 & c2 & H1 & _).
  assert (Hcw : coarse E fuel (FCall q kk, c1) = mk_proc (Write f2 (fun r => pbind (k2 r) (fun r0 => interp E fuel (kk r0)))) c2 [] Open []) by exact H1.
  rewrite Hcw in Htree, Hrx, Htl. cbn [p_prog p_rx p_tl] in *. inversion Htree as [| | | | | |x y z Hk E1 E2]. subst x f2 z y.
  split; [exact Hrx|]. split; [exact Htl|].
  destruct (request_asks Ht1 Hq Hf2) as (p & words & data & -> & Hlp & Hpp & Hh & Has).
  split; [exists 0, p; split; [reflexivity|unfold NB_MAX; lia]|].
  destruct (conf s q (use_unicode c1) Hq Hun Hlp Hpp Hh Has) as (s' & inc & Hr & _ & Ha). exists s', inc. split; [exact Hr|].
  intros ->. exact (answer_some _ _ _ Ha).
Qed.
Lemma lock_progress l g' s i : reach l g' s -> ended (g' i) = false -> exists b q s', moves react (g' i) s b q s'.
Proof.
  intros H He. destruct (@simulate _ _ _ (fun _ => react) (fun _ => B) abs (fun _ => conf) E fuel enough g0 st0 sens _ _ _ _ _ H Hs0 Hg0) as (h & Hser & Hf).
  exact (@progress _ _ _ (fun _ => react) (fun _ => B) abs (fun _ => conf) E fuel enough g0 st0 sens s (g' i) i l h Hser (Hf i) He).
Qed.
Lemma lock_end l g' s i : reach l g' s -> ended (g' i) = true -> p_rx (g' i) = [].
Proof.
  intros H He. destruct (@simulate _ _ _ (fun _ => react) (fun _ => B) abs (fun _ => conf) E fuel enough g0 st0 sens _ _ _ _ _ H Hs0 Hg0) as (h & Hser & Hf).
  destruct (h i) as [fi ci] eqn:Hi. pose proof (Hf i) as [Hal Hti]. rewrite Hi in Hal, Hti. cbn [snd] in Hti.
  destruct (@serial_stays _ _ (fun _ => B) E fuel g0 st0 sens i _ _ _ _ _ Hser Hi Hti) as (h1 & f1 & c1 & Hser1 & Hi1 & Hst & Ht1 & Hco & Hoth).
  assert (Hset : settled (g' i) = g' i).
  { unfold settled, ended in *. destruct (g' i) as [pp pc px pt py]; cbn [p_prog p_cl p_rx p_tl p_tx] in *. destruct pp; try discriminate He; reflexivity. }
  rewrite <- Hco, Hset in Hal. destruct Hal as (Htree & Hcl & Hrx & Htl). rewrite Hrx.
  destruct f1 as [a| | |R q kk|kk|u kk|m u kk]; try contradiction; try reflexivity.
  exfalso. pose proof (sens Hser1 i) as Hcan. rewrite Hi1 in Hcan.
  destruct (@coarse_call _ _ _ (fun _ => react) (fun _ => B) abs (fun _ => conf) E fuel enough 0%nat R q kk c1 s Hcan Ht1) as (f2 & k2 & c2 & s2 & inc & Hc & _).
  rewrite Hc in Htree. cbn [p_prog] in Htree. unfold ended in He. destruct (p_prog (g' i)); try discriminate He; inversion Htree.
Qed.

(** ** what is under way is what the step of the whole request or answer would have done *)
Definition under_way (p : prog cifs (ans A)) (n : N) : bytes := match p with Write f _ => take n f | _ => [] end.
Definition tidy (y : line) : Prop :=
  match y_prog y with
  | Write f _ => y_sent y <= len f /\ y_got y = []
  | Read n _ => y_sent y = 0 /\ len (y_got y) <= n
  | _ => y_sent y = 0 /\ y_got y = []
  end.
Definition as_far (y : line) (p : proc A) (s : Sv) : Prop :=
  y_srv y = s /\ p_rx p = y_got y ++ y_down y ++ y_out y /\ y_in y ++ y_up y = under_way (y_prog y) (y_sent y).
Definition unserved (y : line) (p : proc A) (s : Sv) : Prop :=
  y_sent y = 0 /\ y_got y = [] /\ y_down y = [] /\ y_out y = [] /\ p_rx p <> []
  /\ a_frame (y_in y ++ y_up y) /\ react (y_srv y) (y_in y ++ y_up y) = Accept s (p_rx p) Open.
Definition unnoticed (y : line) (p : proc A) (s : Sv) : Prop :=
  exists f k, y_prog y = Write f k /\ y_sent y = len f /\ y_in y = [] /\ y_up y = [] /\ p_rx p = [] /\ y_got y = []
  /\ react s f = Accept (y_srv y) (y_down y ++ y_out y) Open.
Definition matches (y : line) (p : proc A) (s : Sv) : Prop :=
  p_prog p = y_prog y /\ p_cl p = y_cl y /\ p_tl p = Open /\ tidy y /\ (as_far y p s \/ unserved y p s \/ unnoticed y p s).
Definition held (y : line) : Prop := exists l g' s, reach l g' s /\ matches y (g' 0%nat) s.

Lemma tidy_new p c u i s o d : tidy (mk_line p c 0 [] u i s o d).
Proof. unfold tidy. cbn [y_prog y_sent y_got]. destruct p; try (split; reflexivity); change (len (@nil byte)) with 0; split; try reflexivity; lia. Qed.
Lemma under_way_0 p : under_way p 0 = [].
Proof. destruct p; reflexivity. Qed.
Lemma moved l g' s b p s' y : reach l g' s -> moves react (g' 0%nat) s b p s' -> matches y p s' -> held y.
Proof.
  intros H Hm Hy. exists (l ++ if b then [0%nat] else []), (upd g' 0 p), s'. split; [exact (@st_step _ _ _ _ _ _ _ _ 0%nat b p s' H Hm)|].
  rewrite upd_same. exact Hy.
Qed.
Lemma holds y y' cap duplex : held y -> ticks cap duplex react y y' -> held y'.
Proof.
  intros (l & g' & s1 & H & Hp & Hc & Ht & Hy & Hm) Hk.
  assert (HL := fun f k => @lockstep l g' s1 0%nat f k H).
  destruct (g' 0%nat) as [pp pc px pt py] eqn:Hg. cbn [p_prog p_cl p_tl p_rx] in *.
  destruct Hk as [k c n q u i s o d|c' k c n q u i s o d|f k c n q u i s o d m Hpos Hn Hcap|f k c q u i s o d|x k c n q u i s o d m Hpos Hq Hd
    |x k c n q u i s o d Hq|p c n q u i s o d m Hpos Hu Ho|p c n q u f rest s s' inc d Hf Hr|p c n q u i s o d m Hpos Ho Hd];
    unfold as_far, unserved, unnoticed in Hm; unfold tidy in Hy; cbn [y_prog y_cl y_sent y_got y_up y_in y_srv y_out y_down p_rx] in *; subst pp pc pt.
  - (* k_get *)
    destruct Hy as [-> ->]. cbn [y_sent y_got] in *.
    apply (@moved l g' s1 false (mk_proc (k c) c px Open py) s1); [exact H|rewrite Hg; apply m_get|].
    split; [reflexivity|]. split; [reflexivity|]. split; [reflexivity|]. split; [apply tidy_new|].
    destruct Hm as [(H1 & H2 & H3)|[Hm|(f0 & k0 & H1 & _)]]; [left|right; left|discriminate H1].
    + split; [exact H1|]. split; [exact H2|]. cbn [y_prog y_sent y_in y_up]. rewrite under_way_0. exact H3.
    + exact Hm.
  - (* k_put *)
    destruct Hy as [-> ->]. cbn [y_sent y_got] in *.
    apply (@moved l g' s1 false (mk_proc k c' px Open py) s1); [exact H|rewrite Hg; apply m_put|].
    split; [reflexivity|]. split; [reflexivity|]. split; [reflexivity|]. split; [apply tidy_new|].
    destruct Hm as [(H1 & H2 & H3)|[Hm|(f0 & k0 & H1 & _)]]; [left|right; left|discriminate H1].
    + split; [exact H1|]. split; [exact H2|]. cbn [y_prog y_sent y_in y_up]. rewrite under_way_0. exact H3.
    + exact Hm.
  - (* k_push *)
    destruct (HL _ _ eq_refl) as (Hrx & _). destruct Hy as [Hy1 Hy2]. cbn [y_sent y_got] in *.
    exists l, g', s1. split; [exact H|]. rewrite Hg.
    split; [reflexivity|]. split; [reflexivity|]. split; [reflexivity|]. split; [split; [exact Hn|exact Hy2]|].
    destruct Hm as [(H1 & H2 & H3)|[(_ & _ & _ & _ & H1 & _)|(f0 & k0 & H1 & H2 & _)]].
    + left. split; [exact H1|]. split; [exact H2|]. cbn [y_prog y_sent y_in y_up under_way] in *. rewrite app_assoc, H3. symmetry. apply take_more.
    + now elim H1.
    + injection H1 as -> _. lia.
  - (* k_sent *)
    destruct (HL _ _ eq_refl) as (Hrx & _ & Hfr & s' & inc & Hrea & Hinc). destruct Hy as [_ Hy2]. cbn [y_sent y_got] in *. subst px q.
    destruct Hm as [(H1 & H2 & H3)|[(_ & _ & _ & _ & H1 & _)|(f0 & k0 & H1 & H2 & H3 & H4 & _ & _ & H5)]].
    + symmetry in H2. apply app_eq_nil in H2. destruct H2 as [_ H2]. apply app_eq_nil in H2. destruct H2 as [-> ->]. subst s1.
      cbn [under_way] in H3. rewrite take_all in H3 by lia.
      apply (@moved l g' s true (mk_proc (k None) c inc Open (py ++ [f])) s'); [exact H|rewrite Hg; exact (m_write _ _ _ _ _ _ _ _ Hrea)|].
      split; [reflexivity|]. split; [reflexivity|]. split; [reflexivity|]. split; [apply tidy_new|].
      right. left. unfold unserved. cbn [y_prog y_cl y_sent y_got y_up y_in y_srv y_out y_down p_rx]. rewrite H3. auto 9.
    + now elim H1.
    + injection H1 as <- <-. subst u i. 
      apply (@moved l g' s1 true (mk_proc (k None) c (d ++ o) Open (py ++ [f])) s); [exact H|rewrite Hg; exact (m_write _ _ _ _ _ _ _ _ H5)|].
      split; [reflexivity|]. split; [reflexivity|]. split; [reflexivity|]. split; [apply tidy_new|].
      left. split; [reflexivity|]. split; [reflexivity|]. cbn [y_prog y_sent y_in y_up]. now rewrite under_way_0.
  - (* k_pull *)
    destruct Hy as [-> Hy2]. cbn [y_sent y_got] in *.
    exists l, g', s1. split; [exact H|]. rewrite Hg.
    split; [reflexivity|]. split; [reflexivity|]. split; [reflexivity|].
    split; [split; [reflexivity|]; cbn [y_got]; rewrite len_app, len_take; lia|].
    destruct Hm as [(H1 & H2 & H3)|[(_ & _ & -> & _)|(f0 & k0 & H1 & _)]].
    + left. split; [exact H1|]. split; [|exact H3]. cbn [y_got y_down y_out p_rx]. rewrite <- app_assoc, (app_assoc (take m d)), take_drop. exact H2.
    + change (len (@nil byte)) with 0 in Hd. lia.
    + discriminate H1.
  - (* k_got *)
    destruct Hy as [-> _]. cbn [y_sent y_got] in *. subst x.
    destruct Hm as [(H1 & H2 & H3)|[(_ & -> & -> & -> & H1 & H2 & H3)|(f0 & k0 & H1 & _)]].
    + apply (@moved l g' s1 false (mk_proc (k (Got (take (len q) px))) c (drop (len q) px) Open py) s1).
      * exact H.
      * rewrite Hg. apply m_read. rewrite H2, len_app. lia.
      * rewrite H2, take_exact, drop_exact. split; [reflexivity|]. split; [reflexivity|]. split; [reflexivity|]. split; [apply tidy_new|].
        left. split; [exact H1|]. split; [reflexivity|]. cbn [y_prog y_sent y_in y_up under_way] in *. now rewrite under_way_0.
    + apply (@moved l g' s1 false (mk_proc (k (Got (take (len (@nil byte)) px))) c (drop (len (@nil byte)) px) Open py) s1).
      * exact H.
      * rewrite Hg. apply m_read. change (len (@nil byte)) with 0. lia.
      * change (take (len (@nil byte)) px) with (@nil byte). change (drop (len (@nil byte)) px) with px.
        split; [reflexivity|]. split; [reflexivity|]. split; [reflexivity|]. split; [apply tidy_new|].
        right. left. unfold unserved. cbn [y_prog y_cl y_sent y_got y_up y_in y_srv y_out y_down p_rx]. auto 9.
    + discriminate H1.
  - (* k_take *)
    exists l, g', s1. split; [exact H|]. rewrite Hg.
    split; [reflexivity|]. split; [reflexivity|]. split; [reflexivity|]. split; [exact Hy|].
    unfold as_far, unserved, unnoticed. cbn [y_prog y_cl y_sent y_got y_up y_in y_srv y_out y_down p_rx]. rewrite <- app_assoc, take_drop.
    destruct Hm as [Hm|[Hm|(f0 & k0 & _ & _ & _ & -> & _)]]; [left; exact Hm|right; left; exact Hm|].
    change (len (@nil byte)) with 0 in Hu. lia.
  - (* k_serve *)
    exists l, g', s1. split; [exact H|]. rewrite Hg.
    split; [reflexivity|]. split; [reflexivity|]. split; [reflexivity|]. split; [exact Hy|].
    unfold as_far, unserved, unnoticed. cbn [y_prog y_cl y_sent y_got y_up y_in y_srv y_out y_down p_rx].
    destruct Hm as [(H1 & H2 & H3)|[(H1 & H2 & H3 & _ & H4 & H5 & H6)|(f0 & k0 & _ & _ & H1 & _)]].
    + destruct p as [a| | |k|c0 k|x k|f0 k]; cbn [under_way] in H3;
        try (exfalso; rewrite <- app_assoc in H3; exact (frame_not_nil _ Hf H3)).
      destruct (HL _ _ eq_refl) as (Hrx & _ & Hfr & _). destruct Hy as [Hy1 Hy2]. cbn [y_sent y_got y_prog] in *. subst q s1. rewrite Hrx in H2.
      assert (Hfull : f0 = f ++ (rest ++ u ++ drop n f0)) by (rewrite <- (take_drop n f0) at 1; rewrite <- H3, <- !app_assoc; reflexivity).
      destruct (@frame_prefix _ _ _ Hf Hfr Hfull) as [E1 E2]. apply app_eq_nil in E2. destruct E2 as [-> E2]. apply app_eq_nil in E2. destruct E2 as [-> E2].
      cbn [app] in H2. rewrite app_nil_r in H2. symmetry in H2. subst d.
      right. right. exists f0, k. split; [reflexivity|]. split.
      { apply (f_equal len) in E2. rewrite len_drop in E2. change (len (@nil byte)) with 0 in E2. lia. }
      rewrite E1. repeat split; assumption.
    + rewrite <- app_assoc in H5, H6. destruct (@frame_prefix _ _ _ Hf H5 eq_refl) as [E1 E2]. apply app_eq_nil in E2. destruct E2 as [-> ->].
      cbn [app] in H6. rewrite app_nil_r, Hr in H6. injection H6 as <- <-. subst q d n. left. rewrite under_way_0. auto.
    + exfalso. exact (frame_not_nil _ Hf H1).
  - (* k_give *)
    exists l, g', s1. split; [exact H|]. rewrite Hg.
    split; [reflexivity|]. split; [reflexivity|]. split; [reflexivity|]. split; [exact Hy|].
    unfold as_far, unserved, unnoticed. cbn [y_prog y_cl y_sent y_got y_up y_in y_srv y_out y_down p_rx]. rewrite <- app_assoc, take_drop.
    destruct Hm as [Hm|[(_ & _ & _ & -> & _)|Hm]]; [left; exact Hm| |right; right; exact Hm].
    change (len (@nil byte)) with 0 in Ho. lia.
Qed.
Lemma some_len {X} (l : list X) : l <> [] -> 1 <= len l.
Proof. destruct l; [now intros []|]. intros _. rewrite len_cons. lia. Qed.
Lemma goes_on y cap duplex : held y -> 1 <= cap -> ended (the_client y) = false -> exists y', ticks cap duplex react y y'.
Proof.
  intros (l & g' & s1 & H & Hp & Hc & Ht & Hy & Hm) Hcap He.
  assert (HL := fun f k => @lockstep l g' s1 0%nat f k H).
  pose proof (@lock_progress l g' s1 0%nat H) as HP.
  destruct (g' 0%nat) as [pp pc px pt py] eqn:Hg. destruct y as [p c n q u i s o d].
  unfold as_far, unserved, unnoticed, tidy in *. cbn [p_prog p_cl p_tl p_rx y_prog y_cl y_sent y_got y_up y_in y_srv y_out y_down] in *. subst pp pc pt.
  assert (Hbytes : forall b : bytes, {b = []} + {b <> []}) by (intros []; [now left|now right]).
  destruct p as [a| | |k|c0 k|x k|f k]; try discriminate He.
  - eexists. apply k_get.
  - eexists. apply k_put.
  - destruct Hy as [-> Hx]. destruct (N.eq_dec (len q) x) as [Hq|Hq]; [eexists; apply k_got; exact Hq|].
    destruct (Hbytes d) as [->|Hd]; [|eexists; apply (@k_pull _ _ _ _ _ x k c 0 q u i s o d 1); [lia|lia|now apply some_len]].
    destruct (Hbytes o) as [->|Ho]; [|eexists; apply (@k_give _ _ _ _ _ (Read x k) c 0 q u i s o [] 1); [lia|now apply some_len|change (len (@nil byte)) with 0; lia]].
    destruct Hm as [(H1 & H2 & H3)|[(_ & _ & _ & _ & H4 & H5 & H6)|(f0 & k0 & H1 & _)]]; [| |discriminate H1].
    + exfalso. cbn [app] in H2. rewrite app_nil_r in H2. subst px. destruct (HP eq_refl) as (b & p & s' & Hmv). inversion Hmv; lia.
    + destruct (Hbytes u) as [->|Hu]; [|eexists; apply (@k_take _ _ _ _ _ (Read x k) c 0 q u i s [] [] 1); [lia|now apply some_len|now left]].
      rewrite app_nil_r in H5, H6. rewrite <- (app_nil_r i). eexists. eapply k_serve; [exact H5|exact H6].
  - destruct (HL _ _ eq_refl) as (Hrx & _). destruct Hy as [Hn _]. destruct (N.eq_dec n (len f)) as [->|Hne]; [eexists; apply k_sent|].
    destruct Hm as [(H1 & H2 & H3)|[(_ & _ & _ & _ & H4 & _)|(f0 & k0 & H1 & H2 & _)]]; [|now elim H4|injection H1 as -> _; now elim Hne].
    rewrite Hrx in H2. symmetry in H2. apply app_eq_nil in H2. destruct H2 as [_ H2]. apply app_eq_nil in H2. destruct H2 as [-> ->].
    destruct (Hbytes u) as [->|Hu].
    + eexists. apply (@k_push _ _ _ _ _ f k c n q [] i s [] [] 1); [lia|lia|change (len (@nil byte)) with 0; lia].
    + eexists. apply (@k_take _ _ _ _ _ (Write f k) c n q u i s [] [] 1); [lia|now apply some_len|now left].
Qed.
Lemma comes_to_rest y : held y -> ended (the_client y) = true ->
  y = at_rest (the_client y) (y_srv y) /\ exists l g', reach l g' (y_srv y) /\ p_prog (g' 0%nat) = y_prog y /\ p_cl (g' 0%nat) = y_cl y.
Proof.
  intros (l & g' & s1 & H & Hp & Hc & Ht & Hy & Hm) He.
  assert (Hrx : p_rx (g' 0%nat) = []).
  { apply (lock_end 0 H). unfold ended, the_client in *. rewrite Hp. exact He. }
  destruct y as [p c n q u i s o d]. unfold as_far, unserved, unnoticed, tidy, at_rest, the_client, ended in *.
  cbn [p_prog p_cl p_tl p_rx y_prog y_cl y_sent y_got y_up y_in y_srv y_out y_down] in *.
  destruct Hm as [(H1 & H2 & H3)|[(_ & _ & _ & _ & H4 & _)|(f0 & k0 & -> & _)]]; [|now elim H4|discriminate He].
  rewrite Hrx in H2. symmetry in H2. apply app_eq_nil in H2. destruct H2 as [-> H2]. apply app_eq_nil in H2. destruct H2 as [-> ->].
  assert (Hn : n = 0 /\ i ++ u = []) by (destruct p; try discriminate He; destruct Hy; split; assumption). destruct Hn as [-> Hn].
  apply app_eq_nil in Hn. destruct Hn as [-> ->]. subst s1. split; [reflexivity|]. eauto.
Qed.
Lemma held_start : p_rx (g 0%nat) = [] -> p_tl (g 0%nat) = Open -> held (at_rest (g 0%nat) s0).
Proof.
  intros Hr Ht. exists [], g, s0. split; [constructor|]. split; [reflexivity|]. split; [reflexivity|]. split; [exact Ht|]. split; [apply tidy_new|].
  left. split; [reflexivity|]. split; [exact Hr|]. cbn [at_rest y_prog y_sent y_in y_up]. now rewrite under_way_0.
Qed.
Lemma held_ticked y y' cap duplex : ticked cap duplex react y y' -> held y -> held y'.
Proof. induction 1 as [|y y1 y2 _ IH Ht]; intros Hy; [exact Hy|]. exact (holds (IH Hy) Ht). Qed.
End Pipe.
