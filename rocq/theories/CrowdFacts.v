(** * CrowdFacts: several clients over connections with bounded buffers *)
From Coq Require Import Lia Wf_nat.
From Verif Require Import Base BaseFacts Text Win Errors Common Reply Ntlm Prog Client Spec SpecReply SpecCrash SpecNtlm SpecMsg
  Api SpecCall Flow SpecFault SpecBlame SpecLogin SizeFacts SpecWhy SpecFate SpecFacts ClientFacts MsgFacts ReqFacts CallFacts FindFacts FlowFacts
  FaultFacts RunFacts SpecRemote RemoteFacts SpecLost LostFacts SpecPool PoolFacts SpecPipe PipeFacts SpecCrowd.
Open Scope N_scope.
Set Implicit Arguments.

(** ** executions end *)
Section Quiet.
Variables Sv A : Type.
Notation line := (line Sv A).
Definition lower (y' y : line) : Prop :=
  child (y_prog y') (y_prog y) \/ (y_prog y' = y_prog y /\ ((m1 y' < m1 y)%nat \/ (m1 y' = m1 y /\ m2 y' < m2 y)%nat)).
Lemma lower_ends (y : line) : Acc lower y.
Proof.
  assert (H : forall p (y : line), y_prog y = p -> Acc lower y).
  { assert (Hc : forall p, (forall q, child q p -> forall y : line, y_prog y = q -> Acc lower y) -> forall y : line, y_prog y = p -> Acc lower y).
    { intros p IHp. assert (Hm : forall a b (y : line), m1 y = a -> m2 y = b -> y_prog y = p -> Acc lower y).
      { induction a as [a IHa] using lt_wf_ind. induction b as [b IHb] using lt_wf_ind. intros y0 Ha Hb Hp. constructor. intros y1 Ht.
        destruct Ht as [H|(H1 & [H2|(H2 & H3)])].
        - rewrite Hp in H. exact (IHp _ H y1 eq_refl).
        - apply (IHa (m1 y1)) with (b := m2 y1); [lia|reflexivity|reflexivity|congruence].
        - apply (IHb (m2 y1)); [lia|lia|reflexivity|congruence]. }
      intros y0. exact (Hm _ _ y0 eq_refl eq_refl). }
    intros p. induction p as [a| | |k IH|c k IH|m k IH|f k IH]; apply Hc; cbn [child]; try contradiction.
    - intros q [c ->]. apply IH.
    - intros q ->. apply IH.
    - intros q [r ->]. apply IH.
    - intros q [r ->]. apply IH. }
  exact (H _ y eq_refl).
Qed.
Variable cap : nat -> N.
Variable duplex : nat -> bool.
Variable react : nat -> Sv -> bytes -> reaction Sv.
Lemma quietens_all n : forall (ys : nat -> line) s, quietens cap duplex react n ys s.
Proof.
  induction n as [|n IHn]; [intros ys s; constructor; intros; lia|].
  assert (H : forall y, Acc lower y -> forall (y1 : nat -> line) s, quietens cap duplex react n y1 s ->
    forall ys, (forall i, (i < n)%nat -> ys i = y1 i) -> ys n = y -> quietens cap duplex react (S n) ys s).
  { intros y Hy. induction Hy as [y _ IHy]. intros y1 s Hq. induction Hq as [y1 s _ IHq]. intros ys Hs He. constructor. intros i y' Hi Hk.
    destruct (Nat.eq_dec i n) as [->|Hn].
    - apply (IHy y') with (y1 := ys).
      + pose proof (tick_measure Hk) as Hm. unfold lower. rewrite <- He. exact Hm.
      + apply IHn.
      + intros j Hj. apply upd_other. lia.
      + apply upd_same.
    - assert (Hin : (i < n)%nat) by lia. rewrite (Hs i Hin) in Hk. apply (IHq i y' Hin Hk).
      + intros j Hj. unfold upd. destruct (Nat.eqb j i); [reflexivity|now apply Hs].
      + rewrite upd_other by lia. exact He. }
  intros ys s. exact (H _ (lower_ends (ys n)) ys s (IHn ys s) ys (fun _ _ => eq_refl) eq_refl).
Qed.
End Quiet.

Lemma not_none {X} (l : list X) : l <> [] -> 1 <= len l.
Proof. destruct l; [now intros []|]. intros _. rewrite len_cons. lia. Qed.
Section Crowd.
Variables Sv St A : Type.
Variable react : nat -> Sv -> bytes -> reaction Sv.
Variable B : nat -> service St.
Variable abs : Sv -> St.
Hypothesis conf : forall i, conforming (react i) (B i) abs.
Variable E : env.
Variable fuel : nat.
Hypothesis enough : ample react fuel.
Notation flow := (flow A).
Notation line := (line Sv A).
Variable g0 : nat -> flow * cifs.
Variable st0 : St.
Hypothesis sens : sensible E B g0 st0.
Variable g : nat -> proc A.
Variable s0 : Sv.
Hypothesis Hs0 : abs s0 = st0.
Hypothesis Hg0 : forall i, follows E fuel (g i) (g0 i).
Notation reach := (steps react g s0).

(** ** the clients write when they have read everything *)
Lemma in_step l g' s i f k : reach l g' s -> p_prog (g' i) = Write f k ->
  p_rx (g' i) = [] /\ p_tl (g' i) = Open /\ a_frame f /\ exists s' inc, react i s f = Accept s' inc Open /\ inc <> [].
Proof.
  intros H Hp. destruct (@simulate _ _ _ react B abs conf E fuel enough g0 st0 sens _ _ _ _ _ H Hs0 Hg0) as (h & Hser & Hf).
  destruct (h i) as [fi ci] eqn:Hi. pose proof (Hf i) as [Hal Hti]. rewrite Hi in Hal, Hti. cbn [snd] in Hti.
  destruct (@serial_stays _ _ B E fuel g0 st0 sens i _ _ _ _ _ Hser Hi Hti) as (h1 & f1 & c1 & Hser1 & Hi1 & Hst & Ht1 & Hco & Hoth).
  assert (Hset : settled (g' i) = g' i).
  { unfold settled. rewrite Hp. cbn [settle]. destruct (g' i) as [pp pc px pt py]; cbn [p_prog p_cl p_rx p_tl p_tx] in *. now rewrite Hp. }
  rewrite <- Hco, Hset in Hal. destruct Hal as (Htree & Hcl & Hrx & Htl). rewrite Hp in Htree.
  destruct f1 as [a| | |R q kk|kk|u kk|m u kk]; try contradiction; try (inversion Htree; fail).
  pose proof (sens Hser1 i) as Hcan. rewrite Hi1 in Hcan. destruct Hcan as (Hq & Hun & Hfit & Hm). cbn [fst snd] in *.
  assert (Hmid : ~ mid_full E c1) by (intros [Ho Hmf]; specialize (Hm Ho); cbn in Hmf; lia).
  destruct (proj2 (request_iff E fuel q c1) (conj Hfit Hmid)) as [f2 Hf2].
  destruct (request_settle (exec E fuel q) (fun r => interp E fuel (kk r)) c1 [] Open [] Hf2) as (k2 & c2 & H1 & _).
  assert (Hcw : coarse E fuel (FCall q kk, c1) = mk_proc (Write f2 (fun r => pbind (k2 r) (fun r0 => interp E fuel (kk r0)))) c2 [] Open []) by exact H1.
  rewrite Hcw in Htree, Hrx, Htl. cbn [p_prog p_rx p_tl] in *. inversion Htree as [| | | | | |x y z Hk E1 E2]. subst x f2 z y.
  split; [exact Hrx|]. split; [exact Htl|].
  destruct (request_asks Ht1 Hq Hf2) as (p & words & data & -> & Hlp & Hpp & Hh & Has).
  split; [exists 0, p; split; [reflexivity|unfold NB_MAX; lia]|].
  destruct (conf i s q (use_unicode c1) Hq Hun Hlp Hpp Hh Has) as (s' & inc & Hr & _ & Ha). exists s', inc. split; [exact Hr|].
  intros ->. exact (answer_some _ _ _ Ha).
Qed.
Lemma step_progress l g' s i : reach l g' s -> ended (g' i) = false -> exists b q s', moves (react i) (g' i) s b q s'.
Proof.
  intros H He. destruct (@simulate _ _ _ react B abs conf E fuel enough g0 st0 sens _ _ _ _ _ H Hs0 Hg0) as (h & Hser & Hf).
  exact (@progress _ _ _ react B abs conf E fuel enough g0 st0 sens s (g' i) i l h Hser (Hf i) He).
Qed.
Lemma step_end l g' s i : reach l g' s -> ended (g' i) = true -> p_rx (g' i) = [].
Proof.
  intros H He. destruct (@simulate _ _ _ react B abs conf E fuel enough g0 st0 sens _ _ _ _ _ H Hs0 Hg0) as (h & Hser & Hf).
  destruct (h i) as [fi ci] eqn:Hi. pose proof (Hf i) as [Hal Hti]. rewrite Hi in Hal, Hti. cbn [snd] in Hti.
  destruct (@serial_stays _ _ B E fuel g0 st0 sens i _ _ _ _ _ Hser Hi Hti) as (h1 & f1 & c1 & Hser1 & Hi1 & Hst & Ht1 & Hco & Hoth).
  assert (Hset : settled (g' i) = g' i).
  { unfold settled, ended in *. destruct (g' i) as [pp pc px pt py]; cbn [p_prog p_cl p_rx p_tl p_tx] in *. destruct pp; try discriminate He; reflexivity. }
  rewrite <- Hco, Hset in Hal. destruct Hal as (Htree & Hcl & Hrx & Htl). rewrite Hrx.
  destruct f1 as [a| | |R q kk|kk|u kk|m u kk]; try contradiction; try reflexivity.
  exfalso. pose proof (sens Hser1 i) as Hcan. rewrite Hi1 in Hcan.
  destruct (@coarse_call _ _ _ react B abs conf E fuel enough i R q kk c1 s Hcan Ht1) as (f2 & k2 & c2 & s2 & inc & Hc & _).
  rewrite Hc in Htree. cbn [p_prog] in Htree. unfold ended in He. destruct (p_prog (g' i)); try discriminate He; inversion Htree.
Qed.

(** ** a client that goes on while its request is on its way *)
Inductive ahead : prog cifs (ans A) -> cifs -> prog cifs (ans A) -> cifs -> Prop :=
| h_none p c : ahead p c p c
| h_get p c k c1 : ahead p c (Get k) c1 -> ahead p c (k c1) c1
| h_put p c c2 k c1 : ahead p c (Put c2 k) c1 -> ahead p c k c2
| h_read p c k c1 : ahead p c (Read 0 k) c1 -> ahead p c (k (Got [])) c1.
Lemma catch_up i p c p' c' : ahead p c p' c' -> forall l g' s b x, reach l g' s -> g' i = mk_proc p c b Open x ->
  exists g2, reach l g2 s /\ g2 i = mk_proc p' c' b Open x /\ forall j, j <> i -> g2 j = g' j.
Proof.
  intros H l g' s b x Hr Hi.
  assert (Hone : forall q d q' d', (exists g2, reach l g2 s /\ g2 i = mk_proc q d b Open x /\ forall j, j <> i -> g2 j = g' j) ->
    moves (react i) (mk_proc q d b Open x) s false (mk_proc q' d' b Open x) s ->
    exists g2, reach l g2 s /\ g2 i = mk_proc q' d' b Open x /\ forall j, j <> i -> g2 j = g' j).
  { intros q d q' d' (g2 & H1 & H2 & H3) Hm. exists (upd g2 i (mk_proc q' d' b Open x)). split; [|split].
    - rewrite <- H2 in Hm. pose proof (@st_step _ _ react g s0 l g2 s i false _ s H1 Hm) as G. cbn iota in G. rewrite app_nil_r in G. exact G.
    - apply upd_same.
    - intros j Hj. rewrite upd_other by exact Hj. now apply H3. }
  induction H as [p c|p c k c1 _ IH|p c c2 k c1 _ IH|p c k c1 _ IH].
  - eauto.
  - eapply Hone; [exact (IH Hi)|]. apply m_get.
  - eapply Hone; [exact (IH Hi)|]. apply m_put.
  - eapply Hone; [exact (IH Hi)|]. apply (@m_read _ _ _ 0). lia.
Qed.

(** ** what is under way is what the step of the whole request or answer does *)
Definition well (y : line) : Prop :=
  match y_prog y with
  | Write f _ => y_sent y <= len f /\ y_got y = []
  | Read n _ => y_sent y = 0 /\ len (y_got y) <= n
  | _ => y_sent y = 0 /\ y_got y = []
  end.
Definition abreast (y : line) (p : proc A) : Prop :=
  p_prog p = y_prog y /\ p_cl p = y_cl y /\ p_rx p = y_got y ++ y_down y ++ y_out y /\ y_in y ++ y_up y = under_way (y_prog y) (y_sent y) /\ well y.
Definition pending (y : line) (p : proc A) : Prop :=
  exists k, p_prog p = Write (y_in y ++ y_up y) k /\ ahead (k None) (p_cl p) (y_prog y) (y_cl y)
  /\ y_sent y = 0 /\ y_got y = [] /\ y_down y = [] /\ y_out y = [].
Definition early (y : line) (p : proc A) : Prop :=
  exists f k, y_prog y = Write f k /\ y_sent y = len f /\ y_in y = [] /\ y_up y = [] /\ y_got y = []
  /\ p_prog p = k None /\ p_cl p = y_cl y /\ p_rx p = y_down y ++ y_out y.
Definition agrees (y : line) (p : proc A) : Prop := p_tl p = Open /\ (abreast y p \/ pending y p \/ early y p).
Definition agreed (ys : nat -> line) (s : Sv) : Prop := exists l g', reach l g' s /\ forall i, agrees (ys i) (g' i).

Lemma well_new p c u i s o d : well (mk_line p c 0 [] u i s o d).
Proof. unfold well. cbn [y_prog y_sent y_got]. destruct p; try (split; reflexivity); change (len (@nil byte)) with 0; split; try reflexivity; lia. Qed.
Lemma pending_end l g' s i y : reach l g' s -> agrees y (g' i) -> pending y (g' i) ->
  match y_prog y with Write _ _ | Ret _ | Panicked | OutOfFuel => False | _ => True end.
Proof.
  intros H [Ht _] (k & Hp & Ha & _). destruct (in_step i H Hp) as (Hrx & _ & _ & s' & inc & Hr & Hinc).
  destruct (g' i) as [pp pc px pt py] eqn:Hg. cbn [p_prog p_cl p_rx p_tl] in *. subst pp px pt.
  assert (Hm : moves (react i) (g' i) s true (mk_proc (k None) pc inc Open (py ++ [y_in y ++ y_up y])) s') by (rewrite Hg; exact (m_write _ _ _ _ _ _ _ _ Hr)).
  pose proof (@st_step _ _ react g s0 l g' s i true _ s' H Hm) as H1.
  destruct (@catch_up i _ _ _ _ Ha _ _ _ inc (py ++ [y_in y ++ y_up y]) H1) as (g2 & H2 & H3 & _); [apply upd_same|].
  pose proof (step_end i H2) as He. pose proof (fun f k => @in_step _ _ _ i f k H2) as Hw. rewrite H3 in He, Hw. unfold ended in He. cbn [p_prog p_rx] in He, Hw.
  destruct (y_prog y); try exact I; try (exact (Hinc (He eq_refl))). exact (Hinc (proj1 (Hw _ _ eq_refl))).
Qed.

Lemma tick_agrees cap duplex l g' s i y y' : reach l g' s -> agrees y (g' i) -> ticks cap duplex (react i) (hosted s y) y' ->
  exists l2 g2, reach l2 g2 (y_srv y') /\ agrees y' (g2 i) /\ forall j, j <> i -> g2 j = g' j.
Proof.
  intros H Hagr Hk.
  assert (Hpend := fun Hp => @pending_end l g' s i y H Hagr Hp). destruct Hagr as [Ht Hm].
  assert (HL := fun f k => @in_step l g' s i f k H).
  assert (Hstay : y_srv y' = s -> agrees y' (g' i) -> exists l2 g2, reach l2 g2 (y_srv y') /\ agrees y' (g2 i) /\ forall j, j <> i -> g2 j = g' j).
  { intros -> Hy. exists l, g'. auto. }
  assert (Hmove : forall p, moves (react i) (g' i) s false p s -> y_srv y' = s -> agrees y' p ->
    exists l2 g2, reach l2 g2 (y_srv y') /\ agrees y' (g2 i) /\ forall j, j <> i -> g2 j = g' j).
  { intros p Hmv -> Hy. exists (l ++ []), (upd g' i p). split; [exact (@st_step _ _ react g s0 l g' s i false p s H Hmv)|]. split; [now rewrite upd_same|].
    intros j Hj. now apply upd_other. }
  destruct y as [p0 c0 n0 q0 u0 i0 sx o0 d0]. unfold hosted in Hk. cbn [y_prog y_cl y_sent y_got y_up y_in y_srv y_out y_down] in Hk.
  remember (mk_line p0 c0 n0 q0 u0 i0 s o0 d0) as z eqn:Hz.
  destruct Hk as [k c n q u v sv o d|c' k c n q u v sv o d|f k c n q u v sv o d m Hpos Hn Hcap|f k c q u v sv o d|x k c n q u v sv o d m Hpos Hq Hd
    |x k c n q u v sv o d Hq|p c n q u v sv o d m Hpos Hu Ho|p c n q u f rest sv s' inc d Hf Hr|p c n q u v sv o d m Hpos Ho Hd];
    injection Hz as <- <- <- <- <- <- -> <- <-; cbn [y_srv] in *.
  - (* k_get *)
    destruct Hm as [(H1 & H2 & H3 & H4 & H5)|[Hp|(f0 & k0 & H1 & _)]]; [| |discriminate H1].
    + destruct H5 as [H5 H6]. cbn [y_prog y_cl y_sent y_got y_up y_in y_out y_down] in *. subst n q.
      destruct (g' i) as [pp pc px pt py]. cbn [p_prog p_cl p_rx p_tl] in *. subst pp pc pt.
      apply (Hmove (mk_proc (k c) c px Open py)); [apply m_get|reflexivity|]. split; [reflexivity|]. left.
      split; [reflexivity|]. split; [reflexivity|]. split; [exact H3|]. split; [|apply well_new]. cbn [y_in y_up y_prog y_sent]. now rewrite under_way_0.
    + apply Hstay; [reflexivity|]. split; [exact Ht|]. right. left. destruct Hp as (k0 & H1 & H2 & H3 & H4 & H5 & H6).
      exists k0. cbn [y_prog y_cl y_sent y_got y_up y_in y_out y_down] in *. split; [exact H1|]. split; [now apply h_get|]. auto.
  - (* k_put *)
    destruct Hm as [(H1 & H2 & H3 & H4 & H5)|[Hp|(f0 & k0 & H1 & _)]]; [| |discriminate H1].
    + destruct H5 as [H5 H6]. cbn [y_prog y_cl y_sent y_got y_up y_in y_out y_down] in *. subst n q.
      destruct (g' i) as [pp pc px pt py]. cbn [p_prog p_cl p_rx p_tl] in *. subst pp pc pt.
      apply (Hmove (mk_proc k c' px Open py)); [apply m_put|reflexivity|]. split; [reflexivity|]. left.
      split; [reflexivity|]. split; [reflexivity|]. split; [exact H3|]. split; [|apply well_new]. cbn [y_in y_up y_prog y_sent]. now rewrite under_way_0.
    + apply Hstay; [reflexivity|]. split; [exact Ht|]. right. left. destruct Hp as (k0 & H1 & H2 & H3 & H4 & H5 & H6).
      exists k0. cbn [y_prog y_cl y_sent y_got y_up y_in y_out y_down] in *. split; [exact H1|]. split; [exact (h_put H2)|]. auto.
  - (* k_push *)
    destruct Hm as [(H1 & H2 & H3 & H4 & H5)|[Hp|(f0 & k0 & H1 & H2 & _)]].
    + apply Hstay; [reflexivity|]. split; [exact Ht|]. left. destruct H5 as [H5 H6]. cbn [y_prog y_cl y_sent y_got y_up y_in y_out y_down] in *.
      split; [exact H1|]. split; [exact H2|]. split; [exact H3|]. split; [|split; [exact Hn|exact H6]].
      cbn [y_prog y_sent y_in y_up under_way] in *. rewrite app_assoc, H4. symmetry. apply take_more.
    + destruct (Hpend Hp).
    + cbn [y_prog y_sent] in *. injection H1 as -> _. lia.
  - (* k_sent *)
    destruct Hm as [(H1 & H2 & H3 & H4 & H5)|[Hp|(f0 & k0 & H1 & H2 & H3 & H4 & H5 & H6 & H7 & H8)]].
    + apply Hstay; [reflexivity|]. split; [exact Ht|]. right. left. destruct H5 as [_ H6]. cbn [y_prog y_cl y_sent y_got y_up y_in y_out y_down under_way] in *.
      destruct (HL _ _ H1) as (Hrx & _). rewrite Hrx in H3. symmetry in H3. apply app_eq_nil in H3. destruct H3 as [_ H3]. apply app_eq_nil in H3. destruct H3 as [H3 H7].
      rewrite take_all in H4 by lia. exists k. cbn [y_prog y_cl y_sent y_got y_up y_in y_out y_down]. rewrite H4, H2. split; [exact H1|]. split; [constructor|]. auto.
    + destruct (Hpend Hp).
    + cbn [y_prog y_cl y_sent y_got y_up y_in y_out y_down] in *. injection H1 as <- <-. subst u v q.
      apply Hstay; [reflexivity|]. split; [exact Ht|]. left. split; [exact H6|]. split; [exact H7|]. split; [exact H8|]. split; [|apply well_new].
      cbn [y_in y_up y_prog y_sent]. now rewrite under_way_0.
  - (* k_pull *)
    destruct Hm as [(H1 & H2 & H3 & H4 & H5)|[(k0 & _ & _ & _ & _ & H1 & _)|(f0 & k0 & H1 & _)]].
    + apply Hstay; [reflexivity|]. split; [exact Ht|]. left. destruct H5 as [H5 H6]. cbn [y_prog y_cl y_sent y_got y_up y_in y_out y_down] in *.
      split; [exact H1|]. split; [exact H2|]. split; [|split; [exact H4|]].
      * cbn [y_got y_down y_out]. rewrite <- app_assoc, (app_assoc (take m d)), take_drop. exact H3.
      * split; [exact H5|]. cbn [y_got]. rewrite len_app, len_take. lia.
    + cbn [y_down] in H1. subst d. change (len (@nil byte)) with 0 in Hd. lia.
    + discriminate H1.
  - (* k_got *)
    subst x. destruct Hm as [(H1 & H2 & H3 & H4 & H5)|[(k0 & H1 & H2 & H3 & H4 & H5 & H6)|(f0 & k0 & H1 & _)]].
    + destruct H5 as [H5 _]. cbn [y_prog y_cl y_sent y_got y_up y_in y_out y_down] in *. subst n.
      destruct (g' i) as [pp pc px pt py]. cbn [p_prog p_cl p_rx p_tl] in *. subst pp pc pt.
      apply (Hmove (mk_proc (k (Got (take (len q) px))) c (drop (len q) px) Open py)); [apply m_read; rewrite H3, len_app; lia|reflexivity|].
      rewrite H3, take_exact, drop_exact. split; [reflexivity|]. left.
      split; [reflexivity|]. split; [reflexivity|]. split; [reflexivity|]. split; [|apply well_new]. cbn [y_in y_up y_prog y_sent]. now rewrite under_way_0.
    + apply Hstay; [reflexivity|]. split; [exact Ht|]. right. left. cbn [y_prog y_cl y_sent y_got y_up y_in y_out y_down] in *. subst q.
      exists k0. cbn [y_prog y_cl y_sent y_got y_up y_in y_out y_down]. split; [exact H1|]. split; [apply h_read; exact H2|]. auto.
    + discriminate H1.
  - (* k_take *)
    apply Hstay; [reflexivity|]. split; [exact Ht|].
    destruct Hm as [(H1 & H2 & H3 & H4 & H5)|[(k0 & H1 & H2 & H3 & H4 & H5 & H6)|(f0 & k0 & _ & _ & _ & H4 & _)]].
    + left. split; [exact H1|]. split; [exact H2|]. split; [exact H3|]. split; [|exact H5].
      cbn [y_prog y_cl y_sent y_got y_up y_in y_out y_down] in *. rewrite <- app_assoc, take_drop. exact H4.
    + right. left. exists k0. cbn [y_prog y_cl y_sent y_got y_up y_in y_out y_down] in *. rewrite <- app_assoc, take_drop. auto 9.
    + cbn [y_up] in H4. subst u. change (len (@nil byte)) with 0 in Hu. lia.
  - (* k_serve *)
    destruct Hm as [(H1 & H2 & H3 & H4 & H5)|[(k0 & H1 & H2 & H3 & H4 & H5 & H6)|(f0 & k0 & _ & _ & H1 & _)]].
    + cbn [y_prog y_cl y_sent y_got y_up y_in y_out y_down] in *.
      destruct p as [a| | |k|c1 k|x k|f0 k]; cbn [under_way] in H4;
        try (exfalso; rewrite <- app_assoc in H4; exact (frame_not_nil _ Hf H4)).
      destruct (HL _ _ H1) as (Hrx & _ & Hfr & _). destruct H5 as [Hy1 Hy2]. cbn [y_sent y_got y_prog] in *. rewrite Hrx in H3. subst q.
      assert (Hfull : f0 = f ++ (rest ++ u ++ drop n f0)) by (rewrite <- (take_drop n f0) at 1; rewrite <- H4, <- !app_assoc; reflexivity).
      destruct (@frame_prefix _ _ _ Hf Hfr Hfull) as [E1 E2]. apply app_eq_nil in E2. destruct E2 as [-> E2]. apply app_eq_nil in E2. destruct E2 as [-> E2].
      cbn [app] in H3. rewrite app_nil_r in H3. symmetry in H3. subst d.
      destruct (g' i) as [pp pc px pt py] eqn:Hg. cbn [p_prog p_cl p_rx p_tl] in *. subst pp pc px pt.
      exists (l ++ [i]), (upd g' i (mk_proc (k None) c inc Open (py ++ [f0]))). split; [|split].
      * refine (@st_step _ _ react g s0 l g' s i true _ s' H _). rewrite Hg. rewrite <- E1 in Hr. exact (m_write _ _ _ _ _ _ _ _ Hr).
      * rewrite upd_same. split; [reflexivity|]. right. right. exists f0, k. cbn [y_prog y_cl y_sent y_got y_up y_in y_out y_down p_prog p_cl p_rx].
        split; [reflexivity|]. split; [|auto 9]. apply (f_equal len) in E2. rewrite len_drop in E2. change (len (@nil byte)) with 0 in E2. lia.
      * intros j Hj. now apply upd_other.
    + cbn [y_prog y_cl y_sent y_got y_up y_in y_out y_down] in *. destruct (HL _ _ H1) as (Hrx & _ & Hfr & _). subst n q d.
      rewrite <- app_assoc in H1, Hfr. destruct (@frame_prefix _ _ _ Hf Hfr eq_refl) as [E1 E2]. apply app_eq_nil in E2. destruct E2 as [-> ->].
      cbn [app] in H1. rewrite app_nil_r in H1.
      destruct (g' i) as [pp pc px pt py] eqn:Hg. cbn [p_prog p_cl p_rx p_tl] in *. subst pp px pt.
      assert (Hs : reach (l ++ [i]) (upd g' i (mk_proc (k0 None) pc inc Open (py ++ [f]))) s').
      { refine (@st_step _ _ react g s0 l g' s i true _ s' H _). rewrite Hg. exact (m_write _ _ _ _ _ _ _ _ Hr). }
      destruct (@catch_up i _ _ _ _ H2 _ _ _ inc (py ++ [f]) Hs) as (g2 & G1 & G2 & G3); [apply upd_same|].
      exists (l ++ [i]), g2. split; [exact G1|]. split.
      * rewrite G2. split; [reflexivity|]. left. split; [reflexivity|]. split; [reflexivity|]. split; [reflexivity|]. split; [|apply well_new].
        cbn [y_in y_up y_prog y_sent]. now rewrite under_way_0.
      * intros j Hj. rewrite (G3 j Hj). now apply upd_other.
    + exfalso. cbn [y_in] in H1. exact (frame_not_nil _ Hf H1).
  - (* k_give *)
    apply Hstay; [reflexivity|]. split; [exact Ht|].
    destruct Hm as [(H1 & H2 & H3 & H4 & H5)|[(k0 & _ & _ & _ & _ & _ & H6)|(f0 & k0 & H1 & H2 & H3 & H4 & H5 & H6 & H7 & H8)]].
    + left. split; [exact H1|]. split; [exact H2|]. split; [|split; [exact H4|exact H5]].
      cbn [y_prog y_cl y_sent y_got y_up y_in y_out y_down] in *. rewrite <- (app_assoc d), take_drop. exact H3.
    + cbn [y_out] in H6. subst o. change (len (@nil byte)) with 0 in Ho. lia.
    + right. right. exists f0, k0. cbn [y_prog y_cl y_sent y_got y_up y_in y_out y_down] in *. rewrite <- app_assoc, take_drop. auto 9.
Qed.
Lemma crowd_agreed cap duplex ys s ys' s' : crowd cap duplex react ys s ys' s' -> agreed ys s -> agreed ys' s'.
Proof.
  induction 1 as [|ys s ys' s' i y _ IH Hk]; intros Hy; [exact Hy|]. destruct (IH Hy) as (l & g' & H1 & H2).
  destruct (@tick_agrees (cap i) (duplex i) _ _ _ i _ _ H1 (H2 i) Hk) as (l2 & g2 & H3 & H4 & H5). exists l2, g2. split; [exact H3|]. intros j.
  destruct (Nat.eq_dec j i) as [->|Hj]; [rewrite upd_same; exact H4|]. rewrite upd_other by exact Hj. rewrite (H5 j Hj). apply H2.
Qed.
Lemma crowd_goes_on cap duplex ys s i : agreed ys s -> 1 <= cap -> ended (the_client (ys i)) = false -> exists y, ticks cap duplex (react i) (hosted s (ys i)) y.
Proof.
  intros (l & g' & H & Hall) Hcap He. pose proof (Hall i) as Hagr.
  assert (Hpend := fun Hp => @pending_end l g' s i _ H Hagr Hp). destruct Hagr as [Ht Hm].
  assert (HL := fun f k => @in_step l g' s i f k H). pose proof (@step_progress l g' s i H) as HP. clear Hall.
  unfold hosted. destruct (ys i) as [p c n q u v sx o d]. unfold ended, the_client in He.
  cbn [p_prog p_cl p_tl p_rx y_prog y_cl y_sent y_got y_up y_in y_srv y_out y_down] in *.
  assert (Hbytes : forall b : bytes, {b = []} + {b <> []}) by (intros []; [now left|now right]).
  destruct p as [a| | |k|c0 k|x k|f k]; try discriminate He.
  - eexists. apply k_get.
  - eexists. apply k_put.
  - destruct (N.eq_dec (len q) x) as [Hq|Hq]; [eexists; apply k_got; exact Hq|].
    destruct Hm as [(H1 & H2 & H3 & H4 & H5)|[(k0 & H1 & H2 & H3 & H4 & H5 & H6)|(f0 & k0 & H1 & _)]]; [| |discriminate H1].
    + destruct H5 as [H5 H6]. cbn [p_prog p_cl p_tl p_rx y_prog y_cl y_sent y_got y_up y_in y_srv y_out y_down] in *. subst n.
      destruct (Hbytes d) as [->|Hd]; [|eexists; apply (@k_pull _ _ _ _ _ x k c 0 q u v s o d 1); [lia|lia|now apply not_none]].
      destruct (Hbytes o) as [->|Ho]; [|eexists; apply (@k_give _ _ _ _ _ (Read x k) c 0 q u v s o [] 1); [lia|now apply not_none|change (len (@nil byte)) with 0; lia]].
      exfalso. cbn [app] in H3. rewrite app_nil_r in H3.
      destruct (g' i) as [pp pc px pt py]. cbn [p_prog p_cl p_rx p_tl] in *. subst pp pc px pt.
      destruct (HP eq_refl) as (b & p & s' & Hmv). inversion Hmv; lia.
    + cbn [p_prog p_cl p_tl p_rx y_prog y_cl y_sent y_got y_up y_in y_srv y_out y_down] in *. subst n q d o.
      destruct (Hbytes u) as [->|Hu]; [|eexists; apply (@k_take _ _ _ _ _ (Read x k) c 0 [] u v s [] [] 1); [lia|now apply not_none|now left]].
      destruct (HL _ _ H1) as (_ & _ & Hfr & s' & inc & Hr & _). rewrite app_nil_r in Hfr, Hr. rewrite <- (app_nil_r v). eexists. eapply k_serve; [exact Hfr|exact Hr].
  - destruct (N.eq_dec n (len f)) as [->|Hne]; [eexists; apply k_sent|].
    destruct Hm as [(H1 & H2 & H3 & H4 & H5)|[Hp|(f0 & k0 & H1 & H2 & _)]].
    + destruct H5 as [H5 _]. cbn [p_prog p_cl p_tl p_rx y_prog y_cl y_sent y_got y_up y_in y_srv y_out y_down] in *.
      destruct (HL _ _ H1) as (Hrx & _). rewrite Hrx in H3. symmetry in H3. apply app_eq_nil in H3. destruct H3 as [_ H3]. apply app_eq_nil in H3. destruct H3 as [-> ->].
      destruct (Hbytes u) as [->|Hu].
      * eexists. apply (@k_push _ _ _ _ _ f k c n q [] v s [] [] 1); [lia|lia|change (len (@nil byte)) with 0; lia].
      * eexists. apply (@k_take _ _ _ _ _ (Write f k) c n q u v s [] [] 1); [lia|now apply not_none|now left].
    + destruct (Hpend Hp).
    + cbn [y_prog y_sent] in *. injection H1 as -> _. now elim Hne.
Qed.
(** nothing is under way on a connection whose client has ended *)
Lemma crowd_rest ys s : agreed ys s -> exists l g', reach l g' s /\
  forall i, ended (the_client (ys i)) = true -> p_prog (g' i) = y_prog (ys i) /\ p_cl (g' i) = y_cl (ys i) /\ hosted s (ys i) = at_rest (the_client (ys i)) s.
Proof.
  intros (l & g' & H & Hall). exists l, g'. split; [exact H|]. intros i He. pose proof (Hall i) as Hagr.
  assert (Hpend := fun Hp => @pending_end l g' s i _ H Hagr Hp). destruct Hagr as [Ht Hm].
  pose proof (@step_end l g' s i H) as HE. clear Hall.
  unfold hosted, at_rest. destruct (ys i) as [p c n q u v sx o d]. unfold ended, the_client in *.
  cbn [p_prog p_cl p_tl p_rx y_prog y_cl y_sent y_got y_up y_in y_srv y_out y_down] in *.
  destruct Hm as [(H1 & H2 & H3 & H4 & H5)|[Hp|(f0 & k0 & H1 & _)]].
  - unfold well in H5. cbn [p_prog p_cl p_tl p_rx y_prog y_cl y_sent y_got y_up y_in y_srv y_out y_down] in *. rewrite H1 in HE. rewrite (HE He) in H3.
    symmetry in H3. apply app_eq_nil in H3. destruct H3 as [-> H3]. apply app_eq_nil in H3. destruct H3 as [-> ->].
    assert (Hn : n = 0 /\ v ++ u = []) by (destruct p; try discriminate He; destruct H5; split; assumption). destruct Hn as [-> Hn].
    apply app_eq_nil in Hn. destruct Hn as [-> ->]. auto.
  - specialize (Hpend Hp). destruct p; try discriminate He; contradiction.
  - cbn [y_prog] in H1. subst p. discriminate He.
Qed.
Lemma agreed_start : (forall i, p_rx (g i) = []) -> (forall i, p_tl (g i) = Open) -> agreed (fun i => at_rest (g i) s0) s0.
Proof.
  intros Hr Ht. exists [], g. split; [constructor|]. intros i. split; [apply Ht|]. left. unfold at_rest.
  split; [reflexivity|]. split; [reflexivity|]. split; [apply Hr|]. split; [|apply well_new]. cbn [y_prog y_sent y_in y_up]. now rewrite under_way_0.
Qed.
End Crowd.
