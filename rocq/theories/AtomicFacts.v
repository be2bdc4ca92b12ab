(** * AtomicFacts: several clients at any server over bounded buffers *)
From Coq Require Import Lia.
From Verif Require Import Base BaseFacts Text Win Errors Common Reply Ntlm Prog Client Spec SpecReply SpecCrash SpecNtlm SpecMsg
  Api SpecCall Flow SizeFacts SpecFacts ClientFacts MsgFacts FlowFacts RunFacts SpecRemote SpecPool SpecPipe PipeFacts SpecCrowd CrowdFacts
  SpecSpace SpaceFacts SpecAtomic.
Open Scope N_scope.
Set Implicit Arguments.

Section Atomic.
Variables Sv A : Type.
Variable react : nat -> Sv -> bytes -> reaction Sv.
Notation line := (line Sv A).
Notation prg := (prog cifs (ans A)).
Notation begun := (@begun Sv A).
Notation point := (@point Sv A).

(** from the program [p] with [b] unread, one gets to [q] with [b1] unread by writing [fs], and
    without more bytes *)
Inductive behind (p : prg) (c : cifs) (b : bytes) : list bytes -> prg -> cifs -> bytes -> Prop :=
| b_none : behind p c b [] p c b
| b_get fs k c1 b1 : behind p c b fs (Get k) c1 b1 -> behind p c b fs (k c1) c1 b1
| b_put fs c2 k c1 b1 : behind p c b fs (Put c2 k) c1 b1 -> behind p c b fs k c2 b1
| b_read fs n k c1 b1 : behind p c b fs (Read n k) c1 b1 -> n <= len b1 -> behind p c b fs (k (Got (take n b1))) c1 (drop n b1)
| b_write fs f k c1 b1 : behind p c b fs (Write f k) c1 b1 -> a_frame f -> behind p c b (fs ++ [f]) (k None) c1 b1.
Lemma behind_frames p c b fs q c1 b1 : behind p c b fs q c1 b1 -> Forall a_frame fs.
Proof. intros H. induction H; auto. apply Forall_app. split; [exact IHbehind|]. repeat constructor. exact H0. Qed.
(** the first frame is written, and answered *)
Lemma behind_first p c b fs q c1 b1 : behind p c b fs q c1 b1 -> forall f fs', fs = f :: fs' ->
  exists k c2 b2, behind p c b [] (Write f k) c2 b2 /\ forall inc, behind (k None) c2 (b2 ++ inc) fs' q c1 (b1 ++ inc).
Proof.
  intros H. induction H as [|fs k c1 b1 H IH|fs c2 k c1 b1 H IH|fs n k c1 b1 H IH Hn|fs f0 k c1 b1 H IH Hf]; intros f fs' He.
  - discriminate He.
  - destruct (IH _ _ He) as (k0 & c0 & b0 & H1 & H2). exists k0, c0, b0. split; [exact H1|]. intros inc. apply (@b_get _ _ _ _ k), H2.
  - destruct (IH _ _ He) as (k0 & c0 & b0 & H1 & H2). exists k0, c0, b0. split; [exact H1|]. intros inc. exact (b_put (H2 inc)).
  - destruct (IH _ _ He) as (k0 & c0 & b0 & H1 & H2). exists k0, c0, b0. split; [exact H1|]. intros inc.
    assert (Hn' : n <= len (b1 ++ inc)) by (rewrite len_app; lia). pose proof (b_read (H2 inc) Hn') as H3.
    rewrite take_app, drop_app in H3. replace (n - len b1) with 0 in H3 by lia. now rewrite take_0, drop_0, app_nil_r in H3.
  - destruct fs as [|f1 fs].
    + cbn [app] in He. injection He as <- <-. exists k, c1, b1. split; [exact H|]. intros inc. constructor.
    + cbn [app] in He. injection He as <- <-. destruct (IH _ _ eq_refl) as (k0 & c0 & b0 & H1 & H2). exists k0, c0, b0. split; [exact H1|].
      intros inc. exact (b_write (H2 inc) Hf).
Qed.

(** ** the pool *)
Variable g0 : nat -> proc A.
Variable s0 : Sv.
Notation reach := (steps react g0 s0).
Lemma upd_same {X} (g : nat -> X) i x : upd g i x i = x.
Proof. unfold upd. now rewrite Nat.eqb_refl. Qed.
Lemma upd_other {X} (g : nat -> X) i j x : j <> i -> upd g i x j = g j.
Proof. intros H. unfold upd. now destruct (Nat.eqb_spec j i). Qed.
Lemma behind_catch i p c b q c1 b1 : forall fs, behind p c b fs q c1 b1 -> fs = [] -> forall l g s x, reach l g s -> g i = mk_proc p c b Open x ->
  exists g', reach l g' s /\ g' i = mk_proc q c1 b1 Open x /\ forall j, j <> i -> g' j = g j.
Proof.
  intros fs H. induction H as [|fs k c1 b1 H IH|fs c2 k c1 b1 H IH|fs n k c1 b1 H IH Hn|fs f0 k c1 b1 H IH Hf]; intros He l g s x Hr Hg.
  - exists g. auto.
  - destruct (IH He l g s x Hr Hg) as (g1 & H1 & H2 & H3). exists (upd g1 i (mk_proc (k c1) c1 b1 Open x)).
    split; [|split; [apply upd_same|intros j Hj; rewrite upd_other by exact Hj; apply H3, Hj]].
    rewrite <- (app_nil_r l). apply st_step with (b := false) (s' := s); [exact H1|]. rewrite H2. constructor.
  - destruct (IH He l g s x Hr Hg) as (g1 & H1 & H2 & H3). exists (upd g1 i (mk_proc k c2 b1 Open x)).
    split; [|split; [apply upd_same|intros j Hj; rewrite upd_other by exact Hj; apply H3, Hj]].
    rewrite <- (app_nil_r l). apply st_step with (b := false) (s' := s); [exact H1|]. rewrite H2. constructor.
  - destruct (IH He l g s x Hr Hg) as (g1 & H1 & H2 & H3). exists (upd g1 i (mk_proc (k (Got (take n b1))) c1 (drop n b1) Open x)).
    split; [|split; [apply upd_same|intros j Hj; rewrite upd_other by exact Hj; apply H3, Hj]].
    rewrite <- (app_nil_r l). apply st_step with (b := false) (s' := s); [exact H1|]. rewrite H2. now constructor.
  - now destruct fs.
Qed.

(** ** connections and pool *)
Definition lags (y : line) (q : proc A) : Prop :=
  p_tl q = Open /\ in_order y /\ frames_only (y_prog y)
  /\ exists fs, behind (p_prog q) (p_cl q) (p_rx q) fs (point y) (y_cl y) (y_got y ++ y_down y ++ y_out y) /\ y_in y ++ y_up y = concat fs ++ begun y.
Definition lagging (ys : nat -> line) (s : Sv) : Prop := exists l g, reach l g s /\ forall i, lags (ys i) (g i).
Lemma lags_host s y q : lags y q -> lags (hosted s y) q.
Proof. intros H. exact H. Qed.
(** all steps but those of the server's work *)
Lemma lag_tick cap duplex i (y y' : line) q : lags y q -> ticks cap duplex (react i) y y' ->
  (lags y' q /\ y_srv y' = y_srv y)
  \/ exists f fs k c2 b2 s' inc, behind (p_prog q) (p_cl q) (p_rx q) [] (Write f k) c2 b2 /\ react i (y_srv y) f = Accept s' inc Open /\ y_srv y' = s'
     /\ in_order y' /\ frames_only (y_prog y') /\ behind (k None) c2 (b2 ++ inc) fs (point y') (y_cl y') (y_got y' ++ y_down y' ++ y_out y')
     /\ y_in y' ++ y_up y' = concat fs ++ begun y'.
Proof.
  intros (Htl & Hord & Hon & fs & Hb & Hup) H.
  destruct H as [k c n g u j s oo d|c' k c n g u j s oo d|f k c n g u j s oo d m Hm Hn Hc|f k c g u j s oo d|x k c n g u j s oo d m Hm Hg Hd
    |x k c n g u j s oo d Hg|p c n g u j s oo d m Hm Hu Ho|p c n g u f rest s s' inc d Hf Hr|p c n g u j s oo d m Hm Ho Hd];
    unfold in_order in Hord; cbn [y_prog y_cl y_sent y_got y_up y_in y_srv y_out y_down frames_only] in *.
  - left. split; [|reflexivity]. destruct Hord as [-> ->]. rewrite begun_new in Hup. split; [exact Htl|]. split; [apply order_new|]. split; [apply Hon|].
    exists fs. rewrite point_new by apply Hon. rewrite begun_new. split; [|exact Hup]. exact (b_get Hb).
  - left. split; [|reflexivity]. destruct Hord as [-> ->]. rewrite begun_new in Hup. split; [exact Htl|]. split; [apply order_new|]. split; [apply Hon|].
    exists fs. rewrite point_new by apply Hon. rewrite begun_new. split; [|exact Hup]. exact (b_put Hb).
  - left. split; [|reflexivity]. destruct Hord as [Hnf ->]. destruct Hon as [Hf Hk].
    unfold SpaceFacts.point, SpaceFacts.begun in Hb, Hup. cbn [y_prog y_sent] in Hb, Hup. destruct (N.eqb_spec n (len f)) as [He|Hne]; [lia|].
    split; [exact Htl|]. split; [unfold in_order; cbn [y_prog y_sent y_got]; split; [exact Hn|reflexivity]|]. split; [split; assumption|].
    unfold SpaceFacts.point, SpaceFacts.begun. cbn [y_prog y_cl y_sent y_got y_up y_in y_srv y_out y_down].
    destruct (N.eqb_spec (n + m) (len f)) as [He|He].
    + exists (fs ++ [f]). split; [exact (b_write Hb Hf)|]. rewrite app_assoc, Hup, concat_app. cbn [concat]. rewrite !app_nil_r, <- app_assoc. f_equal.
      rewrite <- take_more, He. now rewrite take_all by lia.
    + exists fs. split; [exact Hb|]. rewrite app_assoc, Hup, <- app_assoc, <- take_more. reflexivity.
  - left. split; [|reflexivity]. destruct Hord as [_ ->]. destruct Hon as [Hf Hk].
    unfold SpaceFacts.point, SpaceFacts.begun in Hb, Hup. cbn [y_prog y_sent] in Hb, Hup. rewrite N.eqb_refl in Hb, Hup.
    split; [exact Htl|]. split; [apply order_new|]. split; [apply Hk|]. exists fs. rewrite point_new by apply Hk. rewrite begun_new. split; [exact Hb|exact Hup].
  - left. split; [|reflexivity]. destruct Hord as [-> Hlg]. split; [exact Htl|]. split; [unfold in_order; cbn [y_prog y_sent y_got]; split; [reflexivity|rewrite len_app, len_take; lia]|].
    split; [exact Hon|]. exists fs. split; [|exact Hup]. cbn [y_prog y_cl y_sent y_got y_up y_in y_srv y_out y_down].
    rewrite <- (app_assoc g), (app_assoc (take m d)), take_drop. exact Hb.
  - left. split; [|reflexivity]. destruct Hord as [-> Hlg]. rewrite begun_new in Hup. split; [exact Htl|]. split; [apply order_new|]. split; [apply Hon|].
    exists fs. rewrite point_new by apply Hon. rewrite begun_new. split; [|exact Hup]. cbn [y_prog y_cl y_sent y_got y_up y_in y_srv y_out y_down app].
    assert (Hx : x <= len (g ++ d ++ oo)) by (rewrite len_app; lia). pose proof (b_read Hb Hx) as H.
    rewrite take_app, drop_app, <- Hg, N.sub_diag, take_0, drop_0, app_nil_r in H. rewrite take_all, drop_all in H by lia. exact H.
  - left. split; [|reflexivity]. split; [exact Htl|]. split; [exact Hord|]. split; [exact Hon|]. exists fs. split; [exact Hb|].
    cbn [y_prog y_cl y_sent y_got y_up y_in y_srv y_out y_down]. rewrite <- app_assoc, take_drop. exact Hup.
  - right. destruct fs as [|f0 fs].
    + exfalso. cbn [concat app] in Hup. rewrite <- app_assoc in Hup. unfold SpaceFacts.begun in Hup. cbn [y_prog y_sent] in Hup.
      destruct p as [a| | |k|c0 k|x k|f' k]; try exact (frame_not_nil _ Hf Hup).
      destruct Hon as [Hf' _]. destruct (N.eqb_spec n (len f')) as [|Hne]; [exact (frame_not_nil _ Hf Hup)|].
      assert (Hlt : n < len f') by (destruct Hord; lia). exact (@frame_part f f' n _ Hf Hf' Hlt Hup).
    + pose proof (behind_frames Hb) as Hfr. inversion Hfr as [|? ? Hf0 Hfr']. subst. cbn [concat] in Hup. rewrite <- !app_assoc in Hup.
      destruct (@frame_same f f0 _ _ Hf Hf0 Hup) as [<- Hup']. destruct (behind_first Hb eq_refl) as (k & c2 & b2 & H1 & H2).
      exists f, fs, k, c2, b2, s', inc. split; [exact H1|]. split; [exact Hr|]. split; [reflexivity|]. split; [exact Hord|]. split; [exact Hon|].
      split; [|exact Hup']. specialize (H2 inc). cbn [y_got y_down y_out y_cl] in *. rewrite <- !app_assoc in H2. exact H2.
  - left. split; [|reflexivity]. split; [exact Htl|]. split; [exact Hord|]. split; [exact Hon|]. exists fs. split; [|exact Hup].
    cbn [y_prog y_cl y_sent y_got y_up y_in y_srv y_out y_down]. rewrite <- (app_assoc d), take_drop. exact Hb.
Qed.
Lemma crowd_lags cap duplex ys s ys' s' : crowd cap duplex react ys s ys' s' -> lagging ys s -> lagging ys' s'.
Proof.
  intros H Hl. induction H as [ys s|ys s ys1 s1 i y H IH Ht]; [exact Hl|]. destruct (IH Hl) as (l & g & Hr & Hg).
  destruct (lag_tick (lags_host s1 (Hg i)) Ht) as [[H1 H2]|(f & fs & k & c2 & b2 & s2 & inc & H1 & H2 & H3 & H4 & H5 & H6 & H7)].
  - exists l, g. split; [rewrite H2; exact Hr|]. intros j. unfold upd. destruct (Nat.eqb_spec j i) as [->|Hj]; [exact H1|apply Hg].
  - pose proof (Hg i) as (Htl & _). destruct (g i) as [qp qc qb qt qx] eqn:Hi. cbn [p_tl p_prog p_cl p_rx] in *. subst qt.
    destruct (behind_catch i H1 eq_refl Hr Hi) as (g1 & Hr1 & Hi1 & Ho1). cbn [y_srv hosted] in H2.
    exists (l ++ [i]), (upd g1 i (mk_proc (k None) c2 (b2 ++ inc) Open (qx ++ [f]))). split.
    + rewrite H3. apply st_step with (b := true) (s' := s1); [exact Hr1|]. rewrite Hi1. exact (@m_write _ _ (react i) f k c2 b2 Open qx s1 s2 inc Open H2).
    + intros j. unfold upd. destruct (Nat.eqb_spec j i) as [->|Hj]; [|rewrite Ho1 by exact Hj; apply Hg].
      split; [reflexivity|]. split; [exact H4|]. split; [exact H5|]. exists fs. split; [exact H6|exact H7].
Qed.
Lemma seated_lags q s : frames_only (p_prog q) -> p_tl q = Open -> lags (seated s q) q.
Proof.
  intros Hf Ht. unfold seated, afresh. split; [exact Ht|]. split; [apply order_new|]. split; [exact Hf|]. exists []. rewrite point_new by exact Hf. rewrite begun_new.
  split; [|reflexivity]. cbn [y_cl y_got y_down y_out app]. constructor.
Qed.
(** the first [n] clients catch up *)
Lemma all_catch (ys : nat -> line) s n : lagging ys s -> exists l g, reach l g s /\ (forall i, lags (ys i) (g i))
  /\ forall i, (i < n)%nat -> nothing_up (ys i) -> abreast_of (ys i) (g i).
Proof.
  intros (l & g & Hr & Hg). exists l. revert g Hr Hg. induction n as [|n IH]; intros g Hr Hg.
  - exists g. split; [exact Hr|]. split; [exact Hg|]. intros i Hi. lia.
  - destruct (IH g Hr Hg) as (g1 & Hr1 & Hg1 & H1). pose proof (Hg1 n) as (Htl & Hord & Hon & fs & Hb & Hup).
    destruct fs as [|f fs].
    + destruct (g1 n) as [qp qc qb qt qx] eqn:Hi. cbn [p_tl p_prog p_cl p_rx] in *. subst qt.
      destruct (behind_catch n Hb eq_refl Hr1 Hi) as (g2 & Hr2 & Hi2 & Ho2). exists g2. split; [exact Hr2|]. split.
      * intros j. destruct (Nat.eq_dec j n) as [->|Hj]; [|rewrite Ho2 by exact Hj; apply Hg1]. rewrite Hi2. split; [reflexivity|]. split; [exact Hord|]. split; [exact Hon|].
        exists []. split; [constructor|exact Hup].
      * intros j Hj Hn. destruct (Nat.eq_dec j n) as [->|Hj']; [|rewrite Ho2 by exact Hj'; apply H1; [lia|exact Hn]]. rewrite Hi2.
        split; [|split; [reflexivity|split; reflexivity]]. cbn [p_prog]. destruct Hn as (_ & _ & Hn). unfold SpaceFacts.point.
        destruct (y_prog (ys n)) as [a| | |k|c0 k|x k|f' k] eqn:Hp; try reflexivity. destruct Hon as [Hf' _]. apply frame_long in Hf'. rewrite Hn.
        destruct (N.eqb_spec 0 (len f')); [lia|reflexivity].
    + exists g1. split; [exact Hr1|]. split; [exact Hg1|]. intros j Hj Hn. destruct (Nat.eq_dec j n) as [->|Hj']; [|apply H1; [lia|exact Hn]].
      exfalso. destruct Hn as (Hi & Hu & _). rewrite Hi, Hu in Hup. cbn [app concat] in Hup. rewrite <- app_assoc in Hup. symmetry in Hup.
      pose proof (behind_frames Hb) as Hfr. inversion Hfr as [|? ? Hf0 _]. exact (frame_not_nil _ Hf0 Hup).
Qed.
End Atomic.
