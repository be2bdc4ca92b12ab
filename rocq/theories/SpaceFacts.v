(** * SpaceFacts: any server and any program that writes whole frames, over bounded buffers *)
From Coq Require Import Lia.
From Verif Require Import Base BaseFacts Text Win Errors Common Reply Ntlm Prog Client Spec SpecReply SpecCrash SpecNtlm SpecMsg
  Api SpecCall Flow SizeFacts SpecFacts ClientFacts MsgFacts ReqFacts CallFacts FlowFacts RunFacts SpecRemote SpecPool SpecPipe PipeFacts
  SessionFacts TwinFacts SpecLogin ConnFacts SpecSpace.
Open Scope N_scope.
Set Implicit Arguments.

(** ** the programs of the crate write whole frames *)
Lemma fr_bind A B (p : prog cifs A) (f : A -> prog cifs B) : frames_only p -> (forall a, frames_only (f a)) -> frames_only (pbind p f).
Proof.
  intros H Hf. induction p as [a| | |k IH|c k IH|n k IH|b k IH]; cbn [pbind frames_only] in *; auto.
  destruct H as [H1 H2]. split; [exact H1|]. intros r. apply IH, H2.
Qed.
Lemma fr_mbind A B (p : M A) (f : A -> M B) : frames_only p -> (forall a, frames_only (f a)) -> frames_only (mbind p f).
Proof. intros H Hf. apply fr_bind; [exact H|]. intros [a|e]; [apply Hf|exact I]. Qed.
Lemma fr_lift X A (f : X -> error) (r : res X A) : frames_only (lift f r).
Proof. destruct r; exact I. Qed.
Lemma fr_nb_recv : frames_only nb_recv.
Proof.
  unfold nb_recv. apply fr_mbind; [intros [b| |e]; exact I|]. intros t.
  apply fr_mbind; [intros [b| |e]; exact I|]. intros raw. cbv zeta.
  destruct (_ <? _); [exact I|]. apply fr_mbind; [intros [b| |e]; exact I|]. intros d. apply fr_lift.
Qed.
Lemma fr_recv_message f : frames_only (recv_message f).
Proof.
  induction f as [|f IH]; [exact I|]. cbn [recv_message]. apply fr_mbind; [apply fr_nb_recv|].
  intros [m|m| |c| |]; try exact I. exact IH.
Qed.
Lemma fr_recv_frame f g id : frames_only (recv_frame f g id).
Proof.
  induction f as [|f IH]; [exact I|]. cbn [recv_frame]. apply fr_mbind; [apply fr_recv_message|]. intros m.
  apply fr_mbind; [apply fr_lift|]. intros [i b]. destruct (_ =? _); [exact I|exact IH].
Qed.
Lemma fr_recv R f (r : reply R) id : frames_only (recv f r id).
Proof.
  unfold recv. apply fr_mbind; [apply fr_recv_frame|]. intros [i b].
  destruct (negb _); [exact I|]. destruct (negb _); [exact I|]. apply fr_lift.
Qed.
Lemma fr_collect f g id ctx : frames_only (collect f g id ctx).
Proof.
  revert ctx. induction f as [|f IH]; intros ctx; [exact I|]. cbn [collect]. apply fr_mbind; [apply fr_recv|].
  intros x. apply fr_mbind; [apply fr_lift|]. intros [c [|]]; [exact I|apply IH].
Qed.
Lemma fr_after f R (c : call R) id : frames_only (after f c id).
Proof.
  destruct c; cbn [after]; try apply fr_recv; apply fr_mbind; try apply fr_collect; intros x; apply fr_lift.
Qed.
Lemma encoded_frame f b : frame_encode f = Ok b -> a_frame b.
Proof.
  destruct f as [m|m| |c| |]; try discriminate.
  - rewrite frame_encode_message. destruct (N.ltb_spec NB_MAX (len m)) as [|H]; [discriminate|]. intros [= <-].
    exists 0, m. split; [reflexivity|exact H].
  - unfold frame_encode. destruct (N.eqb_spec (len m) 68) as [H|H]; cbn [negb]; [|discriminate].
    rewrite try_into_small by (cbn; lia). cbn [rbind]. intros H0.
    exists 0x81, m. split; [|rewrite H; vm_compute; discriminate]. rewrite nb_frame_le by lia. injection H0 as H0. symmetry. exact H0.
Qed.
Lemma fr_nb_send f : frames_only (nb_send f).
Proof.
  unfold nb_send. destruct (frame_encode f) as [b|e|] eqn:H; [|exact I|exact I]. cbn [lift ret mbind pbind].
  split; [exact (encoded_frame _ H)|]. intros [e|]; exact I.
Qed.
Lemma fr_create_session x y : frames_only (create_session x y).
Proof.
  apply fr_mbind; [apply fr_nb_send|]. intros _. apply fr_mbind; [apply fr_nb_recv|]. intros [m|m| |c| |]; exact I.
Qed.
Lemma fr_get : frames_only get.
Proof. intros c. exact I. Qed.
Lemma fr_put c : frames_only (put c).
Proof. exact I. Qed.
Lemma fr_send E m : frames_only (send E m).
Proof.
  unfold send. apply fr_mbind; [apply fr_get|]. intros c. cbv zeta. destruct (_ && _); [exact I|].
  apply fr_mbind; [apply fr_put|]. intros _. apply fr_mbind; [apply fr_lift|]. intros b.
  apply fr_mbind; [apply fr_nb_send|]. intros _. exact I.
Qed.
Lemma fr_exec E f R (c : call R) : frames_only (exec E f c).
Proof. rewrite exec_send. apply fr_mbind; [apply fr_send|]. intros a. apply fr_after. Qed.
Lemma fr_interp E f A (p : flow A) : frames_only (interp E f p).
Proof.
  induction p as [a| | |R c k IH|k IH|u k IH|m u k IH]; cbn [interp frames_only]; auto.
  apply fr_bind; [apply fr_exec|exact IH].
Qed.
Lemma fr_setup E f : frames_only (setup_connection E f).
Proof.
  unfold setup_connection. apply fr_mbind; [exact (fr_exec E f Negotiate)|]. intros s.
  apply fr_mbind; [apply fr_get|]. intros c. apply fr_mbind; [apply fr_put|]. intros _. clear c. destruct (contains _ _).
  - unfold authenticate_ntlmv2. apply fr_mbind; [apply fr_get|]. intros c. cbv zeta.
    apply fr_mbind; [apply fr_lift|]. intros m. apply fr_mbind; [exact (fr_exec E f (SetupBlob m))|]. intros r.
    apply fr_mbind; [apply fr_get|]. intros c'. apply fr_mbind; [apply fr_put|]. intros _.
    apply fr_mbind; [apply fr_lift|]. intros ch. apply fr_mbind; [apply fr_lift|]. intros m2.
    apply fr_mbind; [exact (fr_exec E f (SetupBlob m2))|]. intros _. exact I.
  - unfold authenticate_ntlm. apply fr_mbind; [apply fr_get|]. intros c. cbv zeta.
    apply fr_mbind; [apply fr_lift|]. intros m. 
    apply fr_mbind; [exact (fr_exec E f (SetupAuth _ _ m))|]. intros r.
    apply fr_mbind; [apply fr_get|]. intros c'. apply fr_put.
Qed.
Lemma fr_download E f s path : frames_only (download E f s path).
Proof.
  unfold download. apply fr_mbind; [exact (fr_exec E f (OpenFile s path))|]. intros h. apply fr_mbind.
  - generalize (@nil byte). generalize f at 1. intros g. induction g as [|g IH]; intros d; [exact I|]. cbn [download_loop].
    destruct (_ <? _); [|exact I]. apply fr_mbind; [exact (fr_exec E f (ReadAt h (len d)))|]. intros x. apply IH.
  - intros d. apply fr_mbind; [exact (fr_exec E f (Close h))|]. intros _. exact I.
Qed.
Lemma fr_list E f s pattern : frames_only (list_dir E f s pattern).
Proof.
  unfold list_dir. apply fr_mbind; [exact (fr_exec E f (FindFirst s pattern))|]. intros r. destruct (ff_end r); [exact I|].
  generalize (ff_info r). generalize f at 1. intros g. induction g as [|g IH]; intros l; [exact I|]. cbn [list_loop].
  destruct (last _ _) as [d|]; [|exact I]. apply fr_mbind; [exact (fr_exec E f (FindNext s (ff_sid r) (d_filename d)))|]. intros x. cbv zeta.
  destruct (fn_end x); [exact I|apply IH].
Qed.

(** ** frames in a row *)
Lemma frame_same f f' x x' : a_frame f -> a_frame f' -> f ++ x = f' ++ x' -> f = f' /\ x = x'.
Proof.
  intros Hf Hf' H. destruct (N.le_gt_cases (len f) (len f')) as [Hl|Hl].
  - assert (Hx : f' = f ++ drop (len f) f').
    { rewrite <- (take_drop (len f) f') at 1. f_equal. apply (f_equal (take (len f))) in H.
      rewrite !take_app in H. rewrite N.sub_diag in H. replace (len f - len f') with 0 in H by lia. 
      rewrite !take_0, !app_nil_r in H. rewrite <- H. now rewrite take_all by lia. }
    destruct (@frame_prefix f f' _ Hf Hf' Hx) as [<- _]. split; [reflexivity|]. now apply app_inv_head in H.
  - assert (Hx : f = f' ++ drop (len f') f).
    { rewrite <- (take_drop (len f') f) at 1. f_equal. symmetry in H. apply (f_equal (take (len f'))) in H.
      rewrite !take_app in H. rewrite N.sub_diag in H. replace (len f' - len f) with 0 in H by lia. 
      rewrite !take_0, !app_nil_r in H. rewrite <- H. now rewrite take_all by lia. }
    destruct (@frame_prefix f' f _ Hf' Hf Hx) as [-> _]. split; [reflexivity|]. now apply app_inv_head in H.
Qed.
(** a frame that is there is no part of a frame *)
Lemma frame_part f f' n x : a_frame f -> a_frame f' -> n < len f' -> f ++ x <> take n f'.
Proof.
  intros Hf Hf' Hn H. assert (Hx : f' = f ++ (x ++ drop n f')) by (rewrite app_assoc, H; symmetry; apply take_drop).
  destruct (@frame_prefix f f' _ Hf Hf' Hx) as [-> H1]. apply app_eq_nil in H1. destruct H1 as [-> _]. apply (f_equal len) in H.
  rewrite app_nil_r, len_take in H. lia.
Qed.
Lemma serves_app Sv (react : Sv -> bytes -> reaction Sv) s l s1 o f s2 inc : serves react s l s1 o -> react s1 f = Accept s2 inc Open ->
  serves react s (l ++ [f]) s2 (o ++ inc).
Proof.
  intros H Hr. induction H as [s|s f0 s1 i l s3 o H H1 IH]; cbn [app].
  - rewrite <- (app_nil_r inc). econstructor; [exact Hr|constructor].
  - rewrite <- app_assoc. econstructor; [exact H|]. apply IH, Hr.
Qed.
Lemma serves_cons Sv (react : Sv -> bytes -> reaction Sv) s f l s2 o : serves react s (f :: l) s2 o ->
  exists s1 inc out, react s f = Accept s1 inc Open /\ serves react s1 l s2 out /\ o = inc ++ out.
Proof. intros H. inversion H as [|? ? s1 inc ? ? out H1 H2]. subst. exists s1, inc, out. auto. Qed.
Lemma serves_nil Sv (react : Sv -> bytes -> reaction Sv) s s2 o : serves react s [] s2 o -> s2 = s /\ o = [].
Proof. intros H. inversion H. auto. Qed.

(** ** the run the execution belongs to *)
Section Space.
Variables Sv A : Type.
Variable react : Sv -> bytes -> reaction Sv.
Hypothesis keeps : keeps_open react.
Notation line := (line Sv A).
Notation world := (world cifs Sv).
Notation outcome := (outcome cifs Sv (ans A)).
(** a property of the run from here on *)
Variable Q : prog cifs (ans A) -> world -> Prop.
Record onwards : Prop := {
  q_get : forall k w, Q (Get k) w -> Q (k (cl w)) w;
  q_put : forall c k w, Q (Put c k) w -> Q k (mk_world c (srv w) (rx w) (tl w) (tx w));
  q_read : forall n k w, Q (Read n k) w -> n <= len (rx w) -> Q (k (Got (take n (rx w)))) (mk_world (cl w) (srv w) (drop n (rx w)) (tl w) (tx w));
  q_write : forall f k w s inc, Q (Write f k) w -> react (srv w) f = Accept s inc Open ->
    Q (k None) (mk_world (cl w) s (rx w ++ inc) Open (tx w ++ [f]))
}.
Hypothesis Qon : onwards.

(** where the client is: behind a frame it has written all of *)
Definition point (y : line) : prog cifs (ans A) :=
  match y_prog y with Write f k => if y_sent y =? len f then k None else y_prog y | _ => y_prog y end.
(** what is on its way of a frame it is still writing *)
Definition begun (y : line) : bytes :=
  match y_prog y with Write f _ => if y_sent y =? len f then [] else take (y_sent y) f | _ => [] end.
Definition in_order (y : line) : Prop :=
  match y_prog y with
  | Write f _ => y_sent y <= len f /\ y_got y = []
  | Read x _ => y_sent y = 0 /\ len (y_got y) <= x
  | _ => y_sent y = 0 /\ y_got y = []
  end.
Record tracks (o : outcome) (y : line) (w : world) (fs : list bytes) (out : bytes) : Prop := {
  t_run : o = run react (point y) w;
  t_cl : cl w = y_cl y;
  t_tl : tl w = Open;
  t_rx : rx w = y_got y ++ y_down y ++ y_out y ++ out;
  t_frames : Forall a_frame fs;
  t_up : y_in y ++ y_up y = concat fs ++ begun y;
  t_srv : serves react (y_srv y) fs (srv w) out;
  t_order : in_order y;
  t_only : frames_only (y_prog y);
  t_q : Q (point y) w
}.
Lemma tracks_start p c s o : frames_only p -> Q p (mk_world c s o Open []) -> tracks (run react p (mk_world c s o Open [])) (afresh p c s o) (mk_world c s o Open []) [] [].
Proof.
  intros H HQ. assert (Hb : begun (afresh p c s o) = []).
  { unfold begun, afresh. cbn [y_prog y_sent]. destruct p; try reflexivity. rewrite take_0. now destruct (_ =? _). }
  assert (Hp : point (afresh p c s o) = p).
  { unfold point, afresh. cbn [y_prog y_sent]. destruct p as [a| | |k|c0 k|n k|f k]; try reflexivity. destruct H as [Hf _]. apply frame_long in Hf.
    destruct (N.eqb_spec 0 (len f)) as [H0|H0]; [lia|reflexivity]. }
  constructor.
  - now rewrite Hp.
  - reflexivity.
  - reflexivity.
  - cbn. now rewrite app_nil_r.
  - constructor.
  - rewrite Hb. reflexivity.
  - constructor.
  - unfold in_order, afresh. cbn [y_prog y_sent y_got]. destruct p; auto. + split; [reflexivity|]. rewrite len_nil. lia. + split; [lia|reflexivity].
  - exact H.
  - now rewrite Hp.
Qed.
(** where the client goes on with a new program *)
Lemma point_new p c g u i s o d : frames_only p -> point (mk_line p c 0 g u i s o d) = p.
Proof.
  intros H. unfold point. cbn [y_prog y_sent]. destruct p as [a| | |k|c0 k|n k|f k]; try reflexivity. destruct H as [Hf _]. apply frame_long in Hf.
  destruct (N.eqb_spec 0 (len f)) as [H0|H0]; [lia|reflexivity].
Qed.
Lemma begun_new p c g u i s o d : begun (mk_line p c 0 g u i s o d) = [].
Proof. unfold begun. cbn [y_prog y_sent]. destruct p; try reflexivity. rewrite take_0. now destruct (_ =? _). Qed.
Lemma order_new p c u i s o d : in_order (mk_line p c 0 [] u i s o d).
Proof. unfold in_order. cbn [y_prog y_sent y_got]. destruct p; auto. - split; [reflexivity|]. rewrite len_nil. lia. - split; [lia|reflexivity]. Qed.
Lemma track_tick o y w fs out cap duplex y' : tracks o y w fs out -> ticks cap duplex react y y' ->
  exists w' fs' out', tracks o y' w' fs' out'.
Proof.
  intros [Hrun Hcl Htl Hrx Hfr Hup Hsrv Hord Hon HQ] H.
  destruct H as [k c n g u i s oo d|c' k c n g u i s oo d|f k c n g u i s oo d m Hm Hn Hc|f k c g u i s oo d|x k c n g u i s oo d m Hm Hg Hd
    |x k c n g u i s oo d Hg|p c n g u i s oo d m Hm Hu Ho|p c n g u f rest s s' inc d Hf Hr|p c n g u i s oo d m Hm Ho Hd];
    unfold in_order in Hord; cbn [y_prog y_cl y_sent y_got y_up y_in y_srv y_out y_down frames_only] in *.
  - destruct Hord as [-> ->]. exists w, fs, out. rewrite begun_new in Hup. constructor; cbn [y_prog y_cl y_sent y_got y_up y_in y_srv y_out y_down]; auto.
    + rewrite point_new by apply Hon. unfold point in Hrun. cbn [y_prog run] in Hrun. now rewrite Hcl in Hrun.
    + now rewrite begun_new.
    + apply order_new.
    + rewrite point_new by apply Hon. rewrite <- Hcl. apply (q_get Qon), HQ.
  - destruct Hord as [-> ->]. exists (mk_world c' (srv w) (rx w) (tl w) (tx w)), fs, out. rewrite begun_new in Hup.
    constructor; cbn [y_prog y_cl y_sent y_got y_up y_in y_srv y_out y_down cl tl rx srv]; auto.
    + rewrite point_new by apply Hon. unfold point in Hrun. cbn [y_prog run] in Hrun. exact Hrun.
    + now rewrite begun_new.
    + apply order_new.
    + rewrite point_new by apply Hon. apply (q_put Qon), HQ.
  - destruct Hord as [Hnf ->]. destruct Hon as [Hf Hk].
    unfold point, begun in Hrun, Hup, HQ. cbn [y_prog y_sent] in Hrun, Hup, HQ. destruct (N.eqb_spec n (len f)) as [He|Hne]; [lia|].
    destruct (N.eq_dec (n + m) (len f)) as [He|He].
    + destruct (@keeps (srv w) f Hf) as (s' & inc & Hr).
      exists (mk_world (cl w) s' (rx w ++ inc) Open (tx w ++ [f])), (fs ++ [f]), (out ++ inc).
      constructor; cbn [y_prog y_cl y_sent y_got y_up y_in y_srv y_out y_down cl tl rx srv]; auto.
      * unfold point. cbn [y_prog y_sent]. rewrite He, N.eqb_refl. rewrite Hrun. cbn [run]. rewrite Hr, Htl. reflexivity.
      * rewrite Hrx. cbn [app]. now rewrite <- !app_assoc.
      * apply Forall_app. split; [exact Hfr|]. repeat constructor. exact Hf.
      * unfold begun. cbn [y_prog y_sent]. rewrite He, N.eqb_refl. rewrite app_assoc, Hup, concat_app. cbn [concat]. rewrite !app_nil_r, <- app_assoc. f_equal.
        rewrite <- take_more, He. now rewrite take_all by lia.
      * apply serves_app with (1 := Hsrv), Hr.
      * unfold in_order. cbn [y_prog y_sent y_got]. split; [lia|reflexivity].
      * split; assumption.
      * unfold point. cbn [y_prog y_sent]. rewrite He, N.eqb_refl. exact (@q_write Qon f k w s' inc HQ Hr).
    + exists w, fs, out. constructor; cbn [y_prog y_cl y_sent y_got y_up y_in y_srv y_out y_down cl tl rx srv]; auto.
      * unfold point. cbn [y_prog y_sent]. destruct (N.eqb_spec (n + m) (len f)) as [|_]; [contradiction|exact Hrun].
      * unfold begun. cbn [y_prog y_sent]. destruct (N.eqb_spec (n + m) (len f)) as [|_]; [contradiction|].
        rewrite app_assoc, Hup, <- app_assoc, <- take_more. reflexivity.
      * unfold in_order. cbn [y_prog y_sent y_got]. split; [exact Hn|reflexivity].
      * split; assumption.
      * unfold point. cbn [y_prog y_sent]. destruct (N.eqb_spec (n + m) (len f)) as [|_]; [contradiction|exact HQ].
  - destruct Hord as [_ ->]. destruct Hon as [Hf Hk]. unfold point, begun in Hrun, Hup, HQ. cbn [y_prog y_sent] in Hrun, Hup, HQ. rewrite N.eqb_refl in Hrun, Hup, HQ.
    exists w, fs, out. constructor; cbn [y_prog y_cl y_sent y_got y_up y_in y_srv y_out y_down cl tl rx srv]; auto.
    + rewrite point_new by apply Hk. exact Hrun.
    + now rewrite begun_new.
    + apply order_new.
    + rewrite point_new by apply Hk. exact HQ.
  - destruct Hord as [-> Hlg]. exists w, fs, out. constructor; cbn [y_prog y_cl y_sent y_got y_up y_in y_srv y_out y_down cl tl rx srv]; auto.
    + rewrite Hrx, <- (app_assoc g), (app_assoc (take m d)), take_drop. reflexivity.
    + unfold in_order. cbn [y_prog y_sent y_got]. split; [reflexivity|]. rewrite len_app, len_take. lia.
  - destruct Hord as [-> Hlg]. exists (mk_world (cl w) (srv w) (d ++ oo ++ out) (tl w) (tx w)), fs, out. rewrite begun_new in Hup.
    constructor; cbn [y_prog y_cl y_sent y_got y_up y_in y_srv y_out y_down cl tl rx srv]; auto.
    + rewrite point_new by apply Hon. unfold point in Hrun. cbn [y_prog run] in Hrun. rewrite Hrun, Hrx.
      destruct (N.leb_spec x (len (g ++ d ++ oo ++ out))) as [_|Hx]; [|rewrite len_app in Hx; lia].
      rewrite take_app, drop_app, <- Hg, N.sub_diag, take_0, drop_0, app_nil_r. rewrite take_all, drop_all by lia. reflexivity.
    + now rewrite begun_new.
    + apply order_new.
    + rewrite point_new by apply Hon. assert (Hx : x <= len (rx w)) by (rewrite Hrx, len_app; lia). apply (@q_read Qon) in HQ; [|exact Hx]. rewrite Hrx in HQ.
      rewrite take_app, drop_app, <- Hg, N.sub_diag, take_0, drop_0, app_nil_r in HQ. rewrite take_all, drop_all in HQ by lia. exact HQ.
  - exists w, fs, out. constructor; cbn [y_prog y_cl y_sent y_got y_up y_in y_srv y_out y_down cl tl rx srv]; auto.
    rewrite <- app_assoc, take_drop. exact Hup.
  - destruct fs as [|f0 fs].
    + exfalso. cbn [concat app] in Hup. rewrite <- app_assoc in Hup. unfold begun in Hup. cbn [y_prog y_sent] in Hup.
      destruct p as [a| | |k|c0 k|x k|f' k]; try exact (frame_not_nil _ Hf Hup).
      destruct Hon as [Hf' _]. destruct (N.eqb_spec n (len f')) as [|Hne]; [exact (frame_not_nil _ Hf Hup)|].
      assert (Hlt : n < len f') by (destruct Hord; lia). exact (@frame_part f f' n _ Hf Hf' Hlt Hup).
    + inversion Hfr as [|? ? Hf0 Hfr']. subst. cbn [concat] in Hup. rewrite <- !app_assoc in Hup.
      destruct (@frame_same f f0 _ _ Hf Hf0 Hup) as [<- Hup']. destruct (serves_cons Hsrv) as (s1 & inc1 & out1 & H1 & H2 & ->).
      rewrite Hr in H1. injection H1 as <- <-. exists w, fs, out1.
      constructor; cbn [y_prog y_cl y_sent y_got y_up y_in y_srv y_out y_down cl tl rx srv]; auto.
  - exists w, fs, out. constructor; cbn [y_prog y_cl y_sent y_got y_up y_in y_srv y_out y_down cl tl rx srv]; auto.
    rewrite Hrx, <- (app_assoc d), (app_assoc (take m oo)), take_drop. reflexivity.
Qed.
Lemma track_ticked o y w fs out cap duplex y' : tracks o y w fs out -> ticked cap duplex react y y' ->
  exists w' fs' out', tracks o y' w' fs' out'.
Proof.
  intros H Ht. induction Ht as [y|y y1 y2 Ht IH Hs]; [exists w, fs, out; exact H|].
  destruct (IH H) as (w1 & fs1 & out1 & H1). exact (track_tick H1 Hs).
Qed.
Lemma track_end o y w fs out : tracks o y w fs out -> ended (the_client y) = true ->
  ended_as (y_prog y) w o /\ cl w = y_cl y /\ rx w = y_down y ++ y_out y ++ out /\ Forall a_frame fs /\ y_in y ++ y_up y = concat fs
  /\ serves react (y_srv y) fs (srv w) out.
Proof.
  intros [Hrun Hcl Htl Hrx Hfr Hup Hsrv Hord Hon HQ] He. unfold ended, the_client, in_order, point, begun in *. cbn [p_prog] in He.
  assert (Hg : y_got y = []) by (destruct (y_prog y); try discriminate He; apply Hord). rewrite Hg in Hrx.
  assert (Hb : y_in y ++ y_up y = concat fs) by (destruct (y_prog y); try discriminate He; now rewrite app_nil_r in Hup).
  split; [|repeat (split; [assumption|]); assumption].
  destruct (y_prog y); try discriminate He; exact Hrun.
Qed.
(** a server that reads while it has something to write: they are stuck only if the run waits for ever *)
Lemma track_on o y w fs out cap : tracks o y w fs out -> 1 <= cap -> ended (the_client y) = false ->
  (exists y', ticks cap true react y y') \/ exists w', o = Blocked w'.
Proof.
  intros [Hrun Hcl Htl Hrx Hfr Hup Hsrv Hord Hon HQ] Hcap He. destruct y as [p c n g u i s oo d].
  unfold ended, the_client, in_order, point, begun in *. cbn [y_prog y_cl y_sent y_got y_up y_in y_srv y_out y_down p_prog] in *.
  destruct p as [a| | |k|c0 k|x k|f k]; try discriminate He.
  - left. eexists. apply k_get.
  - left. eexists. apply k_put.
  - destruct Hord as [-> Hlg]. destruct (N.eq_dec (len g) x) as [Hg|Hg]; [left; eexists; now apply k_got|].
    destruct d as [|b d]; [|left; eexists; apply k_pull with (m := 1); [lia|lia|rewrite len_cons; lia]].
    destruct oo as [|b oo]; [|left; eexists; apply k_give with (m := 1); [lia|rewrite len_cons; lia|rewrite len_nil; lia]].
    destruct u as [|b u]; [|left; eexists; apply k_take with (m := 1); [lia|rewrite len_cons; lia|right; reflexivity]].
    rewrite !app_nil_r in Hup. subst i. destruct fs as [|f fs].
    + right. destruct (serves_nil Hsrv) as [_ ->]. rewrite !app_nil_r in Hrx. rewrite Hrun. cbn [run]. rewrite Hrx.
      destruct (N.leb_spec x (len g)) as [Hx|_]; [lia|]. rewrite Htl. eexists. reflexivity.
    + left. destruct (serves_cons Hsrv) as (s1 & inc1 & out1 & H1 & _ & _). inversion Hfr; subst.
      eexists. cbn [concat]. eapply k_serve; eassumption.
  - left. destruct Hord as [Hn ->]. destruct (N.eq_dec n (len f)) as [->|Hne]; [eexists; apply k_sent|].
    destruct (N.lt_ge_cases (len u) cap) as [Hu|Hu].
    + eexists. apply k_push with (m := 1); lia.
    + eexists. apply k_take with (m := 1); [lia|lia|right; reflexivity].
Qed.
(** a server that does not: they are stuck neither, if the client has read everything when it writes *)
Lemma track_half o y w fs out cap : (forall f k w, Q (Write f k) w -> rx w = []) -> tracks o y w fs out -> 1 <= cap -> ended (the_client y) = false ->
  (exists y', ticks cap false react y y') \/ exists w', o = Blocked w'.
Proof.
  intros Hfirst [Hrun Hcl Htl Hrx Hfr Hup Hsrv Hord Hon HQ] Hcap He. destruct y as [p c n g u i s oo d].
  unfold ended, the_client, in_order, point, begun in *. cbn [y_prog y_cl y_sent y_got y_up y_in y_srv y_out y_down p_prog] in *.
  destruct p as [a| | |k|c0 k|x k|f k]; try discriminate He.
  - left. eexists. apply k_get.
  - left. eexists. apply k_put.
  - destruct Hord as [-> Hlg]. destruct (N.eq_dec (len g) x) as [Hg|Hg]; [left; eexists; now apply k_got|].
    destruct d as [|b d]; [|left; eexists; apply k_pull with (m := 1); [lia|lia|rewrite len_cons; lia]].
    destruct oo as [|b oo]; [|left; eexists; apply k_give with (m := 1); [lia|rewrite len_cons; lia|rewrite len_nil; lia]].
    destruct u as [|b u]; [|left; eexists; apply k_take with (m := 1); [lia|rewrite len_cons; lia|left; reflexivity]].
    rewrite !app_nil_r in Hup. subst i. destruct fs as [|f fs].
    + right. destruct (serves_nil Hsrv) as [_ ->]. rewrite !app_nil_r in Hrx. rewrite Hrun. cbn [run]. rewrite Hrx.
      destruct (N.leb_spec x (len g)) as [Hx|_]; [lia|]. rewrite Htl. eexists. reflexivity.
    + left. destruct (serves_cons Hsrv) as (s1 & inc1 & out1 & H1 & _ & _). inversion Hfr; subst.
      eexists. cbn [concat]. eapply k_serve; eassumption.
  - left. destruct Hord as [Hn ->]. destruct (N.eqb_spec n (len f)) as [->|Hne]; [eexists; apply k_sent|].
    apply Hfirst in HQ. rewrite HQ in Hrx. symmetry in Hrx. cbn [app] in Hrx. apply app_eq_nil in Hrx. destruct Hrx as [_ Hrx]. apply app_eq_nil in Hrx. destruct Hrx as [-> _].
    destruct (N.lt_ge_cases (len u) cap) as [Hu|Hu].
    + eexists. apply k_push with (m := 1); lia.
    + eexists. apply k_take with (m := 1); [lia|lia|left; reflexivity].
Qed.
End Space.
Lemma any_onwards Sv A (react : Sv -> bytes -> reaction Sv) : @onwards Sv A react (fun _ _ => True).
Proof. constructor; auto. Qed.
Lemma first_onwards Sv A (react : Sv -> bytes -> reaction Sv) : @onwards Sv A react (reads_first react).
Proof.
  constructor; cbn [reads_first]; auto. intros f k w s inc [H1 H2] Hr. rewrite H1. exact (H2 _ _ Hr).
Qed.

(** ** it always ends in the same way *)
Lemma track_finish Sv A (react : Sv -> bytes -> reaction Sv) Q cap duplex : keeps_open react -> @onwards Sv A react Q ->
  (duplex = true \/ forall f k w, Q (Write f k) w -> rx w = []) -> 1 <= cap -> forall (y : line Sv A) o w fs out, tracks react Q o y w fs out ->
  (forall w', o <> Blocked w') -> exists y', ticked cap duplex react y y' /\ ended (the_client y') = true.
Proof.
  intros Hk HQ Hdu Hcap y. pose proof (dies react cap duplex y) as Hy. induction Hy as [y _ IH]. intros o w fs out H Ho.
  destruct (ended (the_client y)) eqn:He; [exists y; split; [constructor|exact He]|].
  assert (Hon : (exists y', ticks cap duplex react y y') \/ exists w', o = Blocked w').
  { destruct duplex; [exact (track_on H Hcap He)|]. destruct Hdu as [Hdu|Hdu]; [discriminate|]. exact (track_half Hdu H Hcap He). }
  destruct Hon as [[y1 H1]|[w1 H1]]; [|destruct (Ho _ H1)].
  destruct (track_tick Hk HQ H H1) as (w2 & fs2 & out2 & H2). destruct (IH _ H1 o w2 fs2 out2 H2 Ho) as (y' & H3 & H4). exists y'. split; [|exact H4].
  clear - H1 H3. induction H3 as [y1|y1 y2 y3 H3 IH H4]; [econstructor; [constructor|exact H1]|]. econstructor; [exact (IH H1)|exact H4].
Qed.
Lemma opening_frames E fuel b a : frames_only (opening E fuel b a).
Proof. destruct b; [apply fr_mbind; [apply fr_create_session|]; intros _|]; apply fr_setup. Qed.
Lemma open_runs E Sv net (react : Sv -> bytes -> reaction Sv) fuel port maybe ports o : open E Sv net react fuel port maybe = (ports, OnStream o) ->
  exists b st, net (last ports 0) = Connected st /\ (b = true -> ports = [445; 139])
    /\ o = run react (opening E fuel b (credentials maybe)) (start Sv (credentials maybe) st).
Proof.
  intros H. unfold open in H. fold (credentials maybe) in H. change (match maybe with Some a => a | None => default_auth end) with (credentials maybe) in H.
  destruct port as [p|].
  - destruct (net p) as [st|e] eqn:Hn.
    + exists false, st. pose proof (f_equal fst H) as H1. pose proof (f_equal snd H) as H2. clear H. cbn [fst snd] in H1, H2. subst ports. split; [exact Hn|]. split; [discriminate|]. now apply on_stream in H2.
    + apply (f_equal snd) in H. discriminate H.
  - destruct (net 445) as [st|e] eqn:Hn.
    + exists false, st. pose proof (f_equal fst H) as H1. pose proof (f_equal snd H) as H2. clear H. cbn [fst snd] in H1, H2. subst ports. split; [exact Hn|]. split; [discriminate|]. now apply on_stream in H2.
    + destruct (net 139) as [st|e'] eqn:Hn'.
      * exists true, st. pose proof (f_equal fst H) as H1. pose proof (f_equal snd H) as H2. clear H. cbn [fst snd] in H1, H2. subst ports. split; [exact Hn'|]. split; [reflexivity|]. now apply on_stream in H2.
      * apply (f_equal snd) in H. discriminate H.
Qed.
