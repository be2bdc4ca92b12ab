(** * BuildFacts: debug and release builds (C85); what the environment influences (C86) *)
From Verif Require Import Base Text Utils Win Errors Info Common Msg Reply Ntlm Prog Client Spec SpecReply SpecCrash
  SpecNtlm Api SpecCall Flow BaseFacts TextFacts RunFacts SpecFacts InfoFacts ClientFacts MsgFacts CallFacts
  FlowFacts NtlmFacts SpecLogin OpenFacts TwinFacts SpecBuild.
Open Scope N_scope.
Set Implicit Arguments.
Unset Strict Implicit.

(** [q] does what [p] does, until [p] panics in a state where [full] *)
Inductive until (full : cifs -> Prop) {A} : cifs -> prog cifs A -> prog cifs A -> Prop :=
| u_ret c a : until full c (Ret a) (Ret a)
| u_panic c : until full c Panicked Panicked
| u_fuel c : until full c OutOfFuel OutOfFuel
| u_get c k l : until full c (k c) (l c) -> until full c (Get k) (Get l)
| u_put c c' k l : until full c' k l -> until full c (Put c' k) (Put c' l)
| u_read c n k l : (forall r, until full c (k r) (l r)) -> until full c (Read n k) (Read n l)
| u_write c b k l : (forall r, until full c (k r) (l r)) -> until full c (Write b k) (Write b l)
| u_full c q : full c -> until full c Panicked q.

Section Until.
Variable full : cifs -> Prop.
Lemma until_bind A B c (p q : prog cifs A) (f g : A -> prog cifs B) : until full c p q ->
  (forall c a, until full c (f a) (g a)) -> until full c (pbind p f) (pbind q g).
Proof. intros H Hf. induction H; cbn [pbind]; try (constructor; auto). auto. Qed.
Lemma until_mbind A B c (p q : M A) (f g : A -> M B) : until full c p q ->
  (forall c a, until full c (f a) (g a)) -> until full c (mbind p f) (mbind q g).
Proof. intros H Hf. apply (until_bind H). intros c' [a|e]; [apply Hf|constructor]. Qed.
Lemma until_refl A (p : prog cifs A) : forall c, until full c p p.
Proof. induction p; intros ?; constructor; auto. Qed.

Lemma send_until E1 E2 m c : (overflow_checks E1 = overflow_checks E2 \/ (overflow_checks E1 = true /\ (65535 <= mid c -> full c))) ->
  until full c (send E1 m) (send E2 m).
Proof.
  intros H. unfold send, get, mbind, ret. cbn [pbind]. constructor. cbv zeta. change (2 ^ 16) with 65536.
  destruct H as [H|(H & Hf)].
  - rewrite H. apply until_refl.
  - rewrite H. destruct (65536 <=? mid c + 1) eqn:Ho; cbn [andb].
    + apply u_full, Hf. apply N.leb_le in Ho. lia.
    + apply until_refl.
Qed.
Lemma exec_until E1 E2 fuel R (x : call R) c :
  (overflow_checks E1 = overflow_checks E2 \/ (overflow_checks E1 = true /\ (65535 <= mid c -> full c))) ->
  until full c (exec E1 fuel x) (exec E2 fuel x).
Proof.
  intros H. rewrite !exec_send. apply until_mbind; [apply send_until, H|]. intros c' id. apply until_refl.
Qed.
Lemma interp_until E1 E2 fuel A (f : flow A) : (overflow_checks E1 = overflow_checks E2
    \/ (overflow_checks E1 = true /\ forall c, 65535 <= mid c -> full c)) ->
  forall c, until full c (interp E1 fuel f) (interp E2 fuel f).
Proof.
  intros H. induction f as [a| | |R x k IH|k IH|u k IH|m u k IH]; intros c; cbn [interp]; try constructor; auto.
  - apply until_bind; [|intros; apply IH]. apply exec_until. destruct H as [H|(H & Hf)]; auto.
  - constructor. apply IH.
  - constructor. apply IH.
Qed.
Section Server.
Variable Sv : Type.
Variable react : Sv -> bytes -> reaction Sv.
Lemma until_run A (p q : prog cifs A) c : until full c p q -> forall w : world cifs Sv, cl w = c ->
  run react p w = run react q w \/ exists w', run react p w = Crashed w' /\ full (cl w').
Proof.
  induction 1; intros w Hc; cbn [run]; auto.
  - rewrite Hc. auto.
  - destruct (n <=? len (rx w)); [apply H0, Hc|]. destruct (tl w); auto.
  - destruct (react (srv w) b) as [s inc t|s m e inc t]; destruct (deliver (tl w) (rx w) inc t); apply H0, Hc.
  - right. exists w. split; [reflexivity|]. rewrite Hc. assumption.
Qed.
End Server.
End Until.

Section Server.
Variable Sv : Type.
Variable react : Sv -> bytes -> reaction Sv.
Notation world := (world cifs Sv).
Definition never (_ : cifs) : Prop := False.
Lemma never_run A (p q : prog cifs A) (w : world) : until never (cl w) p q -> run react p w = run react q w.
Proof. intros H. destruct (until_run react H (w := w) eq_refl) as [G|(w' & _ & [])]. exact G. Qed.

Lemma builds_call E fuel R (c : call R) (w : world) : mid (cl w) < 65535 ->
  run react (exec (debug E) fuel c) w = run react (exec (release E) fuel c) w.
Proof.
  intros H. apply never_run. apply exec_until. right. split; [reflexivity|]. intros G. lia.
Qed.
Lemma debug_full E fuel R (c : call R) (w : world) : mid (cl w) = 65535 ->
  run react (exec (debug E) fuel c) w = Crashed w.
Proof.
  intros H. rewrite exec_send. unfold send, get, mbind, ret. cbn [pbind run]. cbv zeta. rewrite H. reflexivity.
Qed.
Lemma builds_program E fuel A (f : flow A) (w : world) :
  run react (interp (debug E) fuel f) w = run react (interp (release E) fuel f) w
  \/ exists w', run react (interp (debug E) fuel f) w = Crashed w' /\ 65535 <= mid (cl w').
Proof.
  refine (until_run react (full := fun c => 65535 <= mid c) _ (w := w) eq_refl).
  apply interp_until. right. split; auto.
Qed.
Lemma call_mid E fuel R (c : call R) (w : world) : mid (cl w) < 65535 ->
  mid (cl (final (run react (exec E fuel c) w))) <= mid (cl w) + 1.
Proof.
  intros H. destruct (call_once react E fuel c w) as (l & _ & Hc).
  inversion Hc; subst; try lia; rewrite <- ?H0; try (match goal with G : next_client _ = _ |- _ => rewrite <- G end);
    unfold next_client; cbn; rewrite N.mod_small; lia.
Qed.
Lemma builds_at_most E fuel A n (f : flow A) : at_most n f -> forall (w : world), mid (cl w) + N.of_nat n <= 65535 ->
  run react (interp (debug E) fuel f) w = run react (interp (release E) fuel f) w.
Proof.
  induction 1 as [n a|n|n|n R c k Hk IH]; intros w Hw; try reflexivity. cbn [interp]. rewrite !run_bind.
  rewrite <- builds_call by lia.
  destruct (run react (exec (debug E) fuel c) w) as [a w'|w'|w'|w'] eqn:Hr; try reflexivity.
  cbn [obind]. apply IH.
  pose proof (@call_mid (debug E) fuel R c w) as Hm. rewrite Hr in Hm. cbn [final] in Hm. specialize (Hm ltac:(lia)). lia.
Qed.

(** ** open *)
Lemma same_bind A B (o : outcome cifs Sv (ans A)) (f g : A -> world -> outcome cifs Sv (ans B)) :
  (forall a w, o = Done (Good a) w -> f a w = g a w) -> gbind o f = gbind o g.
Proof. intros H. destruct o as [[a|e] w|w|w|w]; cbn; auto. Qed.
Lemma call_bound E fuel R (c : call R) (w w' : world) n a : run react (exec E fuel c) w = Done a w' -> mid (cl w) <= n -> n < 65535 ->
  mid (cl w') <= n + 1.
Proof. intros H H1 H2. pose proof (@call_mid E fuel R c w) as Hm. rewrite H in Hm. cbn [final] in Hm. lia. Qed.
Lemma time_same E t : clock E t -> forall X, encode_windows_time (E := X) true (now E) = encode_windows_time false (now E).
Proof.
  intros (H0 & Ht & Hb) X. unfold encode_windows_time. cbv zeta. destruct (_ && _)%Z eqn:Hc; [|reflexivity].
  destruct (_ <? _) eqn:Hl; [reflexivity|]. exfalso. apply N.ltb_ge in Hl.
  apply andb_prop in Hc. destruct Hc as [_ Hc]. apply Z.ltb_lt in Hc.
  rewrite Z.quot_div_nonneg in * by lia. rewrite Z.mod_small in Hl.
  - change (2 ^ 64) with 18446744073709551616 in Hl. lia.
  - split; [apply Z.div_pos; lia|]. change (2 ^ 64)%Z with (2 * 2 ^ 63)%Z. lia.
Qed.
Lemma response_same E t ch a : clock E t -> challenge_response (debug E) ch a = challenge_response (release E) ch a.
Proof.
  intros H. unfold challenge_response, ntlmv2_authenticate. cbn [overflow_checks now debug release build].
  rewrite (time_same H). reflexivity.
Qed.
Lemma builds_setup E t fuel (w : world) : clock E t -> mid (cl w) <= 65532 ->
  run react (setup_connection (debug E) fuel) w = run react (setup_connection (release E) fuel) w.
Proof.
  intros Ht Hw. rewrite !setup_run. rewrite <- builds_call by lia. apply same_bind. intros s w1 H1. cbv zeta.
  pose proof (call_bound H1 Hw eq_refl) as B1. cbn in B1.
  destruct (N.testbit _ _).
  - unfold v2_run. apply same_bind. intros m1 w2 H2. apply lifted_done in H2. destruct H2 as [_ ->].
    rewrite <- builds_call by (cbn; lia). apply same_bind. intros r w3 H3.
    pose proof (call_bound (n := 65533) H3 B1 eq_refl) as B3. cbn in B3.
    apply same_bind. intros ch w4 H4. apply lifted_done in H4. destruct H4 as [_ ->].
    rewrite (response_same _ _ Ht). apply same_bind. intros m3 w5 H5. apply lifted_done in H5. destruct H5 as [_ ->].
    rewrite <- builds_call by (cbn; lia). reflexivity.
  - unfold v1_run. change (@ntlmv1_authenticate (debug E) ntlm_error) with (@ntlmv1_authenticate (release E) ntlm_error).
    apply same_bind. intros nt w2 H2. apply lifted_done in H2. destruct H2 as [_ ->].
    rewrite <- builds_call by (cbn; lia). reflexivity.
Qed.
Lemma blind_client A (p : prog cifs A) : blind p -> forall w : world, cl (final (run react p w)) = cl w.
Proof.
  induction 1 as [a| | |n k Hk IH|b k Hk IH]; intros w; cbn [run final]; auto.
  - destruct (n <=? len (rx w)); [rewrite IH; reflexivity|]. destruct (tl w); try rewrite IH; reflexivity.
  - destruct (react (srv w) b) as [s inc t|s m e inc t]; destruct (deliver (tl w) (rx w) inc t); rewrite IH; reflexivity.
Qed.
Lemma session_client x y (w w' : world) a : run react (create_session x y) w = Done a w' -> cl w' = cl w.
Proof. intros H. pose proof (blind_client (blind_create_session x y) w) as Hc. rewrite H in Hc. exact Hc. Qed.
Lemma builds_open E t net fuel port a : clock E t -> open (debug E) Sv net react fuel port a = open (release E) Sv net react fuel port a.
Proof.
  intros Ht. unfold open. cbv zeta. destruct port as [p|].
  - destruct (net p); [|reflexivity]. rewrite (@builds_setup E t fuel (start Sv _ _) Ht) by (cbn; lia). reflexivity.
  - destruct (net 445).
    + rewrite (@builds_setup E t fuel (start Sv _ _) Ht) by (cbn; lia). reflexivity.
    + destruct (net 139); [|reflexivity]. rewrite !run_mbind.
      erewrite same_bind; [reflexivity|]. intros u w1 H1. apply (builds_setup fuel Ht).
      apply session_client in H1. rewrite H1. cbn. lia.
Qed.

(** ** C86 *)
Lemma other_env E1 E2 fuel A (f : flow A) (w : world) : overflow_checks E1 = overflow_checks E2 ->
  run react (interp E1 fuel f) w = run react (interp E2 fuel f) w.
Proof. intros H. apply never_run, interp_until. auto. Qed.
End Server.

Lemma download_env E1 E2 fuel s path : overflow_checks E1 = overflow_checks E2 ->
  same_prog (download E1 fuel s path) (download E2 fuel s path).
Proof.
  intros H. refine (same_trans (download_same E1 fuel s path) _). refine (same_trans _ (same_sym (download_same E2 fuel s path))).
  intros Sv react w. apply other_env, H.
Qed.
Lemma list_env E1 E2 fuel s pattern : overflow_checks E1 = overflow_checks E2 ->
  same_prog (list_dir E1 fuel s pattern) (list_dir E2 fuel s pattern).
Proof.
  intros H. refine (same_trans (list_same E1 fuel s pattern) _). refine (same_trans _ (same_sym (list_same E2 fuel s pattern))).
  intros Sv react w. apply other_env, H.
Qed.
Lemma firstn_ext b n : length (firstn n (b ++ repeat x00 n)) = n.
Proof. rewrite firstn_length, app_length, repeat_length. lia. Qed.
(** the functions made of several calls *)
Lemma builds_functions Sv (react : Sv -> bytes -> reaction Sv) E fuel w :
  (forall s path, run react (download (debug E) fuel s path) w = run react (download (release E) fuel s path) w
    \/ exists w', run react (download (debug E) fuel s path) w = Crashed w' /\ 65535 <= mid (cl w'))
  /\ (forall s pattern, run react (list_dir (debug E) fuel s pattern) w = run react (list_dir (release E) fuel s pattern) w
    \/ exists w', run react (list_dir (debug E) fuel s pattern) w = Crashed w' /\ 65535 <= mid (cl w')).
Proof.
  split; intros s x.
  - rewrite (download_same (debug E) fuel s x react w), (download_same (release E) fuel s x react w). apply builds_program.
  - rewrite (list_same (debug E) fuel s x react w), (list_same (release E) fuel s x react w). apply builds_program.
Qed.
