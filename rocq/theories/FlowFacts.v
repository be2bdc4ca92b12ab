(** * FlowFacts: programs made of calls: what they write, and how the state of the
    connection develops (C08, C09, C41, C57) *)
From Verif Require Import Base Text Utils Win Errors Info Common Msg Reply Ntlm Prog Client Spec SpecReply SpecMsg
  Api SpecCall Flow BaseFacts TextFacts RunFacts SpecFacts InfoFacts ClientFacts MsgFacts CallFacts SizeFacts ReqFacts.
Open Scope N_scope.
Set Implicit Arguments.
Unset Strict Implicit.

(** ** programs that neither write nor change the client *)
Inductive quiet {A} : prog cifs A -> Prop :=
| q_ret a : quiet (Ret a)
| q_panic : quiet Panicked
| q_fuel : quiet OutOfFuel
| q_get k : (forall c, quiet (k c)) -> quiet (Get k)
| q_read n k : (forall r, quiet (k r)) -> quiet (Read n k).

Lemma quiet_bind A B (p : prog cifs A) (f : A -> prog cifs B) : quiet p -> (forall a, quiet (f a)) -> quiet (pbind p f).
Proof. intros Hp Hf. induction Hp; cbn; auto; constructor; auto. Qed.
Lemma quiet_mbind A B (p : M A) (f : A -> M B) : quiet p -> (forall a, quiet (f a)) -> quiet (mbind p f).
Proof. intros Hp Hf. apply quiet_bind; [exact Hp|]. intros [a|e]; [apply Hf|constructor]. Qed.
Lemma quiet_lift E A (f : E -> error) (r : res E A) : quiet (lift f r).
Proof. destruct r; constructor. Qed.
Lemma quiet_nb_recv : quiet nb_recv.
Proof.
  unfold nb_recv. apply quiet_mbind; [constructor; intros []; constructor|]. intros t.
  apply quiet_mbind; [constructor; intros []; constructor|]. intros raw. cbv zeta.
  destruct (MAX_FRAME_LENGTH <? _); [constructor|].
  apply quiet_mbind; [constructor; intros []; constructor|]. intros d. apply quiet_lift.
Qed.
Lemma quiet_recv_message f : quiet (recv_message f).
Proof.
  induction f as [|f IH]; cbn [recv_message]; [constructor|]. apply quiet_mbind; [apply quiet_nb_recv|].
  intros []; try constructor; exact IH.
Qed.
Lemma quiet_recv_frame f g id : quiet (recv_frame f g id).
Proof.
  induction f as [|f IH]; cbn [recv_frame]; [constructor|]. apply quiet_mbind; [apply quiet_recv_message|].
  intros b. apply quiet_mbind; [apply quiet_lift|]. intros [i body]. destruct (i_mid i =? id); [constructor|exact IH].
Qed.
Lemma quiet_recv R f (r : reply R) id : quiet (recv f r id).
Proof.
  unfold recv. apply quiet_mbind; [apply quiet_recv_frame|]. intros [i b].
  destruct (negb _); [constructor|]. destruct (negb _); [constructor|]. apply quiet_lift.
Qed.
Lemma quiet_collect f g id ctx : quiet (collect f g id ctx).
Proof.
  revert ctx. induction f as [|f IH]; intros ctx; cbn [collect]; [constructor|].
  apply quiet_mbind; [apply quiet_recv|]. intros x. apply quiet_mbind; [apply quiet_lift|].
  intros [c []]; [constructor|apply IH].
Qed.
Lemma quiet_after f R (c : call R) id : quiet (after f c id).
Proof.
  destruct c; cbn [after]; try apply quiet_recv;
  (apply quiet_mbind; [apply quiet_collect|intros; apply quiet_lift]).
Qed.

Section Server.
Variable Sv : Type.
Variable react : Sv -> bytes -> reaction Sv.
Notation world := (world cifs Sv).
Notation run := (run react).
Notation outcome := (outcome cifs Sv).

Definition still (w w' : world) : Prop := cl w' = cl w /\ srv w' = srv w /\ tl w' = tl w /\ tx w' = tx w.
Lemma still_refl w : still w w. Proof. repeat split. Qed.
Lemma run_quiet A (p : prog cifs A) : quiet p -> forall w, still w (final (run p w)).
Proof.
  intros Hq. induction Hq as [a| | |k H IH|n k H IH]; intros w; cbn [Prog.run]; try apply still_refl; [apply IH|].
  destruct (n <=? len (rx w)).
  - destruct (IH (Got (take n (rx w))) (mk_world (cl w) (srv w) (drop n (rx w)) (tl w) (tx w))) as (H1 & H2 & H3 & H4).
    repeat split; auto.
  - destruct (tl w) as [| |e] eqn:Et.
    + cbn. rewrite <- Et. repeat split.
    + destruct (IH RdEof (mk_world (cl w) (srv w) [] (tl w) (tx w))) as (H1 & H2 & H3 & H4).
      rewrite Et in *. cbn [cl srv tl tx] in *. unfold still. rewrite Et. auto.
    + destruct (IH (RdErr e) (mk_world (cl w) (srv w) [] (tl w) (tx w))) as (H1 & H2 & H3 & H4).
      rewrite Et in *. cbn [cl srv tl tx] in *. unfold still. rewrite Et. auto.
Qed.

(** ** one call *)
Variable E : env.

(** what a call writes, and what becomes of the client *)
Inductive call_writes (st : cifs) R (c : call R) (fuel : nat) : list bytes -> cifs -> Prop :=
| cw_sent f : request (exec E fuel c) st = Some f -> call_writes st c fuel [f] (next_client st)
| cw_cut f n : request (exec E fuel c) st = Some f -> call_writes st c fuel [take n f] (next_client st)
| cw_refused : request (exec E fuel c) st = None -> ~ mid_full E st -> call_writes st c fuel [] (next_client st)
| cw_full : mid_full E st -> call_writes st c fuel [] st.

Lemma final_gbind A B (o : outcome (ans A)) (f : A -> world -> outcome (ans B)) :
  final (gbind o f) = match o with Done (Good a) w => final (f a w) | _ => final o end.
Proof. destruct o as [[a|e] w|w|w|w]; reflexivity. Qed.
Lemma final_lift A B (o : outcome A) (f : A -> world -> outcome B) :
  final (obind o f) = match o with Done a w => final (f a w) | _ => final o end.
Proof. destruct o; reflexivity. Qed.

Lemma call_once fuel R (c : call R) w : exists l, tx (final (run (exec E fuel c) w)) = tx w ++ l
  /\ call_writes (cl w) c fuel l (cl (final (run (exec E fuel c) w))).
Proof.
  destruct (call_cases react E fuel c w) as [(f & w1 & Hr & Ha & ->)|(o & Hu & ->)].
  - destruct Ha as (s & inc & t & _ & Hc & _ & Hx & _).
    destruct (run_quiet (quiet_after fuel c (mid (cl w))) w1) as (H1 & _ & _ & H4).
    exists [f]. rewrite H4, H1, Hx, Hc. split; [reflexivity|]. now constructor.
  - rewrite final_gbind. destruct Hu as [H|H1 H2|e H1 H2|b H1 H2 H3|f s n e inc t b t' H1 H2 H3]; cbn [final tx cl with_cl].
    + exists []. rewrite app_nil_r. split; [reflexivity|]. apply cw_full. now apply mid_panics_iff.
    + exists []. rewrite app_nil_r. split; [reflexivity|]. apply cw_refused; [|now apply mid_panics_not].
      rewrite request_exec, out_frame_call, H1, H2. reflexivity.
    + exists []. rewrite app_nil_r. split; [reflexivity|]. apply cw_refused; [|now apply mid_panics_not].
      rewrite request_exec, out_frame_call, H1, H2. reflexivity.
    + exfalso. apply smb_out_len in H2. unfold NB_MAX in H3. lia.
    + exists [take n f]. split; [reflexivity|]. apply cw_cut. now rewrite request_exec.
Qed.
(** a call that answers has written its request, unless the arguments did not fit or
    the stream failed *)
Lemma call_answered fuel R (c : call R) w a w' : run (exec E fuel c) w = Done a w' ->
  (exists f, request (exec E fuel c) (cl w) = Some f /\ tx w' = tx w ++ [f])
  \/ (request (exec E fuel c) (cl w) = None /\ tx w' = tx w /\ exists e, a = Bad (ESmb (CreatePacket e)))
  \/ (exists f n e, request (exec E fuel c) (cl w) = Some f /\ tx w' = tx w ++ [take n f]
      /\ a = Bad (ENetBios (IoError (IoOther e)))).
Proof.
  intros H. destruct (call_cases react E fuel c w) as [(f & w1 & Hr & Ha & Hx)|(o & Hu & Hx)]; rewrite Hx in H; clear Hx.
  - left. exists f. split; [exact Hr|]. destruct Ha as (s & inc & t & _ & _ & _ & Hx & _).
    pose proof (run_quiet (quiet_after fuel c (mid (cl w))) w1) as Q. rewrite H in Q. cbn [final] in Q.
    destruct Q as (_ & _ & _ & ->). exact Hx.
  - destruct Hu as [Hm|H1 H2|e H1 H2|b H1 H2 H3|f s n e inc t b t' H1 H2 H3]; cbn in H; try discriminate H.
    + injection H as <- <-. right. left. split; [rewrite request_exec, out_frame_call, H1, H2; reflexivity|].
      split; [reflexivity|]. pose proof (body_sized (cl w) c) as Z. rewrite H2 in Z. inversion Z. eauto.
    + exfalso. apply smb_out_len in H2. unfold NB_MAX in H3. lia.
    + injection H as <- <-. right. right. exists f, n, e. rewrite request_exec. auto.
Qed.
End Server.

(** ** flows *)
Lemma full_or E st : mid_full E st \/ (overflow_checks E = true -> mid st < 65535).
Proof.
  unfold mid_full. destruct (overflow_checks E); [|right; discriminate].
  destruct (N.lt_ge_cases (mid st) 65535); auto.
Qed.
Section Flows.
Variable Sv : Type.
Variable react : Sv -> bytes -> reaction Sv.
Notation world := (world cifs Sv).
Notation run := (run react).
Variable E : env.

Lemma request_fuel f1 f2 R (c : call R) st : request (exec E f1 c) st = request (exec E f2 c) st.
Proof. now rewrite !request_exec. Qed.
Lemma no_request fuel R (c : call R) st : request (exec E fuel c) st = None -> forall f, ~ is_request E st c f.
Proof. intros H f [g Hg]. rewrite (request_fuel g fuel), H in Hg. discriminate Hg. Qed.


Lemma flow_written A (p : flow A) fuel : forall w, exists k l,
  tx (final (run (interp E fuel p) w)) = tx w ++ l /\ written E (cl w) k l (cl (final (run (interp E fuel p) w))).
Proof.
  induction p as [a| | |R c k IH|k IH|u p IH|m u p IH]; intros w; cbn [interp].
  - exists 0, []. rewrite app_nil_r. split; [reflexivity|constructor].
  - exists 0, []. rewrite app_nil_r. split; [reflexivity|constructor].
  - exists 0, []. rewrite app_nil_r. split; [reflexivity|constructor].
  - rewrite run_bind, final_lift. destruct (call_once react E fuel c w) as (l1 & Hx & Hc).
    assert (Hk : exists k2 l2, let w2 := final (match run (exec E fuel c) w with Done a w1 => run (interp E fuel (k a)) w1
         | Blocked w1 => Blocked w1 | Crashed w1 => Crashed w1 | Starved w1 => Starved w1 end) in
       tx w2 = tx (final (run (exec E fuel c) w)) ++ l2
       /\ (mid_full E (cl w) -> w2 = final (run (exec E fuel c) w) /\ l2 = [])
       /\ written E (cl (final (run (exec E fuel c) w))) k2 l2 (cl w2)).
    { destruct (run (exec E fuel c) w) as [a w1|w1|w1|w1] eqn:Hr; cbn [final].
      - destruct (IH a w1) as (k2 & l2 & H1 & H2). exists k2, l2. split; [exact H1|]. split; [|exact H2].
        intros Hf. rewrite (call_mid_full react fuel c Hf) in Hr. discriminate Hr.
      - exists 0, []. rewrite app_nil_r. split; [reflexivity|]. split; [auto|constructor].
      - exists 0, []. rewrite app_nil_r. split; [reflexivity|]. split; [auto|constructor].
      - exists 0, []. rewrite app_nil_r. split; [reflexivity|]. split; [auto|constructor]. }
    destruct Hk as (k2 & l2 & Hk). cbv zeta in Hk.
    set (w2 := final _) in Hk.
    replace (match run (exec E fuel c) w with Done a w0 => final (run (interp E fuel (k a)) w0) | _ => final (run (exec E fuel c) w) end)
      with w2 by (unfold w2; destruct (run (exec E fuel c) w); reflexivity).
    clearbody w2. destruct Hk as (H1 & H2 & H3). rewrite Hx in H1.
    destruct Hc as [f Hf|f n Hf|Hf Hm|Hm].
    + exists (1 + k2), (f :: l2). split; [rewrite H1, <- app_assoc; reflexivity|]. eapply w_sent; [eexists; exact Hf|exact H3].
    + exists (1 + k2), (take n f :: l2). split; [rewrite H1, <- app_assoc; reflexivity|]. eapply w_cut; [eexists; exact Hf|exact H3].
    + exists (1 + k2), l2. split; [rewrite H1, app_nil_r; reflexivity|]. eapply w_refused; [eapply no_request; exact Hf| |exact H3].
      destruct (full_or E (cl w)); [contradiction|assumption].
    + destruct (H2 Hm) as [-> ->]. exists k2, []. rewrite Hx, app_nil_r. split; [reflexivity|]. exact H3.
  - apply IH.
  - destruct (IH (mk_world (set_uid u (cl w)) (srv w) (rx w) (tl w) (tx w))) as (k & l & H1 & H2).
    exists k, l. split; [exact H1|]. eapply w_uid. exact H2.
  - destruct (IH (mk_world (set_options m u (cl w)) (srv w) (rx w) (tl w) (tx w))) as (k & l & H1 & H2).
    exists k, l. split; [exact H1|]. eapply w_options. exact H2.
Qed.

End Flows.

(** the id in a frame *)
Section Ids.
Variable E : env.
Lemma request_id st R (c : call R) f : is_request E st c f -> frame_id f = Some (mid st mod 65536) /\ ~ mid_full E st.
Proof.
  intros [fuel Hr]. pose proof Hr as Hr'. apply request_inv in Hr. destruct Hr as (p & pw & d & -> & _ & Hp & _).
  split; [|apply (request_iff E fuel c st); eauto].
  unfold frame_id, session_message, nb_frame. rewrite u16_at_app2 by (rewrite !len_cons, len_nil; lia).
  change (34 - len [n2b 0; n2b (len p / 65536); n2b (len p / 256); n2b (len p)]) with 30.
  rewrite Hp, out_info_eq. unfold info_write. cbn [i_mid].
  rewrite !app_assoc. rewrite (u16_at_app1 (_ ++ le 2 (mid st))); [|rewrite !len_app, !len_le; vm_compute; discriminate].
  rewrite u16_at_app2 by (rewrite !len_app, !len_le; vm_compute; discriminate).
  rewrite !len_app, !len_le. rewrite le_mod. apply u16_at_le'; [reflexivity|]. change (256 ^ N.of_nat 2) with 65536. lia.
Qed.

Lemma written_ids st k l st' : written E st k l st' -> mid st < 65536 ->
  mid st' = (mid st + k) mod 65536
  /\ (overflow_checks E = true -> mid st + k < 65536)
  /\ exists js, ascending 0 js k /\ Forall2 (fun f j => part_with_id f ((mid st + j) mod 65536)) l js.
Proof.
  assert (Hasc : forall js a b, ascending a js b -> ascending (1 + a) (map (N.add 1) js) (1 + b)).
  { induction js as [|x js IH]; intros a b; cbn [ascending map]; [lia|]. intros [H1 H2]. split; [lia|].
    replace (1 + x + 1) with (1 + (x + 1)) by lia. now apply IH. }
  assert (Hw : forall js a b c, c <= a -> ascending a js b -> ascending c js b).
  { intros [|x js] a b c; cbn [ascending]; [lia|]. intros H1 [H2 H3]. split; [lia|exact H3]. }
  assert (Hf : forall m l js, Forall2 (fun f j => part_with_id f (((m + 1) mod 65536 + j) mod 65536)) l js ->
    Forall2 (fun f j => part_with_id f ((m + j) mod 65536)) l (map (N.add 1) js)).
  { intros m l0 js H. induction H as [|f j l0 js H1 H2 IH]; cbn [map]; constructor; [|exact IH].
    replace ((m + (1 + j)) mod 65536) with (((m + 1) mod 65536 + j) mod 65536) by lia. exact H1. }
  induction 1 as [st|st R c f k l st' Hr H IH|st R c f n k l st' Hr H IH|st R c k l st' Hr Ho H IH|st u k l st' H IH|st m u k l st' H IH];
    intros Hm.
  - split; [lia|]. split; [lia|]. exists []. split; [cbn; lia|constructor].
  - apply request_id in Hr. destruct Hr as [Hi Hn]. cbn [next_client mid] in IH.
    destruct IH as (H1 & H2 & js & H3 & H4); [lia|].
    assert (overflow_checks E = true -> mid st < 65535) by (destruct (full_or E st); [contradiction|assumption]).
    split; [lia|]. split; [lia|]. exists (0 :: map (N.add 1) js). split.
    + cbn [ascending]. split; [lia|]. change (0 + 1) with (1 + 0). now apply Hasc.
    + constructor; [|now apply Hf]. left. rewrite Hi. f_equal. f_equal. lia.
  - apply request_id in Hr. destruct Hr as [Hi Hn]. cbn [next_client mid] in IH.
    destruct IH as (H1 & H2 & js & H3 & H4); [lia|].
    assert (overflow_checks E = true -> mid st < 65535) by (destruct (full_or E st); [contradiction|assumption]).
    split; [lia|]. split; [lia|]. exists (0 :: map (N.add 1) js). split.
    + cbn [ascending]. split; [lia|]. change (0 + 1) with (1 + 0). now apply Hasc.
    + constructor; [|now apply Hf]. right. exists f, n. split; [reflexivity|]. rewrite Hi. f_equal. f_equal. lia.
  - cbn [next_client mid] in IH. destruct IH as (H1 & H2 & js & H3 & H4); [lia|].
    split; [lia|]. split; [lia|]. exists (map (N.add 1) js). split; [|now apply Hf].
    eapply Hw; [|apply Hasc; exact H3]. lia.
  - apply IH. exact Hm.
  - apply IH. exact Hm.
Qed.
End Ids.

(** ** the functions of the crate as flows *)
Definition same_prog {A} (p q : M A) : Prop :=
  forall Sv (react : Sv -> bytes -> reaction Sv) w, run react p w = run react q w.

Lemma same_mbind A B (p q : M A) (f g : A -> M B) : same_prog p q -> (forall a, same_prog (f a) (g a)) ->
  same_prog (mbind p f) (mbind q g).
Proof.
  intros Hp Hf Sv react w. rewrite !run_mbind, Hp. destruct (run react q w) as [[a|e] w'|w'|w'|w']; cbn; auto. apply Hf.
Qed.
Lemma same_refl A (p : M A) : same_prog p p. Proof. intros Sv react w. reflexivity. Qed.
Lemma same_trans A (p q r : M A) : same_prog p q -> same_prog q r -> same_prog p r.
Proof. intros H1 H2 Sv react w. now rewrite H1, H2. Qed.
Lemma same_sym A (p q : M A) : same_prog p q -> same_prog q p.
Proof. intros H Sv react w. now rewrite H. Qed.

Section Same.
Variable E : env.
Variable fuel : nat.
Lemma interp_fbind A B (p : flow A) (k : A -> flow B) :
  same_prog (interp E fuel (fbind p k)) (mbind (interp E fuel p) (fun a => interp E fuel (k a))).
Proof.
  induction p as [[a|e]| | |R c f IH|f IH|u p IH|m u p IH]; intros Sv react w; cbn [fbind interp]; try reflexivity.
  - unfold mbind. rewrite !run_bind. destruct (run react (exec E fuel c) w) as [r w'|w'|w'|w']; cbn; auto.
    rewrite IH. unfold mbind. now rewrite run_bind.
  - apply IH.
  - apply IH.
  - apply IH.
Qed.
Lemma interp_fcall R (c : call R) : same_prog (interp E fuel (fcall c)) (exec E fuel c).
Proof.
  intros Sv react w. cbn [interp fcall]. rewrite run_bind. destruct (run react (exec E fuel c) w) as [r w'|w'|w'|w']; reflexivity.
Qed.
Lemma interp_flift X A (f : X -> error) (r : res X A) : same_prog (interp E fuel (flift f r)) (lift f r).
Proof. intros Sv react w. destruct r; reflexivity. Qed.
Lemma interp_call_then R B (c : call R) (k : R -> flow B) (p : M R) (g : R -> M B) : p = exec E fuel c ->
  (forall r, same_prog (interp E fuel (k r)) (g r)) ->
  same_prog (interp E fuel (fbind (fcall c) k)) (mbind p g).
Proof.
  intros -> H. eapply same_trans; [apply interp_fbind|]. apply same_mbind; [apply interp_fcall|exact H].
Qed.
Lemma interp_lift_then X A B (f : X -> error) (r : res X A) (k : A -> flow B) (g : A -> M B) :
  (forall r, same_prog (interp E fuel (k r)) (g r)) ->
  same_prog (interp E fuel (fbind (flift f r) k)) (mbind (lift f r) g).
Proof.
  intros H. eapply same_trans; [apply interp_fbind|]. apply same_mbind; [apply interp_flift|exact H].
Qed.

Lemma download_reads_ok n h : forall data, same_prog (interp E fuel (download_reads n h data)) (download_loop E n fuel h data).
Proof.
  induction n as [|n IH]; intros data; cbn [download_reads download_loop]; [apply same_refl|].
  destruct (len data <? h_size h); [|apply same_refl].
  apply interp_call_then; [reflexivity|]. intros chunk. apply IH.
Qed.
Lemma list_nexts_ok n s sid : forall res, same_prog (interp E fuel (list_nexts n s sid res)) (list_loop E n fuel s sid res).
Proof.
  induction n as [|n IH]; intros res; cbn [list_nexts list_loop]; [apply same_refl|].
  destruct (last (map Some res) None); [|apply same_refl].
  apply interp_call_then; [reflexivity|]. intros r. cbv zeta. destruct (fn_end r); [apply same_refl|apply IH].
Qed.
End Same.
Lemma download_same E fuel s path : same_prog (download E fuel s path) (interp E fuel (download_flow fuel s path)).
Proof.
  apply same_sym. unfold download_flow, download. apply interp_call_then; [reflexivity|]. intros h.
  eapply same_trans; [apply interp_fbind|]. apply same_mbind; [apply download_reads_ok|]. intros data.
  apply interp_call_then; [reflexivity|]. intros _. apply same_refl.
Qed.
Lemma list_same E fuel s pattern : same_prog (list_dir E fuel s pattern) (interp E fuel (list_flow fuel s pattern)).
Proof.
  apply same_sym. unfold list_flow, list_dir. apply interp_call_then; [reflexivity|]. intros r.
  destruct (ff_end r); [apply same_refl|apply list_nexts_ok].
Qed.
Lemma setup_same E fuel : same_prog (setup_connection E fuel) (interp E fuel (setup_flow E)).
Proof.
  apply same_sym. unfold setup_flow, setup_connection. apply interp_call_then; [reflexivity|]. intros s.
  replace (contains (s_capabilities s) CAP_UNICODE) with (N.testbit (s_capabilities s) 2)
    by (symmetry; exact (contains_pow2 (s_capabilities s) 2)).
  replace (contains (s_capabilities s) CAP_EXTENDED_SECURITY) with (N.testbit (s_capabilities s) 31)
    by (symmetry; exact (contains_pow2 (s_capabilities s) 31)).
  intros Sv react w. cbn [interp Prog.run mbind get put ret pbind].
  set (w1 := mk_world _ _ _ _ _). change (cl w1) with (set_options (s_max_buffer_size s) (N.testbit (s_capabilities s) 2) (cl w)).
  cbv zeta. cbn [auth_of set_options].
  destruct (N.testbit (s_capabilities s) 31).
  - assert (H : same_prog (interp E fuel
       (fbind (flift ENtlm (init_msg (a_domain (auth_of (cl w))) (a_workstation (auth_of (cl w))))) (fun m1 =>
        fbind (fcall (SetupBlob m1)) (fun r =>
        FUid (ss_uid r)
        (fbind (flift ENtlm (challenge_parse (ss_blob r))) (fun ch =>
        fbind (flift ENtlm (challenge_response E ch (auth_of (cl w)))) (fun m2 =>
        fbind (fcall (SetupBlob m2)) (fun _ => FRet (Good tt)))))))))
       (mbind (lift ENtlm (init_msg (a_domain (auth_of (cl w))) (a_workstation (auth_of (cl w))))) (fun ntlm_init =>
         do! r := session_setup_blob E fuel ntlm_init in
         do! c := get in
         do! _ := put (set_uid (ss_uid r) c) in
         do! ch := lift ENtlm (challenge_parse (ss_blob r)) in
         do! resp := lift ENtlm (challenge_response E ch (auth_of (cl w))) in
         do! _ := session_setup_blob E fuel resp in ret tt))).
    { apply interp_lift_then. intros m1. apply interp_call_then; [reflexivity|]. intros r.
      intros Sv' react' w'. cbn [interp Prog.run mbind get put ret pbind].
      revert Sv' react' w'. 
      assert (H : same_prog (interp E fuel
        (fbind (flift ENtlm (challenge_parse (ss_blob r))) (fun ch =>
        fbind (flift ENtlm (challenge_response E ch (auth_of (cl w)))) (fun m2 =>
        fbind (fcall (SetupBlob m2)) (fun _ => FRet (Good tt))))))
        (do! ch := lift ENtlm (challenge_parse (ss_blob r)) in
         do! resp := lift ENtlm (challenge_response E ch (auth_of (cl w))) in
         do! _ := session_setup_blob E fuel resp in ret tt)).
      { apply interp_lift_then. intros ch. apply interp_lift_then. intros m2. apply interp_call_then; [reflexivity|].
        intros _. apply same_refl. }
      intros Sv' react' w'. apply H. }
    rewrite H. unfold authenticate_ntlmv2. rewrite (run_mbind react get), run_get. cbn [gbind obind]. reflexivity.
  - assert (H : same_prog (interp E fuel
       (fbind (flift ENtlm (ntlmv1_authenticate E (auth_of (cl w)) (s_challenge s))) (fun secret =>
        fbind (fcall (SetupAuth (a_user (auth_of (cl w))) (a_domain (auth_of (cl w))) secret)) (fun r =>
        FUid (ss_uid r) (FRet (Good tt))))))
       (mbind (lift ENtlm (ntlmv1_authenticate E (auth_of (cl w)) (s_challenge s))) (fun secret =>
         do! r := session_setup_auth E fuel (a_user (auth_of (cl w))) (a_domain (auth_of (cl w))) secret in
         do! c := get in put (set_uid (ss_uid r) c)))).
    { apply interp_lift_then. intros m1. apply interp_call_then; [reflexivity|]. intros r.
      intros Sv' react' w'. reflexivity. }
    rewrite H. unfold authenticate_ntlm. rewrite (run_mbind react get), run_get. cbn [gbind obind]. reflexivity.
Qed.
