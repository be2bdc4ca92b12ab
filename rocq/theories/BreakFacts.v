(** * BreakFacts: messages of the server that are not replies *)
From Verif Require Import Base Text Utils Win Errors Info Common Msg Reply Ntlm Prog Client Spec SpecReply SpecMsg
  Api SpecCall Flow Sample BaseFacts TextFacts RunFacts SpecFacts InfoFacts ClientFacts MsgFacts CallFacts SizeFacts ReqFacts FlowFacts WrapFacts FindFacts SpecBreak.
Open Scope N_scope.
Set Implicit Arguments.

Lemma no_oplock E fuel st R (c : call R) f : typed_client st -> typed c -> request (exec E fuel c) st = Some f ->
  exists p words data, f = session_message p /\ smb_parts p words data [] /\ u8_at p 4 = Some (opcode c) /\ asks_no_oplock (opcode c) p words.
Proof.
  intros Hs Hc Hr. destruct (request_asks Hs Hc Hr) as (p & words & data & Hf & _ & Hp & Hh & Ha).
  exists p, words, data. split; [exact Hf|]. split; [exact Hp|]. split; [apply Hh|]. split.
  - exists 0x18. split; [apply Hh|]. split; reflexivity.
  - intros Ho. destruct c; cbn [opcode] in Ho; try discriminate Ho; cbn [asks] in Ha; destruct Ha as (_ & _ & _ & _ & H & _); exists 0; (split; [exact H|split; reflexivity]).
Qed.
Lemma frame_id_take n g i x : frame_id g = Some i -> frame_id (take n g) = Some x -> x = i.
Proof.
  unfold frame_id. intros H1 H2. pose proof (u16_at_bound _ _ _ H2) as [Hb _].
  assert (H : u16_at (take n g ++ drop n g) 34 = Some x) by (rewrite u16_at_app1 by lia; exact H2).
  rewrite take_drop in H. congruence.
Qed.
Lemma ids_below E fuel A (p : flow A) Sv (react : Sv -> bytes -> reaction Sv) w : overflow_checks E = true -> mid (cl w) < 65536 ->
  exists l, tx (final (run react (interp E fuel p) w)) = tx w ++ l /\ forall f, In f l -> frame_id f <> Some NOT_A_CALL.
Proof.
  intros Ho Hm. destruct (flow_written react E p fuel w) as (k & l & Hx & Hw).
  exists l. split; [exact Hx|]. destruct (written_ids Hw Hm) as (_ & Hk & js & Ha & H2). specialize (Hk Ho).
  intros f Hf. destruct (in_split _ _ Hf) as (l1 & l2 & ->). apply Forall2_app_inv_l in H2. destruct H2 as (j1 & j2 & _ & H2 & ->).
  inversion H2 as [|a b c d H3 _ E1 E2]. subst a c j2.
  assert (Hb : 0 <= b < k) by (apply (ascending_in Ha); apply in_or_app; right; now left).
  rewrite N.mod_small in H3 by lia. unfold NOT_A_CALL. destruct H3 as [H3|(g & n & -> & H3)].
  - rewrite H3. intros [= H]. lia.
  - intros H. apply (frame_id_take _ _ H3) in H. lia.
Qed.
Lemma reserved_used : exists (p : flow unit) fuel w' f, user p
  /\ run silent (interp (env0 false) fuel p) (deaf 0 []) = Done (Good tt) w' /\ In f (tx w') /\ frame_id f = Some NOT_A_CALL.
Proof.
  destruct (some_nat 65536) as [n Hn]. destruct (some_nat 65535) as [k Hk].
  destruct (@closes_run (env0 false) 1 n 0 []) as (fs & H1 & H2 & H3); [lia|lia|discriminate|].
  destruct (nth_error fs k) as [f|] eqn:Hf; [|apply nth_error_None in Hf; lia].
  exists (closes n), 1%nat. eexists. exists f.
  split; [apply closes_user|]. split; [exact H1|]. split; [exact (nth_error_In _ _ Hf)|]. rewrite (H3 _ _ Hf), Hk. reflexivity.
Qed.
Lemma break_rejected p : oplock_break p -> info_parse p = Err (InvalidCommand 0x24).
Proof.
  intros (H1 & _ & H2 & H3 & (f & H4 & H5) & _).
  destruct (info_parse_total p) as [[H _]|[(_ & H & _)|[(_ & _ & c & Hc & _ & H)|[(_ & _ & (c & Hc & Hi) & _)|(code & st & m & H)]]]].
  - lia.
  - contradiction.
  - rewrite H. congruence.
  - rewrite H3 in Hc. injection Hc as <-. exfalso. cbn in Hi. repeat (destruct Hi as [Hi|Hi]; [discriminate Hi|]). exact Hi.
  - exfalso. destruct H as (_ & _ & Hc & Hk & _). rewrite H3 in Hc. injection Hc as <-. cbn in Hk. repeat (destruct Hk as [Hk|Hk]; [discriminate Hk|]). exact Hk.
Qed.
Section Break.
Variable Sv : Type.
Variable react : Sv -> bytes -> reaction Sv.
Variable E : env.
Lemma break_scanned id skip p rest : skipped id skip -> oplock_break p ->
  scans id (skip ++ session_message p ++ rest) (ScSmbError (InvalidCommand 0x24) rest).
Proof.
  intros Hs Hp. apply scans_skip; [exact Hs|]. eapply sc_smb with (ty := 0) (p := p).
  - apply next_message. apply Hp.
  - reflexivity.
  - now apply break_rejected.
Qed.
Lemma break_aborts fuel R (c : call R) w f w1 skip p rest : (length (rx w1) < fuel)%nat ->
  request (exec E fuel c) (cl w) = Some f -> asked react w f w1 ->
  rx w1 = skip ++ session_message p ++ rest -> skipped (mid (cl w)) skip -> oplock_break p ->
  run react (exec E fuel c) w = Done (Bad (ESmb (InvalidCommand 0x24))) (leaving w1 rest).
Proof.
  intros Hl Hr Ha Hx Hs Hp. rewrite (call_asked Hr Ha). pose proof (break_scanned rest Hs Hp) as Hsc. rewrite <- Hx in Hsc.
  destruct (reply_of c) as [r|] eqn:Hrc.
  - rewrite (after_recv fuel _ Hrc). rewrite (@run_recv _ react _ r _ _ _ _ Hsc Hl). reflexivity.
  - destruct fuel as [|g]; [lia|]. 
    assert (Hcol : run react (collect (S g) (S g) (mid (cl w)) collect2_new) w1 = Done (Bad (ESmb (InvalidCommand 0x24))) (leaving w1 rest)).
    { cbn [collect]. unfold mbind. rewrite run_bind, (@run_recv _ react _ r_trans2 _ _ _ _ Hsc Hl). reflexivity. }
    destruct c; try discriminate Hrc; cbn [after]; unfold mbind; rewrite run_bind, Hcol; reflexivity.
Qed.
End Break.
