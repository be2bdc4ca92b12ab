(** * Where a search leaves the stream *)
From Verif Require Import Base BaseFacts Text Utils Win Errors Info Common Msg Reply Ntlm Prog
  RunFacts Client Spec SpecFacts TextFacts InfoFacts ClientFacts Api MsgFacts SpecReply SpecCrash
  SpecCall ReplyFacts CollectFacts CallFacts FindFacts NoiseFacts.
Set Implicit Arguments.
Unset Strict Implicit.
Open Scope N_scope.

Section Server.
Variable Sv : Type.
Variable react : Sv -> bytes -> reaction Sv.
Notation run := (run react).
Section Env.
Variable E : env.

(** after the fragments [fs] of a search it waits for the next message *)
Lemma find_reads fuel R (c : call R) w f w1 fs tp td b : ~ single_reply c -> (length (rx w1) < fuel)%nat ->
  request (exec E fuel c) (cl w) = Some f -> asked react w f w1 ->
  fragments_arrive (mid (cl w)) (rx w1) fs b -> collecting fs tp td -> (length fs < fuel)%nat ->
  exists k sub n, find_sub c = Some sub /\ holds2 k fs tp td /\
  run (exec E fuel c) w
  = gbind (gbind (run (recv fuel r_trans2 (mid (cl w))) (leaving w1 b))
       (fun g v => run (do! (ctx, done) := lift ESmb (collect2_add k g) in
          if (done : bool) then ret ctx else collect n fuel (mid (cl w)) ctx) v))
     (fun ctx v => run (lift ESmb (get_subreply sub ctx)) v).
Proof.
  intros Hs Hfuel Hf Ha Hfa Hco Hl. destruct (find_is Hs) as [sub Hsub].
  destruct (adds_collecting (pre := []) (holds2_new _ _) Hco) as (k & Hk & Hh). cbn [app] in Hh.
  rewrite (call_asked Hf Ha), (find_after fuel _ Hsub), run_mbind.
  destruct (collect_step react Hk Hfa Hfuel Hl) as [n ->]. cbn [collect]. rewrite run_mbind.
  exists k, sub, n. auto.
Qed.

Lemma find_leaves fuel R (c : call R) w f w1 fs tp td b p code st rest : ~ single_reply c -> (length (rx w1) < fuel)%nat ->
  request (exec E fuel c) (cl w) = Some f -> asked react w f w1 ->
  fragments_arrive (mid (cl w)) (rx w1) fs b -> collecting fs tp td ->
  reply_arrives (mid (cl w)) b p rest -> smb_reply p code st (mid (cl w)) ->
  (exists a, run (exec E fuel c) w = Done a (leaving w1 rest))
  \/ code = 0x32 /\ st = 0
     /\ (crash_fragment p
         \/ exists g, fragment_of p g
            /\ ((exists tp' td', collecting (fs ++ [g]) tp' td')
                \/ exists x y, split_of (fs ++ [g]) x y /\ last_completes (fs ++ [g]) (len x) (len y) /\ find_crashes c x y)).
Proof.
  intros Hs Hfuel Hf Ha Hfa Hco Hra Hp.
  pose proof (arrive_length Hfa) as Hlen. pose proof (arrives_len Hra) as Hlen2.
  destruct (find_reads Hs Hfuel Hf Ha Hfa Hco ltac:(lia)) as (k & sub & n & Hsub & Hh & ->).
  assert (Hg' : (length (rx (leaving w1 b)) < fuel)%nat) by (cbn; lia).
  destruct (@recv_reply _ react _ r_trans2 _ (leaving w1 b) _ _ _ _ _ Hg' Hra Hp) as (i & Hi & Hc & Hst & ->).
  unfold replied. destruct (cmd_eqb (i_cmd i) (r_cmd r_trans2)) eqn:Hcmd; cbn [negb]; [|left; eexists; reflexivity].
  destruct (status_ok i) eqn:Hso; cbn [negb]; [|left; eexists; reflexivity].
  assert (Hc' : i_cmd i = CTransact2).
  { clear -Hcmd. cbn [r_cmd r_trans2] in Hcmd. destruct (i_cmd i); try discriminate Hcmd. reflexivity. }
  assert (code = 0x32) as -> by (rewrite <- Hc, Hc'; reflexivity).
  apply (status_zero Hc' Hst) in Hso. subst st.
  pose proof (proj1 (info_head Hi)) as Hip.
  destruct (reply_parse r_trans2 i (drop 32 p)) as [g|e|] eqn:Hpar; cbn [lifted gbind obind].
  - pose proof (proj1 (fragment_ok i g Hip) Hpar) as Hg.
    rewrite run_mbind, run_lift. destruct (collect2_add k g) as [[k' d]|e|] eqn:Hadd; cbn [lifted gbind obind].
    + destruct (holds2_add Hh Hadd) as (tp' & td' & Hh' & Heq & Hd).
      assert (Hun : unfinished fs tp' td').
      { destruct fs as [|g0 fs0]; [intros x y Ex Hx; apply (eq_sym) in Ex; apply app_eq_nil in Ex; destruct Ex; congruence|].
        destruct (Heq ltac:(discriminate)) as [-> ->]. exact (proj2 (proj2 (proj2 Hco))). }
      destruct d.
      * rewrite run_ret. cbn [gbind obind]. rewrite run_lift.
        destruct (get_subreply sub k') eqn:Hgs; cbn [lifted]; [left; eexists; reflexivity|left; eexists; reflexivity|].
        right. split; [reflexivity|]. split; [reflexivity|]. right. exists g. split; [exact Hg|]. right.
        assert (Hne : fs ++ [g] <> []) by (intros H; apply app_eq_nil in H; destruct H; discriminate).
        destruct (proj1 (holds2_get_panic sub Hh' Hne) Hgs) as (x & y & Hsp & Hx & Hy & Hcr).
        exists x, y. split; [exact Hsp|]. rewrite Hx, Hy. split; [now apply completes_snoc|]. now apply (find_panic x y Hsub).
      * right. split; [reflexivity|]. split; [reflexivity|]. right. exists g. split; [exact Hg|]. left. exists tp', td'.
        apply (holds2_collecting Hh'). apply unfinished_snoc; [exact Hun|]. intros He. now apply Hd in He.
    + left. eexists. reflexivity.
    + now apply collect2_add_no_panic in Hadd.
  - left. eexists. reflexivity.
  - right. split; [reflexivity|]. split; [reflexivity|]. left. 
    now apply (fragment_panic i Hip).
Qed.

(** a frame too big in the middle of a search *)
Lemma find_too_big fuel R (c : call R) w f w1 fs tp td s t x y z rest : ~ single_reply c -> (length (rx w1) < fuel)%nat ->
  request (exec E fuel c) (cl w) = Some f -> asked react w f w1 ->
  fragments_arrive (mid (cl w)) (rx w1) fs (s ++ [t; x; y; z] ++ rest) -> collecting fs tp td ->
  skipped (mid (cl w)) s -> NB_MAX < b2n x * 65536 + b2n y * 256 + b2n z ->
  run (exec E fuel c) w = Done (Bad (ENetBios FrameTooBig)) (leaving w1 rest).
Proof.
  intros Hs Hfuel Hf Ha Hfa Hco Hk Hb. pose proof (arrive_length Hfa) as Hlen.
  destruct (find_reads Hs Hfuel Hf Ha Hfa Hco ltac:(lia)) as (k & sub & n & Hsub & Hh & ->).
  pose proof (scans_big (id := mid (cl w)) t rest Hk Hb) as Hsc.
  rewrite (run_recv react r_trans2 (w := leaving w1 (s ++ [t; x; y; z] ++ rest)) Hsc); [reflexivity|cbn [leaving rx]; lia].
Qed.

(** a search waiting for its next fragment *)
Lemma find_waits fuel R (c : call R) w f w1 fs tp td b : ~ single_reply c -> (length (rx w1) < fuel)%nat ->
  request (exec E fuel c) (cl w) = Some f -> asked react w f w1 ->
  fragments_arrive (mid (cl w)) (rx w1) fs b -> collecting fs tp td ->
  skipped (mid (cl w)) b -> tl w1 = Open ->
  run (exec E fuel c) w = Blocked (leaving w1 []).
Proof.
  intros Hs Hfuel Hf Ha Hfa Hco Hk Ht. pose proof (arrive_length Hfa) as Hlen.
  destruct (find_reads Hs Hfuel Hf Ha Hfa Hco ltac:(lia)) as (k & sub & n & Hsub & Hh & ->).
  rewrite (run_recv react r_trans2 (w := leaving w1 b) (scans_only_skipped Hk)) by (cbn [leaving rx]; lia).
  cbn [received]. unfold short_outcome. cbn. now rewrite Ht.
Qed.
End Env.
End Server.
