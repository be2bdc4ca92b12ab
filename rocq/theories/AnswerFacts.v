(** * AnswerFacts: the answers of single calls (C44, C52-C56, C58) *)
From Verif Require Import Base Text Utils Win Errors Info Common Msg Reply Ntlm Prog Client Spec SpecReply SpecCrash
  Api SpecCall BaseFacts TextFacts RunFacts SpecFacts InfoFacts ClientFacts MsgFacts ReplyFacts CallFacts.
Open Scope N_scope.
Set Implicit Arguments.
Unset Strict Implicit.

(** the reply [p] answers the call [c] made in world [w] (with request [f]), and is
    successful; [rest] is still to be read then *)
Definition answered {Sv} (react : Sv -> bytes -> reaction Sv) (E : env) (fuel : nat) {R} (c : call R)
  (w w1 : world cifs Sv) (p rest : bytes) : Prop :=
  (exists f, request (exec E fuel c) (cl w) = Some f /\ asked react w f w1)
  /\ reply_arrives (mid (cl w)) (rx w1) p rest
  /\ exists st, smb_reply p (opcode c) st (mid (cl w)) /\ op_status c st.

Section Server.
Variable Sv : Type.
Variable react : Sv -> bytes -> reaction Sv.
Notation world := (world cifs Sv).
Notation run := (run react).
Variable E : env.
Variable fuel : nat.

Lemma answer_good R (c : call R) w v w' : single_reply c -> run (exec E fuel c) w = Done (Good v) w' ->
  exists w1 p, answered react E fuel c w w1 p (rx w') /\ w' = leaving w1 (rx w') /\ decodes c p v.
Proof.
  intros Hs H. apply single_good in H; [|exact Hs]. destruct H as (f & w1 & p & st & H1 & H2 & H3 & H4 & H5 & H6 & H7).
  exists w1, p. unfold answered. eauto 12.
Qed.
Lemma answer_complete R (c : call R) w w1 p rest v : single_reply c -> (length (rx w1) < fuel)%nat ->
  answered react E fuel c w w1 p rest -> decodes c p v -> run (exec E fuel c) w = Done (Good v) (leaving w1 rest).
Proof. intros Hs Hf ((f & H1 & H2) & H3 & st & H4 & H5) Hd. eapply single_complete; eauto. Qed.
Lemma answer_run R (c : call R) r w w1 p rest : reply_of c = Some r -> (length (rx w1) < fuel)%nat ->
  answered react E fuel c w w1 p rest -> exists i, info_parse p = Ok (i, drop 32 p)
  /\ run (exec E fuel c) w = lifted ESmb (reply_parse r i (drop 32 p)) (leaving w1 rest).
Proof.
  intros Hr Hf ((f & H1 & H2) & H3 & st & H4 & H5).
  destruct (single_replied (c := c) (r := r) Hr Hf H1 H2 H3 H4) as (i & Hi & _ & Hs & Hrun). exists i. split; [exact Hi|].
  rewrite Hrun. apply Hs in H5. now rewrite H5.
Qed.

(** ** C53 *)
(** the calls whose replies start with an AndX block *)
Definition andx_call {R} (c : call R) : Prop :=
  match c with
  | MountPassword _ _ | Mount _ | OpenFile _ _ | OpenDir _ _ | ReadAt _ _ | SetupAuth _ _ _ | SetupBlob _ => True
  | _ => False
  end.
Lemma chained_refused R (c : call R) w w1 p rest words data more x : andx_call c -> (length (rx w1) < fuel)%nat ->
  answered react E fuel c w w1 p rest -> smb_parts p words data more -> 4 <= len words ->
  u8_at words 0 = Some x -> x <> 255 ->
  run (exec E fuel c) w = Done (Bad (ESmb (if existsb (N.eqb x) known_codes then Unsupported AndXChaining else InvalidCommand x)))
    (leaving w1 rest).
Proof.
  intros Hc Hf Ha Hp Hl Hx Hn.
  assert (G : forall r : reply R, reply_of c = Some r -> r_andx r = true ->
    run (exec E fuel c) w = Done (Bad (ESmb (if existsb (N.eqb x) known_codes then Unsupported AndXChaining else InvalidCommand x)))
    (leaving w1 rest)).
  { intros r Hr Hand. destruct (answer_run Hr Hf Ha) as (i & _ & ->). rewrite (parse_parts r i Hp), Hand.
    unfold with_andx. destruct (N.ltb_spec (len words) 4) as [H|_]; [lia|]. apply f8 in Hx. rewrite <- Hx.
    destruct (N.eqb_spec x 255) as [H|_]; [contradiction|].
    destruct (existsb (N.eqb x) known_codes) eqn:He.
    - apply existsb_exists in He. destruct He as (y & Hy & Hxy). apply N.eqb_eq in Hxy. subst y.
      apply known_codes_iff in Hy. destruct Hy as [cm ->]. reflexivity.
    - rewrite cmd_of_code_None; [reflexivity|]. intros Hin.
      assert (existsb (N.eqb x) known_codes = true); [|congruence]. apply existsb_exists. exists x. split; [exact Hin|apply N.eqb_refl]. }
  destruct c; cbn [andx_call] in Hc; try contradiction; (eapply G; [reflexivity|reflexivity]).
Qed.
(** never a value: without hypotheses on what else the reply contains *)
Lemma chained_no_value R (c : call R) w w1 p rest words data more v w' : andx_call c -> (length (rx w1) < fuel)%nat ->
  answered react E fuel c w w1 p rest -> smb_parts p words data more -> ~ unchained words ->
  run (exec E fuel c) w <> Done (Good v) w'.
Proof.
  intros Hc Hf Ha Hp Hn Hrun.
  assert (G : forall r : reply R, reply_of c = Some r -> r_andx r = true -> False).
  { intros r Hr Hand. destruct (answer_run Hr Hf Ha) as (i & _ & He). rewrite Hrun in He.
    destruct (reply_parse r i (drop 32 p)) as [v'|e|] eqn:Hv; cbn [lifted] in He; try discriminate He.
    rewrite (parse_parts r i Hp), Hand in Hv. apply (with_andx_ok true) in Hv. tauto. }
  destruct c; cbn [andx_call] in Hc; try contradiction; (eapply G; [reflexivity|reflexivity]).
Qed.

(** ** C54 *)
Lemma read_good h o w v w' : run (exec E fuel (ReadAt h o)) w = Done (Good v) w' ->
  exists w1 p, answered react E fuel (ReadAt h o) w w1 p (rx w') /\ w' = leaving w1 (rx w') /\ read_of p v /\ len v <= 65535.
Proof.
  intros H. apply answer_good in H; [|exact I]. destruct H as (w1 & p & H1 & H2 & H3). exists w1, p.
  split; [exact H1|]. split; [exact H2|]. split; [exact H3|]. destruct H3 as (ws & d & r & _ & _ & H & _).
  apply u16_at_bound in H. lia.
Qed.
Lemma read_misfit h o w w1 p rest words data more n : (length (rx w1) < fuel)%nat ->
  answered react E fuel (ReadAt h o) w w1 p rest -> smb_parts p words data more -> unchained words ->
  u16_at words 10 = Some n -> len data <> n -> len data <> n + 1 ->
  run (exec E fuel (ReadAt h o)) w = Done (Bad (ESmb InvalidData)) (leaving w1 rest).
Proof.
  intros Hf Ha Hp Hu Hn H1 H2. destruct (answer_run (c := ReadAt h o) (r := r_read) eq_refl Hf Ha) as (i & _ & ->).
  rewrite (parse_parts r_read i Hp). unfold with_andx. cbn [r_andx r_read].
  apply unchained_iff in Hu. destruct Hu as [Hl H255]. rewrite H255.
  destruct (N.ltb_spec (len words) 4) as [H|_]; [lia|]. cbn [N.eqb Pos.eqb]. cbn [r_create].
  pose proof (u16_at_bound _ _ _ Hn) as [Hb _]. apply f16 in Hn.
  rewrite read_create_eq. destruct (N.ltb_spec (len words) 12) as [H|_]; [lia|]. cbv zeta. rewrite <- Hn.
  destruct (N.eqb_spec (len data) n); [contradiction|]. destruct (N.eqb_spec (len data) (n + 1)); [contradiction|]. reflexivity.
Qed.

(** ** C58 *)
Lemma dialect_refused w w1 p rest words data more d : (length (rx w1) < fuel)%nat ->
  answered react E fuel Negotiate w w1 p rest -> smb_parts p words data more -> 17 <= len words ->
  u16_at words 0 = Some d -> d <> 0 ->
  run (exec E fuel Negotiate) w = Done (Bad (ESmb (if d =? 0xffff then NoDialect else InvalidHeader))) (leaving w1 rest).
Proof.
  intros Hf Ha Hp Hl Hd Hn. destruct (answer_run (c := Negotiate) (r := r_server_setup) eq_refl Hf Ha) as (i & _ & ->).
  rewrite (parse_parts r_server_setup i Hp). unfold with_andx. cbn [r_andx r_server_setup r_create]. rewrite server_create_eq.
  apply f16 in Hd. rewrite <- Hd. destruct (N.ltb_spec (len words) 17); [lia|].
  destruct (d =? 65535); [reflexivity|]. destruct (N.leb_spec 1 d); [reflexivity|lia].
Qed.

(** ** C44 *)
Lemma notification_total b : notification_loop (length b + 2) b 0 [] <> None.
Proof. clear react E fuel. apply notification_loop_total; [lia|]. unfold len. lia. Qed.
End Server.

(** ** C27, C52: the entries of a batch *)
Lemma entries_each z b l : entries z b l -> forall d, In d l -> exists o n e, bytes_at b o n = Some e /\ dir_of e d.
Proof.
  intros H. induction H as [|b n H1 H2|b d H1 H2 H3|b n e d l H1 H2 H3 H4 H5 IH]; intros x Hx; cbn [In] in Hx; try contradiction.
  - destruct Hx as [<-|[]]. exists 4, (len b - 4), (drop 4 b). split; [|exact H3].
    pose proof (u32_at_bound _ _ _ H2) as [Hb _]. rewrite bytes_fld by lia. f_equal. apply take_all. rewrite len_drop. lia.
  - destruct Hx as [<-|Hx]; [exists 4, (n - 4), e; auto|]. destruct (IH _ Hx) as (o & m & e' & Ho & He).
    exists (n + o), m, e'. split; [|exact He]. apply bytes_at_some in Ho. destruct Ho as [Hl ->]. rewrite len_drop in Hl.
    assert (Hb : n <= len b). { apply bytes_at_some in H3. lia. }
    rewrite bytes_fld by lia. f_equal. now rewrite drop_drop.
Qed.
Lemma dir_short e : len e < 60 \/ (exists n, u32_at e 56 = Some n /\ len e < 60 + n) -> dir_info_parse e = Err InvalidData.
Proof.
  intros H. rewrite dir_parse_eq. destruct (N.ltb_spec (len e) 60) as [|H60]; [reflexivity|].
  destruct H as [H|(n & H1 & H2)]; [lia|]. apply f32 in H1. rewrite <- H1. destruct (N.ltb_spec (len e) (60 + n)); [reflexivity|lia].
Qed.
