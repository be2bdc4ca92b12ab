(** * CallFacts: whole calls, for every server. *)
From Coq Require Import Permutation.
From Verif Require Import Base BaseFacts Text Utils Win Errors Info Common Msg Reply Ntlm Prog
  RunFacts Client Spec SpecFacts TextFacts InfoFacts ClientFacts Api MsgFacts SpecReply SpecCrash
  SpecCall ReplyFacts CollectFacts.
Set Implicit Arguments.
Unset Strict Implicit.
Open Scope N_scope.

(** ** scanning over skipped messages *)
Lemma scans_keepalive id b r : scans id b r -> scans id (keepalive ++ b) r.
Proof.
  intros H. apply sc_keep with (ty := 0x85) (p := []) (rest := b); [|reflexivity|exact H]. unfold keepalive.
  apply next_frame_complete; cbn; lia.
Qed.
Lemma next_message p rest : len p <= NB_MAX -> next_frame (session_message p ++ rest) = NFrame 0 p rest.
Proof. intros H. apply next_frame_complete; [lia|exact H]. Qed.
Lemma scans_stale id p code st m b r : smb_reply p code st m -> m <> id -> len p <= NB_MAX ->
  scans id b r -> scans id (session_message p ++ b) r.
Proof.
  intros Hp Hm Hl H. destruct (info_parse_reply Hp) as (i & Hi & _ & _ & Hmid).
  eapply sc_stale; [now apply next_message|reflexivity|exact Hi|congruence|exact H].
Qed.
Lemma scans_skip id s b r : skipped id s -> scans id b r -> scans id (s ++ b) r.
Proof.
  induction 1; intros HH; cbn [app]; [exact HH| |]; rewrite <- app_assoc.
  - now apply scans_keepalive, IHskipped.
  - eapply scans_stale; eauto.
Qed.

Lemma scans_reply id b p rest i body : reply_arrives id b p rest -> info_parse p = Ok (i, body) -> i_mid i = id ->
  scans id b (ScReply i p rest).
Proof.
  intros (skip & Hs & Hl & ->) Hi Hm. apply scans_skip; [exact Hs|].
  eapply sc_reply; [now apply next_message|reflexivity|exact Hi|exact Hm].
Qed.
Lemma arrives_keep id b p rest : reply_arrives id b p rest -> reply_arrives id (keepalive ++ b) p rest.
Proof. intros (s & Hs & Hl & ->). exists (keepalive ++ s). split; [now constructor|]. split; [exact Hl|]. now rewrite <- app_assoc. Qed.
Lemma arrives_stale id q code st m b p rest : smb_reply q code st m -> m <> id -> len q <= NB_MAX ->
  reply_arrives id b p rest -> reply_arrives id (session_message q ++ b) p rest.
Proof.
  intros Hq Hm Hql (s & Hs & Hl & ->). exists (session_message q ++ s). split; [econstructor; eauto|].
  split; [exact Hl|]. now rewrite <- app_assoc.
Qed.
Lemma scans_reply_inv id b i p rest : scans id b (ScReply i p rest) ->
  reply_arrives id b p rest /\ i_mid i = id /\ info_parse p = Ok (i, drop 32 p).
Proof.
  remember (ScReply i p rest) as r eqn:Er. induction 1 as [b Hb|b rs Hb|b ty q rs e Hb Hn|b ty q rs r Hb Hn Hr IH
    |b ty q rs fr Hb Hn Hm Hk|b ty q rs m e Hb Hn Hi|b ty q rs m j body Hb Hn Hi Hid
    |b ty q rs m j body r Hb Hn Hi Hid Hr IH]; try discriminate Er.
  - destruct (IH Er) as (H1 & H2 & H3). split; [|auto]. apply frame_new_keepalive in Hn. destruct Hn as [-> ->].
    apply next_frame_inv in Hb. destruct Hb as [-> _]. now apply arrives_keep.
  - injection Er as -> -> ->. apply frame_new_message in Hn. destruct Hn as [-> ->].
    apply next_frame_inv in Hb. destruct Hb as (-> & _ & Hl).
    split; [|split; [exact Hid|]].
    + exists []. split; [constructor|]. split; [exact Hl|reflexivity].
    + pose proof (info_parse_ok_fields Hi) as (_ & Hd & _). now rewrite <- Hd.
  - destruct (IH Er) as (H1 & H2 & H3). split; [|auto]. apply frame_new_message in Hn. destruct Hn as [-> ->].
    apply next_frame_inv in Hb. destruct Hb as (-> & _ & Hl).
    pose proof (info_parse_ok_fields Hi) as (Hs & _). eapply arrives_stale; eauto.
Qed.

Lemma status_ok_iff R (c : call R) i p st id : cmd_code (i_cmd i) = opcode c ->
  smb_reply p (opcode c) st id -> i_status i = status_of_code st ->
  (status_ok i = true <-> op_status c st).
Proof.
  intros Hc _ Hs. unfold status_ok, op_status. rewrite Hs.
  assert (K : forall x, status_of_code st = Known x <-> st = nt_code x).
  { intros x. split; [|intros ->; apply status_of_code_known].
    intros H. apply (f_equal status_code) in H. rewrite status_code_of in H. exact H. }
  destruct (status_of_code st) as [x|u] eqn:Ex.
  - pose proof (proj1 (K x) eq_refl) as ->.
    destruct x; cbn [nt_code]; try (split; [easy|intros [H|[_ H]]; discriminate H]).
    + split; auto.
    + rewrite cmd_eqb_eq. split.
      * intros H. right. split; [|reflexivity]. rewrite <- Hc, H. reflexivity.
      * intros [H|[H _]]; [discriminate H|]. apply cmd_code_inj. rewrite Hc, H. reflexivity.
  - split; [easy|]. intros [->|[_ ->]]; discriminate Ex.
Qed.

(** ** decoding, per call *)
Lemma reply_ok R (c : call R) r i p v : reply_of c = Some r -> info_parse p = Ok (i, drop 32 p) ->
  (reply_parse r i (drop 32 p) = Ok v <-> decodes c p v).
Proof.
  intros Hr Hi. pose proof (info_head Hi) as Hh. pose proof (proj1 Hh) as Hl.
  destruct c; cbn [reply_of] in Hr; try discriminate Hr; apply some_inj in Hr; subst r; cbn [decodes].
  - now apply share_ok.
  - now apply share_ok.
  - destruct v. now apply plain_ok.
  - now apply handle_ok.
  - now apply handle_ok.
  - destruct v. now apply plain_ok.
  - now apply read_ok.
  - destruct v. now apply plain_ok.
  - destruct v. now apply plain_ok.
  - now apply notification_ok.
  - now apply notification_ok.
  - now apply server_ok.
  - now apply session_ok.
  - now apply session_ok.
Qed.
Lemma reply_panic R (c : call R) r i p : reply_of c = Some r -> info_parse p = Ok (i, drop 32 p) ->
  (reply_parse r i (drop 32 p) = Panic <-> crashes c p).
Proof.
  intros Hr Hi. pose proof (info_head Hi) as Hh. pose proof (proj1 Hh) as Hl.
  destruct c; cbn [reply_of] in Hr; try discriminate Hr; apply some_inj in Hr; subst r; cbn [crashes].
  - now apply share_panic.
  - now apply share_panic.
  - now apply plain_panic.
  - now apply handle_panic.
  - now apply handle_panic.
  - now apply plain_panic.
  - now apply read_panic.
  - now apply plain_panic.
  - now apply plain_panic.
  - now apply notification_panic.
  - now apply notification_panic.
  - now apply server_panic.
  - now apply session_panic.
  - now apply session_panic.
Qed.

Section Server.
Variable Sv : Type.
Variable react : Sv -> bytes -> reaction Sv.
Notation world := (world cifs Sv).
Notation run := (run react).


Section Env.
Variable E : env.

(** ** sending *)
Lemma bump_next c : bump c = next_client c.
Proof. reflexivity. Qed.

(** the state when no reply will be waited for *)
Inductive unsent (w : world) (m : msg) : outcome cifs Sv (ans N) -> Prop :=
| un_mid : mid_panics E (cl w) = true -> unsent w m (Crashed w)
| un_panic : mid_panics E (cl w) = false -> smb_out (cl w) m = Panic ->
    unsent w m (Crashed (with_cl (next_client (cl w)) w))
| un_err e : mid_panics E (cl w) = false -> smb_out (cl w) m = Err e ->
    unsent w m (Done (Bad (ESmb e)) (with_cl (next_client (cl w)) w))
| un_big b : mid_panics E (cl w) = false -> smb_out (cl w) m = Ok b -> NB_MAX < len b ->
    unsent w m (Done (Bad (ENetBios InvalidFrame)) (with_cl (next_client (cl w)) w))
| un_io f s n e inc t b t' : out_frame E (cl w) m = Some f -> react (srv w) f = Refuse s n e inc t ->
    deliver (tl w) (rx w) inc t = (b, t') ->
    unsent w m (Done (Bad (ENetBios (IoError (IoOther e))))
      (mk_world (next_client (cl w)) s b t' (tx w ++ [take n f]))).

Lemma send_cases m w :
  (exists f w1, out_frame E (cl w) m = Some f /\ asked react w f w1 /\ run (send E m) w = Done (Good (mid (cl w))) w1)
  \/ unsent w m (run (send E m) w).
Proof.
  rewrite run_send. unfold sent, out_frame. pose proof (@un_io w m) as Uio. unfold out_frame in Uio.
  destruct (mid_panics E (cl w)) eqn:Hm; [right; now constructor|].
  destruct (smb_out (cl w) m) as [b|e|] eqn:Hb.
  - destruct (N.ltb_spec NB_MAX (len b)) as [Hl|Hl].
    + right. eapply un_big; eauto.
    + destruct (react (srv w) (session_message b)) as [s inc t|s n e inc t] eqn:Hr.
      * left. eexists. eexists. split; [reflexivity|]. split; [|reflexivity].
        exists s, inc, t. cbn [cl srv tx rx tl]. repeat split; auto. now destruct (deliver (tl w) (rx w) inc t).
      * right. eapply Uio; eauto. now destruct (deliver (tl w) (rx w) inc t).
  - right. now constructor.
  - right. now constructor.
Qed.
Lemma send_asked m w f w1 : out_frame E (cl w) m = Some f -> asked react w f w1 ->
  run (send E m) w = Done (Good (mid (cl w))) w1.
Proof.
  rewrite run_send. unfold sent, out_frame. destruct (mid_panics E (cl w)); [easy|].
  destruct (smb_out (cl w) m) as [b|e|]; try easy. destruct (N.ltb_spec NB_MAX (len b)) as [Hl|Hl]; [easy|].
  intros Hf. apply some_inj in Hf. subst f. intros (s & inc & t & Hr & Hc & Hs & Ht & Hd).
  rewrite Hr. f_equal. destruct w1 as [x1 x2 x3 x4 x5]. cbn [cl srv tx rx tl] in *. rewrite <- Hd. subst. reflexivity.
Qed.

Lemma call_cases fuel R (c : call R) w :
  (exists f w1, request (exec E fuel c) (cl w) = Some f /\ asked react w f w1
     /\ run (exec E fuel c) w = run (after fuel c (mid (cl w))) w1)
  \/ (exists o, unsent w (msg_of c) o /\ run (exec E fuel c) w = gbind o (fun id w => run (after fuel c id) w)).
Proof.
  rewrite request_exec. rewrite exec_send, run_mbind. destruct (send_cases (msg_of c) w) as [(f & w1 & Hf & Ha & Hs)|H].
  - left. exists f, w1. rewrite Hs. auto.
  - right. eauto.
Qed.
Lemma call_asked fuel R (c : call R) w f w1 : request (exec E fuel c) (cl w) = Some f -> asked react w f w1 ->
  run (exec E fuel c) w = run (after fuel c (mid (cl w))) w1.
Proof. rewrite request_exec. intros Hf Ha. rewrite exec_send, run_mbind, (send_asked Hf Ha). reflexivity. Qed.
Lemma after_recv fuel R (c : call R) r id : reply_of c = Some r -> after fuel c id = recv fuel r id.
Proof. destruct c; intros H; cbn [reply_of] in H; try discriminate H; apply some_inj in H; subst r; reflexivity. Qed.

Lemma unsent_not_good w m o A (k : N -> world -> outcome cifs Sv (ans A)) v w' : unsent w m o -> gbind o k <> Done (Good v) w'.
Proof. destruct 1; cbn; easy. Qed.

(** ** receiving one reply *)
Lemma recv_reply R (r : reply R) id w f p rest code st : (length (rx w) < f)%nat ->
  reply_arrives id (rx w) p rest -> smb_reply p code st id ->
  exists i, info_parse p = Ok (i, drop 32 p) /\ cmd_code (i_cmd i) = code /\ i_status i = status_of_code st
    /\ run (recv f r id) w = replied r i p (leaving w rest).
Proof.
  intros Hf Ha Hp. destruct (info_parse_reply Hp) as (i & Hi & Hc & Hst & Hm). exists i.
  split; [exact Hi|]. split; [now apply cmd_of_code_inv|]. split; [exact Hst|].
  rewrite (run_recv react r (scans_reply Ha Hi Hm) Hf). reflexivity.
Qed.
Lemma short_not_good A (v : A) (w w' : world) : short_outcome w <> Done (Good v) w'.
Proof. unfold short_outcome. destruct (tl w); easy. Qed.
Lemma recv_good R (r : reply R) id w f v w' : run (recv f r id) w = Done (Good v) w' ->
  exists p rest st i, reply_arrives id (rx w) p rest /\ smb_reply p (cmd_code (r_cmd r)) st id
   /\ info_parse p = Ok (i, drop 32 p) /\ i_status i = status_of_code st /\ i_cmd i = r_cmd r
   /\ status_ok i = true /\ reply_parse r i (drop 32 p) = Ok v /\ w' = leaving w rest.
Proof.
  intros H. destruct (@run_recv_any Sv react R r id w f) as [[w2 Hs]|(sc & Hs & Hr)]; [congruence|].
  rewrite Hr in H. destruct sc as [i p rest|e rest|e rest|lft]; cbn [received] in H; try discriminate H.
  - destruct (scans_reply_inv Hs) as (Ha & Hm & Hi). unfold replied in H.
    destruct (cmd_eqb (i_cmd i) (r_cmd r)) eqn:Hc; cbn [negb] in H; [|discriminate H].
    destruct (status_ok i) eqn:Hst; cbn [negb] in H; [|discriminate H].
    apply cmd_eqb_eq in Hc. destruct (reply_parse r i (drop 32 p)) as [v'|e|] eqn:Hp; cbn [lifted] in H; try discriminate H.
    injection H as <- <-. destruct (info_parse_ok_fields Hi) as (Hsr & _ & Hse & _).
    exists p, rest, (status_code (i_status i)), i. rewrite <- Hc. rewrite Hm in Hsr. split; [exact Ha|]. auto 10.
  - now apply short_not_good in H.
Qed.
Lemma recv_crash R (r : reply R) id w f w' : run (recv f r id) w = Crashed w' ->
  exists p rest st i, reply_arrives id (rx w) p rest /\ smb_reply p (cmd_code (r_cmd r)) st id
   /\ info_parse p = Ok (i, drop 32 p) /\ i_status i = status_of_code st /\ i_cmd i = r_cmd r
   /\ status_ok i = true /\ reply_parse r i (drop 32 p) = Panic /\ w' = leaving w rest.
Proof.
  intros H. destruct (@run_recv_any Sv react R r id w f) as [[w2 Hs]|(sc & Hs & Hr)]; [congruence|].
  rewrite Hr in H. destruct sc as [i p rest|e rest|e rest|lft]; cbn [received] in H; try discriminate H.
  - destruct (scans_reply_inv Hs) as (Ha & Hm & Hi). unfold replied in H.
    destruct (cmd_eqb (i_cmd i) (r_cmd r)) eqn:Hc; cbn [negb] in H; [|discriminate H].
    destruct (status_ok i) eqn:Hst; cbn [negb] in H; [|discriminate H].
    apply cmd_eqb_eq in Hc. destruct (reply_parse r i (drop 32 p)) as [v'|e|] eqn:Hp; cbn [lifted] in H; try discriminate H.
    injection H as <-. destruct (info_parse_ok_fields Hi) as (Hsr & _ & Hse & _).
    exists p, rest, (status_code (i_status i)), i. rewrite <- Hc. rewrite Hm in Hsr. split; [exact Ha|]. auto 10.
  - unfold short_outcome in H. destruct (tl _); discriminate H.
Qed.

(** ** single replies *)
Lemma single_good fuel R (c : call R) w v w' : single_reply c -> run (exec E fuel c) w = Done (Good v) w' ->
  exists f w1 p st, request (exec E fuel c) (cl w) = Some f /\ asked react w f w1
   /\ reply_arrives (mid (cl w)) (rx w1) p (rx w') /\ smb_reply p (opcode c) st (mid (cl w)) /\ op_status c st
   /\ decodes c p v /\ w' = leaving w1 (rx w').
Proof.
  intros Hsr H. destruct (reply_of_single Hsr) as [r Hr].
  destruct (call_cases fuel c w) as [(f & w1 & Hf & Ha & He)|(o & Hu & He)].
  - rewrite He, (after_recv fuel _ Hr) in H. apply recv_good in H.
    destruct H as (p & rest & st & i & Hra & Hp & Hi & Hst & Hc & Hok & Hv & ->).
    rewrite (reply_of_cmd Hr) in Hp.
    exists f, w1, p, st. repeat (split; [assumption|]). split; [|split].
    + eapply status_ok_iff; eauto. rewrite Hc. apply (reply_of_cmd Hr).
    + eapply reply_ok; eauto.
    + reflexivity.
  - rewrite He in H. now apply (unsent_not_good Hu) in H.
Qed.

(** the reply to a call, whatever it is: the stream is left behind the reply *)
Lemma single_replied fuel R (c : call R) r w f w1 p st rest :
  reply_of c = Some r -> (length (rx w1) < fuel)%nat ->
  request (exec E fuel c) (cl w) = Some f -> asked react w f w1 ->
  reply_arrives (mid (cl w)) (rx w1) p rest -> smb_reply p (opcode c) st (mid (cl w)) ->
  exists i, info_parse p = Ok (i, drop 32 p) /\ i_status i = status_of_code st /\ (status_ok i = true <-> op_status c st)
   /\ run (exec E fuel c) w =
      if status_ok i then lifted ESmb (reply_parse r i (drop 32 p)) (leaving w1 rest)
      else Done (Bad (ServerError (status_of_code st))) (leaving w1 rest).
Proof.
  intros Hr Hfuel Hf Ha Hra Hp. rewrite (call_asked Hf Ha), (after_recv fuel _ Hr).
  destruct (recv_reply r Hfuel Hra Hp) as (i & Hi & Hc & Hst & ->). exists i. split; [exact Hi|]. split; [exact Hst|].
  split; [eapply status_ok_iff; eauto|]. unfold replied.
  assert (cmd_eqb (i_cmd i) (r_cmd r) = true) as ->.
  { apply cmd_eqb_eq, cmd_code_inj. now rewrite Hc, (reply_of_cmd Hr). }
  cbn [negb]. destruct (status_ok i); cbn [negb]; [reflexivity|]. now rewrite Hst.
Qed.

Lemma single_complete fuel R (c : call R) w f w1 p st rest v : single_reply c -> (length (rx w1) < fuel)%nat ->
  request (exec E fuel c) (cl w) = Some f -> asked react w f w1 ->
  reply_arrives (mid (cl w)) (rx w1) p rest -> smb_reply p (opcode c) st (mid (cl w)) -> op_status c st ->
  decodes c p v -> run (exec E fuel c) w = Done (Good v) (leaving w1 rest).
Proof.
  intros Hsr Hfuel Hf Ha Hra Hp Hst Hd. destruct (reply_of_single Hsr) as [r Hr].
  destruct (single_replied Hr Hfuel Hf Ha Hra Hp) as (i & Hi & _ & Hok & ->).
  apply Hok in Hst. rewrite Hst. assert (reply_parse r i (drop 32 p) = Ok v) as -> by (eapply reply_ok; eauto). reflexivity.
Qed.
Lemma single_server_error fuel R (c : call R) w f w1 p st rest : single_reply c -> (length (rx w1) < fuel)%nat ->
  request (exec E fuel c) (cl w) = Some f -> asked react w f w1 ->
  reply_arrives (mid (cl w)) (rx w1) p rest -> smb_reply p (opcode c) st (mid (cl w)) -> ~ op_status c st ->
  run (exec E fuel c) w = Done (Bad (ServerError (status_of_code st))) (leaving w1 rest).
Proof.
  intros Hsr Hfuel Hf Ha Hra Hp Hst. destruct (reply_of_single Hsr) as [r Hr].
  destruct (single_replied Hr Hfuel Hf Ha Hra Hp) as (i & Hi & _ & Hok & ->).
  destruct (status_ok i); [now destruct Hst; apply Hok|]. reflexivity.
Qed.
(** a reply to this id, but of another kind *)
Lemma single_other fuel R (c : call R) w f w1 p code st rest : single_reply c -> (length (rx w1) < fuel)%nat ->
  request (exec E fuel c) (cl w) = Some f -> asked react w f w1 ->
  reply_arrives (mid (cl w)) (rx w1) p rest -> smb_reply p code st (mid (cl w)) -> code <> opcode c ->
  exists a b, cmd_code a = opcode c /\ cmd_code b = code
   /\ run (exec E fuel c) w = Done (Bad (UnexpectedReply a b)) (leaving w1 rest).
Proof.
  intros Hsr Hfuel Hf Ha Hra Hp Hn. destruct (reply_of_single Hsr) as [r Hr].
  rewrite (call_asked Hf Ha), (after_recv fuel _ Hr).
  destruct (recv_reply r Hfuel Hra Hp) as (i & Hi & Hc & Hst & ->).
  exists (r_cmd r), (i_cmd i). split; [apply (reply_of_cmd Hr)|]. split; [exact Hc|]. unfold replied.
  destruct (cmd_eqb (i_cmd i) (r_cmd r)) eqn:He; [|reflexivity].
  apply cmd_eqb_eq in He. rewrite <- Hc, He, (reply_of_cmd Hr) in Hn. easy.
Qed.
Lemma single_crash fuel R (c : call R) w w' : single_reply c -> run (exec E fuel c) w = Crashed w' ->
  (request (exec E fuel c) (cl w) = None /\ (mid_panics E (cl w) = true \/ smb_out (cl w) (msg_of c) = Panic))
  \/ exists f w1 p st, request (exec E fuel c) (cl w) = Some f /\ asked react w f w1
   /\ reply_arrives (mid (cl w)) (rx w1) p (rx w') /\ smb_reply p (opcode c) st (mid (cl w)) /\ op_status c st
   /\ crashes c p /\ w' = leaving w1 (rx w').
Proof.
  intros Hsr H. destruct (reply_of_single Hsr) as [r Hr].
  destruct (call_cases fuel c w) as [(f & w1 & Hf & Ha & He)|(o & Hu & He)].
  - right. rewrite He, (after_recv fuel _ Hr) in H. apply recv_crash in H.
    destruct H as (p & rest & st & i & Hra & Hp & Hi & Hst & Hc & Hok & Hv & ->).
    rewrite (reply_of_cmd Hr) in Hp.
    exists f, w1, p, st. repeat (split; [assumption|]). split; [|split].
    + eapply status_ok_iff; eauto. rewrite Hc. apply (reply_of_cmd Hr).
    + eapply reply_panic; eauto.
    + reflexivity.
  - left. rewrite request_exec. unfold out_frame. rewrite He in H. destruct Hu as [Hm|Hm Hp|e Hm Hp|b Hm Hp Hb|f s n e inc t b t' Hf Hr' Hd]; cbn in H; try discriminate H.
    + rewrite Hm. auto.
    + rewrite Hm, Hp. auto.
Qed.
Lemma single_crashes fuel R (c : call R) w f w1 p st rest : single_reply c -> (length (rx w1) < fuel)%nat ->
  request (exec E fuel c) (cl w) = Some f -> asked react w f w1 ->
  reply_arrives (mid (cl w)) (rx w1) p rest -> smb_reply p (opcode c) st (mid (cl w)) -> op_status c st ->
  crashes c p -> run (exec E fuel c) w = Crashed (leaving w1 rest).
Proof.
  intros Hsr Hfuel Hf Ha Hra Hp Hst Hd. destruct (reply_of_single Hsr) as [r Hr].
  destruct (single_replied Hr Hfuel Hf Ha Hra Hp) as (i & Hi & _ & Hok & ->).
  apply Hok in Hst. rewrite Hst. assert (reply_parse r i (drop 32 p) = Panic) as -> by (eapply reply_panic; eauto). reflexivity.
Qed.
(** any reply to the request that does not crash the client leaves the same world *)
Lemma single_leaves fuel R (c : call R) w f w1 p code st rest : single_reply c -> (length (rx w1) < fuel)%nat ->
  request (exec E fuel c) (cl w) = Some f -> asked react w f w1 ->
  reply_arrives (mid (cl w)) (rx w1) p rest -> smb_reply p code st (mid (cl w)) ->
  (exists a, run (exec E fuel c) w = Done a (leaving w1 rest))
  \/ (code = opcode c /\ op_status c st /\ crashes c p).
Proof.
  intros Hsr Hfuel Hf Ha Hra Hp. destruct (N.eq_dec code (opcode c)) as [->|Hn].
  - destruct (reply_of_single Hsr) as [r Hr].
    destruct (single_replied Hr Hfuel Hf Ha Hra Hp) as (i & Hi & _ & Hok & ->).
    destruct (status_ok i) eqn:Hs; [|left; eauto].
    destruct (reply_parse r i (drop 32 p)) eqn:Hv; cbn [lifted]; [left; eauto|left; eauto|].
    right. split; [reflexivity|]. split; [now apply Hok|]. eapply reply_panic; eauto.
  - left. destruct (single_other Hsr Hfuel Hf Ha Hra Hp Hn) as (a & b & _ & _ & ->). eauto.
Qed.
End Env.
End Server.
