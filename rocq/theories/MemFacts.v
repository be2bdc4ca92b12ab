(** * MemFacts: how much a search keeps in memory while its reply arrives (C66). *)
From Coq Require Import Permutation.
From Verif Require Import Base Text Utils Win Errors Info Common Msg Reply Ntlm Prog Client Spec SpecReply SpecCrash
  SpecMsg Api SpecCall Sample BaseFacts RunFacts SpecFacts InfoFacts ClientFacts MsgFacts ReplyFacts CollectFacts CallFacts FindFacts
  AnswerFacts LoopFacts DownloadFacts SizeFacts.
Open Scope N_scope.
Set Implicit Arguments.
Unset Strict Implicit.

(** the bytes of the fragments in the two collectors *)
Definition kept (k : collect2) : N := collector_len (k_parameter k) + collector_len (k_data k).
Definition sent_bytes (fs : list trans2_reply) : N := size_of (parameter_pieces fs) + size_of (data_pieces fs).

Section Server.
Variable Sv : Type.
Variable react : Sv -> bytes -> reaction Sv.
Notation world := (world cifs Sv).
Notation run := (run react).
Variable E : env.

(** the call has come as far as waiting for another fragment (in [w']), holding [k] *)
Definition holding (fuel : nat) {R} (c : call R) (w : world) (k : collect2) (w' : world) : Prop :=
  exists n sub, run (exec E fuel c) w
    = run (do! ctx := collect (S n) fuel (mid (cl w)) k in lift ESmb (get_subreply sub ctx)) w'.

Lemma holds2_kept k fs tp td : holds2 k fs tp td -> kept k = sent_bytes fs.
Proof. intros [H1 H2 _]. unfold kept, sent_bytes. now rewrite (holds_len H1), (holds_len H2). Qed.

(** fragments that do not complete the reply are kept, all of them *)
Theorem find_holding fuel R (c : call R) w f w1 fs tp td rest : ~ single_reply c -> (length (rx w1) < fuel)%nat ->
  request (exec E fuel c) (cl w) = Some f -> asked react w f w1 ->
  fragments_arrive (mid (cl w)) (rx w1) fs rest -> collecting fs tp td ->
  exists k, holding fuel c w k (leaving w1 rest) /\ kept k = sent_bytes fs.
Proof.
  intros Hs Hfuel Hf Ha Hfa Hco. destruct (find_is Hs) as [sub Hsub].
  destruct (adds_collecting (pre := []) (holds2_new _ _) Hco) as (k & Hk & Hh). cbn [app] in Hh.
  exists k. split; [|exact (holds2_kept Hh)]. pose proof (arrive_length Hfa) as Hlen.
  destruct (collect_step react Hk Hfa Hfuel ltac:(lia)) as [n Hn]. exists n, sub.
  rewrite (call_asked Hf Ha), (find_after fuel _ Hsub), !run_mbind, Hn. reflexivity.
Qed.
End Server.

(** ** bounds *)
Lemma size_bound ps m : Forall (fun e : N * bytes => len (snd e) <= m) ps -> size_of ps <= m * len ps.
Proof.
  induction 1 as [|e ps H Hp IH]; cbn [size_of]; [lia|]. rewrite len_cons. nia.
Qed.
Lemma nodup_bound (l : list N) m : NoDup l -> Forall (fun x => x < m) l -> len l <= m.
Proof.
  intros Hd Hl. assert (incl l (map N.of_nat (seq 0 (N.to_nat m)))).
  { intros x Hx. rewrite Forall_forall in Hl. specialize (Hl x Hx). apply in_map_iff. exists (N.to_nat x). split; [lia|].
    apply in_seq. lia. }
  apply NoDup_incl_length in H; [|exact Hd]. rewrite map_length, seq_length in H. unfold len. lia.
Qed.
Lemma sub_size ps qs b : reassembles (ps ++ qs) b -> size_of ps <= len b.
Proof. intros H. rewrite (reassembles_size H), size_app. lia. Qed.

(** what is kept of the beginning of a proper reply is no more than the announced totals *)
Lemma proper_bound fs gs a b : split_of (fs ++ gs) a b -> sent_bytes fs <= len a + len b.
Proof.
  intros (_ & _ & H1 & H2). unfold sent_bytes, parameter_pieces, data_pieces in *. rewrite map_app in H1, H2.
  apply sub_size in H1. apply sub_size in H2. lia.
Qed.
(** and in any case one of the two blocks is incomplete *)
(** in any case: at most 65536 pieces of each block, of at most 65535 bytes *)
Lemma fragment_sizes p f : fragment_of p f ->
  f_parameter_offset f < 65536 /\ len (f_parameter f) <= 65535 /\ f_data_offset f < 65536 /\ len (f_data f) <= 65535.
Proof.
  intros (words & data & rest & np & op & nd & od & _ & _ & _ & Hnp & _ & Hdp & Hnd & _ & Hdd & (_ & _ & Hp) & (_ & _ & Hd)).
  apply u16_at_bound in Hnp, Hdp, Hnd, Hdd. apply bytes_at_bound in Hp, Hd. lia.
Qed.
Lemma arrived_sizes id b fs rest : fragments_arrive id b fs rest ->
  Forall (fun f => f_parameter_offset f < 65536 /\ len (f_parameter f) <= 65535 /\ f_data_offset f < 65536 /\ len (f_data f) <= 65535) fs.
Proof. induction 1 as [|b p b' f fs rest _ _ Hf _ IH]; constructor; [exact (fragment_sizes Hf)|exact IH]. Qed.
Lemma distinct_bound ps : Forall (fun e : N * bytes => fst e < 65536 /\ len (snd e) <= 65535) ps -> distinct ps ->
  size_of ps <= 65535 * 65536.
Proof.
  intros Hp Hd. rewrite <- size_nonempty.
  assert (Hn : Forall (fun e : N * bytes => fst e < 65536 /\ len (snd e) <= 65535) (nonempty ps)).
  { rewrite Forall_forall in *. intros e He. apply Hp. apply filter_In in He. tauto. }
  assert (Hl : len (nonempty ps) <= 65536).
  { replace (len (nonempty ps)) with (len (map fst (nonempty ps))) by (unfold len; now rewrite map_length).
    apply nodup_bound; [exact Hd|]. rewrite Forall_map. eapply Forall_impl; [|exact Hn]. cbn. tauto. }
  pose proof (@size_bound (nonempty ps) 65535) as H. apply (N.mul_le_mono_l _ _ 65535) in Hl.
  etransitivity; [apply H|exact Hl]. eapply Forall_impl; [|exact Hn]. cbn. tauto.
Qed.
Lemma collecting_bound id b fs rest tp td : fragments_arrive id b fs rest -> collecting fs tp td -> sent_bytes fs <= 2 * (65535 * 65536).
Proof.
  intros Ha (_ & Hp & Hd & _). apply arrived_sizes in Ha. unfold sent_bytes.
  assert (H1 : size_of (parameter_pieces fs) <= 65535 * 65536).
  { apply distinct_bound; [|exact Hp]. unfold parameter_pieces. rewrite Forall_map. eapply Forall_impl; [|exact Ha]. cbn. tauto. }
  assert (H2 : size_of (data_pieces fs) <= 65535 * 65536).
  { apply distinct_bound; [|exact Hd]. unfold data_pieces. rewrite Forall_map. eapply Forall_impl; [|exact Ha]. cbn. tauto. }
  lia.
Qed.

(** ** a server that announces one byte of each block and sends data, each piece at another
    displacement, but never the parameter byte *)
Definition flood_words (o n : N) : bytes :=
  le 2 1 ++ le 2 1 ++ zeros 2 ++ le 2 0 ++ le 2 55 ++ le 2 0 ++ le 2 n ++ le 2 55 ++ le 2 o ++ zeros 2.
Definition flood_piece (d : bytes) (o : N) : trans2_reply := mk_trans2 [] 1 0 d 1 o.
Definition flood_message (m : N) (d : bytes) (o : N) : bytes := message 0x32 0 m (flood_words o (len d)) d.
Fixpoint flood (m : N) (d : bytes) (n : nat) : bytes :=
  match n with O => [] | S n => flood m d n ++ session_message (flood_message m d (N.of_nat n)) end.
Fixpoint flood_pieces (d : bytes) (n : nat) : list trans2_reply :=
  match n with O => [] | S n => flood_pieces d n ++ [flood_piece d (N.of_nat n)] end.
Lemma flood_fragment m d o : len d < 65536 -> o < 65536 -> fragment_of (flood_message m d o) (flood_piece d o).
Proof.
  intros Hd Ho. exists (flood_words o (len d)), d, [], 0, 55, (len d), 55.
  split; [unfold flood_message; apply message_parts; [|vm_compute; reflexivity|exact Hd]; unfold flood_words; rewrite !len_app, !len_le, !len_zeros; reflexivity|].
  unfold flood_words. change (zeros 2) with (le 2 0).
  cbn [flood_piece f_parameter_total f_data_total f_parameter_offset f_data_offset f_parameter f_data].
  split; [now fields|]. split; [now fields|]. split; [now fields|]. split; [now fields|]. split; [now fields|].
  split; [now fields|]. split; [now fields|]. split; [now fields|].
  set (ws := le 2 1 ++ _). assert (Hw : len ws = 20) by reflexivity.
  split; (split; [lia|]; split; [lia|]).
  - unfold bytes_at, flood_message. rewrite len_message.
    change (len (flood_words o (len d))) with 20. destruct (N.leb_spec (55 + 0) (35 + 20 + len d)); [reflexivity|lia].
  - unfold flood_message, message, body. rewrite bytes_at_app2 by (rewrite len_header; lia). rewrite len_header.
    rewrite bytes_at_app2 by (rewrite len_le; lia). rewrite len_le.
    change (N.of_nat 1) with 1.
    rewrite bytes_at_app2 by (change (len (flood_words o (len d))) with 20; lia). change (len (flood_words o (len d))) with 20.
    rewrite bytes_at_app2 by (rewrite len_le; lia). rewrite len_le. apply bytes_at_self; reflexivity.
Qed.
Lemma flood_arrives m d : len d < 65536 -> m < 65536 -> forall n, N.of_nat n <= 65536 ->
  fragments_arrive m (flood m d n) (flood_pieces d n) [].
Proof.
  intros Hd Hm. assert (H : forall n, N.of_nat n <= 65536 -> forall rest, fragments_arrive m (flood m d n ++ rest) (flood_pieces d n) rest).
  { induction n as [|n IH]; intros Hn rest; cbn [flood flood_pieces]; [constructor|]. rewrite <- app_assoc.
    eapply arrive_snoc; [apply IH; lia| | |].
    - exists []. split; [constructor|]. split; [|reflexivity]. unfold flood_message. rewrite len_message.
      change (len (flood_words (N.of_nat n) (len d))) with 20. unfold NB_MAX. lia.
    - unfold flood_message. apply message_reply; try lia. vm_compute. tauto.
    - apply flood_fragment; [exact Hd|lia]. }
  intros n Hn. rewrite <- (app_nil_r (flood m d n)). now apply H.
Qed.
Lemma flood_totals d n : totals (flood_pieces d n) 1 1.
Proof.
  induction n as [|n IH]; cbn [flood_pieces]; [constructor|]. apply Forall_app. split; [exact IH|]. constructor; [split; reflexivity|constructor].
Qed.
Lemma flood_parameters d n : nonempty (parameter_pieces (flood_pieces d n)) = [].
Proof.
  induction n as [|n IH]; cbn [flood_pieces]; [reflexivity|]. unfold parameter_pieces in *. rewrite map_app, nonempty_app, IH. reflexivity.
Qed.
Lemma flood_data d n : len d <> 0 -> nonempty (data_pieces (flood_pieces d n)) = map (fun i => (N.of_nat i, d)) (seq 0 n).
Proof.
  intros Hd. induction n as [|n IH]; cbn [flood_pieces]; [reflexivity|]. unfold data_pieces in *. rewrite map_app, nonempty_app, IH.
  rewrite seq_S, map_app. f_equal. cbn [map flood_piece f_data_offset f_data nonempty filter snd].
  destruct (N.eqb_spec (len d) 0); [easy|reflexivity].
Qed.
Lemma flood_prefix d n fs1 fs2 : flood_pieces d n = fs1 ++ fs2 -> size_of (parameter_pieces fs1) = 0.
Proof.
  intros H. pose proof (flood_parameters d n) as Hp. rewrite H in Hp. unfold parameter_pieces in Hp. rewrite map_app, nonempty_app in Hp.
  apply app_eq_nil in Hp as [Hp _]. rewrite <- size_nonempty. unfold parameter_pieces. now rewrite Hp.
Qed.
Lemma flood_collecting d n : len d <> 0 -> collecting (flood_pieces d n) 1 1.
Proof.
  intros Hd. split; [apply flood_totals|]. split; [unfold distinct; rewrite flood_parameters; constructor|].
  split.
  - unfold distinct. rewrite flood_data by exact Hd. rewrite map_map. cbn [fst]. apply FinFun.Injective_map_NoDup; [|apply seq_NoDup].
    intros x y Hxy. lia.
  - intros fs1 fs2 H _ [H1 _]. rewrite (flood_prefix H) in H1. lia.
Qed.
Lemma flood_size d n : len d <> 0 -> sent_bytes (flood_pieces d n) = N.of_nat n * len d.
Proof.
  intros Hd. unfold sent_bytes. rewrite <- (size_nonempty (parameter_pieces _)), flood_parameters, <- (size_nonempty (data_pieces _)), flood_data by exact Hd.
  cbn [size_of]. induction n as [|n IH]; [reflexivity|]. rewrite seq_S, map_app, size_app. cbn [map size_of snd].
  replace (N.of_nat (S n)) with (N.of_nat n + 1) by lia. rewrite N.mul_add_distr_r. lia.
Qed.
(** what such a server can make the client keep: up to 65536 pieces of 65535 bytes *)
Theorem flooded s pattern d n : len d <> 0 -> len d < 65536 -> N.of_nat n <= 65536 ->
  fits_request true (FindFirst s pattern) ->
  exists w w1 f fuel0, request (exec (env0 true) 0 (FindFirst s pattern)) (cl w) = Some f /\ asked script w f w1
  /\ fragments_arrive (mid (cl w)) (rx w1) (flood_pieces d n) [] /\ collecting (flood_pieces d n) 1 1
  /\ forall fuel, (fuel0 <= fuel)%nat -> exists k w', holding script (env0 true) fuel (FindFirst s pattern) w k w'
       /\ kept k = N.of_nat n * len d.
Proof.
  intros H0 Hd Hn Hfit. set (w := world0 [flood 3 d n]).
  destruct (proj2 (request_iff (env0 true) 0 (FindFirst s pattern) (cl w))) as [f Hr].
  { split; [exact Hfit|]. intros [_ H]. cbn in H. lia. }
  set (w1 := mk_world (next_client client0) [] (flood 3 d n) Open [f] : world cifs (list bytes)).
  assert (Ha : asked script w f w1) by (exists [], (flood 3 d n), Open; repeat split).
  assert (Hfa : fragments_arrive (mid (cl w)) (rx w1) (flood_pieces d n) []) by (apply flood_arrives; [exact Hd|reflexivity|exact Hn]).
  exists w, w1, f, (S (length (rx w1))). split; [exact Hr|]. split; [exact Ha|]. split; [exact Hfa|].
  split; [now apply flood_collecting|]. intros fuel Hf.
  assert (Hr' : request (exec (env0 true) fuel (FindFirst s pattern)) (cl w) = Some f) by (rewrite <- Hr, !request_exec; reflexivity).
  destruct (@find_holding _ script (env0 true) fuel _ (FindFirst s pattern) w f w1 (flood_pieces d n) 1 1 []) as (k & Hk & He);
    [cbn; tauto|lia|exact Hr'|exact Ha|exact Hfa|now apply flood_collecting|].
  exists k, (leaving w1 []). split; [exact Hk|]. rewrite He. now apply flood_size.
Qed.
