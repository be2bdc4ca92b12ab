(** * TransFacts: C22, C23, C26, C32, C33, C60 *)
From Coq Require Import Permutation.
From Verif Require Import Base Text Utils Win Errors Info Common Msg Reply Ntlm Prog Client Spec SpecReply SpecCrash SpecMsg
  Api SpecCall Flow Sample BaseFacts TextFacts RunFacts SpecFacts InfoFacts ClientFacts MsgFacts ReplyFacts CollectFacts CallFacts FindFacts
  SizeFacts AnswerFacts LoopFacts DownloadFacts.
Open Scope N_scope.
Set Implicit Arguments.
Unset Strict Implicit.

(** ** C22 *)
Lemma pieces_app fs gs : parameter_pieces (fs ++ gs) = parameter_pieces fs ++ parameter_pieces gs
  /\ data_pieces (fs ++ gs) = data_pieces fs ++ data_pieces gs.
Proof. split; apply map_app. Qed.
Lemma enough_app fs gs tp td : enough fs tp td -> enough (fs ++ gs) tp td.
Proof. intros [H1 H2]. destruct (pieces_app fs gs) as [E1 E2]. unfold enough. rewrite E1, E2, !size_app. lia. Qed.
Lemma enough_dec fs tp td : enough fs tp td \/ ~ enough fs tp td.
Proof.
  unfold enough. destruct (N.leb_spec tp (size_of (parameter_pieces fs))); destruct (N.leb_spec td (size_of (data_pieces fs)));
    [left; lia|right; lia..].
Qed.
Lemma shortest fs tp td : fs <> [] -> enough fs tp td ->
  exists fs1 fs2, fs = fs1 ++ fs2 /\ fs1 <> [] /\ enough fs1 tp td /\ last_completes fs1 tp td.
Proof.
  induction fs as [|g fs IH] using rev_ind; [easy|]. intros _ He.
  destruct fs as [|g' fs].
  - exists [g], []. cbn [app]. split; [reflexivity|]. split; [easy|]. split; [exact He|].
    intros [|x [|y l]] fs2 Hx; try easy. injection Hx as <- <-. easy.
  - destruct (enough_dec (g' :: fs) tp td) as [Hd|Hd].
    + destruct IH as (fs1 & fs2 & H1 & H2 & H3 & H4); [easy|exact Hd|]. exists fs1, (fs2 ++ [g]). rewrite H1, app_assoc. auto.
    + exists ((g' :: fs) ++ [g]), []. rewrite app_nil_r. split; [reflexivity|]. split; [easy|]. split; [exact He|].
      intros l1 l2 Hl H1 H2 H3. destruct (snoc_split Hl H2) as (l3 & -> & Hl'). apply Hd. rewrite Hl'. now apply enough_app.
Qed.
Lemma size_zero ps : size_of ps = 0 -> nonempty ps = [].
Proof.
  induction ps as [|e ps IH]; cbn [size_of]; [easy|]. intros H. unfold nonempty in *. cbn [filter].
  destruct (N.eqb_spec (len (snd e)) 0); cbn [negb]; [apply IH; lia|lia].
Qed.
Definition is_empty (f : trans2_reply) : Prop := f_parameter f = [] /\ f_data f = [].
Lemma size_pieces_zero fs : size_of (parameter_pieces fs) = 0 -> size_of (data_pieces fs) = 0 -> Forall is_empty fs.
Proof.
  induction fs as [|f fs IH]; [constructor|]. unfold parameter_pieces, data_pieces in *. cbn [map size_of snd]. intros H1 H2.
  constructor; [|apply IH; lia]. split; apply len_nil_iff; lia.
Qed.
Lemma split_prefix fs a b : split_of fs a b -> exists fs1 fs2, fs = fs1 ++ fs2 /\ split_of fs1 a b
  /\ last_completes fs1 (len a) (len b) /\ Forall is_empty fs2.
Proof.
  intros (H1 & H2 & H3 & H4). pose proof (reassembles_size H3) as S3. pose proof (reassembles_size H4) as S4.
  destruct (@shortest fs (len a) (len b) H1) as (fs1 & fs2 & -> & G1 & G2 & G3); [unfold enough; lia|].
  destruct (pieces_app fs1 fs2) as [E1 E2]. rewrite E1 in H3, S3. rewrite E2 in H4, S4. rewrite size_app in S3, S4.
  destruct G2 as [G2 G2']. assert (Z1 : size_of (parameter_pieces fs2) = 0) by lia. assert (Z2 : size_of (data_pieces fs2) = 0) by lia.
  exists fs1, fs2. split; [reflexivity|]. split; [|split; [exact G3|now apply size_pieces_zero]].
  split; [exact G1|]. split; [unfold totals in *; apply Forall_app in H2; tauto|].
  destruct H3 as (l & P3 & T3). destruct H4 as (m & P4 & T4). rewrite nonempty_app, (size_zero Z1), app_nil_r in P3.
  rewrite nonempty_app, (size_zero Z2), app_nil_r in P4. split; [exists l|exists m]; auto.
Qed.
Lemma arrive_app id fs1 : forall b fs2 rest, fragments_arrive id b (fs1 ++ fs2) rest ->
  exists b', fragments_arrive id b fs1 b' /\ fragments_arrive id b' fs2 rest.
Proof.
  induction fs1 as [|f fs1 IH]; intros b fs2 rest H; cbn [app] in H.
  - exists b. split; [constructor|exact H].
  - inversion H as [|b0 p b' f' fs' r H1 H2 H3 H4]; subst. destruct (IH _ _ _ H4) as (b2 & G1 & G2). exists b2.
    split; [econstructor; eauto|exact G2].
Qed.
(** the fragments determine the blocks *)
Lemma reassembles_unique ps b b' : reassembles ps b -> reassembles ps b' -> b = b'.
Proof.
  intros (l1 & P1 & T1) (l2 & P2 & T2).
  assert (Hp : Permutation l1 l2) by (eapply perm_trans; [exact P1|now apply Permutation_sym]).
  assert (Hfull : forall l, Permutation l (nonempty ps) -> Forall full l).
  { intros l0 Hl0. rewrite Forall_forall. intros x Hx. pose proof (nonempty_full ps) as Hn. rewrite Forall_forall in Hn.
    apply Hn. eapply Permutation_in; eauto. }
  assert (l1 = l2) as ->. { apply sorted_unique; auto; eapply tiles_sorted; eauto. }
  eapply tiles_fun; eauto.
Qed.
Lemma split_unique fs a b a' b' : split_of fs a b -> split_of fs a' b' -> a = a' /\ b = b'.
Proof. intros (_ & _ & H1 & H2) (_ & _ & H3 & H4). split; eapply reassembles_unique; eauto. Qed.
(** order does not matter *)
Lemma split_perm fs gs a b : split_of fs a b -> Permutation fs gs -> split_of gs a b.
Proof.
  intros (H1 & H2 & (l & H3 & T3) & (m & H4 & T4)) Hp.
  assert (N : forall A (f : A -> bool) l l', Permutation l l' -> Permutation (filter f l) (filter f l')).
  { clear. intros A f l l' H. induction H; cbn; auto; try (destruct (f x); auto); [destruct (f y); try apply perm_swap; auto| eapply perm_trans; eauto]. }
  split; [intros ->; apply Permutation_sym, Permutation_nil in Hp; contradiction|].
  split. { unfold totals in *. rewrite Forall_forall in *. intros x Hx. apply H2. eapply Permutation_in; [apply Permutation_sym; exact Hp|exact Hx]. }
  split; [exists l|exists m]; (split; [|assumption]); (eapply perm_trans; [eassumption|]); apply N; now apply Permutation_map.
Qed.

Section Server.
Variable Sv : Type.
Variable react : Sv -> bytes -> reaction Sv.
Notation world := (world cifs Sv).
Notation run := (run react).
Variable E : env.
Variable fuel : nat.

Lemma find_any_order R (c : call R) w f w1 fs gs a b rest v : ~ single_reply c -> (length (rx w1) < fuel)%nat ->
  request (exec E fuel c) (cl w) = Some f -> asked react w f w1 ->
  split_of fs a b -> Permutation fs gs -> fragments_arrive (mid (cl w)) (rx w1) gs rest ->
  found_in c a b v ->
  exists gs1 gs2 rest1, gs = gs1 ++ gs2 /\ last_completes gs1 (len a) (len b) /\ Forall is_empty gs2
   /\ fragments_arrive (mid (cl w)) rest1 gs2 rest
   /\ run (exec E fuel c) w = Done (Good v) (leaving w1 rest1).
Proof.
  intros Hs Hf Hr Ha Hsp Hp Hfa Hv. apply (split_perm (gs := gs)) in Hsp; [|exact Hp].
  destruct (split_prefix Hsp) as (gs1 & gs2 & -> & H1 & H2 & H3). apply arrive_app in Hfa. destruct Hfa as (b' & F1 & F2).
  exists gs1, gs2, b'. split; [reflexivity|]. split; [exact H2|]. split; [exact H3|]. split; [exact F2|].
  eapply find_complete; eauto.
Qed.

(** a complete transaction: the answer is what the decoder makes of the blocks *)
Lemma find_run R (c : call R) sub w f w1 fs a b rest : find_sub c = Some sub -> (length (rx w1) < fuel)%nat ->
  request (exec E fuel c) (cl w) = Some f -> asked react w f w1 ->
  fragments_arrive (mid (cl w)) (rx w1) fs rest -> split_of fs a b -> last_completes fs (len a) (len b) ->
  run (exec E fuel c) w = lifted ESmb (sub a b) (leaving w1 rest).
Proof.
  intros Hsub Hf Hr Ha Hfa Hsp Hl. rewrite (call_asked Hr Ha), (find_after fuel _ Hsub), run_mbind.
  destruct (adds_split Hsp Hl) as (k & Hk & Hh). pose proof (arrive_length Hfa).
  rewrite (collect_done react Hk eq_refl Hfa Hf) by lia. cbn [gbind obind]. rewrite run_lift.
  replace (get_subreply sub k) with (sub a b); [destruct (sub a b); reflexivity|].
  assert (Hu : forall a' b', split_of fs a' b' -> a' = a /\ b' = b) by (intros; eapply split_unique; eauto).
  assert (G : forall T (g : bytes -> bytes -> res smb_error T), get_subreply g k = g a b).
  { intros T g. destruct Hh as [Hp Hd _]. destruct Hsp as (Hn & _ & Hpa & Hpb). unfold get_subreply.
    assert (collector_get (k_parameter k) = Ok a) as ->.
    { apply (holds_get a Hp); [now rewrite pieces_nil|]. auto. }
    assert (collector_get (k_data k) = Ok b) as ->.
    { apply (holds_get b Hd); [now rewrite data_nil|]. auto. }
    reflexivity. }
  symmetry. apply G.
Qed.
Lemma find_crash_iff R (c : call R) w f w1 fs a b rest : ~ single_reply c -> (length (rx w1) < fuel)%nat ->
  request (exec E fuel c) (cl w) = Some f -> asked react w f w1 ->
  fragments_arrive (mid (cl w)) (rx w1) fs rest -> split_of fs a b -> last_completes fs (len a) (len b) ->
  (run (exec E fuel c) w = Crashed (leaving w1 rest) <-> find_crashes c a b)
  /\ (~ find_crashes c a b -> exists x, run (exec E fuel c) w = Done x (leaving w1 rest)).
Proof.
  intros Hs Hf Hr Ha Hfa Hsp Hl. destruct (find_is Hs) as [sub Hsub]. rewrite (find_run Hsub Hf Hr Ha Hfa Hsp Hl).
  rewrite <- (@find_panic R c sub a b Hsub). destruct (sub a b); cbn [lifted]; split; try split; try easy; eauto.
Qed.

(** ** C23 *)
(** byte [k] belongs to the piece *)
Definition covers (k : N) (e : N * bytes) : Prop := fst e <= k < fst e + len (snd e).
Lemma reassembles_cover ps b k : reassembles ps b -> k < len b ->
  exists l1 e l2, Permutation (nonempty ps) (l1 ++ e :: l2) /\ covers k e /\ (forall e', In e' (l1 ++ l2) -> ~ covers k e')
   /\ bytes_at b (fst e) (len (snd e)) = Some (snd e).
Proof.
  clear. intros (l & Hp & Ht) Hk. destruct (tiles_cover Ht (k := k)) as (l1 & x & d & l2 & -> & H1 & H2); [lia|].
  exists l1, (x, d), l2. split; [now apply Permutation_sym|]. split; [exact H1|].
  split. { intros [y e] Hi. exact (H2 y e Hi). }
  pose proof (tiles_at Ht (x := x) (d := d)) as [_ H]; [apply in_app_iff; right; now left|]. cbn [fst snd]. now rewrite N.sub_0_r in H.
Qed.
Lemma find_sound R (c : call R) w v w' : ~ single_reply c -> run (exec E fuel c) w = Done (Good v) w' ->
  exists f w1 fs a b, request (exec E fuel c) (cl w) = Some f /\ asked react w f w1
   /\ fragments_arrive (mid (cl w)) (rx w1) fs (rx w') /\ found_in c a b v
   /\ totals fs (len a) (len b)
   /\ (forall g, In g fs -> f_parameter g <> [] -> bytes_at a (f_parameter_offset g) (len (f_parameter g)) = Some (f_parameter g))
   /\ (forall g, In g fs -> f_data g <> [] -> bytes_at b (f_data_offset g) (len (f_data g)) = Some (f_data g))
   /\ (forall k, k < len a -> exists l1 e l2, Permutation (nonempty (parameter_pieces fs)) (l1 ++ e :: l2) /\ covers k e
         /\ (forall e', In e' (l1 ++ l2) -> ~ covers k e') /\ bytes_at a (fst e) (len (snd e)) = Some (snd e))
   /\ (forall k, k < len b -> exists l1 e l2, Permutation (nonempty (data_pieces fs)) (l1 ++ e :: l2) /\ covers k e
         /\ (forall e', In e' (l1 ++ l2) -> ~ covers k e') /\ bytes_at b (fst e) (len (snd e)) = Some (snd e)).
Proof.
  intros Hs H. apply find_good in H; [|exact Hs]. destruct H as (f & w1 & fs & a & b & H1 & H2 & H3 & (_ & H4 & H5 & H6) & _ & H8 & _).
  exists f, w1, fs, a, b. split; [exact H1|]. split; [exact H2|]. split; [exact H3|]. split; [exact H8|]. split; [exact H4|].
  split; [|split; [|split]].
  - intros g Hg Hn. eapply reassembles_at; [exact H5| |intros Hz; apply len_nil_iff in Hz; contradiction].
    unfold parameter_pieces. now apply (in_map (fun f => (f_parameter_offset f, f_parameter f))).
  - intros g Hg Hn. eapply reassembles_at; [exact H6| |intros Hz; apply len_nil_iff in Hz; contradiction].
    unfold data_pieces. now apply (in_map (fun f => (f_data_offset f, f_data f))).
  - intros k Hk. now apply reassembles_cover.
  - intros k Hk. now apply reassembles_cover.
Qed.

(** ** C26 *)
Inductive protocol_batch : bytes -> list dir_info -> Prop :=
| pb_last e d : dir_of e d -> protocol_batch (le 4 0 ++ e) [d]
| pb_more e d b l : dir_of e d -> 4 + len e < 4294967296 -> protocol_batch b l ->
    protocol_batch (le 4 (4 + len e) ++ e ++ b) (d :: l).
Lemma batch_entries b l : protocol_batch b l -> entries true b l.
Proof.
  clear. intros H. induction H as [e d H|e d b l H1 H2 H3 IH].
  - apply entries_last; [reflexivity|apply u32_at_le; lia|]. now rewrite drop_exact' by reflexivity.
  - pose proof (dir_of_len H1). apply (@entries_more true _ (4 + len e) e d l); [apply u32_at_le; lia|lia| |exact H1|].
    + rewrite bytes_fld by (rewrite !len_app, len_le; lia). f_equal. rewrite drop_exact' by reflexivity.
      replace (4 + len e - 4) with (len e) by lia. apply take_exact.
    + replace (drop (4 + len e) (le 4 (4 + len e) ++ e ++ b)) with b; [exact IH|].
      rewrite app_assoc. symmetry. apply drop_exact'. rewrite len_app, len_le. reflexivity.
Qed.
Lemma batch_next_loop b l : protocol_batch b l -> forall n acc, (length l <= n)%nat -> entries_loop false n b acc = Some (Err InvalidData).
Proof.
  clear. intros H. induction H as [e d H|e d b l H1 H2 H3 IH]; intros n acc Hn; (destruct n as [|n]; [cbn in Hn; lia|]).
  - pose proof (dir_of_len H). rewrite entries_loop_S. rewrite len_app, len_le.
    assert (Hf : fld 4 (le 4 0 ++ e) 0 = 0). { symmetry. apply f32. apply u32_at_le; lia. }
    rewrite Hf. destruct (N.eqb_spec (N.of_nat 4 + len e) 0); [lia|]. destruct (N.ltb_spec (N.of_nat 4 + len e) 4); [reflexivity|]. reflexivity.
  - pose proof (dir_of_len H1). rewrite (@entries_step false n _ acc (4 + len e) e).
    + apply dir_ok in H1. rewrite H1. rewrite app_assoc, drop_exact' by (rewrite len_app, len_le; reflexivity). apply IH. cbn in Hn. lia.
    + apply u32_at_le; lia.
    + lia.
    + rewrite bytes_fld by (rewrite !len_app, len_le; lia). f_equal. rewrite drop_exact' by reflexivity.
      replace (4 + len e - 4) with (len e) by lia. apply take_exact.
Qed.
Lemma batch_len b l : protocol_batch b l -> (length l <= length b)%nat.
Proof.
  clear. intros H. induction H as [e d H|e d b l H1 H2 H3 IH]; rewrite ?app_length, ?le_length; cbn [length]; lia.
Qed.
Lemma batch_next a b l : protocol_batch b l -> find_next_parse a b = Err InvalidData.
Proof.
  clear. intros H. rewrite find_next_eq. destruct (len a <? 4); [reflexivity|]. unfold entries_parse.
  rewrite (batch_next_loop H) by (pose proof (batch_len H); lia). reflexivity.
Qed.
(** find_first accepts *)
Lemma first_batch s pattern w f w1 fs a b rest sid over l e : (length (rx w1) < fuel)%nat ->
  request (exec E fuel (FindFirst s pattern)) (cl w) = Some f -> asked react w f w1 ->
  fragments_arrive (mid (cl w)) (rx w1) fs rest -> split_of fs a b -> last_completes fs (len a) (len b) ->
  protocol_batch b l -> 10 <= len a -> u16_at a 0 = Some sid -> u16_at a 2 = Some (len l) -> u16_at a 4 = Some e ->
  over = negb (e =? 0) ->
  run (exec E fuel (FindFirst s pattern)) w = Done (Good (mk_found sid over l)) (leaving w1 rest).
Proof.
  intros Hf Hr Ha Hfa Hsp Hl Hb H10 H0 H2 H4 Ho. apply (@find_complete _ react E fuel _ (FindFirst s pattern) w f w1 fs a b rest); auto. cbn [found_in ff_sid ff_end ff_info]. unfold first_of.
  split; [exact H10|]. split; [exact H0|]. split; [exact H2|]. split; [exists e; split; [exact H4|now apply over_iff]|].
  split; [now apply batch_entries|]. intros ->. inversion Hb.
Qed.
(** find_next never does *)
Lemma next_batch s sid name w f w1 fs a b rest l : (length (rx w1) < fuel)%nat ->
  request (exec E fuel (FindNext s sid name)) (cl w) = Some f -> asked react w f w1 ->
  fragments_arrive (mid (cl w)) (rx w1) fs rest -> split_of fs a b -> last_completes fs (len a) (len b) ->
  protocol_batch b l ->
  run (exec E fuel (FindNext s sid name)) w = Done (Bad (ESmb InvalidData)) (leaving w1 rest).
Proof.
  intros Hf Hr Ha Hfa Hsp Hl Hb.
  rewrite (find_run (eq_refl : find_sub (FindNext s sid name) = Some find_next_parse) Hf Hr Ha Hfa Hsp Hl), (batch_next a Hb). reflexivity.
Qed.
(** so no listing of more than one batch succeeds *)
Lemma list_batch s pattern w sid l name w1 f w2 fs a b rest l' : (length (rx w2) < fuel)%nat ->
  run (exec E fuel (FindFirst s pattern)) w = Done (Good (mk_found sid false l)) w1 -> last_name l name ->
  request (exec E fuel (FindNext s sid name)) (cl w1) = Some f -> asked react w1 f w2 ->
  fragments_arrive (mid (cl w1)) (rx w2) fs rest -> split_of fs a b -> last_completes fs (len a) (len b) ->
  protocol_batch b l' ->
  run (list_dir E fuel s pattern) w = Done (Bad (ESmb InvalidData)) (leaving w2 rest).
Proof.
  intros Hf Hff Hn Hr Ha Hfa Hsp Hl Hb. assert (H := next_batch Hf Hr Ha Hfa Hsp Hl Hb).
  destruct (last_name_last Hn) as (d & Hd & <-).
  unfold list_dir. rewrite run_mbind. change (find_first E fuel s pattern) with (exec E fuel (FindFirst s pattern)). rewrite Hff.
  rewrite gbind_good. cbn [ff_end ff_sid ff_info]. assert (Hs : exists n, fuel = S n) by (exists (pred fuel); lia). destruct Hs as (n & Hs).
  replace (list_loop E fuel fuel s sid l) with (list_loop E (S n) fuel s sid l) by now rewrite Hs. cbn [list_loop]. rewrite Hd, run_mbind.
  change (find_next E fuel s sid (d_filename d)) with (exec E fuel (FindNext s sid (d_filename d))). now rewrite H.
Qed.

(** ** C27 *)
Definition misfit (e : bytes) : Prop := len e < 60 \/ exists n, u32_at e 56 = Some n /\ len e < 60 + n.
(** a batch in which an entry, reached over acceptable ones, leads behind the end or does not fit *)
Inductive bad_entries (zero_ends : bool) : bytes -> Prop :=
| bad_last b : zero_ends = true -> u32_at b 0 = Some 0 -> 4 < len b -> misfit (drop 4 b) -> bad_entries zero_ends b
| bad_behind b n : u32_at b 0 = Some n -> 4 < n -> len b < n -> bad_entries zero_ends b
| bad_here b n e : u32_at b 0 = Some n -> 4 < n -> bytes_at b 4 (n - 4) = Some e -> misfit e -> bad_entries zero_ends b
| bad_later b n e d : u32_at b 0 = Some n -> 4 < n -> bytes_at b 4 (n - 4) = Some e -> dir_of e d ->
    bad_entries zero_ends (drop n b) -> bad_entries zero_ends b.
Lemma bad_entries_loop z b : bad_entries z b -> forall n acc, (length b < n)%nat -> entries_loop z n b acc = Some (Err InvalidData).
Proof.
  clear. intros H. induction H as [b Hz H1 H2 H3|b n H1 H2 H3|b n e H1 H2 H3 H4|b n e d H1 H2 H3 H4 H5 IH]; intros m acc Hm;
    (destruct m as [|m]; [lia|]).
  - rewrite Hz, entries_step_last by assumption. now rewrite dir_short.
  - pose proof (u32_at_bound _ _ _ H1). apply f32 in H1. rewrite entries_loop_S, <- H1.
    destruct (N.eqb_spec (len b) 0); [lia|]. destruct (N.ltb_spec (len b) 4); [lia|].
    destruct (N.eqb_spec n 0); [lia|]. destruct (N.ltb_spec n 4); [lia|]. cbn [negb andb]. cbv zeta.
    assert ((if z then false else false) = false) as -> by now destruct z.
    assert ((if z then n - 4 else n - 4) = n - 4) as -> by now destruct z.
    destruct (N.eqb_spec (n - 4) 0); [lia|]. destruct (N.ltb_spec (len b - 4) (n - 4)); [reflexivity|lia].
  - rewrite (entries_step z m acc H1 H2 H3). now rewrite dir_short.
  - rewrite (entries_step z m acc H1 H2 H3). apply dir_ok in H4. rewrite H4. apply IH.
    pose proof (bytes_at_some H3) as [Hb _]. pose proof (len_drop n b). unfold len in *. lia.
Qed.
Definition bad_batch {R} (c : call R) (b : bytes) : Prop :=
  match c with FindFirst _ _ => bad_entries true b | FindNext _ _ _ => bad_entries false b | _ => False end.
Lemma find_bad R (c : call R) w f w1 fs a b rest : (length (rx w1) < fuel)%nat ->
  request (exec E fuel c) (cl w) = Some f -> asked react w f w1 ->
  fragments_arrive (mid (cl w)) (rx w1) fs rest -> split_of fs a b -> last_completes fs (len a) (len b) ->
  bad_batch c b -> run (exec E fuel c) w = Done (Bad (ESmb InvalidData)) (leaving w1 rest).
Proof.
  intros Hf Hr Ha Hfa Hsp Hl Hb. destruct c; try contradiction Hb.
  - rewrite (find_run (eq_refl : find_sub (FindFirst _ _) = Some find_first_parse) Hf Hr Ha Hfa Hsp Hl), find_first_eq.
    destruct (len a <? 10); [reflexivity|]. unfold entries_parse. cbn [bad_batch] in Hb. rewrite (bad_entries_loop Hb) by lia. reflexivity.
  - rewrite (find_run (eq_refl : find_sub (FindNext _ _ _) = Some find_next_parse) Hf Hr Ha Hfa Hsp Hl), find_next_eq.
    destruct (len a <? 4); [reflexivity|]. unfold entries_parse. cbn [bad_batch] in Hb. rewrite (bad_entries_loop Hb) by lia. reflexivity.
Qed.
(** the entries of a result *)
Definition entries_in {R} (c : call R) : R -> list dir_info :=
  match c in call R return R -> list dir_info with
  | FindFirst _ _ => fun r => ff_info r
  | FindNext _ _ _ => fun r => fn_info r
  | _ => fun _ => []
  end.
Lemma find_entries R (c : call R) w v w' : ~ single_reply c -> run (exec E fuel c) w = Done (Good v) w' ->
  exists f w1 fs a b, request (exec E fuel c) (cl w) = Some f /\ asked react w f w1
   /\ fragments_arrive (mid (cl w)) (rx w1) fs (rx w') /\ split_of fs a b
   /\ (exists z, entries z b (entries_in c v))
   /\ forall d, In d (entries_in c v) -> exists o n e, bytes_at b o n = Some e /\ dir_of e d.
Proof.
  intros Hs H. apply find_good in H; [|exact Hs]. destruct H as (f & w1 & fs & a & b & H1 & H2 & H3 & H4 & _ & H6 & _).
  exists f, w1, fs, a, b. do 4 (split; [assumption|]).
  destruct c; cbn in Hs; try tauto; cbn [found_in entries_in] in *.
  - destruct H6 as (_ & _ & _ & _ & H6 & _). split; [eauto|]. intros d. exact (entries_each H6 (d := d)).
  - destruct H6 as (_ & _ & H6 & _). split; [eauto|]. intros d. exact (entries_each H6 (d := d)).
Qed.

(** ** C33 *)
Lemma single_crash_iff R (c : call R) w w1 p rest : single_reply c -> (length (rx w1) < fuel)%nat ->
  answered react E fuel c w w1 p rest ->
  ((exists w', run (exec E fuel c) w = Crashed w') <-> crashes c p)
  /\ (~ crashes c p -> exists a, run (exec E fuel c) w = Done a (leaving w1 rest)).
Proof.
  intros Hs Hf ((f & H1 & H2) & H3 & st & H4 & H5).
  destruct (@single_leaves _ react E fuel R c w f w1 p (opcode c) st rest Hs Hf H1 H2 H3 H4) as [(a & Ha)|(_ & _ & Hc)].
  - split.
    + split; [intros [w' Hw]; congruence|]. intros Hc. exfalso.
      rewrite (single_crashes Hs Hf H1 H2 H3 H4 H5 Hc) in Ha. discriminate.
    + eauto.
  - split; [|contradiction]. split; [auto|]. intros _. exists (leaving w1 rest). eapply single_crashes; eauto.
Qed.

(** ** C60 *)
Lemma notify_empty p words data rest setup tp td np op nd od ns : smb_parts p words data rest ->
  u32_at words 3 = Some tp -> u32_at words 7 = Some td -> u32_at words 11 = Some np -> u32_at words 15 = Some op ->
  u32_at words 23 = Some nd -> u32_at words 27 = Some od ->
  u8_at words 35 = Some ns -> bytes_at words 36 (2 * ns) = Some setup ->
  tp = 0 -> td = 0 -> np = 0 -> nd = 0 -> notification_of p [].
Proof.
  clear. intros Hp H1 H2 H3 H4 H5 H6 H7 H8 -> -> -> ->. exists setup, [], []. split; [|constructor].
  exists words, data, rest, 0, 0, 0, op, 0, od, ns. repeat (split; [first [assumption|lia]|]). split; reflexivity.
Qed.
Lemma notify_empty_call h w w1 p rest words data more setup op od ns : (length (rx w1) < fuel)%nat ->
  answered react E fuel (Notify h) w w1 p rest -> smb_parts p words data more ->
  u32_at words 3 = Some 0 -> u32_at words 7 = Some 0 -> u32_at words 11 = Some 0 -> u32_at words 15 = Some op ->
  u32_at words 23 = Some 0 -> u32_at words 27 = Some od -> u8_at words 35 = Some ns -> bytes_at words 36 (2 * ns) = Some setup ->
  run (exec E fuel (Notify h)) w = Done (Good []) (leaving w1 rest).
Proof.
  intros Hf Ha Hp H1 H2 H3 H4 H5 H6 H7 H8. eapply answer_complete; [exact I|exact Hf|exact Ha|].
  cbn [decodes]. eapply notify_empty; eauto.
Qed.
End Server.
Lemma fragment_offsets p f : fragment_of p f -> exists words data rest op od,
  smb_parts p words data rest /\ u16_at words 8 = Some op /\ u16_at words 14 = Some od
  /\ 35 + len words <= op <= 35 + len words + len data /\ 35 + len words <= od <= 35 + len words + len data.
Proof.
  intros (words & data & rest & np & op & nd & od & H). destruct H as (H1 & _ & _ & _ & H2 & _ & _ & H3 & _ & (H4 & H5 & _) & (H6 & H7 & _)).
  exists words, data, rest, op, od. repeat split; auto; lia.
Qed.

(** ** C32 *)
Lemma header_reply code m : In code known_codes -> code < 256 -> m < 65536 -> smb_reply (header code 0 0xc801 5 7 m) code 0 m.
Proof.
  intros Hk Hc Hm. unfold header.
  change magic with (le 4 0x424d53ff). change [x98] with (le 1 0x98). change (zeros 12) with (le 4 0 ++ le 8 0).
  unfold smb_reply. split; [|split; [|split; [|split; [|split; [|split]]]]].
  - len_lia.
  - reflexivity.
  - now fields.
  - exact Hk.
  - now fields.
  - exists 0x98. split; [now fields|reflexivity].
  - rewrite <- (app_nil_r (le 2 m)). now fields.
Qed.
Lemma header_cut code m : cut_short (header code 0 0xc801 5 7 m).
Proof.
  split; [rewrite len_header; lia|]. intros (w & d & r & hd & n & H1 & H2 & _ & _ & H).
  apply (f_equal (@len byte)) in H. rewrite len_header, !len_app in H. change (len [n2b n]) with 1 in H. change (len [n2b (len d); n2b (len d / 256)]) with 2 in H. lia.
Qed.
Lemma header_only_crashes R (c : call R) : request (exec (env0 false) 1000 c) client0 <> None ->
  exists w', run script (exec (env0 false) 1000 c) (world0 [session_message (header (opcode c) 0 0xc801 5 7 3)]) = Crashed w'.
Proof.
  destruct (request (exec (env0 false) 1000 c) client0) as [f|] eqn:Hf; [intros _|easy].
  set (p := header (opcode c) 0 0xc801 5 7 3). 
  assert (Ha : asked script (world0 [session_message p]) f (mk_world (next_client client0) [] (session_message p) Open [f])).
  { exists [], (session_message p), Open. repeat split. }
  assert (Hp : smb_reply p (opcode c) 0 3).
  { apply header_reply; [|destruct c; reflexivity|reflexivity]. destruct c; vm_compute; tauto. }
  assert (Hr : reply_arrives 3 (session_message p) p []).
  { exists []. split; [constructor|]. split; [subst p; rewrite len_header; vm_compute; discriminate|]. cbn [app]. now rewrite app_nil_r. }
  assert (Hl : (length (session_message p) < 1000)%nat).
  { pose proof (len_session p) as H. subst p. rewrite len_header in H. unfold len in H. lia. }
  assert (Hc : cut_short p) by apply header_cut.
  eexists. assert (Hso : single_reply c \/ ~ single_reply c) by (destruct c; cbn; tauto). destruct Hso as [Hs|Hs].
  - eapply single_crashes; [exact Hs| |exact Hf|exact Ha|exact Hr|exact Hp| |].
    + exact Hl.
    + now left.
    + destruct c; cbn [crashes]; try (left; left; exact Hc); try (now left); try (left; left; left; exact Hc); cbn in Hs; contradiction.
  - eapply find_crashes_fragment with (fs := []) (tp := 1) (td := 1); [exact Hs| |exact Hf|exact Ha|constructor| |exact Hr| |left; left; exact Hc].
    + exact Hl.
    + split; [constructor|]. split; [constructor|]. split; [constructor|]. intros [|x l] fs2 H1 H2; [contradiction|discriminate].
    + destruct c; cbn in Hs; try tauto; exact Hp.
Qed.
