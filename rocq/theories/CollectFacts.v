(** * CollectFacts: reassembly of fragmented replies (smb/trans2/collector.rs). *)
From Coq Require Import Permutation Sorting.Sorted.
From Verif Require Import Base BaseFacts Text Utils Win Errors Info Common Reply Ntlm Prog Client
  Spec SpecFacts SpecReply SpecCrash Api SpecCall ReplyFacts.
Set Implicit Arguments.
Unset Strict Implicit.
Open Scope N_scope.

(** ** tiles and order *)
Definition before (a b : N * bytes) : Prop := fst a < fst b.
Definition full (e : N * bytes) : Prop := len (snd e) <> 0.

Lemma nonempty_full l : Forall full (nonempty l).
Proof.
  unfold nonempty. apply Forall_forall. intros e H. apply filter_In in H. destruct H as [_ H]. unfold full.
  destruct (N.eqb_spec (len (snd e)) 0); easy.
Qed.
Lemma tiles_above o l b : tiles o l b -> Forall (fun e => o <= fst e) l.
Proof.
  induction 1 as [|o d l b H IH]; [constructor|]. constructor; [cbn; lia|].
  eapply Forall_impl; [|exact IH]. cbn. intros. lia.
Qed.
Lemma tiles_sorted o l b : tiles o l b -> Forall full l -> StronglySorted before l.
Proof.
  induction 1 as [|o d l b H IH]; intros Hf; [constructor|]. inversion_clear Hf. constructor; [auto|].
  apply tiles_above in H. eapply Forall_impl; [|exact H]. unfold before, full in *. cbn in *. intros. lia.
Qed.
Lemma tiles_len o l b : tiles o l b -> len b = size_of l.
Proof. induction 1 as [|o d l b H IH]; [reflexivity|]. cbn [size_of snd]. rewrite len_app, IH. reflexivity. Qed.
Lemma tiles_fun o l b : tiles o l b -> forall b', tiles o l b' -> b = b'.
Proof.
  induction 1 as [|o d l b H IH]; intros b' H'; inversion H'; subst; [reflexivity|]. f_equal. auto.
Qed.

Lemma sorted_unique l1 : forall l2, StronglySorted before l1 -> StronglySorted before l2 -> Permutation l1 l2 -> l1 = l2.
Proof.
  induction l1 as [|a l1 IH]; intros l2 H1 H2 Hp.
  - apply Permutation_nil in Hp. now subst.
  - destruct l2 as [|b l2]; [now apply Permutation_sym, Permutation_nil in Hp|].
    inversion_clear H1 as [|? ? Ha1 Ha2]. inversion_clear H2 as [|? ? Hb1 Hb2].
    assert (a = b).
    { assert (Hina : In a (b :: l2)) by (eapply Permutation_in; [exact Hp|now left]).
      assert (Hinb : In b (a :: l1)) by (eapply Permutation_in; [exact (Permutation_sym Hp)|now left]).
      destruct Hina as [|Hina]; [auto|]. destruct Hinb as [|Hinb]; [auto|].
      rewrite Forall_forall in Ha2, Hb2. apply Ha2 in Hinb. apply Hb2 in Hina. unfold before in *. lia. }
    subst b. f_equal. apply IH; auto. now apply Permutation_cons_inv in Hp.
Qed.

Lemma insert_perm e l : Permutation (insert_sorted e l) (e :: l).
Proof.
  induction l as [|x r IH]; cbn [insert_sorted]; [reflexivity|]. destruct (fst e <=? fst x); [reflexivity|].
  rewrite IH. constructor.
Qed.
Lemma sorted_perm l : Permutation (sorted l) l.
Proof. induction l as [|e l IH]; cbn [sorted fold_right]; [reflexivity|]. fold (sorted l). rewrite insert_perm. now rewrite IH. Qed.
Lemma insert_strong e l : StronglySorted before l -> ~ In (fst e) (map fst l) -> StronglySorted before (insert_sorted e l).
Proof.
  induction 1 as [|x r Hs IH Hx]; intros Hn; cbn [insert_sorted]; [repeat constructor|].
  cbn [map In] in Hn. destruct (N.leb_spec (fst e) (fst x)) as [Hle|Hlt].
  - constructor; [now constructor|]. assert (fst e < fst x) by (assert (fst x <> fst e) by tauto; lia).
    constructor; [exact H|]. eapply Forall_impl; [|exact Hx]. unfold before. intros. lia.
  - constructor; [apply IH; tauto|]. apply Forall_forall. intros y Hy.
    apply (Permutation_in _ (insert_perm e r)) in Hy. destruct Hy as [<-|Hy]; [exact Hlt|].
    rewrite Forall_forall in Hx. auto.
Qed.
Lemma sorted_strong l : NoDup (map fst l) -> StronglySorted before (sorted l).
Proof.
  induction l as [|e l IH]; cbn [sorted fold_right map]; intros H; [constructor|]. fold (sorted l).
  inversion_clear H. apply insert_strong; [auto|]. intros Hi. apply H0.
  eapply Permutation_in; [|exact Hi]. apply Permutation_map, sorted_perm.
Qed.
Lemma strong_nodup l : StronglySorted before l -> NoDup (map fst l).
Proof.
  induction 1 as [|x r Hs IH Hx]; cbn [map]; constructor; [|exact IH].
  intros Hi. apply in_map_iff in Hi. destruct Hi as (y & Hy & Hin). rewrite Forall_forall in Hx. apply Hx in Hin.
  unfold before in Hin. lia.
Qed.

Lemma assemble_ok l : forall buf b, assemble l buf = Ok b <-> exists b', b = buf ++ b' /\ tiles (len buf) l b'.
Proof.
  induction l as [|[o d] l IH]; intros buf b; cbn [assemble].
  - split.
    + intros H. apply ok_inj in H. subst b. exists []. rewrite app_nil_r. split; [auto|constructor].
    + intros (b' & -> & H). inversion H. now rewrite app_nil_r.
  - destruct (N.eqb_spec (len buf) o) as [E|E]; cbn [negb].
    + rewrite IH, len_app. subst o. split.
      * intros (b' & -> & H). exists (d ++ b'). split; [now rewrite app_assoc|]. now constructor.
      * intros (b' & -> & H). inversion H as [|o1 d1 l1 b1 Ht1]; subst. exists b1. split; [now rewrite <- app_assoc|assumption].
    + split; [easy|]. intros (b' & _ & H). inversion H; subst; congruence.
Qed.
Lemma assemble_no_panic l : forall buf, assemble l buf <> Panic.
Proof. induction l as [|[o d] l IH]; intros buf; cbn [assemble]; [easy|]. destruct (negb _); [easy|apply IH]. Qed.

(** ** one collector *)
Lemma size_perm l1 l2 : Permutation l1 l2 -> size_of l1 = size_of l2.
Proof. induction 1; cbn [size_of]; try lia. Qed.
Lemma size_nonempty l : size_of (nonempty l) = size_of l.
Proof.
  induction l as [|e l IH]; [reflexivity|]. unfold nonempty in *. cbn [filter size_of].
  destruct (N.eqb_spec (len (snd e)) 0) as [E|E]; cbn [negb]; [|cbn [size_of]]; lia.
Qed.
Lemma size_app a b : size_of (a ++ b) = size_of a + size_of b.
Proof. induction a as [|e a IH]; cbn [app size_of]; [lia|]. rewrite IH. lia. Qed.
Lemma nonempty_app a b : nonempty (a ++ b) = nonempty a ++ nonempty b.
Proof. apply filter_app. Qed.

(** [c] holds exactly these pieces, of a block announced to have [t] bytes *)
Record holds (c : collector) (ps : list (N * bytes)) (t : N) : Prop := {
  hold_total : ps <> [] -> total c = Some t;
  hold_new : ps = [] -> total c = None;
  hold_frag : Permutation (fragments c) (nonempty ps);
  hold_nodup : NoDup (map fst (nonempty ps))
}.
Lemma holds_new t : holds collector_new [] t.
Proof. split; try easy. constructor. Qed.

Lemma holds_add c ps t o d t' c' : holds c ps t -> collector_add c d o t' = Ok c' ->
  (ps <> [] -> t' = t) /\ holds c' (ps ++ [(o, d)]) t'.
Proof.
  intros [H1 H2 H3 H4]. unfold collector_add. intros H. apply rbind_ok in H. destruct H as (t1 & Ht & H).
  assert (Ht1 : t1 = t' /\ (ps <> [] -> t' = t)).
  { destruct ps as [|e ps].
    - rewrite H2 in Ht by reflexivity. apply ok_inj in Ht. split; [auto|easy].
    - rewrite H1 in Ht by easy. destruct (N.eqb_spec t t'); [|easy]. apply ok_inj in Ht. subst. split; auto. }
  destruct Ht1 as [-> Hps]. split; [exact Hps|].
  assert (Hne : ps ++ [(o, d)] <> []) by (now destruct ps).
  destruct (N.eqb_spec (len d) 0) as [Hd|Hd].
  - apply ok_inj in H. subst c'. split; cbn [total fragments]; try easy;
      rewrite nonempty_app; cbn [nonempty filter snd]; rewrite Hd; cbn [N.eqb negb]; now rewrite app_nil_r.
  - unfold frag_insert in H. destruct (existsb (fun e => fst e =? o) (fragments c)) eqn:Hx; [easy|].
    apply ok_inj in H. subst c'.
    assert (Hn : nonempty (ps ++ [(o, d)]) = nonempty ps ++ [(o, d)]).
    { rewrite nonempty_app. cbn [nonempty filter snd]. destruct (N.eqb_spec (len d) 0); [easy|reflexivity]. }
    assert (Hin : ~ In o (map fst (fragments c))).
    { intros Hi. apply in_map_iff in Hi. destruct Hi as (e & He & Hi).
      assert (existsb (fun e => fst e =? o) (fragments c) = true) by (apply existsb_exists; exists e; split; [exact Hi|now apply N.eqb_eq]).
      congruence. }
    split; cbn [total fragments]; try easy; rewrite Hn.
    + replace (filter (fun e => negb (fst e =? o)) (fragments c)) with (fragments c).
      * rewrite H3. apply Permutation_cons_append.
      * symmetry. clear -Hx. induction (fragments c) as [|e l IH]; [reflexivity|]. cbn [existsb filter] in *.
        destruct (fst e =? o); [easy|]. cbn [negb orb] in *. now rewrite IH.
    + rewrite map_app. cbn [map fst]. apply NoDup_Add with (a := o) (l := map fst (nonempty ps)).
      * replace (map fst (nonempty ps) ++ [o]) with (map fst (nonempty ps) ++ o :: []) by reflexivity.
        pose proof (Add_app o (map fst (nonempty ps)) []) as G. rewrite app_nil_r in G. exact G.
      * split; [exact H4|]. intros Hi. apply Hin. eapply Permutation_in; [|exact Hi].
        apply Permutation_map. now symmetry.
Qed.
(** adding succeeds as long as totals agree and offsets are new *)
Lemma holds_add_ok c ps t o d : holds c ps t -> NoDup (map fst (nonempty (ps ++ [(o, d)]))) ->
  exists c', collector_add c d o t = Ok c'.
Proof.
  intros [H1 H2 H3 H4] Hn. unfold collector_add.
  assert ((match total c with
    | Some saved => if negb (saved =? t) then Err (Reassemble (TotalChanged saved t)) else Ok saved
    | None => Ok t end) = @Ok smb_error _ t) as ->.
  { destruct ps as [|e ps]; [now rewrite H2|]. rewrite H1 by easy. now rewrite N.eqb_refl. }
  cbn [rbind]. destruct (N.eqb_spec (len d) 0) as [Hd|Hd]; [eauto|].
  unfold frag_insert. destruct (existsb (fun e => fst e =? o) (fragments c)) eqn:Hx; [|eauto].
  exfalso. apply existsb_exists in Hx. destruct Hx as (e & Hi & He). apply N.eqb_eq in He.
  rewrite nonempty_app, map_app in Hn. cbn [nonempty filter snd] in Hn.
  destruct (N.eqb_spec (len d) 0); [easy|]. cbn [negb map fst] in Hn.
  apply NoDup_remove_2 in Hn. apply Hn. rewrite app_nil_r. subst o. apply in_map.
  eapply Permutation_in; [exact H3|exact Hi].
Qed.
Lemma collector_add_no_panic c d o t : collector_add c d o t <> Panic.
Proof.
  unfold collector_add. destruct (total c) as [s|]; [destruct (negb (s =? t)); [easy|]|]; cbn [rbind];
    (destruct (len d =? 0); [easy|]); destruct (frag_insert o d (fragments c)) as [m dup]; destruct dup; easy.
Qed.

Lemma holds_len c ps t : holds c ps t -> collector_len c = size_of ps.
Proof.
  intros H. rewrite <- (size_nonempty ps), <- (size_perm (hold_frag H)). unfold collector_len.
  induction (fragments c) as [|e l IH]; [reflexivity|]. cbn [fold_right size_of]. now rewrite IH.
Qed.
Lemma holds_ready c ps t : holds c ps t -> ps <> [] -> is_ready c = (t <=? size_of ps).
Proof. intros H Hp. unfold is_ready. rewrite (hold_total H Hp), (holds_len H). reflexivity. Qed.
Lemma holds_get c ps t b : holds c ps t -> ps <> [] ->
  (collector_get c = Ok b <-> len b = t /\ reassembles ps b).
Proof.
  intros H Hp. unfold collector_get. rewrite (hold_total H Hp), (holds_len H). cbn [ok_or rbind].
  assert (Hnd : NoDup (map fst (fragments c))).
  { eapply Permutation_NoDup; [|exact (hold_nodup H)]. apply Permutation_map. symmetry. exact (hold_frag H). }
  assert (G : assemble (sorted (fragments c)) [] = Ok b <-> reassembles ps b).
  { rewrite assemble_ok. unfold reassembles. split.
    - intros (b' & -> & Ht). exists (sorted (fragments c)). split; [|exact Ht].
      rewrite sorted_perm. exact (hold_frag H).
    - intros (l & Hl & Ht). exists b. split; [reflexivity|].
      assert (sorted (fragments c) = l) as ->; [|exact Ht].
      apply sorted_unique.
      + now apply sorted_strong.
      + apply (tiles_sorted Ht). eapply Permutation_Forall; [symmetry; exact Hl|apply nonempty_full].
      + rewrite sorted_perm, (hold_frag H). now symmetry. }
  destruct (N.eqb_spec (size_of ps) t) as [E|E]; cbn [negb].
  - rewrite G. split; [|tauto]. intros Hr. split; [|exact Hr]. destruct Hr as (l & Hl & Ht).
    rewrite (tiles_len Ht), (size_perm Hl), size_nonempty. exact E.
  - split; [easy|]. intros [Hl (l & Hl' & Ht)]. rewrite (tiles_len Ht), (size_perm Hl'), size_nonempty in Hl. congruence.
Qed.
Lemma collector_get_no_panic c : collector_get c <> Panic.
Proof.
  unfold collector_get. destruct (total c); cbn [ok_or rbind]; [|easy]. destruct (negb _); [easy|].
  apply assemble_no_panic.
Qed.
Lemma reassembles_nodup ps b : reassembles ps b -> NoDup (map fst (nonempty ps)).
Proof.
  intros (l & Hl & Ht). eapply Permutation_NoDup; [apply Permutation_map; exact Hl|].
  apply strong_nodup. apply (tiles_sorted Ht). eapply Permutation_Forall; [symmetry; exact Hl|apply nonempty_full].
Qed.
Lemma reassembles_size ps b : reassembles ps b -> len b = size_of ps.
Proof. intros (l & Hl & Ht). now rewrite (tiles_len Ht), (size_perm Hl), size_nonempty. Qed.
Lemma nodup_prefix ps qs : NoDup (map fst (nonempty (ps ++ qs))) -> NoDup (map fst (nonempty ps)).
Proof.
  rewrite nonempty_app, map_app. generalize (map fst (nonempty qs)). induction (map fst (nonempty ps)) as [|x l IH]; intros m H; [constructor|].
  inversion_clear H. constructor; [|eauto]. intros Hi. apply H0. apply in_or_app. now left.
Qed.

Lemma tiles_cons_inv o y e l b : tiles o ((y, e) :: l) b -> y = o /\ exists b', b = e ++ b' /\ tiles (o + len e) l b'.
Proof. intros H. inversion H; subst. split; [reflexivity|]. eauto. Qed.

(** every piece is found in the result at its displacement *)
Lemma tiles_at l b : forall o, tiles o l b -> forall x d, In (x, d) l -> o <= x /\ bytes_at b (x - o) (len d) = Some d.
Proof.
  induction l as [|[y e] l IH] in b |- *; intros o H x d Hi; [destruct Hi|]. apply tiles_cons_inv in H. destruct H as (-> & b' & -> & Ht).
  destruct Hi as [Hi|Hi].
  - injection Hi as -> ->. split; [lia|]. apply bytes_at_exact; lia.
  - destruct (IH b' _ Ht x d Hi) as [H1 H2]. split; [lia|].
    rewrite bytes_at_app2 by lia. replace (x - o - len e) with (x - (o + len e)) by lia. exact H2.
Qed.
Lemma reassembles_at ps b x d : reassembles ps b -> In (x, d) ps -> len d <> 0 -> bytes_at b x (len d) = Some d.
Proof.
  intros (l & Hl & Ht) Hi Hd.
  assert (In (x, d) l).
  { eapply Permutation_in; [symmetry; exact Hl|]. apply filter_In. split; [exact Hi|]. cbn [snd].
    destruct (N.eqb_spec (len d) 0); easy. }
  destruct (tiles_at Ht H) as [_ G]. now rewrite N.sub_0_r in G.
Qed.
(** and every position is covered by exactly one of them *)
Lemma tiles_cover l b : forall o, tiles o l b -> forall k, o <= k < o + len b ->
  exists l1 x d l2, l = l1 ++ (x, d) :: l2 /\ x <= k < x + len d
    /\ forall y e, In (y, e) (l1 ++ l2) -> ~ (y <= k < y + len e).
Proof.
  induction l as [|[y e] l IH] in b |- *; intros o H k Hk.
  - inversion H; subst. change (len (@nil byte)) with 0 in Hk. lia.
  - apply tiles_cons_inv in H. destruct H as (-> & b' & -> & Ht). rewrite len_app in Hk. destruct (N.lt_ge_cases k (o + len e)) as [Hlt|Hge].
    + exists [], o, e, l. split; [reflexivity|]. split; [lia|]. cbn [app]. intros y' e' Hi.
      pose proof (tiles_above Ht) as Ha. rewrite Forall_forall in Ha. apply Ha in Hi. cbn in Hi. lia.
    + destruct (IH b' _ Ht k ltac:(lia)) as (l1 & x & d & l2 & -> & Hx & Hu).
      exists ((o, e) :: l1), x, d, l2. split; [reflexivity|]. split; [exact Hx|].
      intros y' e' [Hi|Hi]; [injection Hi as <- <-; lia|auto].
Qed.

(** ** both collectors *)
Definition add_to (k : collect2) (f : trans2_reply) := collect2_add k f.
Record holds2 (k : collect2) (fs : list trans2_reply) (tp td : N) : Prop := {
  hold_p : holds (k_parameter k) (parameter_pieces fs) tp;
  hold_d : holds (k_data k) (data_pieces fs) td;
  hold_t : totals fs tp td
}.
Lemma holds2_new tp td : holds2 collect2_new [] tp td.
Proof. split; try apply holds_new. constructor. Qed.
Lemma pieces_nil fs : parameter_pieces fs = [] <-> fs = [].
Proof. destruct fs; split; easy. Qed.
Lemma data_nil fs : data_pieces fs = [] <-> fs = [].
Proof. destruct fs; split; easy. Qed.

Lemma holds2_add k fs tp td f k' done : holds2 k fs tp td -> collect2_add k f = Ok (k', done) ->
  exists tp' td', holds2 k' (fs ++ [f]) tp' td' /\ (fs <> [] -> tp' = tp /\ td' = td)
   /\ (done = true <-> enough (fs ++ [f]) tp' td').
Proof.
  intros [Hp Hd Ht] H. unfold collect2_add in H. apply rbind_ok in H. destruct H as (p & Hp' & H).
  apply rbind_ok in H. destruct H as (d & Hd' & H). apply ok_inj in H. injection H as <- <-.
  destruct (holds_add Hp Hp') as [Ep Hp2]. destruct (holds_add Hd Hd') as [Ed Hd2].
  rewrite pieces_nil in Ep. rewrite data_nil in Ed.
  exists (f_parameter_total f), (f_data_total f).
  assert (Hps : parameter_pieces fs ++ [(f_parameter_offset f, f_parameter f)] = parameter_pieces (fs ++ [f]))
    by (unfold parameter_pieces; now rewrite map_app).
  assert (Hds : data_pieces fs ++ [(f_data_offset f, f_data f)] = data_pieces (fs ++ [f]))
    by (unfold data_pieces; now rewrite map_app).
  rewrite Hps in Hp2. rewrite Hds in Hd2.
  assert (Hne : fs ++ [f] <> []) by now destruct fs.
  split; [|split].
  - split; cbn [k_parameter k_data]; auto. unfold totals in *. apply Forall_app. split.
    + destruct fs as [|g fs]; [constructor|]. rewrite Ep, Ed by easy. exact Ht.
    + constructor; [auto|constructor].
  - auto.
  - rewrite (holds_ready Hp2), (holds_ready Hd2) by (now rewrite ?pieces_nil, ?data_nil).
    unfold enough. rewrite andb_true_iff, !N.leb_le. reflexivity.
Qed.
Lemma holds2_add_ok k fs f tp td : holds2 k fs tp td ->
  f_parameter_total f = tp -> f_data_total f = td ->
  NoDup (map fst (nonempty (parameter_pieces (fs ++ [f])))) ->
  NoDup (map fst (nonempty (data_pieces (fs ++ [f])))) ->
  exists k' done, collect2_add k f = Ok (k', done).
Proof.
  intros [Hp Hd Ht] E1 E2 N1 N2. unfold collect2_add. unfold parameter_pieces, data_pieces in N1, N2.
  rewrite map_app in N1, N2.
  destruct (holds_add_ok Hp N1) as [p Ep]. destruct (holds_add_ok Hd N2) as [d Ed].
  rewrite E1, Ep. cbn [rbind]. rewrite E2, Ed. cbn [rbind]. eauto.
Qed.
Lemma collect2_add_no_panic k f : collect2_add k f <> Panic.
Proof.
  unfold collect2_add. destruct (collector_add (k_parameter k) _ _ _) eqn:E1; [|easy|now apply collector_add_no_panic in E1].
  cbn [rbind]. destruct (collector_add (k_data k) _ _ _) eqn:E2; [easy|easy|now apply collector_add_no_panic in E2].
Qed.
Lemma holds2_get k fs tp td T (sub : bytes -> bytes -> res smb_error T) v : holds2 k fs tp td -> fs <> [] ->
  (get_subreply sub k = Ok v <-> exists a b, split_of fs a b /\ len a = tp /\ len b = td /\ sub a b = Ok v).
Proof.
  intros [Hp Hd Ht] Hf. unfold get_subreply.
  assert (Hp0 : parameter_pieces fs <> []) by (now rewrite pieces_nil). assert (Hd0 : data_pieces fs <> []) by (now rewrite data_nil).
  split.
  - intros H. apply rbind_ok in H. destruct H as (a & Ha & H). apply rbind_ok in H. destruct H as (b & Hb & H).
    apply (holds_get _ Hp Hp0) in Ha. apply (holds_get _ Hd Hd0) in Hb. exists a, b.
    destruct Ha as [La Ha], Hb as [Lb Hb]. repeat split; auto. now rewrite La, Lb.
  - intros (a & b & (_ & _ & Ha & Hb) & La & Lb & H).
    assert (collector_get (k_parameter k) = Ok a) as -> by (apply (holds_get _ Hp Hp0); auto).
    assert (collector_get (k_data k) = Ok b) as -> by (apply (holds_get _ Hd Hd0); auto). exact H.
Qed.
Lemma holds2_get_panic k fs tp td T (sub : bytes -> bytes -> res smb_error T) : holds2 k fs tp td -> fs <> [] ->
  (get_subreply sub k = Panic <-> exists a b, split_of fs a b /\ len a = tp /\ len b = td /\ sub a b = Panic).
Proof.
  intros [Hp Hd Ht] Hf. unfold get_subreply.
  assert (Hp0 : parameter_pieces fs <> []) by (now rewrite pieces_nil). assert (Hd0 : data_pieces fs <> []) by (now rewrite data_nil).
  split.
  - intros H. apply rbind_panic in H. destruct H as [H|(a & Ha & H)]; [now apply collector_get_no_panic in H|].
    apply rbind_panic in H. destruct H as [H|(b & Hb & H)]; [now apply collector_get_no_panic in H|].
    apply (holds_get _ Hp Hp0) in Ha. apply (holds_get _ Hd Hd0) in Hb. exists a, b.
    destruct Ha as [La Ha], Hb as [Lb Hb]. repeat split; auto. now rewrite La, Lb.
  - intros (a & b & (_ & _ & Ha & Hb) & La & Lb & H).
    assert (collector_get (k_parameter k) = Ok a) as -> by (apply (holds_get _ Hp Hp0); auto).
    assert (collector_get (k_data k) = Ok b) as -> by (apply (holds_get _ Hd Hd0); auto). exact H.
Qed.
