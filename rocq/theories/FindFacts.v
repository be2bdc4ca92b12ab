(** * FindFacts: the searches, whose replies come in fragments. *)
From Coq Require Import Permutation.
From Verif Require Import Base BaseFacts Text Utils Win Errors Info Common Msg Reply Ntlm Prog
  RunFacts Client Spec SpecFacts TextFacts InfoFacts ClientFacts Api MsgFacts SpecReply SpecCrash
  SpecCall ReplyFacts CollectFacts CallFacts.
Set Implicit Arguments.
Unset Strict Implicit.
Open Scope N_scope.

Definition find_sub {R} (c : call R) : option (bytes -> bytes -> res smb_error R) :=
  match c in call R return option (bytes -> bytes -> res smb_error R) with
  | FindFirst _ _ => Some find_first_parse
  | FindNext _ _ _ => Some find_next_parse
  | _ => None
  end.
Lemma find_after fuel R (c : call R) sub id : find_sub c = Some sub ->
  after fuel c id = mbind (collect fuel fuel id collect2_new) (fun ctx => lift ESmb (get_subreply sub ctx)).
Proof. destruct c; cbn [find_sub]; intros H; try discriminate H; apply some_inj in H; subst sub; reflexivity. Qed.
Lemma find_ok R (c : call R) sub a b v : find_sub c = Some sub -> (sub a b = Ok v <-> found_in c a b v).
Proof.
  destruct c; cbn [find_sub]; intros H; try discriminate H; apply some_inj in H; subst sub; cbn [found_in].
  - apply find_first_ok.
  - apply find_next_ok.
Qed.
Lemma find_panic R (c : call R) sub a b : find_sub c = Some sub -> (sub a b = Panic <-> find_crashes c a b).
Proof.
  destruct c; cbn [find_sub]; intros H; try discriminate H; apply some_inj in H; subst sub; cbn [find_crashes].
  - apply find_first_panic.
  - apply find_next_panic.
Qed.
Lemma find_is R (c : call R) : ~ single_reply c -> exists sub, find_sub c = Some sub.
Proof. destruct c; cbn; intros H; try tauto; eauto. Qed.

Lemma status_zero i st : i_cmd i = CTransact2 -> i_status i = status_of_code st -> (status_ok i = true <-> st = 0).
Proof.
  intros Hc Hs. unfold status_ok. rewrite Hs, Hc. split.
  - intros H. rewrite <- (status_code_of st). destruct (status_of_code st) as [[]|]; try discriminate H; reflexivity.
  - intros ->. reflexivity.
Qed.

(** ** the collector over a sequence of fragments *)
Inductive adds : collect2 -> list trans2_reply -> collect2 -> bool -> Prop :=
| adds_none k : adds k [] k false
| adds_last k f k' : collect2_add k f = Ok (k', true) -> adds k [f] k' true
| adds_more k f k1 fs k' d : collect2_add k f = Ok (k1, false) -> adds k1 fs k' d -> adds k (f :: fs) k' d.

Definition unfinished (fs : list trans2_reply) (tp td : N) : Prop :=
  forall fs1 fs2, fs = fs1 ++ fs2 -> fs1 <> [] -> ~ enough fs1 tp td.

Lemma snoc_split A (fs : list A) f a b : fs ++ [f] = a ++ b -> b <> [] -> exists b', b = b' ++ [f] /\ fs = a ++ b'.
Proof.
  intros H Hb. destruct (exists_last Hb) as (b' & x & ->). rewrite app_assoc in H. apply app_inj_tail in H.
  destruct H as [-> ->]. eauto.
Qed.
Lemma unfinished_snoc fs f tp td : unfinished fs tp td -> ~ enough (fs ++ [f]) tp td -> unfinished (fs ++ [f]) tp td.
Proof.
  intros H Hn fs1 fs2 He H1. destruct fs2 as [|x fs2].
  - rewrite app_nil_r in He. now subst.
  - destruct (snoc_split He ltac:(easy)) as (b' & _ & ->). eapply H; eauto.
Qed.
Lemma completes_snoc fs f tp td : unfinished fs tp td -> last_completes (fs ++ [f]) tp td.
Proof. intros H fs1 fs2 He H1 H2. destruct (snoc_split He H2) as (b' & _ & ->). eapply H; eauto. Qed.
Lemma unfinished_nil tp td : unfinished [] tp td.
Proof. intros fs1 fs2 H H1. destruct fs1; easy. Qed.

Lemma adds_holds k fs k' d : adds k fs k' d -> forall pre tp td, holds2 k pre tp td -> unfinished pre tp td ->
  exists tp' td', holds2 k' (pre ++ fs) tp' td' /\
    if d then last_completes (pre ++ fs) tp' td' /\ enough (pre ++ fs) tp' td' /\ fs <> []
    else unfinished (pre ++ fs) tp' td'.
Proof.
  induction 1 as [k|k f k' Ha|k f k1 fs k' d Ha Hr IH]; intros pre tp td Hh Hu.
  - exists tp, td. rewrite app_nil_r. auto.
  - destruct (holds2_add Hh Ha) as (tp' & td' & Hh' & Heq & Hd). exists tp', td'. split; [exact Hh'|].
    assert (Hu' : unfinished pre tp' td').
    { destruct pre as [|g pre]; [apply unfinished_nil|]. destruct (Heq ltac:(easy)) as [-> ->]. exact Hu. }
    split; [now apply completes_snoc|]. split; [now apply Hd|easy].
  - destruct (holds2_add Hh Ha) as (tp' & td' & Hh' & Heq & Hd).
    assert (Hu' : unfinished pre tp' td').
    { destruct pre as [|g pre]; [apply unfinished_nil|]. destruct (Heq ltac:(easy)) as [-> ->]. exact Hu. }
    assert (Hn : ~ enough (pre ++ [f]) tp' td') by (intros H; apply Hd in H; discriminate H).
    destruct (IH _ _ _ Hh' (unfinished_snoc Hu' Hn)) as (tp2 & td2 & H1 & H2). exists tp2, td2.
    rewrite <- app_assoc in H1, H2. cbn [app] in H1, H2. split; [exact H1|].
    destruct d; [|exact H2]. destruct H2 as (H2 & H3 & _). split; [exact H2|]. split; [exact H3|easy].
Qed.
Lemma holds2_collecting k fs tp td : holds2 k fs tp td -> unfinished fs tp td -> collecting fs tp td.
Proof.
  intros [Hp Hd Ht] Hu. split; [exact Ht|]. split; [exact (hold_nodup Hp)|]. split; [exact (hold_nodup Hd)|exact Hu].
Qed.
(** agreeing fragments are collected *)
Lemma adds_collecting fs : forall k pre tp td, holds2 k pre tp td -> collecting (pre ++ fs) tp td ->
  exists k', adds k fs k' false /\ holds2 k' (pre ++ fs) tp td.
Proof.
  induction fs as [|f fs IH]; intros k pre tp td Hh (Ht & N1 & N2 & Hu).
  - exists k. rewrite app_nil_r. split; [constructor|exact Hh].
  - assert (Happ : pre ++ f :: fs = (pre ++ [f]) ++ fs) by (now rewrite <- app_assoc).
    assert (Hf : f_parameter_total f = tp /\ f_data_total f = td).
    { apply Forall_app in Ht. destruct Ht as [_ Ht]. inversion_clear Ht. auto. }
    assert (N1' : distinct (parameter_pieces (pre ++ [f]))).
    { unfold distinct in *. rewrite Happ in N1. unfold parameter_pieces in N1. rewrite map_app in N1. eapply nodup_prefix; eauto. }
    assert (N2' : distinct (data_pieces (pre ++ [f]))).
    { unfold distinct in *. rewrite Happ in N2. unfold data_pieces in N2. rewrite map_app in N2. eapply nodup_prefix; eauto. }
    destruct (holds2_add_ok Hh (proj1 Hf) (proj2 Hf) N1' N2') as (k1 & d & Ha).
    destruct (holds2_add Hh Ha) as (tp' & td' & Hh' & _ & Hd).
    assert (Htt : tp' = tp /\ td' = td).
    { pose proof (hold_t Hh') as T. unfold totals in T. apply Forall_app in T. destruct T as [_ T]. inversion_clear T. destruct H, Hf; subst; auto. }
    destruct Htt as [-> ->].
    assert (d = false).
    { destruct d; [|reflexivity]. exfalso. apply (Hu (pre ++ [f]) fs Happ); [now destruct pre|]. now apply Hd. }
    subst d. destruct (IH _ _ _ _ Hh') as (k' & Hk & Hh2).
    { rewrite <- Happ. split; [exact Ht|auto]. }
    exists k'. split; [econstructor; eauto|]. now rewrite Happ.
Qed.
Lemma adds_split fs a b : split_of fs a b -> last_completes fs (len a) (len b) ->
  exists k, adds collect2_new fs k true /\ holds2 k fs (len a) (len b).
Proof.
  intros (Hne & Ht & Ra & Rb) Hl. destruct (exists_last Hne) as (pre & f & ->).
  pose proof (reassembles_nodup Ra) as N1. pose proof (reassembles_nodup Rb) as N2.
  assert (Hc : collecting pre (len a) (len b)).
  { split; [|split; [|split]].
    - apply Forall_app in Ht. tauto.
    - unfold distinct. unfold parameter_pieces in N1. rewrite map_app in N1. eapply nodup_prefix; eauto.
    - unfold distinct. unfold data_pieces in N2. rewrite map_app in N2. eapply nodup_prefix; eauto.
    - intros fs1 fs2 -> H1. apply (Hl fs1 (fs2 ++ [f])); [now rewrite app_assoc|exact H1|now destruct fs2]. }
  destruct (adds_collecting (pre := []) (holds2_new _ _) Hc) as (k1 & Hk1 & Hh1). cbn [app] in Hh1.
  assert (Hf : f_parameter_total f = len a /\ f_data_total f = len b).
  { apply Forall_app in Ht. destruct Ht as [_ Ht]. inversion_clear Ht. auto. }
  destruct (holds2_add_ok Hh1 (proj1 Hf) (proj2 Hf) N1 N2) as (k & d & Ha).
  destruct (holds2_add Hh1 Ha) as (tp' & td' & Hh' & _ & Hd).
  assert (Htt : tp' = len a /\ td' = len b).
  { pose proof (hold_t Hh') as T. unfold totals in T. apply Forall_app in T. destruct T as [_ T]. inversion_clear T. destruct H, Hf; subst; auto. }
  destruct Htt as [-> ->].
  assert (d = true).
  { apply Hd. unfold enough. rewrite (reassembles_size Ra), (reassembles_size Rb). lia. }
  subst d. exists k. split; [|exact Hh']. clear -Hk1 Ha. remember false as d eqn:Ed.
  induction Hk1; cbn [app]; [now apply adds_last|discriminate Ed|]. econstructor; eauto.
Qed.

Section Server.
Variable Sv : Type.
Variable react : Sv -> bytes -> reaction Sv.
Notation world := (world cifs Sv).
Notation run := (run react).

Lemma arrive_snoc id b fs b' : fragments_arrive id b fs b' -> forall p f rest, reply_arrives id b' p rest ->
  smb_reply p 0x32 0 id -> fragment_of p f -> fragments_arrive id b (fs ++ [f]) rest.
Proof. clear react.
  induction 1; intros; cbn [app]; econstructor; eauto. constructor.
Qed.

Lemma collect_cases id f g : forall k w w', (forall w2, run (collect f g id k) w <> Starved w2) ->
  (forall k', run (collect f g id k) w = Done (Good k') w' ->
     exists fs, fragments_arrive id (rx w) fs (rx w') /\ adds k fs k' true /\ w' = leaving w (rx w'))
  /\ (run (collect f g id k) w = Crashed w' ->
     exists fs b k' p, fragments_arrive id (rx w) fs b /\ adds k fs k' false
       /\ reply_arrives id b p (rx w') /\ smb_reply p 0x32 0 id /\ crash_fragment p /\ w' = leaving w (rx w')).
Proof.
  induction f as [|f IH]; intros k w w'; cbn [collect]; [cbn; intros H; now destruct (H w)|].
  rewrite run_mbind. destruct (run (recv g r_trans2 id) w) as [[v|e] w1|w1|w1|w1] eqn:Hr; cbn [gbind obind].
  - apply recv_good in Hr. destruct Hr as (p & rest & st & i & Hra & Hp & Hi & Hst & Hc & Hok & Hv & ->).
    apply (status_zero Hc Hst) in Hok. subst st. change (cmd_code (r_cmd r_trans2)) with 0x32 in Hp.
    apply (fragment_ok _ _ (proj1 (info_head Hi))) in Hv.
    rewrite run_mbind, run_lift. destruct (collect2_add k v) as [[k1 d]|e|] eqn:Ha; cbn [lifted gbind obind].
    + destruct d.
      * intros _. split; [|easy]. intros k' H. injection H as <- <-. exists [v]. split; [|split].
        -- econstructor; eauto. constructor.
        -- now apply adds_last.
        -- reflexivity.
      * intros Hns. destruct (IH k1 (leaving w rest) w' Hns) as [IH1 IH2]. split.
        -- intros k' H. destruct (IH1 _ H) as (fs & H1 & H2 & H3). exists (v :: fs). split; [|split].
           ++ econstructor; eauto.
           ++ econstructor; eauto.
           ++ exact H3.
        -- intros H. destruct (IH2 H) as (fs & b & k' & q & H1 & H2 & H3 & H4 & H5 & H6).
           exists (v :: fs), b, k', q. split; [econstructor; eauto|]. split; [econstructor; eauto|]. auto.
    + split; easy.
    + now apply collect2_add_no_panic in Ha.
  - split; easy.
  - split; easy.
  - intros _. split; [easy|]. intros H. injection H as <-. apply recv_crash in Hr.
    destruct Hr as (p & rest & st & i & Hra & Hp & Hi & Hst & Hc & Hok & Hv & ->).
    apply (status_zero Hc Hst) in Hok. subst st. change (cmd_code (r_cmd r_trans2)) with 0x32 in Hp.
    apply (fragment_panic _ (proj1 (info_head Hi))) in Hv.
    exists [], (rx w), k, p. split; [constructor|]. split; [constructor|]. auto.
  - intros H. now destruct (H w1).
Qed.

Lemma arrives_len id b p rest : reply_arrives id b p rest -> (length rest < length b)%nat.
Proof. clear react. intros (s & _ & _ & ->). rewrite !app_length. cbn. lia. Qed.

Lemma recv_fragment id w g p rest f : reply_arrives id (rx w) p rest -> smb_reply p 0x32 0 id -> fragment_of p f ->
  (length (rx w) < g)%nat -> run (recv g r_trans2 id) w = Done (Good f) (leaving w rest).
Proof.
  intros Ha Hp Hf Hg. destruct (recv_reply react r_trans2 Hg Ha Hp) as (i & Hi & Hc & Hst & ->).
  assert (Hc' : i_cmd i = CTransact2) by (now apply cmd_code_inj). unfold replied. rewrite Hc'. cbn [r_trans2 r_cmd].
  rewrite cmd_eqb_refl. cbn [negb].
  rewrite (proj2 (status_zero Hc' Hst) eq_refl). cbn [negb].
  apply (fragment_ok i f (proj1 (info_head Hi))) in Hf. now rewrite Hf.
Qed.

(** what collecting does with fragments that are there *)
Lemma collect_more id fs k k' : adds k fs k' false -> forall b w g f rest, rx w = b -> fragments_arrive id b fs rest ->
  (length (rx w) < g)%nat -> run (collect (length fs + f) g id k) w = run (collect f g id k') (leaving w rest).
Proof.
  intros H. remember false as d eqn:Ed. induction H as [k|k f k' Ha|k f k1 fs k' d Ha Hr IH]; [| discriminate Ed |]; intros b w g n rest Hb Hfa Hg.
  - inversion Hfa; subst. cbn. f_equal. now destruct w.
  - inversion Hfa as [|b0 p b' f0 fs0 rest0 Hra Hp Hf Hfa' E1 E2 E3]; subst. cbn [length Nat.add collect].
    rewrite run_mbind, (recv_fragment Hra Hp Hf Hg). cbn [gbind obind]. rewrite run_mbind, run_lift, Ha.
    cbn [lifted gbind obind]. erewrite IH; [|reflexivity|reflexivity|exact Hfa'|].
    + reflexivity.
    + apply arrives_len in Hra. cbn. lia.
Qed.
Lemma collect_step id fs k k' : adds k fs k' false -> forall w g rest, fragments_arrive id (rx w) fs rest ->
  (length (rx w) < g)%nat -> (length fs < g)%nat -> exists n,
  run (collect g g id k) w = run (collect (S n) g id k') (leaving w rest).
Proof.
  intros H w g rest Hf Hg Hl. exists (g - length fs - 1)%nat.
  rewrite <- (collect_more H (b := rx w) (g := g) _ eq_refl Hf Hg). do 2 f_equal. lia.
Qed.
Lemma collect_done id fs k k' : adds k fs k' true -> forall b w g f rest, rx w = b -> fragments_arrive id b fs rest ->
  (length (rx w) < g)%nat -> (length fs <= f)%nat -> run (collect f g id k) w = Done (Good k') (leaving w rest).
Proof.
  intros H. remember true as d eqn:Ed. induction H as [k|k f k' Ha|k f k1 fs k' d Ha Hr IH]; [discriminate Ed| |]; intros b w g n rest Hb Hfa Hg Hn.
  - inversion Hfa as [|b0 p b' f0 fs0 rest0 Hra Hp Hf Hfa' E1 E2 E3]; subst. inversion Hfa'; subst.
    destruct n as [|n]; [cbn in Hn; lia|]. cbn [collect].
    rewrite run_mbind, (recv_fragment Hra Hp Hf Hg). cbn [gbind obind]. rewrite run_mbind, run_lift, Ha. reflexivity.
  - inversion Hfa as [|b0 p b' f0 fs0 rest0 Hra Hp Hf Hfa' E1 E2 E3]; subst.
    destruct n as [|n]; [cbn in Hn; lia|]. cbn [collect].
    rewrite run_mbind, (recv_fragment Hra Hp Hf Hg). cbn [gbind obind]. rewrite run_mbind, run_lift, Ha.
    cbn [lifted gbind obind]. erewrite IH; [|reflexivity|reflexivity|exact Hfa'| |].
    + reflexivity.
    + apply arrives_len in Hra. cbn. lia.
    + cbn in Hn. lia.
Qed.
Lemma arrive_length id b fs rest : fragments_arrive id b fs rest -> (length fs + length rest <= length b)%nat.
Proof. clear react. induction 1; cbn; [lia|]. apply arrives_len in H. lia. Qed.

Section Env.
Variable E : env.

Lemma find_good fuel R (c : call R) w v w' : ~ single_reply c -> run (exec E fuel c) w = Done (Good v) w' ->
  exists f w1 fs a b, request (exec E fuel c) (cl w) = Some f /\ asked react w f w1
   /\ fragments_arrive (mid (cl w)) (rx w1) fs (rx w') /\ split_of fs a b /\ last_completes fs (len a) (len b)
   /\ found_in c a b v /\ w' = leaving w1 (rx w').
Proof.
  intros Hs H. destruct (find_is Hs) as [sub Hsub].
  destruct (call_cases react E fuel c w) as [(f & w1 & Hf & Ha & He)|(o & Hu & He)].
  - rewrite He, (find_after fuel _ Hsub), run_mbind in H.
    destruct (run (collect fuel fuel (mid (cl w)) collect2_new) w1) as [[k|e] w2|w2|w2|w2] eqn:Hc; cbn [gbind obind] in H; try discriminate H.
    rewrite run_lift in H. destruct (get_subreply sub k) as [v'|e|] eqn:Hg; cbn [lifted] in H; try discriminate H.
    injection H as <- <-.
    destruct (@collect_cases (mid (cl w)) fuel fuel collect2_new w1 w2) as [Hgood _]; [intros w3; now rewrite Hc|].
    destruct (Hgood _ Hc) as (fs & H1 & H2 & H3).
    destruct (adds_holds H2 (holds2_new 0 0) (@unfinished_nil 0 0)) as (tp & td & Hh & Hl & _ & Hne). cbn [app] in *.
    apply (holds2_get sub v' Hh Hne) in Hg. destruct Hg as (a & b & Hsp & <- & <- & Hv).
    exists f, w1, fs, a, b. repeat (split; [assumption|]). split; [|exact H3]. eapply find_ok; eauto.
  - rewrite He in H. now apply (unsent_not_good Hu) in H.
Qed.

Lemma find_complete fuel R (c : call R) w f w1 fs a b rest v : ~ single_reply c -> (length (rx w1) < fuel)%nat ->
  request (exec E fuel c) (cl w) = Some f -> asked react w f w1 ->
  fragments_arrive (mid (cl w)) (rx w1) fs rest -> split_of fs a b -> last_completes fs (len a) (len b) ->
  found_in c a b v -> run (exec E fuel c) w = Done (Good v) (leaving w1 rest).
Proof.
  intros Hs Hfuel Hf Ha Hfa Hsp Hl Hv. destruct (find_is Hs) as [sub Hsub].
  rewrite (call_asked Hf Ha), (find_after fuel _ Hsub), run_mbind.
  destruct (adds_split Hsp Hl) as (k & Hk & Hh). pose proof (arrive_length Hfa).
  rewrite (collect_done Hk eq_refl Hfa Hfuel) by lia. cbn [gbind obind]. rewrite run_lift.
  assert (get_subreply sub k = Ok v) as ->; [|reflexivity].
  apply (holds2_get sub v Hh); [apply Hsp|]. exists a, b. repeat (split; [auto; fail|]). eapply find_ok; eauto.
Qed.

(** a fragment that contradicts earlier ones *)
Lemma find_inconsistent fuel R (c : call R) w f w1 fs tp td b p g rest : ~ single_reply c -> (length (rx w1) < fuel)%nat ->
  request (exec E fuel c) (cl w) = Some f -> asked react w f w1 ->
  fragments_arrive (mid (cl w)) (rx w1) fs b -> fs <> [] -> collecting fs tp td ->
  reply_arrives (mid (cl w)) b p rest -> smb_reply p 0x32 0 (mid (cl w)) -> fragment_of p g ->
  ~ (f_parameter_total g = tp /\ f_data_total g = td /\ distinct (parameter_pieces (fs ++ [g])) /\ distinct (data_pieces (fs ++ [g]))) ->
  exists e, run (exec E fuel c) w = Done (Bad (ESmb (Reassemble e))) (leaving w1 rest).
Proof.
  intros Hs Hfuel Hf Ha Hfa Hne Hco Hra Hp Hg Hn. destruct (find_is Hs) as [sub Hsub].
  rewrite (call_asked Hf Ha), (find_after fuel _ Hsub), run_mbind.
  destruct (adds_collecting (pre := []) (holds2_new _ _) Hco) as (k & Hk & Hh). cbn [app] in Hh.
  pose proof (arrive_length Hfa) as Hlen. pose proof (arrives_len Hra) as Hlen2.
  destruct (collect_step Hk Hfa Hfuel ltac:(lia)) as [n ->]. cbn [collect]. rewrite run_mbind.
  assert (Hg' : (length (rx (leaving w1 b)) < fuel)%nat) by (cbn; lia).
  rewrite (@recv_fragment _ (leaving w1 b) _ _ _ _ Hra Hp Hg Hg'). cbn [gbind obind]. rewrite run_mbind, run_lift.
  destruct (collect2_add k g) as [[k' d]|e|] eqn:Hadd.
  - exfalso. destruct (holds2_add Hh Hadd) as (tp' & td' & Hh' & Heq & _). destruct (Heq Hne) as [-> ->]. apply Hn.
    pose proof (hold_t Hh') as T. unfold totals in T. apply Forall_app in T. destruct T as [_ T]. inversion_clear T. destruct H as [H1 H2].
    split; [exact H1|]. split; [exact H2|]. split; [exact (hold_nodup (hold_p Hh'))|exact (hold_nodup (hold_d Hh'))].
  - assert (exists e', e = Reassemble e') as [e' ->].
    { clear -Hadd. unfold collect2_add, collector_add in Hadd.
      repeat match type of Hadd with
        | context [match total ?x with _ => _ end] => destruct (total x)
        | context [if negb ?x then _ else _] => destruct x; cbn [negb] in Hadd
        | context [if len ?x =? 0 then _ else _] => destruct (len x =? 0)
        | context [frag_insert ?x ?y ?z] => destruct (frag_insert x y z) as [? []]
        end; cbn [rbind negb] in Hadd; try discriminate Hadd; try (injection Hadd as <-; eauto). }
    exists e'. reflexivity.
  - now apply collect2_add_no_panic in Hadd.
Qed.
(** fragments with enough bytes that do not fit together *)
Lemma find_misfit fuel R (c : call R) w f w1 fs g tp td rest : ~ single_reply c -> (length (rx w1) < fuel)%nat ->
  request (exec E fuel c) (cl w) = Some f -> asked react w f w1 ->
  fragments_arrive (mid (cl w)) (rx w1) (fs ++ [g]) rest -> collecting fs tp td ->
  f_parameter_total g = tp -> f_data_total g = td -> distinct (parameter_pieces (fs ++ [g])) -> distinct (data_pieces (fs ++ [g])) ->
  enough (fs ++ [g]) tp td -> (forall a b, ~ (split_of (fs ++ [g]) a b /\ len a = tp /\ len b = td)) ->
  exists e, run (exec E fuel c) w = Done (Bad (ESmb (Reassemble e))) (leaving w1 rest).
Proof.
  intros Hs Hfuel Hf Ha Hfa Hco E1 E2 N1 N2 Hen Hn. destruct (find_is Hs) as [sub Hsub].
  rewrite (call_asked Hf Ha), (find_after fuel _ Hsub), run_mbind.
  destruct (adds_collecting (pre := []) (holds2_new _ _) Hco) as (k & Hk & Hh). cbn [app] in Hh.
  destruct (holds2_add_ok Hh E1 E2 N1 N2) as (k' & d & Hadd).
  destruct (holds2_add Hh Hadd) as (tp' & td' & Hh' & _ & Hd).
  assert (Htt : tp' = tp /\ td' = td).
  { pose proof (hold_t Hh') as T. unfold totals in T. apply Forall_app in T. destruct T as [_ T]. inversion_clear T. destruct H; subst; auto. }
  destruct Htt as [-> ->]. assert (d = true) by (now apply Hd). subst d.
  assert (Hk' : adds collect2_new (fs ++ [g]) k' true).
  { clear -Hk Hadd. remember false as d eqn:Ed. induction Hk; cbn [app]; [now apply adds_last|discriminate Ed|]. econstructor; eauto. }
  pose proof (arrive_length Hfa). rewrite (collect_done Hk' eq_refl Hfa Hfuel) by lia. cbn [gbind obind]. rewrite run_lift.
  assert (Hne : fs ++ [g] <> []) by now destruct fs.
  assert (P0 : parameter_pieces (fs ++ [g]) <> []) by now rewrite pieces_nil.
  assert (D0 : data_pieces (fs ++ [g]) <> []) by now rewrite data_nil.
  assert (Gerr : forall cc t, total cc = Some t -> collector_get cc <> Panic /\ forall e, collector_get cc = Err e -> exists e', e = Reassemble e').
  { clear. intros cc t Hcc. split; [apply collector_get_no_panic|]. intros e. unfold collector_get. rewrite Hcc; cbn [ok_or rbind].
    destruct (negb _); [intros H; injection H as <-; eauto|].
    generalize (@nil byte). induction (sorted (fragments cc)) as [|[o d] l IH]; intros buf; cbn [assemble]; [easy|].
    destruct (negb (len buf =? o)); [intros H; injection H as <-; eauto|apply IH]. }
  unfold get_subreply.
  destruct (collector_get (k_parameter k')) as [a|e|] eqn:G1; cbn [rbind].
  - destruct (collector_get (k_data k')) as [b|e|] eqn:G2; cbn [rbind].
    + exfalso. apply (holds_get a (hold_p Hh') P0) in G1. apply (holds_get b (hold_d Hh') D0) in G2.
      destruct G1 as [L1 G1], G2 as [L2 G2]. apply (Hn a b). split; [|auto]. split; [exact Hne|].
      split; [rewrite L1, L2; exact (hold_t Hh')|auto].
    + destruct (proj2 (Gerr _ _ (hold_total (hold_d Hh') D0)) _ G2) as [e' ->]. exists e'. reflexivity.
    + now apply collector_get_no_panic in G2.
  - destruct (proj2 (Gerr _ _ (hold_total (hold_p Hh') P0)) _ G1) as [e' ->]. exists e'. reflexivity.
  - now apply collector_get_no_panic in G1.
Qed.

(** ** crashes *)
Lemma find_crash fuel R (c : call R) w w' : ~ single_reply c -> run (exec E fuel c) w = Crashed w' ->
  (request (exec E fuel c) (cl w) = None /\ (mid_panics E (cl w) = true \/ smb_out (cl w) (msg_of c) = Panic))
  \/ exists f w1, request (exec E fuel c) (cl w) = Some f /\ asked react w f w1 /\ w' = leaving w1 (rx w')
     /\ ((exists fs tp td b p, fragments_arrive (mid (cl w)) (rx w1) fs b /\ collecting fs tp td
            /\ reply_arrives (mid (cl w)) b p (rx w') /\ smb_reply p 0x32 0 (mid (cl w)) /\ crash_fragment p)
         \/ (exists fs x y, fragments_arrive (mid (cl w)) (rx w1) fs (rx w') /\ split_of fs x y
            /\ last_completes fs (len x) (len y) /\ find_crashes c x y)).
Proof.
  intros Hs H. destruct (find_is Hs) as [sub Hsub].
  destruct (call_cases react E fuel c w) as [(f & w1 & Hf & Ha & He)|(o & Hu & He)].
  - right. exists f, w1. split; [exact Hf|]. split; [exact Ha|]. rewrite He, (find_after fuel _ Hsub), run_mbind in H.
    destruct (run (collect fuel fuel (mid (cl w)) collect2_new) w1) as [[k|e] w2|w2|w2|w2] eqn:Hc; cbn [gbind obind] in H; try discriminate H.
    + rewrite run_lift in H. destruct (get_subreply sub k) as [v'|e|] eqn:Hg; cbn [lifted] in H; try discriminate H.
      injection H as <-.
      destruct (@collect_cases (mid (cl w)) fuel fuel collect2_new w1 w2) as [Hgood _]; [intros w3; now rewrite Hc|].
      destruct (Hgood _ Hc) as (fs & H1 & H2 & H3). split; [exact H3|]. right.
      destruct (adds_holds H2 (holds2_new 0 0) (@unfinished_nil 0 0)) as (tp & td & Hh & Hl & _ & Hne). cbn [app] in *.
      apply (holds2_get_panic sub Hh Hne) in Hg. destruct Hg as (a & b & Hsp & <- & <- & Hv).
      exists fs, a, b. repeat (split; [assumption|]). eapply find_panic; eauto.
    + injection H as <-.
      destruct (@collect_cases (mid (cl w)) fuel fuel collect2_new w1 w2) as [_ Hcr]; [intros w3; now rewrite Hc|].
      destruct (Hcr Hc) as (fs & b & k' & p & H1 & H2 & H3 & H4 & H5 & H6). split; [exact H6|]. left.
      destruct (adds_holds H2 (holds2_new 0 0) (@unfinished_nil 0 0)) as (tp & td & Hh & Hl). cbn [app] in *.
      exists fs, tp, td, b, p. split; [exact H1|]. split; [eapply holds2_collecting; eauto|]. auto.
  - left. rewrite request_exec. unfold out_frame. rewrite He in H. destruct Hu as [Hm|Hm Hp|e Hm Hp|b Hm Hp Hb|f s n e inc t b t' Hf Hr' Hd]; cbn in H; try discriminate H.
    + rewrite Hm. auto.
    + rewrite Hm, Hp. auto.
Qed.
Lemma find_crashes_fragment fuel R (c : call R) w f w1 fs tp td b p rest : ~ single_reply c -> (length (rx w1) < fuel)%nat ->
  request (exec E fuel c) (cl w) = Some f -> asked react w f w1 ->
  fragments_arrive (mid (cl w)) (rx w1) fs b -> collecting fs tp td ->
  reply_arrives (mid (cl w)) b p rest -> smb_reply p 0x32 0 (mid (cl w)) -> crash_fragment p ->
  run (exec E fuel c) w = Crashed (leaving w1 rest).
Proof.
  intros Hs Hfuel Hf Ha Hfa Hco Hra Hp Hcr. destruct (find_is Hs) as [sub Hsub].
  rewrite (call_asked Hf Ha), (find_after fuel _ Hsub), run_mbind.
  destruct (adds_collecting (pre := []) (holds2_new _ _) Hco) as (k & Hk & Hh). cbn [app] in Hh.
  pose proof (arrive_length Hfa) as Hlen. pose proof (arrives_len Hra) as Hlen2.
  destruct (collect_step Hk Hfa Hfuel ltac:(lia)) as [n ->]. cbn [collect]. rewrite run_mbind.
  assert (Hg' : (length (rx (leaving w1 b)) < fuel)%nat) by (cbn; lia).
  destruct (@recv_reply _ react _ r_trans2 _ (leaving w1 b) _ _ _ _ _ Hg' Hra Hp) as (i & Hi & Hc & Hst & ->).
  assert (Hc' : i_cmd i = CTransact2) by (now apply cmd_code_inj). unfold replied. rewrite Hc'. cbn [r_trans2 r_cmd].
  rewrite cmd_eqb_refl. cbn [negb].
  rewrite (proj2 (status_zero Hc' Hst) eq_refl). cbn [negb].
  apply (fragment_panic i (proj1 (info_head Hi))) in Hcr. now rewrite Hcr.
Qed.
(** a status other than success, in any fragment *)
Lemma find_server_error fuel R (c : call R) w f w1 fs tp td b p st rest : ~ single_reply c -> (length (rx w1) < fuel)%nat ->
  request (exec E fuel c) (cl w) = Some f -> asked react w f w1 ->
  fragments_arrive (mid (cl w)) (rx w1) fs b -> collecting fs tp td ->
  reply_arrives (mid (cl w)) b p rest -> smb_reply p 0x32 st (mid (cl w)) -> st <> 0 ->
  run (exec E fuel c) w = Done (Bad (ServerError (status_of_code st))) (leaving w1 rest).
Proof.
  intros Hs Hfuel Hf Ha Hfa Hco Hra Hp Hst0. destruct (find_is Hs) as [sub Hsub].
  rewrite (call_asked Hf Ha), (find_after fuel _ Hsub), run_mbind.
  destruct (adds_collecting (pre := []) (holds2_new _ _) Hco) as (k & Hk & Hh). cbn [app] in Hh.
  pose proof (arrive_length Hfa) as Hlen. pose proof (arrives_len Hra) as Hlen2.
  destruct (collect_step Hk Hfa Hfuel ltac:(lia)) as [n ->]. cbn [collect]. rewrite run_mbind.
  assert (Hg' : (length (rx (leaving w1 b)) < fuel)%nat) by (cbn; lia).
  destruct (@recv_reply _ react _ r_trans2 _ (leaving w1 b) _ _ _ _ _ Hg' Hra Hp) as (i & Hi & Hc & Hst & ->).
  assert (Hc' : i_cmd i = CTransact2) by (now apply cmd_code_inj). unfold replied. rewrite Hc'. cbn [r_trans2 r_cmd].
  rewrite cmd_eqb_refl. cbn [negb].
  destruct (status_ok i) eqn:Hso; [apply (status_zero Hc' Hst) in Hso; easy|]. cbn [negb gbind obind].
  rewrite Hst. reflexivity.
Qed.
End Env.
End Server.
