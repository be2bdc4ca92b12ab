(** * LoopFacts: download and list as sequences of calls *)
From Verif Require Import Base Text Utils Win Errors Info Common Msg Reply Ntlm Prog Client Spec SpecReply SpecCrash
  Api SpecCall BaseFacts TextFacts RunFacts SpecFacts InfoFacts ClientFacts MsgFacts ReplyFacts CallFacts FindFacts AnswerFacts.
Open Scope N_scope.
Set Implicit Arguments.
Unset Strict Implicit.

Section Server.
Variable Sv : Type.
Variable react : Sv -> bytes -> reaction Sv.
Notation world := (world cifs Sv).
Notation run := (run react).
Variable E : env.
Variable fuel : nat.

(** a call that fails: error, blocked, panic or (call starved) *)
Definition fails {A B} (o : outcome cifs Sv (ans A)) (o' : outcome cifs Sv (ans B)) : Prop :=
  match o with
  | Done (Good _) _ => False
  | Done (Bad e) w => o' = Done (Bad e) w
  | Blocked w => o' = Blocked w
  | Crashed w => o' = Crashed w
  | Starved w => o' = Starved w
  end.
Lemma gbind_fails A B (o : outcome cifs Sv (ans A)) (k : A -> world -> outcome cifs Sv (ans B)) :
  (exists a w, o = Done (Good a) w /\ gbind o k = k a w) \/ fails o (gbind o k).
Proof. destruct o as [[a|e] w|w|w|w]; cbn; eauto. Qed.

Lemma gbind_good A B (a : A) w (k : A -> world -> outcome cifs Sv (ans B)) : gbind (Done (Good a) w) k = k a w.
Proof. reflexivity. Qed.
Ltac gcases G := match goal with |- context [gbind ?o ?k] => pose proof (gbind_fails o k) as G end.
(** ** download *)
(** successful reads, each at the position reached so far, while the size is not reached *)
Inductive reads (h : handle) : bytes -> world -> list bytes -> world -> Prop :=
| reads_none data w : reads h data w [] w
| reads_more data w chunk w1 l w2 : len data < h_size h ->
    run (exec E fuel (ReadAt h (len data))) w = Done (Good chunk) w1 ->
    reads h (data ++ chunk) w1 l w2 -> reads h data w (chunk :: l) w2.

Inductive loop_end (h : handle) (n : nat) (data : bytes) (w : world) (o : outcome cifs Sv (ans bytes)) : Prop :=
| le_done l w1 : reads h data w l w1 -> h_size h <= len (data ++ concat l) ->
    o = Done (Good (data ++ concat l)) w1 -> loop_end h n data w o
| le_fails l w1 : reads h data w l w1 -> len (data ++ concat l) < h_size h ->
    fails (run (exec E fuel (ReadAt h (len (data ++ concat l)))) w1) o -> loop_end h n data w o
| le_forever l w1 : reads h data w l w1 -> length l = n -> o = Starved w1 -> loop_end h n data w o.

Lemma download_loop_end h n : forall data w, loop_end h n data w (run (download_loop E n fuel h data) w).
Proof.
  induction n as [|n IH]; intros data w; cbn [download_loop].
  - eapply le_forever; [constructor|reflexivity|reflexivity].
  - destruct (N.ltb_spec (len data) (h_size h)) as [Hl|Hl].
    + rewrite run_mbind. change (read E fuel h (len data)) with (exec E fuel (ReadAt h (len data))).
      gcases G; destruct G as [(chunk & w1 & Ho & ->)|Hf].
      * destruct (IH (data ++ chunk) w1) as [l w2 H1 H2 H3|l w2 H1 H2 H3|l w2 H1 H2 H3].
        -- apply (@le_done _ _ _ _ _ (chunk :: l) w2); cbn [concat]; rewrite ?app_assoc; [econstructor; eauto|exact H2|exact H3].
        -- apply (@le_fails _ _ _ _ _ (chunk :: l) w2); cbn [concat]; rewrite ?app_assoc; [econstructor; eauto|exact H2|exact H3].
        -- apply (@le_forever _ _ _ _ _ (chunk :: l) w2); cbn [length]; [econstructor; eauto|congruence|exact H3].
      * apply (@le_fails _ _ _ _ _ [] w); cbn [concat]; rewrite ?app_nil_r; [constructor|exact Hl|exact Hf].
    + apply (@le_done _ _ _ _ _ [] w); cbn [concat]; rewrite ?app_nil_r; [constructor|exact Hl|reflexivity].
Qed.

(** all that a download can do *)
Inductive download_end (s : share) (path : text) (w : world) (o : outcome cifs Sv (ans bytes)) : Prop :=
| de_open : fails (run (exec E fuel (OpenFile s path)) w) o -> download_end s path w o
| de_done h w1 l w2 w3 : run (exec E fuel (OpenFile s path)) w = Done (Good h) w1 ->
    reads h [] w1 l w2 -> h_size h <= len (concat l) ->
    run (exec E fuel (Close h)) w2 = Done (Good tt) w3 -> o = Done (Good (concat l)) w3 -> download_end s path w o
| de_close h w1 l w2 : run (exec E fuel (OpenFile s path)) w = Done (Good h) w1 ->
    reads h [] w1 l w2 -> h_size h <= len (concat l) ->
    fails (run (exec E fuel (Close h)) w2) o -> download_end s path w o
| de_read h w1 l w2 : run (exec E fuel (OpenFile s path)) w = Done (Good h) w1 ->
    reads h [] w1 l w2 -> len (concat l) < h_size h ->
    fails (run (exec E fuel (ReadAt h (len (concat l)))) w2) o -> download_end s path w o
| de_forever h w1 l w2 : run (exec E fuel (OpenFile s path)) w = Done (Good h) w1 ->
    reads h [] w1 l w2 -> length l = fuel -> o = Starved w2 -> download_end s path w o.

Lemma fails_gbind A B C (o : outcome cifs Sv (ans A)) (o' : outcome cifs Sv (ans B)) (k : B -> world -> outcome cifs Sv (ans C)) :
  fails o o' -> fails o (gbind o' k).
Proof. destruct o as [[a|e] w|w|w|w]; cbn; [easy|now intros ->..]. Qed.

Lemma download_cases s path w : download_end s path w (run (download E fuel s path) w).
Proof.
  unfold download. rewrite run_mbind. change (openfile E fuel s path) with (exec E fuel (OpenFile s path)).
  gcases G; destruct G as [(h & w1 & Ho & ->)|Hf]; [|now apply de_open].
  rewrite run_mbind. destruct (download_loop_end h fuel [] w1) as [l w2 H1 H2 H3|l w2 H1 H2 H3|l w2 H1 H2 H3].
  - rewrite H3, gbind_good. cbn [app] in H2. change (([]:bytes) ++ concat l) with (concat l). rewrite run_mbind. change (close E fuel h) with (exec E fuel (Close h)).
    gcases G; destruct G as [([] & w3 & Hc & ->)|Hf].
    + eapply de_done; eauto.
    + eapply de_close; eauto.
  - cbn [app] in *. eapply de_read; eauto. now apply fails_gbind.
  - rewrite H3. eapply de_forever; eauto.
Qed.

Lemma reads_det h data w l w1 : reads h data w l w1 -> forall n,
  run (download_loop E (length l + n) fuel h data) w = run (download_loop E n fuel h (data ++ concat l)) w1.
Proof.
  intros H. induction H as [data w|data w chunk w1 l w2 Hl Hr H IH]; intros n; cbn [concat length Nat.add].
  - now rewrite app_nil_r.
  - cbn [download_loop]. destruct (N.ltb_spec (len data) (h_size h)) as [_|H']; [|lia].
    rewrite run_mbind. change (read E fuel h (len data)) with (exec E fuel (ReadAt h (len data))). rewrite Hr, gbind_good.
    rewrite IH. now rewrite app_assoc.
Qed.
(** the converse for successes *)
Lemma download_done s path w h w1 l w2 w3 : (length l < fuel)%nat ->
  run (exec E fuel (OpenFile s path)) w = Done (Good h) w1 ->
  reads h [] w1 l w2 -> h_size h <= len (concat l) ->
  run (exec E fuel (Close h)) w2 = Done (Good tt) w3 ->
  run (download E fuel s path) w = Done (Good (concat l)) w3.
Proof.
  intros Hf Ho Hr Hs Hc. unfold download. rewrite run_mbind. change (openfile E fuel s path) with (exec E fuel (OpenFile s path)).
  rewrite Ho, gbind_good. rewrite run_mbind.
  replace (run (download_loop E fuel fuel h []) w1) with (Done (Good (concat l)) w2 : outcome cifs Sv (ans bytes)).
  - rewrite gbind_good, run_mbind. change (close E fuel h) with (exec E fuel (Close h)). rewrite Hc. reflexivity.
  - symmetry. transitivity (run (download_loop E (length l + (fuel - length l)) fuel h []) w1); [do 2 f_equal; lia|].
    rewrite (reads_det Hr). cbn [app]. destruct (fuel - length l)%nat as [|m] eqn:Hm; [lia|].
    cbn [download_loop]. destruct (N.ltb_spec (len (concat l)) (h_size h)); [lia|]. reflexivity.
Qed.

(** ** list *)
(** the name the next search continues from: that of the last entry *)
Definition last_name (l : list dir_info) (name : text) : Prop := exists l' d, l = l' ++ [d] /\ name = d_filename d.
Lemma last_some l : l <> [] -> exists d, last (map Some l) None = Some d /\ last_name l (d_filename d).
Proof.
  intros H. destruct (exists_last H) as (l' & d & ->). exists d. rewrite map_app; cbn [map]; rewrite last_last. split; [reflexivity|].
  exists l', d. auto.
Qed.
Lemma last_name_last l name : last_name l name -> exists d, last (map Some l) None = Some d /\ d_filename d = name.
Proof. intros (l' & d & -> & ->). exists d. rewrite map_app; cbn [map]; now rewrite last_last. Qed.

(** successful continuations, none of which is the last one *)
Inductive nexts (s : share) (sid : N) : list dir_info -> world -> list (list dir_info) -> world -> Prop :=
| nexts_none sofar w : nexts s sid sofar w [] w
| nexts_more sofar name w l w1 ls w2 : last_name sofar name ->
    run (exec E fuel (FindNext s sid name)) w = Done (Good (mk_found_next false l)) w1 ->
    nexts s sid (sofar ++ l) w1 ls w2 -> nexts s sid sofar w (l :: ls) w2.
Inductive nexts_end (s : share) (sid : N) (n : nat) (sofar : list dir_info) (w : world) (o : outcome cifs Sv (ans (list dir_info))) : Prop :=
| ne_done name ls w1 l w2 : nexts s sid sofar w ls w1 -> last_name (sofar ++ concat ls) name ->
    run (exec E fuel (FindNext s sid name)) w1 = Done (Good (mk_found_next true l)) w2 ->
    o = Done (Good ((sofar ++ concat ls) ++ l)) w2 -> (length ls < n)%nat -> nexts_end s sid n sofar w o
| ne_fails name ls w1 : nexts s sid sofar w ls w1 -> last_name (sofar ++ concat ls) name ->
    fails (run (exec E fuel (FindNext s sid name)) w1) o -> nexts_end s sid n sofar w o
| ne_forever ls w1 : nexts s sid sofar w ls w1 -> length ls = n -> o = Starved w1 -> nexts_end s sid n sofar w o.

Lemma list_loop_end s sid n : forall sofar w, sofar <> [] -> nexts_end s sid n sofar w (run (list_loop E n fuel s sid sofar) w).
Proof.
  induction n as [|n IH]; intros sofar w Hs; cbn [list_loop].
  - eapply ne_forever; [constructor|reflexivity|reflexivity].
  - destruct (last_some Hs) as (d & -> & Hn). rewrite run_mbind.
    change (find_next E fuel s sid (d_filename d)) with (exec E fuel (FindNext s sid (d_filename d))).
    gcases G; destruct G as [([e l] & w1 & Ho & ->)|Hf].
    + cbv zeta. cbn [fn_end fn_info]. destruct e.
      * apply (@ne_done _ _ _ _ _ _ (d_filename d) [] w l w1); cbn [concat length]; rewrite ?app_nil_r; auto; [constructor|lia].
      * destruct (IH (sofar ++ l) w1) as [name ls w2 l' w3 H1 H2 H3 H4 H5|name ls w2 H1 H2 H3|ls w2 H1 H2 H3].
        { destruct sofar; easy. }
        -- apply (@ne_done _ _ _ _ _ _ name (l :: ls) w2 l' w3); cbn [concat length]; rewrite ?app_assoc in *; auto; [|lia].
           econstructor; eauto.
        -- apply (@ne_fails _ _ _ _ _ _ name (l :: ls) w2); cbn [concat]; rewrite ?app_assoc in *; auto. econstructor; eauto.
        -- apply (@ne_forever _ _ _ _ _ _ (l :: ls) w2); cbn [length]; auto. econstructor; eauto.
    + apply (@ne_fails _ _ _ _ _ _ (d_filename d) [] w); cbn [concat]; rewrite ?app_nil_r; auto. constructor.
Qed.
Inductive list_end (s : share) (pattern : text) (w : world) (o : outcome cifs Sv (ans (list dir_info))) : Prop :=
| li_first : fails (run (exec E fuel (FindFirst s pattern)) w) o -> list_end s pattern w o
| li_one sid l w1 : run (exec E fuel (FindFirst s pattern)) w = Done (Good (mk_found sid true l)) w1 ->
    o = Done (Good l) w1 -> list_end s pattern w o
| li_more sid l w1 : run (exec E fuel (FindFirst s pattern)) w = Done (Good (mk_found sid false l)) w1 ->
    nexts_end s sid fuel l w1 o -> list_end s pattern w o.
Lemma first_nonempty s pattern w sid l w1 : run (exec E fuel (FindFirst s pattern)) w = Done (Good (mk_found sid false l)) w1 -> l <> [].
Proof.
  intros H. apply find_good in H; [|cbn; tauto]. destruct H as (f & v & fs & a & b & _ & _ & _ & _ & _ & Hf & _).
  cbn in Hf. destruct Hf as (_ & _ & _ & _ & _ & H). intros ->. specialize (H eq_refl). discriminate.
Qed.
Lemma list_cases s pattern w : list_end s pattern w (run (list_dir E fuel s pattern) w).
Proof.
  unfold list_dir. rewrite run_mbind. change (find_first E fuel s pattern) with (exec E fuel (FindFirst s pattern)).
  gcases G; destruct G as [([sid e l] & w1 & Ho & ->)|Hf]; [|now apply li_first].
  cbn [ff_end ff_info ff_sid]. destruct e; [eapply li_one; eauto; reflexivity|].
  eapply li_more; [exact Ho|]. apply list_loop_end. eapply first_nonempty; exact Ho.
Qed.

Lemma nexts_det s sid sofar w ls w1 : nexts s sid sofar w ls w1 -> forall n,
  run (list_loop E (length ls + n) fuel s sid sofar) w = run (list_loop E n fuel s sid (sofar ++ concat ls)) w1.
Proof.
  intros H. induction H as [sofar w|sofar name w l w1 ls w2 Hn Hr H IH]; intros n; cbn [concat length Nat.add].
  - now rewrite app_nil_r.
  - cbn [list_loop]. destruct (last_name_last Hn) as (d & -> & <-). rewrite run_mbind.
    change (find_next E fuel s sid (d_filename d)) with (exec E fuel (FindNext s sid (d_filename d))). rewrite Hr, gbind_good.
    cbv zeta. cbn [fn_end fn_info]. rewrite IH. now rewrite app_assoc.
Qed.
Lemma list_done s pattern sid w l w1 ls w2 name l' w3 : (length ls < fuel)%nat ->
  run (exec E fuel (FindFirst s pattern)) w = Done (Good (mk_found sid false l)) w1 ->
  nexts s sid l w1 ls w2 -> last_name (l ++ concat ls) name ->
  run (exec E fuel (FindNext s sid name)) w2 = Done (Good (mk_found_next true l')) w3 ->
  run (list_dir E fuel s pattern) w = Done (Good (l ++ concat ls ++ l')) w3.
Proof.
  intros Hf Ho Hn Hl Hx. unfold list_dir. rewrite run_mbind. change (find_first E fuel s pattern) with (exec E fuel (FindFirst s pattern)).
  rewrite Ho, gbind_good. cbn [ff_end ff_sid ff_info].
  transitivity (run (list_loop E (length ls + (fuel - length ls)) fuel s sid l) w1); [do 2 f_equal; lia|].
  rewrite (nexts_det Hn). destruct (fuel - length ls)%nat as [|m] eqn:Hm; [lia|]. cbn [list_loop].
  destruct (last_name_last Hl) as (d & -> & <-). rewrite run_mbind.
  change (find_next E fuel s sid (d_filename d)) with (exec E fuel (FindNext s sid (d_filename d))). rewrite Hx, gbind_good.
  cbv zeta. cbn [fn_end fn_info]. now rewrite <- app_assoc.
Qed.
End Server.
