(** * RetryFacts: downloads that are given up and tried again. *)
From Verif Require Import Base BaseFacts Text Win Errors Common Reply Ntlm Prog Client Spec SpecReply SpecMsg Api SpecCall
  Flow FlowFacts SpecRemote RefServer FileService FileFacts SpecDrop DropFacts SpecPool PoolFacts SpecTimeout TimeoutFacts.
Open Scope N_scope.
Set Implicit Arguments.

(** ** where a download can be dropped *)
Section Where.
Variable Sv : Type.
Variable react : Sv -> bytes -> reaction Sv.
Variable E : env.
Notation world := (world cifs Sv).

Lemma dropped_tree A (p q : M A) : same_tree p q -> forall w v : world, dropped react p w v -> dropped react q w v.
Proof.
  induction 1; intros w v Hd; cbn [dropped] in *; auto.
  - destruct Hd as [Hd|Hd]; [now left|right]. destruct (_ <=? _); [auto|]. destruct (tl w); auto.
  - destruct Hd as [Hd|[Hd|Hd]]; [now left|right; now left|right; right]. destruct (react (srv w) b) as [s' inc t|s' n e inc t]; destruct (deliver (tl w) (rx w) inc t); auto.
Qed.
Lemma dropped_interp fuel A (f : flow A) : user f -> forall w v : world, dropped react (interp E fuel f) w v ->
  exists R (c : call R) w1, comes_to react E fuel f w R c w1 /\ dropped react (exec E fuel c) w1 v.
Proof.
  induction 1 as [a| | |R c k Hu IH]; intros w v Hd; cbn [interp] in Hd; try contradiction.
  destruct (dropped_bind Hd) as [K|(r & w1 & Hr & K)].
  - exists R, c, w. split; [constructor|exact K].
  - destruct (IH _ _ _ K) as (Q & d & w2 & H1 & H2). exists Q, d, w2. split; [econstructor; eassumption|exact H2].
Qed.
Lemma comes_given_up fuel A (f : flow A) w R (c : call R) w1 v : comes_to react E fuel f w R c w1 -> given_up react E c w1 v ->
  exists n, times react E (attempt f TRet) w n None v.
Proof.
  induction 1 as [R c k w|R c k w r w2 Q d w1 Hr _ IH]; intros Hg; cbn [attempt].
  - exists 1%nat. eapply t_given_up; [exact Hg|constructor].
  - destruct (IH Hg) as (n & H). exists (S n). eapply t_done; [exact Hr|exact H].
Qed.
Lemma user_bind A B (p : flow A) (k : A -> flow B) : user p -> (forall a, user (k a)) -> user (fbind p k).
Proof. induction 1 as [[a|e]| | |R c f Hu IH]; intros Hk; cbn [fbind]; auto; constructor; auto. Qed.
Lemma user_fcall R (c : call R) : user (fcall c). Proof. constructor. constructor. Qed.
Lemma user_reads h n : forall data, user (download_reads n h data).
Proof.
  induction n as [|n IH]; intros data; cbn [download_reads]; [constructor|]. destruct (_ <? _); [|constructor].
  apply user_bind; [apply user_fcall|auto].
Qed.
Lemma user_download n s path : user (download_flow n s path).
Proof.
  apply user_bind; [apply user_fcall|]. intros h. apply user_bind; [apply user_reads|]. intros d.
  apply user_bind; [apply user_fcall|]. constructor.
Qed.
Lemma dropped_download fuel s path (w v : world) : dropped react (download E fuel s path) w v ->
  exists R (c : call R) w1, comes_to react E fuel (download_flow fuel s path) w R c w1 /\ dropped react (exec E fuel c) w1 v.
Proof. intros H. apply dropped_interp; [apply user_download|]. exact (dropped_tree (tree_download E fuel s path) _ _ H). Qed.
End Where.

(** ** at the service *)
Section Files.
Variable tree : text -> text -> option N.
Variable setup : server_setup.
Variable accepts : text -> text -> bytes -> option N.
Notation FS := (file_service tree setup accepts).
Variable who : N.
Variables (X : Type) (k : option (ans bytes) -> tprog X).
Variable d : bytes.

Lemma next_piece data : take (len data) d = data -> len data < len d ->
  take (len (data ++ take 65534 (drop (len data) d))) d = data ++ take 65534 (drop (len data) d).
Proof.
  intros Hp Hl. assert (Hd : d = data ++ drop (len data) d) by (rewrite <- Hp at 1; symmetry; apply take_drop).
  remember (drop (len data) d) as r. rewrite Hd. rewrite <- (take_drop 65534 r) at 2. rewrite app_assoc. apply take_exact.
Qed.
Lemma tlocal_reads h g n st a st' e : h_size h = len d -> opened (fs_open st) (h_fid h) = Some e ->
  contents (fs_files st) (fst e) (snd e) = Some d -> forall data, take (len data) d = data ->
  tlocal FS who (attempt (fbind (download_reads n h data) g) k) st a st' ->
  tlocal FS who (k None) st a st' \/ tlocal FS who (attempt (g d) k) st a st'.
Proof.
  intros Hs Ho Hc. destruct e as [t p]. cbn [fst snd] in Hc. induction n as [|n IH]; intros data Hp; cbn [download_reads]; [intros []|].
  rewrite Hs. destruct (N.ltb_spec (len data) (len d)) as [H|H].
  - unfold fcall. cbn [fbind attempt tlocal op_of file_service]. rewrite Ho, Hc. cbn [returned].
    intros [K|[K|K]]; [|now left|now left]. apply IH in K; [exact K|]. now apply next_piece.
  - cbn [fbind]. intros K. right. assert (data = d) as <-; [|exact K]. rewrite <- Hp. apply take_all. lia.
Qed.
Lemma sensible_reads unicode h g n st e : h_size h = len d -> u16 (h_tid h) -> u16 (h_fid h) -> len d < 2 ^ 64 ->
  opened (fs_open st) (h_fid h) = Some e ->
  contents (fs_files st) (fst e) (snd e) = Some d -> sensible FS who unicode (k None) st ->
  sensible FS who unicode (attempt (g d) k) st -> forall data, take (len data) d = data ->
  sensible FS who unicode (attempt (fbind (download_reads n h data) g) k) st.
Proof.
  intros Hs Ht Hf Hd Ho Hc Hn Hg. destruct e as [t p]. cbn [fst snd] in Hc. induction n as [|n IH]; intros data Hp; cbn [download_reads]; [exact I|].
  rewrite Hs. destruct (N.ltb_spec (len data) (len d)) as [H|H].
  - unfold fcall. cbn [fbind attempt sensible op_of file_service]. rewrite Ho, Hc. cbn [returned].
    split; [split; [split; [exact Ht|split; [exact Hf|lia]]|split; exact I]|]. split; [|split; exact Hn]. apply IH. now apply next_piece.
  - cbn [fbind]. assert (data = d) as ->; [|exact Hg]. rewrite <- Hp. apply take_all. lia.
Qed.

Variables (s : share) (path : text).
Notation tid := (sh_tid s).
Notation name := (backslashes path).
(** an attempt leaves at most a handle of the file open *)
Definition tried (st : files) (r : option (ans bytes)) (st1 : files) : Prop :=
  fs_files st1 = fs_files st /\ fs_next st <= fs_next st1 <= fs_next st + 1 /\ sound_files st1
  /\ ((r = Some (Good d) \/ r = None) /\ fs_open st1 = fs_open st
      \/ r = None /\ fs_open st1 = (fs_next st, (tid, name)) :: fs_open st).

Lemma sound_next st : sound_files st -> Forall (fun e : N * (N * text) => fst e < fs_next st + 1) (fs_open st).
Proof. intros H. eapply Forall_impl; [|exact H]. cbn. intros e He. lia. Qed.
Lemma tlocal_download n st a st' : sound_files st -> contents (fs_files st) tid name = Some d -> fs_next st < 65536 -> u16 tid -> len d < 2 ^ 64 ->
  tlocal FS who (attempt (download_flow n s path) k) st a st' ->
  exists r st1, tlocal FS who (k r) st1 a st' /\ tried st r st1.
Proof.
  intros Hs Hc Hn Ht Hd. unfold download_flow, fcall. cbn [fbind attempt tlocal op_of file_service]. rewrite Hc.
  replace (_ && _ && _) with true by (unfold u16 in Ht; lia). cbn [returned].
  set (st1 := mk_files _ _ _).
  assert (Hs1 : sound_files st1). { unfold st1, sound_files. cbn [fs_open fs_next]. constructor; [cbn [fst]; lia|now apply sound_next]. }
  assert (H1 : tried st None st1). { unfold tried. cbn [st1 fs_files fs_open fs_next]. repeat split; [lia|lia|exact Hs1|now right]. }
  assert (H0 : tried st None st). { unfold tried. repeat split; [lia|lia|exact Hs|]. left. split; [now right|reflexivity]. }
  intros [K|[K|K]]; [|exists None, st1; now split|exists None, st; now split].
  eapply tlocal_reads with (e := (tid, name)) in K;
    [|reflexivity|cbn [the_handle h_fid st1 fs_open opened]; rewrite N.eqb_refl; reflexivity|exact Hc|reflexivity].
  destruct K as [K|K]; [exists None, st1; now split|].
  cbn [fbind attempt tlocal op_of file_service the_handle h_fid st1 fs_open opened] in K. rewrite N.eqb_refl in K. cbn [returned fs_files fs_next] in K.
  fold st1 in K. set (st2 := mk_files _ (closed _ _) _) in K.
  assert (E2 : fs_open st2 = fs_open st). { unfold st2, closed. cbn [fs_open filter fst]. rewrite N.eqb_refl. cbn [negb]. apply closed_same, Hs. }
  assert (H2 : forall r, r = Some (Good d) \/ r = None -> tried st r st2).
  { intros r Hr. split; [reflexivity|]. change (fs_next st2) with (fs_next st + 1). split; [lia|].
    split; [unfold sound_files; rewrite E2; change (fs_next st2) with (fs_next st + 1); now apply sound_next|]. left. split; [exact Hr|exact E2]. }
  destruct K as [K|[K|K]]; [exists (Some (Good d)), st2|exists None, st2|exists None, st1]; (split; [exact K|]); auto.
Qed.
Lemma sensible_download unicode n st : sound_files st -> contents (fs_files st) tid name = Some d -> fs_next st < 65536 -> u16 tid -> len d < 2 ^ 64 ->
  is_str path -> fits_request unicode (OpenFile s path) -> (forall r st1, tried st r st1 -> sensible FS who unicode (k r) st1) ->
  sensible FS who unicode (attempt (download_flow n s path) k) st.
Proof.
  intros Hs Hc Hn Ht Hd Hp Hf Hk. unfold download_flow, fcall. cbn [fbind attempt sensible op_of file_service]. rewrite Hc.
  replace (_ && _ && _) with true by (unfold u16 in Ht; lia). cbn [returned].
  set (st1 := mk_files _ _ _).
  assert (Hs1 : sound_files st1). { unfold st1, sound_files. cbn [fs_open fs_next]. constructor; [cbn [fst]; lia|now apply sound_next]. }
  assert (H1 : tried st None st1). { unfold tried. cbn [st1 fs_files fs_open fs_next]. repeat split; [lia|lia|exact Hs1|now right]. }
  assert (H0 : tried st None st). { unfold tried. repeat split; [lia|lia|exact Hs|]. left. split; [now right|reflexivity]. }
  split; [split; [split; assumption|split; [exact I|exact Hf]]|]. split; [|split; now apply Hk].
  eapply sensible_reads with (e := (tid, name));
    [reflexivity|exact Ht|exact Hn|exact Hd|cbn [the_handle h_fid st1 fs_open opened]; rewrite N.eqb_refl; reflexivity|exact Hc|now apply Hk| |reflexivity].
  cbn [fbind attempt sensible op_of file_service the_handle h_fid st1 fs_open opened]. rewrite N.eqb_refl. cbn [returned fs_files fs_next].
  fold st1. set (st2 := mk_files _ (closed _ _) _).
  assert (E2 : fs_open st2 = fs_open st). { unfold st2, closed. cbn [fs_open filter fst]. rewrite N.eqb_refl. cbn [negb]. apply closed_same, Hs. }
  assert (H2 : forall r, r = Some (Good d) \/ r = None -> tried st r st2).
  { intros r Hr. split; [reflexivity|]. change (fs_next st2) with (fs_next st + 1). split; [lia|].
    split; [unfold sound_files; rewrite E2; change (fs_next st2) with (fs_next st + 1); now apply sound_next|]. left. split; [exact Hr|exact E2]. }
  split; [split; [split; [exact Ht|exact Hn]|split; exact I]|]. split; [|split]; apply Hk; auto.
Qed.
End Files.

Section Retry.
Variable tree : text -> text -> option N.
Variable setup : server_setup.
Variable accepts : text -> text -> bytes -> option N.
Notation FS := (file_service tree setup accepts).
Variables (s : share) (path : text) (d : bytes).

Lemma tlocal_retry who n j : forall st a st', sound_files st -> contents (fs_files st) (sh_tid s) (backslashes path) = Some d ->
  fs_next st + N.of_nat j <= 65536 -> u16 (sh_tid s) -> len d < 2 ^ 64 ->
  tlocal FS who (retry j (download_flow n s path)) st a st' ->
  (sound_files st' /\ fs_next st' <= fs_next st + N.of_nat j) /\
  (a = None \/ a = Some (Good d)) /\ fs_files st' = fs_files st
  /\ exists left, fs_open st' = left ++ fs_open st /\ (length left <= j)%nat /\ (a <> None -> (length left < j)%nat)
     /\ Forall (fun e => snd e = (sh_tid s, backslashes path)) left.
Proof.
  induction j as [|j IH]; intros st a st' Hs Hc Hn Ht Hd H; cbn [retry] in H.
  - destruct H as (-> & ->). split; [split; [exact Hs|lia]|]. split; [now left|]. split; [reflexivity|]. exists []. cbn. repeat split; [lia|congruence|constructor].
  - eapply tlocal_download with (d := d) in H; [|assumption|assumption|lia|assumption|assumption].
    destruct H as (r & st1 & K & Hf & Hx & Hs1 & Ho).
    assert (Hr : r = Some (Good d) /\ fs_open st1 = fs_open st
                 \/ r = None /\ exists l, fs_open st1 = l ++ fs_open st /\ (length l <= 1)%nat /\ Forall (fun e => snd e = (sh_tid s, backslashes path)) l).
    { destruct Ho as [([-> | ->] & Ho)|(-> & Ho)]; [now left|right..]; (split; [reflexivity|]).
      - exists []. repeat split; [exact Ho|cbn; lia|constructor].
      - exists [(fs_next st, (sh_tid s, backslashes path))]. repeat split; [exact Ho|cbn; lia|repeat constructor]. }
    destruct Hr as [(-> & Hr)|(-> & l & Hr & Hl & Hfl)].
    + destruct K as (-> & ->). split; [split; [exact Hs1|lia]|]. split; [now right|]. split; [exact Hf|]. exists []. repeat split; [exact Hr|cbn; lia|cbn; lia|constructor].
    + apply IH in K; [|exact Hs1|rewrite Hf; exact Hc|lia|exact Ht|exact Hd].
      destruct K as (Kx & Ka & Kf & l' & Kl & Kn & Ks & Kfl). split; [split; [apply Kx|lia]|]. split; [exact Ka|]. split; [now rewrite Kf|].
      exists (l' ++ l). rewrite Kl, Hr, app_assoc, app_length. repeat split; [lia|intros Hn0; apply Ks in Hn0; lia|].
      apply Forall_app. now split.
Qed.
Lemma sensible_retry who unicode n j : forall st, sound_files st -> contents (fs_files st) (sh_tid s) (backslashes path) = Some d ->
  fs_next st + N.of_nat j <= 65536 -> u16 (sh_tid s) -> len d < 2 ^ 64 -> is_str path -> fits_request unicode (OpenFile s path) ->
  sensible FS who unicode (retry j (download_flow n s path)) st.
Proof.
  induction j as [|j IH]; intros st Hs Hc Hn Ht Hd Hp Hf; cbn [retry]; [exact I|].
  eapply sensible_download with (d := d); try assumption; [lia|]. intros r st1 (Ef & Hx & Hs1 & _). destruct r; [exact I|].
  apply IH; try assumption; [rewrite Ef; exact Hc|lia].
Qed.
Lemma retry_download Sv (react : Sv -> bytes -> reaction Sv) abs E w n j m a w' :
  conforming react FS abs -> prompt react -> typed_client (cl w) -> idle w -> sound_files (abs (srv w)) ->
  contents (fs_files (abs (srv w))) (sh_tid s) (backslashes path) = Some d -> fs_next (abs (srv w)) + N.of_nat j <= 65536 ->
  u16 (sh_tid s) -> len d < 2 ^ 64 -> is_str path -> fits_request (use_unicode (cl w)) (OpenFile s path) ->
  mid (cl w) + N.of_nat m <= 65535 -> times react E (retry j (download_flow n s path)) w m a w' ->
  (a = None \/ a = Some (Good d)) /\ fs_files (abs (srv w')) = fs_files (abs (srv w))
  /\ exists left, fs_open (abs (srv w')) = left ++ fs_open (abs (srv w)) /\ (length left <= j)%nat /\ (a <> None -> (length left < j)%nat)
     /\ Forall (fun e => snd e = (sh_tid s, backslashes path)) left.
Proof.
  intros Hconf Hpr Hty Hid Hs Hc Hn Ht Hd Hp Hf Hm H.
  eapply proj2, tlocal_retry with (who := uid (cl w)) (n := n); try eassumption.
  eapply at_most_once; try eassumption. now apply sensible_retry.
Qed.
Lemma retry_again Sv (react : Sv -> bytes -> reaction Sv) abs E w n j m a w' :
  conforming react FS abs -> prompt react -> typed_client (cl w) -> idle w -> sound_files (abs (srv w)) ->
  contents (fs_files (abs (srv w))) (sh_tid s) (backslashes path) = Some d -> fs_next (abs (srv w)) + N.of_nat j < 65536 ->
  u16 (sh_tid s) -> len d < 2 ^ 64 -> is_str path -> fits_request (use_unicode (cl w)) (OpenFile s path) ->
  mid (cl w) + N.of_nat (m + (2 + pieces (len d) 65534)) <= 65535 -> times react E (retry j (download_flow n s path)) w m a w' ->
  exists k w2, forall fuel, (k <= fuel)%nat -> run react (download E fuel s path) w' = Done (Good d) w2.
Proof.
  intros Hconf Hpr Hty Hid Hs Hc Hn Ht Hd Hp Hf Hm H.
  assert (Hse : sensible FS (uid (cl w)) (use_unicode (cl w)) (retry j (download_flow n s path)) (abs (srv w)))
    by (apply sensible_retry; try assumption; lia).
  destruct (@times_local _ _ _ _ _ Hconf Hpr _ _ _ _ _ _ _ H (use_unicode (cl w)) (uid (cl w)) (2 + pieces (len d) 65534)) as [HL (F1 & F2 & F3 & F4 & F5)].
  - split; [exact Hty|]. split; [now apply idle_stale|]. split; [reflexivity|]. split; [reflexivity|]. lia.
  - exact Hse.
  - apply tlocal_retry in HL; try assumption; [|lia]. destruct HL as ((Hs' & Hn') & _ & Hff & _).
    pose proof (@file_there tree setup accepts (abs (srv w')) (uid (cl w)) (sh_tid s) (backslashes path) d Hs'
      ltac:(rewrite Hff; exact Hc) ltac:(lia) Ht Hd) as Hfa. rewrite <- F3 in Hf.
    destruct (local_download (n := S (length d)) Hfa Ht Hp Hf F4 Hd ltac:(lia)) as (m' & c' & st' & HL & Hov & Hu & Hm' & Huc).
    destruct (stale_local Hconf E HL eq_refl eq_refl F1 F2 ltac:(lia)) as (k & w2 & Hrun & _).
    exists (Nat.max k (S (length d))), w2. intros fuel Hfu. rewrite (download_same E fuel s path).
    eapply run_less; [|apply Hrun; lia]. apply less_download. lia.
Qed.
End Retry.
