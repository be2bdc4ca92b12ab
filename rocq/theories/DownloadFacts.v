(** * DownloadFacts: C28-C31, C24, C25 *)
From Verif Require Import Base Text Utils Win Errors Info Common Msg Reply Ntlm Prog Client Spec SpecReply SpecCrash SpecMsg
  Api SpecCall Flow Sample BaseFacts TextFacts RunFacts SpecFacts InfoFacts ClientFacts MsgFacts ReplyFacts CallFacts FindFacts
  SizeFacts FlowFacts WrapFacts AnswerFacts LoopFacts.
Open Scope N_scope.
Set Implicit Arguments.
Unset Strict Implicit.

Lemma take_add A m n (l : list A) : take (m + n) l = take m l ++ take n (drop m l).
Proof.
  unfold take, drop. rewrite N2Nat.inj_add. generalize (N.to_nat m) as i, (N.to_nat n) as j. clear.
  intros i. revert l. induction i as [|i IH]; intros l j; [reflexivity|]. destruct l as [|x l]; cbn; [now rewrite firstn_nil|]. now rewrite IH.
Qed.
Section Server.
Variable Sv : Type.
Variable react : Sv -> bytes -> reaction Sv.
Notation world := (world cifs Sv).
Notation run := (run react).
Variable E : env.
Variable fuel : nat.

(** ** C28 *)
(** the server serves [content] under the handle [h], as long as [P] holds: a read at
    position [o] is answered by some bytes of the content from [o] on *)
Definition serves (h : handle) (content : bytes) (P : N -> world -> Prop) : Prop :=
  forall o w, P o w -> o < len content -> exists w1 p rest chunk,
    answered react E fuel (ReadAt h o) w w1 p rest /\ (length (rx w1) < fuel)%nat
    /\ read_of p chunk /\ chunk <> [] /\ bytes_at content o (len chunk) = Some chunk
    /\ P (o + len chunk) (leaving w1 rest).

Lemma serves_reads h content P : serves h content P -> h_size h = len content ->
  forall n data w, P (len data) w -> data = take (len data) content -> len content <= len data + N.of_nat n ->
  exists l w', reads react E fuel h data w l w' /\ data ++ concat l = content /\ P (len content) w' /\ (length l <= n)%nat.
Proof.
  intros Hsv Hsz. induction n as [|n IH]; intros data w HP Hd Hn.
  - exists [], w. cbn [concat length]. rewrite app_nil_r. assert (Hx : data = content) by (rewrite Hd; apply take_all; lia).
    split; [constructor|]. split; [exact Hx|]. split; [now rewrite Hx in HP|lia].
  - destruct (N.ltb_spec (len data) (len content)) as [Hl|Hl].
    + destruct (Hsv _ _ HP Hl) as (w1 & p & rest & chunk & Ha & Hf & Hr & Hc & Hb & HP').
      assert (Hc1 : 1 <= len chunk) by (destruct chunk; [easy|rewrite len_cons; lia]).
      assert (Hrun : run (exec E fuel (ReadAt h (len data))) w = Done (Good chunk) (leaving w1 rest)).
      { eapply answer_complete; [exact I|exact Hf|exact Ha|exact Hr]. }
      apply bytes_at_some in Hb. destruct Hb as [Hb1 Hb2].
      destruct (IH (data ++ chunk) (leaving w1 rest)) as (l & w' & H1 & H2 & H3 & H4).
      * now rewrite len_app.
      * rewrite len_app. rewrite Hd at 1. rewrite Hb2 at 1. symmetry. apply take_add.
      * rewrite len_app. lia.
      * exists (chunk :: l), w'. split; [econstructor; eauto; lia|]. cbn [concat length]. rewrite <- app_assoc in H2.
        split; [exact H2|]. split; [exact H3|lia].
    + exists [], w. cbn [concat length]. rewrite app_nil_r. assert (Hx : data = content) by (rewrite Hd; apply take_all; lia).
      split; [constructor|]. split; [exact Hx|]. split; [now rewrite Hx in HP|lia].
Qed.

(** [fs] are requests that read at [o], at the position behind the first chunk, ..., always below the size *)
Inductive read_frames (h : handle) : N -> list bytes -> list bytes -> Prop :=
| rf_none o : read_frames h o [] []
| rf_more o st c cs f l : o < h_size h -> request (exec E fuel (ReadAt h o)) st = Some f ->
    read_frames h (o + len c) cs l -> read_frames h o (c :: cs) (f :: l).

Lemma good_written R (c : call R) w v w' : run (exec E fuel c) w = Done (Good v) w' ->
  exists f, request (exec E fuel c) (cl w) = Some f /\ tx w' = tx w ++ [f] /\ cl w' = next_client (cl w).
Proof.
  intros H. pose proof (call_answered H) as [(f & H1 & H2)|[(_ & _ & e & [=])|(f & n & e & _ & _ & [=])]].
  exists f. split; [exact H1|]. split; [exact H2|].
  destruct (call_once react E fuel c w) as (l & Hx & Hw). rewrite H in Hx, Hw. cbn [final] in Hx, Hw.
  remember (cl w') as st' eqn:Hst. destruct Hw as [g Hg|g n Hg|Hn Hm|Hfull]; auto.
  exfalso. rewrite Hx in H2. apply app_inv_head in H2. discriminate.
Qed.
Lemma reads_frames h data w l w1 : reads react E fuel h data w l w1 ->
  exists fs, tx w1 = tx w ++ fs /\ read_frames h (len data) l fs.
Proof.
  intros H. induction H as [data w|data w chunk w1 l w2 Hl Hr H IH].
  - exists []. rewrite app_nil_r. split; [reflexivity|constructor].
  - destruct IH as (fs & H1 & H2). apply good_written in Hr. destruct Hr as (f & Hf & Hx & _).
    exists (f :: fs). rewrite H1, Hx, <- app_assoc. split; [reflexivity|].
    econstructor; [exact Hl|exact Hf|]. rewrite len_app in H2. exact H2.
Qed.

Lemma download_exact s path w w1 p rest h content (P : N -> world -> Prop) :
  answered react E fuel (OpenFile s path) w w1 p rest -> (length (rx w1) < fuel)%nat -> handle_of p h ->
  h_size h = len content -> (length content < fuel)%nat ->
  P 0 (leaving w1 rest) -> serves h content P ->
  (forall w', P (len content) w' -> exists w2 p2 rest2, answered react E fuel (Close h) w' w2 p2 rest2
     /\ (length (rx w2) < fuel)%nat /\ plain_reply p2) ->
  exists w' fo fs fc, run (download E fuel s path) w = Done (Good content) w'
   /\ tx w' = tx w ++ [fo] ++ fs ++ [fc]
   /\ request (exec E fuel (OpenFile s path)) (cl w) = Some fo
   /\ (exists chunks, concat chunks = content /\ read_frames h 0 chunks fs)
   /\ exists st, request (exec E fuel (Close h)) st = Some fc.
Proof.
  intros Ha Hf Hh Hsz Hlen HP Hsv Hcl.
  assert (Ho : run (exec E fuel (OpenFile s path)) w = Done (Good h) (leaving w1 rest)) by (eapply answer_complete; [exact I| |eassumption|]; assumption).
  destruct (serves_reads Hsv Hsz (n := length content) (data := []) (w := leaving w1 rest)) as (l & w' & H1 & H2 & H3 & H4).
  - exact HP.
  - now rewrite take_0.
  - unfold len. cbn. lia.
  - cbn [app] in H2. destruct (Hcl _ H3) as (w2 & p2 & rest2 & Hc1 & Hc2 & Hc3).
    assert (Hc : run (exec E fuel (Close h)) w' = Done (Good tt) (leaving w2 rest2)) by (eapply answer_complete; [exact I| |eassumption|]; assumption).
    destruct (good_written Ho) as (fo & Hfo & Hxo & _). destruct (good_written Hc) as (fc & Hfc & Hxc & _).
    destruct (reads_frames H1) as (fs & Hxr & Hfr).
    exists (leaving w2 rest2), fo, fs, fc. split; [|split; [|split; [exact Hfo|split; [exists l; split; [exact H2|exact Hfr]|eauto]]]].
    + rewrite <- H2. eapply download_done; [|exact Ho|exact H1| |exact Hc]; [lia|]. rewrite H2. lia.
    + rewrite Hxc, Hxr, Hxo. now rewrite <- !app_assoc.
Qed.

(** ** C30, C31 *)
(** the chunks of a download: answered reads at the position reached *)
Lemma reads_chunks h data w l w1 : reads react E fuel h data w l w1 -> len data < h_size h + 65535 ->
  len (data ++ concat l) < h_size h + 65535.
Proof.
  intros H. induction H as [data w|data w chunk w1 l w2 Hl Hr H IH]; intros Hd; cbn [concat].
  - now rewrite app_nil_r.
  - rewrite app_assoc. apply IH. apply read_good in Hr. destruct Hr as (_ & _ & _ & _ & _ & Hc). rewrite len_app. lia.
Qed.
Lemma download_size s path w v w' : run (download E fuel s path) w = Done (Good v) w' ->
  exists h w1, run (exec E fuel (OpenFile s path)) w = Done (Good h) w1 /\ h_size h <= len v < h_size h + 65535.
Proof.
  intros H. destruct (download_cases react E fuel s path w) as [Hf|h w1 l w2 w3 H1 H2 H3 H4 H5|h w1 l w2 H1 H2 H3 H4|h w1 l w2 H1 H2 H3 H4|h w1 l w2 H1 H2 H3 H4].
  - exfalso. rewrite H in Hf. destruct (run (exec E fuel (OpenFile s path)) w) as [[?|?] ?|?|?|?]; cbn in Hf; easy.
  - rewrite H in H5. injection H5 as -> ->. exists h, w1. split; [exact H1|]. split; [exact H3|].
    apply reads_chunks in H2; [exact H2|]. change (len (@nil byte)) with 0. lia.
  - exfalso. rewrite H in H4. destruct (run (exec E fuel (Close h)) w2) as [[?|?] ?|?|?|?]; cbn in H4; easy.
  - exfalso. rewrite H in H4. destruct (run (exec E fuel (ReadAt h (len (concat l)))) w2) as [[?|?] ?|?|?|?]; cbn in H4; easy.
  - congruence.
Qed.
(** no read is answered by more than asked for beyond the end: then the size is exact *)
Inductive polite (h : handle) : bytes -> list bytes -> Prop :=
| polite_none data : polite h data []
| polite_more data c l : len data + len c <= h_size h -> polite h (data ++ c) l -> polite h data (c :: l).
Lemma download_parts s path w v w' : run (download E fuel s path) w = Done (Good v) w' ->
  exists h w1 l w2, run (exec E fuel (OpenFile s path)) w = Done (Good h) w1 /\ reads react E fuel h [] w1 l w2
   /\ v = concat l /\ run (exec E fuel (Close h)) w2 = Done (Good tt) w'
   /\ (polite h [] l -> len v = h_size h).
Proof.
  intros H. destruct (download_cases react E fuel s path w) as [Hf|h w1 l w2 w3 H1 H2 H3 H4 H5|h w1 l w2 H1 H2 H3 H4|h w1 l w2 H1 H2 H3 H4|h w1 l w2 H1 H2 H3 H4].
  - exfalso. rewrite H in Hf. destruct (run (exec E fuel (OpenFile s path)) w) as [[?|?] ?|?|?|?]; cbn in Hf; easy.
  - rewrite H in H5. injection H5 as -> ->. exists h, w1, l, w2. split; [exact H1|]. split; [exact H2|]. split; [reflexivity|].
    split; [exact H4|]. intros Hp.
    assert (G : forall data l, polite h data l -> len data <= h_size h -> len (data ++ concat l) <= h_size h).
    { clear. intros data l Hp. induction Hp as [data|data c l Hc Hp IH]; intros Hd; cbn [concat]; [now rewrite app_nil_r|].
      rewrite app_assoc. apply IH. rewrite len_app. exact Hc. }
    apply G in Hp; [|change (len (@nil byte)) with 0; lia]. cbn [app] in Hp. lia.
  - exfalso. rewrite H in H4. destruct (run (exec E fuel (Close h)) w2) as [[?|?] ?|?|?|?]; cbn in H4; easy.
  - exfalso. rewrite H in H4. destruct (run (exec E fuel (ReadAt h (len (concat l)))) w2) as [[?|?] ?|?|?|?]; cbn in H4; easy.
  - congruence.
Qed.
(** when a download returns, the handle was closed (or closing failed), or a read failed *)
Lemma download_closes s path w a w' : run (download E fuel s path) w = Done a w' ->
  (exists e, a = Bad e /\ run (exec E fuel (OpenFile s path)) w = Done (Bad e) w')
  \/ exists h w1 l w2, run (exec E fuel (OpenFile s path)) w = Done (Good h) w1 /\ reads react E fuel h [] w1 l w2
   /\ ((exists r, run (exec E fuel (Close h)) w2 = Done r w')
       \/ exists e, a = Bad e /\ run (exec E fuel (ReadAt h (len (concat l)))) w2 = Done (Bad e) w').
Proof.
  intros H. destruct (download_cases react E fuel s path w) as [Hf|h w1 l w2 w3 H1 H2 H3 H4 H5|h w1 l w2 H1 H2 H3 H4|h w1 l w2 H1 H2 H3 H4|h w1 l w2 H1 H2 H3 H4].
  - left. rewrite H in Hf. destruct (run (exec E fuel (OpenFile s path)) w) as [[?|?] ?|?|?|?]; cbn in Hf; try easy.
    injection Hf as -> ->. eauto.
  - right. rewrite H in H5. injection H5 as -> ->. exists h, w1, l, w2. eauto 8.
  - right. exists h, w1, l, w2. rewrite H in H4. split; [exact H1|]. split; [exact H2|]. left.
    destruct (run (exec E fuel (Close h)) w2) as [[?|?] ?|?|?|?]; cbn in H4; try easy. injection H4 as -> ->. eauto.
  - right. exists h, w1, l, w2. rewrite H in H4. split; [exact H1|]. split; [exact H2|]. right.
    destruct (run (exec E fuel (ReadAt h (len (concat l)))) w2) as [[?|?] ?|?|?|?]; cbn in H4; try easy. injection H4 as -> ->. eauto.
  - congruence.
Qed.

(** ** C29: a download that does not come to an end has received an empty chunk
    (or one of its calls does not come to an end) *)

(** ** C24 *)
Lemma list_crash s pattern w w' : run (list_dir E fuel s pattern) w = Crashed w' ->
  exists v, run (exec E fuel (FindFirst s pattern)) v = Crashed w'
   \/ exists sid name, run (exec E fuel (FindNext s sid name)) v = Crashed w'.
Proof.
  intros H. destruct (list_cases react E fuel s pattern w) as [Hf|sid l w1 H1 H2|sid l w1 H1 H2].
  - exists w. left. rewrite H in Hf. destruct (run (exec E fuel (FindFirst s pattern)) w) as [[?|?] ?|?|?|?]; cbn in Hf; try easy; congruence.
  - congruence.
  - destruct H2 as [name ls w2 l' w3 G1 G2 G3 G4 G5|name ls w2 G1 G2 G3|ls w2 G1 G2 G3]; [congruence| |congruence].
    exists w2. right. exists sid, name. rewrite H in G3.
    destruct (run (exec E fuel (FindNext s sid name)) w2) as [[?|?] ?|?|?|?]; cbn in G3; try easy; congruence.
Qed.
Lemma first_counts s pattern w r w' : run (exec E fuel (FindFirst s pattern)) w = Done (Good r) w' ->
  (exists f w1 fs a b, request (exec E fuel (FindFirst s pattern)) (cl w) = Some f /\ asked react w f w1
    /\ fragments_arrive (mid (cl w)) (rx w1) fs (rx w') /\ split_of fs a b
    /\ u16_at a 2 = Some (len (ff_info r)) /\ u16_at a 0 = Some (ff_sid r))
  /\ (ff_info r = [] -> ff_end r = true).
Proof.
  intros H. apply find_good in H; [|cbn; tauto]. destruct H as (f & v & fs & a & b & H1 & H2 & H3 & H4 & _ & Hf & _).
  cbn in Hf. destruct Hf as (_ & Hs & Hc & _ & _ & Hx). split; [|exact Hx]. exists f, v, fs, a, b. auto 10.
Qed.
Lemma next_counts s sid name w r w' : run (exec E fuel (FindNext s sid name)) w = Done (Good r) w' ->
  (exists f w1 fs a b, request (exec E fuel (FindNext s sid name)) (cl w) = Some f /\ asked react w f w1
    /\ fragments_arrive (mid (cl w)) (rx w1) fs (rx w') /\ split_of fs a b
    /\ u16_at a 0 = Some (len (fn_info r)))
  /\ (fn_info r = [] -> fn_end r = true).
Proof.
  intros H. apply find_good in H; [|cbn; tauto]. destruct H as (f & v & fs & a & b & H1 & H2 & H3 & H4 & _ & Hf & _).
  cbn in Hf. destruct Hf as (Hc & _ & _ & Hx). split; [|exact Hx]. exists f, v, fs, a, b. auto 10.
Qed.

(** ** C25 *)
(** a search call [c] made in world [w] is answered: all fragments of the two blocks arrive *)
Definition searched {R} (c : call R) (w : world) (r : R) (w' : world) : Prop :=
  exists f w1 fs a b rest, request (exec E fuel c) (cl w) = Some f /\ asked react w f w1
  /\ (length (rx w1) < fuel)%nat
  /\ fragments_arrive (mid (cl w)) (rx w1) fs rest /\ split_of fs a b /\ last_completes fs (len a) (len b)
  /\ found_in c a b r /\ w' = leaving w1 rest.
(** the rest of a directory, in batches: each is asked for with the id of the search and the name
    of the last entry so far; the last one is marked as such *)
Inductive batches (s : share) (sid : N) : list dir_info -> world -> list (list dir_info) -> world -> Prop :=
| b_last sofar name w l w' : last_name sofar name ->
    searched (FindNext s sid name) w (mk_found_next true l) w' -> batches s sid sofar w [l] w'
| b_more sofar name w l w1 ls w' : last_name sofar name ->
    searched (FindNext s sid name) w (mk_found_next false l) w1 ->
    batches s sid (sofar ++ l) w1 ls w' -> batches s sid sofar w (l :: ls) w'.
Lemma searched_run R (c : call R) w r w' : ~ single_reply c -> searched c w r w' -> run (exec E fuel c) w = Done (Good r) w'.
Proof.
  intros Hs (f & w1 & fs & a & b & rest & H1 & H2 & H3 & H4 & H5 & H6 & H7 & ->). eapply find_complete; eauto.
Qed.
Lemma batches_nexts s sid sofar w ls w' : batches s sid sofar w ls w' -> exists ls1 l w1 name, ls = ls1 ++ [l]
  /\ nexts react E fuel s sid sofar w ls1 w1 /\ last_name (sofar ++ concat ls1) name
  /\ run (exec E fuel (FindNext s sid name)) w1 = Done (Good (mk_found_next true l)) w'.
Proof.
  intros H. induction H as [sofar name w l w' Hn Hs|sofar name w l w1 ls w' Hn Hs H IH].
  - exists [], l, w, name. cbn [concat app]. rewrite app_nil_r. split; [reflexivity|]. split; [constructor|]. split; [exact Hn|].
    apply searched_run in Hs; [exact Hs|cbn; tauto].
  - destruct IH as (ls1 & l' & w2 & name' & -> & H1 & H2 & H3). exists (l :: ls1), l', w2, name'. split; [reflexivity|].
    cbn [concat]. rewrite app_assoc. split; [|split; [exact H2|exact H3]]. econstructor; [exact Hn| |exact H1].
    apply searched_run in Hs; [exact Hs|cbn; tauto].
Qed.
Lemma list_whole s pattern sid w l w1 ls w' : (length ls <= fuel)%nat ->
  searched (FindFirst s pattern) w (mk_found sid false l) w1 -> batches s sid l w1 ls w' ->
  run (list_dir E fuel s pattern) w = Done (Good (l ++ concat ls)) w'.
Proof.
  intros Hf Hs Hb. apply batches_nexts in Hb. destruct Hb as (ls1 & l' & w2 & name & -> & H1 & H2 & H3).
  apply searched_run in Hs; [|cbn; tauto]. rewrite concat_app. cbn [concat]. rewrite app_nil_r.
  eapply list_done; eauto. rewrite app_length in Hf. cbn in Hf. lia.
Qed.
Lemma list_single s pattern sid w l w1 : searched (FindFirst s pattern) w (mk_found sid true l) w1 ->
  run (list_dir E fuel s pattern) w = Done (Good l) w1.
Proof.
  intros Hs. apply searched_run in Hs; [|cbn; tauto]. unfold list_dir. rewrite run_mbind.
  change (find_first E fuel s pattern) with (exec E fuel (FindFirst s pattern)). now rewrite Hs.
Qed.
(** whenever list succeeds, it is in one of these ways *)
Inductive batched (s : share) (sid : N) : list dir_info -> world -> list (list dir_info) -> world -> Prop :=
| bd_last sofar name w l w' : last_name sofar name ->
    run (exec E fuel (FindNext s sid name)) w = Done (Good (mk_found_next true l)) w' -> batched s sid sofar w [l] w'
| bd_more sofar name w l w1 ls w' : last_name sofar name ->
    run (exec E fuel (FindNext s sid name)) w = Done (Good (mk_found_next false l)) w1 ->
    batched s sid (sofar ++ l) w1 ls w' -> batched s sid sofar w (l :: ls) w'.
Lemma nexts_batched s sid sofar w ls w1 : nexts react E fuel s sid sofar w ls w1 -> forall name l w',
  last_name (sofar ++ concat ls) name ->
  run (exec E fuel (FindNext s sid name)) w1 = Done (Good (mk_found_next true l)) w' ->
  batched s sid sofar w (ls ++ [l]) w'.
Proof.
  intros H. induction H as [sofar w|sofar name w l w1 ls w2 Hn Hr H IH]; intros name' l' w' H1 H2.
  - cbn [concat] in H1. rewrite app_nil_r in H1. eapply bd_last; eauto.
  - cbn [concat] in H1. rewrite app_assoc in H1. cbn [app]. eapply bd_more; eauto.
Qed.
Lemma list_parts s pattern w v w' : run (list_dir E fuel s pattern) w = Done (Good v) w' ->
  exists sid l w1, 
   (run (exec E fuel (FindFirst s pattern)) w = Done (Good (mk_found sid true l)) w' /\ v = l)
   \/ (run (exec E fuel (FindFirst s pattern)) w = Done (Good (mk_found sid false l)) w1
       /\ exists ls, batched s sid l w1 ls w' /\ v = l ++ concat ls).
Proof.
  intros H. destruct (list_cases react E fuel s pattern w) as [Hf|sid l w1 H1 H2|sid l w1 H1 H2].
  - rewrite H in Hf. destruct (run (exec E fuel (FindFirst s pattern)) w) as [[?|?] ?|?|?|?]; cbn in Hf; easy.
  - rewrite H in H2. injection H2 as -> ->. exists sid, l, w1. left. auto.
  - exists sid, l, w1. right. split; [exact H1|].
    destruct H2 as [name ls w2 l' w3 G1 G2 G3 G4 G5|name ls w2 G1 G2 G3|ls w2 G1 G2 G3].
    + rewrite H in G4. injection G4 as -> ->. exists (ls ++ [l']). split; [eapply nexts_batched; eauto|].
      rewrite concat_app. cbn [concat]. now rewrite app_nil_r, app_assoc.
    + exfalso. rewrite H in G3. destruct (run (exec E fuel (FindNext s sid name)) w2) as [[?|?] ?|?|?|?]; cbn in G3; easy.
    + congruence.
Qed.
End Server.

(** ** C29: a server that sends empty chunks *)
Definition open_words (size : N) : bytes :=
  [xff; x00; x00; x00] ++ [x00] ++ le 2 9 ++ le 4 1 ++ zeros 32 ++ zeros 4 ++ zeros 8 ++ le 8 size ++ zeros 4 ++ [x00] ++ zeros 0.
Definition read_words (n : N) : bytes := [xff; x00; x00; x00] ++ zeros 6 ++ le 2 n ++ zeros 12.
Definition zero_server (s : bool * N) (_ : bytes) : reaction (bool * N) :=
  Accept (true, (snd s + 1) mod 65536)
    (session_message (if fst s then message 0x2e 0 (snd s) (read_words 0) [] else message 0xa2 0 (snd s) (open_words 100) [])) Open.
Definition zero_world (opened : bool) (m : N) (l : list bytes) : world cifs (bool * N) :=
  mk_world (mk_cifs default_auth 4356 true 7 m) (opened, m) [] Open l.
Definition zero_handle : handle := mk_handle 5 9 0 1 0 0 0 0 0 0 100 0 false.
Lemma message_reply code st m w d : In code known_codes -> code < 256 -> st < 4294967296 -> m < 65536 ->
  smb_reply (message code st m w d) code st m.
Proof.
  intros Hk Hc Hs Hm. unfold message, header.
  change magic with (le 4 0x424d53ff). change [x98] with (le 1 0x98). change (zeros 12) with (le 4 0 ++ le 8 0).
  unfold smb_reply. split; [|split; [|split; [|split; [|split; [|split]]]]].
  - len_lia.
  - reflexivity.
  - now fields.
  - exact Hk.
  - now fields.
  - exists 0x98. split; [now fields|reflexivity].
  - now fields.
Qed.
Lemma len_header code st f2 tid uid m : len (header code st f2 tid uid m) = 32.
Proof. reflexivity. Qed.
Lemma message_parts code st m w d : len w mod 2 = 0 -> len w < 512 -> len d < 65536 ->
  smb_parts (message code st m w d) w d [].
Proof.
  intros H1 H2 H3. exists (header code st 0xc801 5 7 m), (len w / 2). split; [apply len_header|].
  split; [lia|]. split; [lia|]. split; [exact H3|]. unfold message, body. f_equal. rewrite app_nil_r. reflexivity.
Qed.
Lemma len_message code st m w d : len (message code st m w d) = 35 + len w + len d.
Proof. unfold message, body. rewrite !len_app, len_header, !len_le. lia. Qed.
Lemma len_session p : len (session_message p) = 4 + len p.
Proof. apply len_nb_frame. Qed.
Lemma message_tid code st m w d : code < 256 -> st < 4294967296 -> u16_at (message code st m w d) 24 = Some 5.
Proof.
  intros Hc Hs. unfold message, header.
  change magic with (le 4 0x424d53ff). change [x98] with (le 1 0x98). change (zeros 12) with (le 4 0 ++ le 8 0). now fields.
Qed.
Lemma zero_call fuel R (c : call R) (b : bool) m l (v : R) : single_reply c -> fits_request true c -> m < 65536 -> (200 <= fuel)%nat ->
  opcode c = (if b then 0x2e else 0xa2) ->
  decodes c (if b then message 0x2e 0 m (read_words 0) [] else message 0xa2 0 m (open_words 100) []) v ->
  exists f, run zero_server (exec (env0 false) fuel c) (zero_world b m l)
    = Done (Good v) (zero_world true ((m + 1) mod 65536) (l ++ [f])).
Proof.
  intros Hs Hfit Hm Hf Hop Hd.
  destruct (proj2 (request_iff (env0 false) fuel c (cl (zero_world b m l)))) as [f Hr].
  { split; [exact Hfit|]. intros [H _]. discriminate. }
  exists f. set (p := if b then message _ _ _ _ _ else message _ _ _ _ _) in *.
  assert (Hl : len p < 190) by (subst p; destruct b; rewrite len_message; vm_compute; reflexivity).
  replace (zero_world true ((m + 1) mod 65536) (l ++ [f]))
    with (leaving (mk_world (next_client (cl (zero_world b m l))) (true, (m + 1) mod 65536) (session_message p) Open (l ++ [f])) [])
    by reflexivity.
  eapply answer_complete with (p := p); [exact Hs| | |exact Hd].
  - cbn [rx]. pose proof (len_session p). unfold len in *. lia.
  - split; [|split].
    + exists f. split; [exact Hr|]. exists (true, (m + 1) mod 65536), (session_message p), Open. repeat split.
    + exists []. split; [constructor|]. split; [unfold NB_MAX; lia|]. cbn [rx app]. now rewrite app_nil_r.
    + exists 0. cbn [cl zero_world mid]. split.
      * rewrite Hop. subst p. destruct b; apply message_reply; try lia; vm_compute; tauto.
      * destruct c; cbn in Hop |- *; destruct b; try discriminate Hop; now left.
Qed.
Lemma zero_open s path fuel m l : fits_request true (OpenFile s path) -> m < 65536 -> (200 <= fuel)%nat ->
  exists f, run zero_server (exec (env0 false) fuel (OpenFile s path)) (zero_world false m l)
    = Done (Good zero_handle) (zero_world true ((m + 1) mod 65536) (l ++ [f])).
Proof.
  intros H1 H2 H3. apply zero_call; auto; try exact I. cbn [decodes].
  exists (open_words 100), [], []. exists 0, 1, 0, 0. split; [apply message_parts; reflexivity|].
  split; [split; vm_compute; [discriminate|reflexivity]|]. split; [apply message_tid; reflexivity|].
  rewrite !flags_of_iff. vm_compute. auto 20.
Qed.
Lemma zero_read fuel m l : m < 65536 -> (200 <= fuel)%nat ->
  exists f, run zero_server (exec (env0 false) fuel (ReadAt zero_handle 0)) (zero_world true m l)
    = Done (Good []) (zero_world true ((m + 1) mod 65536) (l ++ [f])).
Proof.
  intros H2 H3. apply zero_call; auto; try exact I. cbn [decodes].
  exists (read_words 0), [], []. split; [apply message_parts; reflexivity|].
  split; [split; vm_compute; [discriminate|reflexivity]|]. split; [reflexivity|]. now left.
Qed.
Lemma zero_reads fuel n : (200 <= fuel)%nat -> forall m l, m < 65536 ->
  exists w, run zero_server (download_loop (env0 false) n fuel zero_handle []) (zero_world true m l) = Starved w
   /\ length (tx w) = (length l + n)%nat.
Proof.
  intros Hf. induction n as [|n IH]; intros m l Hm; cbn [download_loop].
  - eexists. split; [reflexivity|]. cbn. lia.
  - change (len (@nil byte) <? h_size zero_handle) with true. cbv iota. rewrite run_mbind.
    change (read (env0 false) fuel zero_handle (len (@nil byte))) with (exec (env0 false) fuel (ReadAt zero_handle 0)).
    destruct (@zero_read fuel m l Hm Hf) as [f ->]. rewrite gbind_good. cbn [app].
    destruct (IH ((m + 1) mod 65536) (l ++ [f])) as (w & H1 & H2); [lia|]. exists w. split; [exact H1|].
    rewrite H2, app_length. cbn. lia.
Qed.
Lemma zero_download s path : fits_request true (OpenFile s path) -> forall fuel, (200 <= fuel)%nat ->
  exists w, run zero_server (download (env0 false) fuel s path) (zero_world false 0 []) = Starved w
   /\ length (tx w) = (fuel + 1)%nat.
Proof.
  intros Hfit fuel Hf. unfold download. rewrite run_mbind. change (openfile (env0 false) fuel s path) with (exec (env0 false) fuel (OpenFile s path)).
  destruct (@zero_open s path fuel 0 [] Hfit) as [f ->]; [lia|exact Hf|]. rewrite gbind_good, run_mbind.
  destruct (@zero_reads fuel fuel Hf ((0 + 1) mod 65536) ([] ++ [f])) as (w & -> & H2); [lia|].
  exists w. split; [reflexivity|]. rewrite H2. cbn. lia.
Qed.
Lemma download_diverges : exists Sv (react : Sv -> bytes -> reaction Sv) w s path, forall fuel, (200 <= fuel)%nat ->
  exists w', run react (download (env0 false) fuel s path) w = Starved w' /\ length (tx w') = (fuel + 1)%nat.
Proof.
  exists (bool * N)%type, zero_server, (zero_world false 0 []), share0, [97]. apply zero_download. vm_compute. reflexivity.
Qed.

(** from a run against prepared answers to the hypotheses of the theorems *)
Lemma script_answered E fuel R (c : call R) c0 r s b l v w' : single_reply c ->
  run script (exec E fuel c) (mk_world c0 (r :: s) b Open l) = Done (Good v) w' -> (length (b ++ r) < fuel)%nat ->
  exists w1 p, answered script E fuel c (mk_world c0 (r :: s) b Open l) w1 p (rx w') /\ w' = leaving w1 (rx w')
    /\ decodes c p v /\ (length (rx w1) < fuel)%nat.
Proof.
  intros Hs H Hf. destruct (answer_good Hs H) as (w1 & p & Ha & Hw & Hd). exists w1, p. do 3 (split; [assumption|]).
  destruct Ha as ((f & _ & (st & inc & t & Hr & _ & _ & _ & Hx)) & _). cbn [srv script] in Hr. injection Hr as <- <- <-.
  cbn [tl rx deliver] in Hx. injection Hx as -> _. exact Hf.
Qed.

(** ** C32: a download crashes only in one of its calls *)
Lemma download_crash Sv (react : Sv -> bytes -> reaction Sv) E fuel s path w w' : run react (download E fuel s path) w = Crashed w' ->
  exists R (c : call R) v, run react (exec E fuel c) v = Crashed w'
   /\ (R = handle \/ R = bytes \/ R = unit).
Proof.
  intros H. destruct (download_cases react E fuel s path w) as [Hf|h w1 l w2 w3 H1 H2 H3 H4 H5|h w1 l w2 H1 H2 H3 H4|h w1 l w2 H1 H2 H3 H4|h w1 l w2 H1 H2 H3 H4].
  - rewrite H in Hf. exists handle, (OpenFile s path), w. split; [|auto].
    destruct (run react (exec E fuel (OpenFile s path)) w) as [[?|?] ?|?|?|?]; cbn in Hf; try easy; congruence.
  - congruence.
  - rewrite H in H4. exists unit, (Close h), w2. split; [|auto].
    destruct (run react (exec E fuel (Close h)) w2) as [[?|?] ?|?|?|?]; cbn in H4; try easy; congruence.
  - rewrite H in H4. exists bytes, (ReadAt h (len (concat l))), w2. split; [|auto].
    destruct (run react (exec E fuel (ReadAt h (len (concat l)))) w2) as [[?|?] ?|?|?|?]; cbn in H4; try easy; congruence.
  - congruence.
Qed.
