(** * ShareFacts: a download is a snapshot (C87) *)
From Verif Require Import Base Text Win Errors Common Reply Ntlm Prog Client Spec SpecReply SpecMsg Api SpecCall BaseFacts
  RunFacts MsgFacts SizeFacts ReqFacts CallFacts FindFacts Flow FlowFacts SpecRemote RemoteFacts RefServer FileService FileFacts SpecPool PoolFacts
  PoolFileFacts SpecShare.
Open Scope N_scope.
Set Implicit Arguments.

Lemma room_after E c k : room E c (S k) -> room E (next_client c) k.
Proof.
  intros H Ho. specialize (H Ho). unfold next_client. cbn [mid]. pose proof (N.mod_le (mid c + 1) 65536 ltac:(lia)). lia.
Qed.

Section Snapshot.
Variable St : Type.
Variable B : nat -> service St.
Variable content : St -> N -> text -> option bytes.
Variable holds : St -> nat -> N -> N -> N -> text -> Prop.
Variable q : N.
Hypothesis SM : share_modes B content holds q.
Variable E : env.
(** client [i] downloads; no file takes more than [k] reads *)
Variable i : nat.
Variable n k : nat.
Variable sh : share.
Variable path : text.
Variable f0 : nat -> flow bytes * cifs.
Variable st0 : St.
Notation tid := (sh_tid sh).
Notation name := (backslashes path).
Hypothesis Hjob : fst (f0 i) = download_flow n sh path.
Hypothesis Htid : u16 tid.
Hypothesis Hstr : is_str path.
Hypothesis Hfit : fits_request (use_unicode (snd (f0 i))) (OpenFile sh path).
Hypothesis Hroom : room E (snd (f0 i)) (2 + k).
Hypothesis Hkn : (k < n)%nat.
Hypothesis Hsmall : forall l g st d, serial B f0 st0 l g st -> content st tid name = Some d -> (pieces (len d) q <= k)%nat.
Hypothesis Hothers : sensible_others E B i f0 st0.

Definition rest_flow h (data : bytes) : flow bytes := fbind (fcall (Close h)) (fun _ => FRet (Good data)).
Definition reading_flow h m data : flow bytes := fbind (download_reads m h data) (rest_flow h).
Lemma reading_flow_more h m data : len data < h_size h ->
  reading_flow h (S m) data = FCall (ReadAt h (len data))
    (fun r => fbind (fbind (FRet r) (fun chunk => download_reads m h (data ++ chunk))) (rest_flow h)).
Proof.
  intros H. unfold reading_flow. cbn [download_reads]. destruct (N.ltb_spec (len data) (h_size h)); [reflexivity|lia].
Qed.
Lemma reading_flow_all h m data : len data = h_size h ->
  reading_flow h (S m) data = FCall (Close h) (fun r => fbind (FRet r) (fun _ => FRet (Good data))).
Proof.
  intros H. unfold reading_flow. cbn [download_reads]. destruct (N.ltb_spec (len data) (h_size h)); [lia|reflexivity].
Qed.

(** where client [i] is, after the execution [l] *)
Inductive at_phase (l : list nat) (g : nat -> flow bytes * cifs) (st : St) : Prop :=
| ap_wait : g i = f0 i -> serial B f0 st0 l g st -> at_phase l g st
| ap_refused e c : g i = (FRet (Bad (ServerError e)), c) -> serial B f0 st0 l g st -> at_phase l g st
| ap_read h m data rest c l1 f1 st1 l2 :
    u16 (h_tid h) -> u16 (h_fid h) -> h_size h < 2 ^ 64 -> h_size h = len (data ++ rest) ->
    g i = (reading_flow h m data, c) -> (pieces (len rest) q < m)%nat -> room E c (1 + pieces (len rest) q) ->
    holds st i (h_tid h) (h_fid h) tid name ->
    l = (l1 ++ [i]) ++ l2 -> serial B f0 st0 (l1 ++ [i]) f1 st1 ->
    serial_in B (fun s => content s tid name = Some (data ++ rest)) f1 st1 l2 g st -> at_phase l g st
| ap_done d c : g i = (FRet (Good d), c) -> snapshot B content i tid name d f0 st0 l g st -> at_phase l g st.

Lemma serial_in_last P g st l g' st' : @serial_in St bytes B P g st l g' st' -> P st'.
Proof. intros []; auto. Qed.
Lemma serial_step1 g st j b p st' : advances (B j) (g j) st b p st' -> serial (A := bytes) B g st (if b then [j] else []) (upd g j p) st'.
Proof. intros H. exact (@se_step _ _ B g st [] g st j b p st' (se_none B g st) H). Qed.
Lemma phase_start : at_phase [] f0 st0.
Proof. apply ap_wait; [reflexivity|constructor]. Qed.
(** another client goes on *)
Lemma phase_other l g st j b p st' : at_phase l g st -> j <> i -> advances (B j) (g j) st b p st' ->
  at_phase (l ++ if b then [j] else []) (upd g j p) st'.
Proof.
  intros H Hj Ha. assert (Hi : upd g j p i = g i) by (apply upd_other; auto).
  destruct H as [H1 H2|e c H1 H2|h m data rest c l1 f1 st1 l2 H1 H2 H3 H4 H5 H6 H7 H8 H9 H10 H11|d c H1 H2].
  - apply ap_wait; [congruence|]. econstructor; eassumption.
  - eapply ap_refused; [rewrite Hi; exact H1|]. econstructor; eassumption.
  - assert (Hk : holds st' i (h_tid h) (h_fid h) tid name /\ content st' tid name = content st tid name).
    { destruct Ha as [R q0 k0 c0 s r s' Hb| | | ]; try (split; [exact H8|exact eq_refl]).
      pose proof (@sm_keep _ _ _ _ _ SM i _ _ _ _ _ j _ (uid c0) (op_of q0) H8 ltac:(congruence)) as K. rewrite Hb in K. exact K. }
    destruct Hk as [Hk1 Hk2]. eapply ap_read with (l2 := l2 ++ if b then [j] else []); try eassumption.
    + rewrite Hi. exact H5.
    + rewrite H9, app_assoc. reflexivity.
    + econstructor; try eassumption. rewrite Hk2. exact (serial_in_last H11).
  - destruct H2 as (l1 & f1 & st1 & l2 & f2 & st2 & l3 & Hl & S1 & S2 & S3). eapply ap_done; [rewrite Hi; exact H1|].
    exists l1, f1, st1, l2, f2, st2, (l3 ++ if b then [j] else []). split; [rewrite Hl, <- !app_assoc; reflexivity|].
    split; [exact S1|]. split; [exact S2|]. change (i :: l3 ++ ?x) with ((i :: l3) ++ x). econstructor; eassumption.
Qed.
Lemma phase_own l g st b p st' : at_phase l g st -> advances (B i) (g i) st b p st' ->
  at_phase (l ++ if b then [i] else []) (upd g i p) st'.
Proof.
  intros H Ha. assert (Hi : upd g i p i = p) by apply upd_same. pose proof (advances_view Ha) as Hv.
  destruct H as [H1 H2|e c H1 H2|h m data rest c l1 f1 st1 l2 H1 H2 H3 H4 H5 H6 H7 H8 H9 H10 H11|d c H1 H2].
  - (* open *)
    rewrite H1 in Hv. rewrite Hjob in Hv. unfold download_flow, fcall in Hv. cbn [fbind op_of] in Hv. destruct Hv as (-> & Hp & Hst).
    pose proof (@se_step _ _ B f0 st0 l g st i true p st' H2 Ha) as Hser.
    destruct (B i (uid (snd (f0 i))) (OOpenFile tid name) st) as [[h|e] s'] eqn:Ho; cbn [fst snd returned fbind] in Hp, Hst; subst s'.
    + destruct (sm_open SM _ _ _ _ _ Ho) as (K1 & K2 & K3 & K4 & d & K5 & K6).
      refine (@ap_read _ _ _ h n [] d (next_client (snd (f0 i))) l (upd g i p) st' [] K1 K2 K3 K6 _ _ _ K4 _ Hser _).
      * rewrite Hi. exact Hp.
      * pose proof (@Hsmall _ _ _ _ Hser K5). lia.
      * apply room_after. pose proof (@Hsmall _ _ _ _ Hser K5). intros Hoc. specialize (Hroom Hoc). lia.
      * now rewrite app_nil_r.
      * constructor. exact K5.
    + eapply ap_refused; [rewrite Hi; exact Hp|exact Hser].
  - rewrite H1 in Hv. contradiction.
  - rewrite H5 in Hv. cbn [fst snd] in Hv. destruct m as [|m]; [lia|].
    pose proof (serial_in_last H11) as Hc. cbv beta in Hc.
    assert (Hle : len data <= h_size h) by (rewrite H4, len_app; lia).
    destruct (N.eq_dec (len data) (h_size h)) as [Heq|Hne].
    + (* close *)
      rewrite reading_flow_all in Hv by exact Heq. cbn [op_of] in Hv. destruct Hv as (-> & Hp & Hst).
      pose proof (@sm_close _ _ _ _ _ SM i (uid c) _ _ _ _ _ H8) as Hcl. rewrite Hcl in Hp. cbn [returned fbind] in Hp.
      assert (Hr : rest = []). { rewrite H4, len_app in Heq. destruct rest; [reflexivity|]. rewrite len_cons in Heq. lia. }
      rewrite Hr, app_nil_r in H11.
      eapply ap_done; [rewrite Hi; exact Hp|]. exists l1, f1, st1, l2, g, st, []. split; [rewrite H9, <- !app_assoc; reflexivity|].
      split; [exact H10|]. split; [exact H11|]. exact (@serial_step1 g st i true p st' Ha).
    + (* read *)
      rewrite reading_flow_more in Hv by lia. cbn [op_of] in Hv. destruct Hv as (-> & Hp & Hst).
      assert (Hlt : len data < len (data ++ rest)) by lia.
      destruct (@sm_read _ _ _ _ _ SM i (uid c) _ _ _ _ _ _ _ H8 Hc Hlt) as (chunk & rest' & Hrd & Hdr & Hqr).
      rewrite drop_exact in Hdr. rewrite Hrd in Hp. cbn [returned fbind] in Hp.
      destruct (@sm_keep _ _ _ _ _ SM i _ _ _ _ _ i _ (uid c) (ORead (h_tid h) (h_fid h) (len data)) H8 ltac:(cbn; tauto)) as [Hk1 Hk2].
      rewrite <- Hst in Hk1, Hk2.
      assert (Hlr : 0 < len rest) by (rewrite len_app in Hlt; lia).
      pose proof (sm_quantum SM) as Hq1.
      assert (Hpc : (S (pieces (len rest') q) <= pieces (len rest) q)%nat).
      { destruct Hqr as [Hqr|Hqr].
        - assert (Hx : len rest = len chunk + len rest') by (rewrite Hdr, len_app; reflexivity).
          replace (len rest') with (len rest - len chunk) by lia. apply pieces_more; lia.
        - rewrite Hqr. rewrite pieces_none by (cbn; lia). apply pieces_last; lia. }
      assert (Hda : (data ++ chunk) ++ rest' = data ++ rest) by (rewrite <- app_assoc, <- Hdr; reflexivity).
      refine (@ap_read _ _ _ h m (data ++ chunk) rest' (next_client c) l1 f1 st1 (l2 ++ [i]) H1 H2 H3 _ _ _ _ Hk1 _ H10 _).
      * rewrite Hda. exact H4.
      * rewrite Hi. exact Hp.
      * lia.
      * intros Hoc. pose proof (@room_after _ _ _ H7 Hoc). lia.
      * rewrite H9, app_assoc. reflexivity.
      * rewrite Hda. refine (@si_step _ _ B _ f1 st1 l2 g st i true p st' H11 Ha _). rewrite Hk2. exact Hc.
  - rewrite H1 in Hv. contradiction.
Qed.
Lemma phase_all l g st : serial B f0 st0 l g st -> at_phase l g st.
Proof.
  intros H. remember f0 as f eqn:Hf. remember st0 as s eqn:Hs0. revert Hf Hs0.
  induction H as [f s|f s l g' st' j b p st'' H IH Ha]; intros -> ->; [apply phase_start|].
  destruct (Nat.eq_dec j i) as [->|Hj]; [apply phase_own with st'|apply phase_other with st']; auto.
Qed.
Lemma download_sensible : sensible E B f0 st0.
Proof.
  intros l g st H j. destruct (Nat.eq_dec j i) as [->|Hj]; [|exact (Hothers H Hj)].
  destruct (phase_all H) as [H1 H2|e c H1 H2|h m data rest c l1 f1 st1 l2 H1 H2 H3 H4 H5 H6 H7 H8 H9 H10 H11|d c H1 H2].
  - unfold can_call. rewrite H1, Hjob. unfold download_flow, fcall. cbn [fbind]. split; [exact (conj Htid Hstr)|]. split; [exact I|].
    split; [exact Hfit|]. intros Ho. specialize (Hroom Ho). lia.
  - rewrite H1. exact I.
  - rewrite H5. unfold can_call. cbn [fst snd]. destruct m as [|m]; [lia|].
    assert (Hle : len data <= h_size h) by (rewrite H4, len_app; lia).
    assert (Hmid : overflow_checks E = true -> mid c < 65535) by (intros Ho; specialize (H7 Ho); lia).
    destruct (N.eq_dec (len data) (h_size h)) as [Heq|Hne].
    + rewrite reading_flow_all by exact Heq. split; [split; assumption|]. split; [exact I|]. split; [exact I|exact Hmid].
    + rewrite reading_flow_more by lia. split; [|split; [exact I|split; [exact I|exact Hmid]]].
      split; [exact H1|]. split; [exact H2|lia].
  - rewrite H1. exact I.
Qed.
Lemma download_end l g st : serial B f0 st0 l g st ->
  match fst (g i) with
  | FRet (Good d) => snapshot B content i tid name d f0 st0 l g st
  | FRet (Bad e) => exists x, e = ServerError x
  | FPanic | FFuel => False
  | _ => True
  end.
Proof.
  intros H. destruct (phase_all H) as [H1 H2|e c H1 H2|h m data rest c l1 f1 st1 l2 H1 H2 H3 H4 H5 H6 H7 H8 H9 H10 H11|d c H1 H2].
  - rewrite H1, Hjob. exact I.
  - rewrite H1. cbn [fst]. eauto.
  - rewrite H5. cbn [fst]. destruct m as [|m]; [lia|]. assert (Hle : len data <= h_size h) by (rewrite H4, len_app; lia).
    destruct (N.eq_dec (len data) (h_size h)) as [Heq|Hne]; [rewrite reading_flow_all by exact Heq|rewrite reading_flow_more by lia]; exact I.
  - rewrite H1. exact H2.
Qed.
End Snapshot.

Lemma snapshot_download Sv St (react : nat -> Sv -> bytes -> reaction Sv) (B : nat -> service St) abs content holds q E fuel i k sh path
    (f : nat -> flow bytes * cifs) g s :
  (forall i, conforming (react i) (B i) abs) -> ample react fuel -> share_modes B content holds q ->
  fst (f i) = download_flow fuel sh path -> u16 (sh_tid sh) -> is_str path -> fits_request (use_unicode (snd (f i))) (OpenFile sh path) ->
  room E (snd (f i)) (2 + k) -> (k < fuel)%nat ->
  (forall l f' st d, serial B f (abs s) l f' st -> content st (sh_tid sh) (backslashes path) = Some d -> (pieces (len d) q <= k)%nat) ->
  sensible_others E B i f (abs s) -> (forall j, starts E fuel (g j) (f j) /\ typed_client (snd (f j))) ->
  forall l g' s', steps react g s l g' s' ->
  match p_prog (g' i) with
  | Ret (Good d) => exists f', snapshot B content i (sh_tid sh) (backslashes path) d f (abs s) l f' (abs s')
  | Ret (Bad e) => exists x, e = ServerError x
  | Panicked | OutOfFuel => False
  | _ => exists b p s'', moves (react i) (g' i) s' b p s''
  end.
Proof.
  intros Hc Ha Hsm Hjob Ht Hp Hfit Hroom Hk Hsmall Ho Hg l g' s' H.
  pose proof (@download_sensible _ B content holds q Hsm E i fuel k sh path f (abs s) Hjob Ht Hp Hfit Hroom Hk Hsmall Ho) as Hs.
  destruct (@simulate _ _ _ react B abs Hc E fuel Ha f (abs s) Hs g s l g' s' H eq_refl) as (h & H1 & H2).
  { intros j. destruct (Hg j). now apply starts_follows. }
  pose proof (@progress _ _ _ react B abs Hc E fuel Ha f (abs s) Hs s' (g' i) i l h H1 (H2 i)) as Hpr.
  destruct (@finish _ _ _ react B abs Hc E fuel Ha f (abs s) Hs (S i) s' g' l h H1 H2) as (h' & H3 & _ & H4).
  specialize (H4 i (Nat.lt_succ_diag_r i)). unfold finished in H4. unfold ended in Hpr.
  pose proof (@download_end _ B content holds q Hsm E i fuel k sh path f (abs s) Hjob Hfit Hroom Hk Hsmall Ho l h' _ H3) as He.
  destruct (p_prog (g' i)) as [[d|e]| | | | | |]; try (exact (Hpr eq_refl)); rewrite H4 in He; cbn [fst] in He.
  - eauto.
  - exact He.
  - exact He.
  - exact He.
Qed.

(** ** a file service that enforces share modes *)
(** the files, the open files by client, the next file id, and what some process at the server
    is about to write *)
Record shared := mk_shared {
  sd_files : list (N * text * bytes);
  sd_open : list (nat * (N * (N * text)));
  sd_next : N;
  sd_todo : list (N * text * bytes)
}.
Definition ST_SHARING : N := 0xc0000043.
Definition same_file (t : N) (p : text) (e : N * text) : bool := (fst e =? t) && text_eqb (snd e) p.
Definition held (s : shared) (t : N) (p : text) : bool := existsb (fun e => same_file t p (snd (snd e))) (sd_open s).
(** the process at the server writes its next file, unless it is open *)
Definition background (s : shared) : shared :=
  match sd_todo s with
  | [] => s
  | (t, p, d) :: r => mk_shared (if held s t p then sd_files s else (t, p, d) :: sd_files s) (sd_open s) (sd_next s) r
  end.
(** what client [i] sees *)
Definition view (i : nat) (s : shared) : files :=
  mk_files (sd_files s) (map snd (filter (fun e => Nat.eqb (fst e) i) (sd_open s))) (sd_next s).
Definition unview (i : nat) (s : shared) (v : files) : shared :=
  mk_shared (fs_files v) (map (pair i) (fs_open v) ++ filter (fun e => negb (Nat.eqb (fst e) i)) (sd_open s)) (fs_next v) (sd_todo s).
Definition blocked {R} (o : op R) (s : shared) : bool := match o with ODelete t p => held s t p | _ => false end.
Section Shared.
Variable tree : text -> text -> option N.
Variable setup : server_setup.
Variable accepts : text -> text -> bytes -> option N.
Notation FS := (file_service tree setup accepts).
Definition shared_service (i : nat) : service shared := fun R who o s =>
  let s := background s in
  if blocked o s then (inr ST_SHARING, s)
  else (fst (FS R who o (view i s)), unview i s (snd (FS R who o (view i s)))).
Definition sd_holds (s : shared) (i : nat) (t f tid : N) (path : text) : Prop :=
  f < sd_next s /\ opened (fs_open (view i s)) f = Some (tid, path) /\ contents (sd_files s) tid path <> None.
Definition sd_content (s : shared) (tid : N) (path : text) : option bytes := contents (sd_files s) tid path.

Lemma shared_proper i : proper FS -> proper (shared_service i).
Proof.
  intros H R who o s. unfold shared_service. cbv zeta. destruct (blocked o _).
  - repeat split; discriminate.
  - exact (H R who o (view i (background s))).
Qed.
Lemma opened_in l f e : opened l f = Some e -> In (f, e) l.
Proof.
  induction l as [|[x y] l IH]; [discriminate|]. cbn [opened]. destruct (N.eqb_spec x f) as [->|Hx].
  - intros [= ->]. left. reflexivity.
  - intros H. right. auto.
Qed.
Lemma text_eqb_refl p : text_eqb p p = true.
Proof. unfold text_eqb. destruct (list_eq_dec N.eq_dec p p); congruence. Qed.
Lemma text_eqb_true p q : text_eqb p q = true -> p = q.
Proof. unfold text_eqb. destruct (list_eq_dec N.eq_dec p q); congruence. Qed.
Lemma holds_held s i t f tid path : sd_holds s i t f tid path -> held s tid path = true.
Proof.
  intros (_ & H & _). apply opened_in in H. cbn [view fs_open] in H. apply in_map_iff in H as ([j e] & H1 & H2). cbn [snd] in H1. subst e.
  apply filter_In in H2 as [H2 _]. apply existsb_exists. exists (j, (f, (tid, path))). split; [exact H2|].
  unfold same_file. cbn [snd fst]. rewrite N.eqb_refl. apply text_eqb_refl.
Qed.
Lemma contents_other l t p d tid path : (t =? tid) && text_eqb p path = false -> contents ((t, p, d) :: l) tid path = contents l tid path.
Proof. intros H. cbn [contents]. rewrite H. reflexivity. Qed.
Lemma contents_without l t p tid path : (t =? tid) && text_eqb p path = false -> contents (without l t p) tid path = contents l tid path.
Proof.
  intros H. induction l as [|[[x y] d] l IH]; [reflexivity|]. cbn [without filter fst snd]. fold (without l t p).
  destruct ((x =? t) && text_eqb y p) eqn:E; cbn [negb].
  - apply andb_prop in E as [E1 E2]. apply N.eqb_eq in E1. apply text_eqb_true in E2. subst x y. rewrite contents_other by exact H. exact IH.
  - cbn [contents]. rewrite IH. reflexivity.
Qed.
Lemma not_same s t p tid path : held s tid path = true -> held s t p = false -> (t =? tid) && text_eqb p path = false.
Proof.
  intros H H'. destruct ((t =? tid) && text_eqb p path) eqn:E; [|reflexivity].
  apply andb_prop in E as [E1 E2]. apply N.eqb_eq in E1. apply text_eqb_true in E2. congruence.
Qed.
Lemma background_keep s i t f tid path : sd_holds s i t f tid path ->
  sd_holds (background s) i t f tid path /\ sd_content (background s) tid path = sd_content s tid path.
Proof.
  intros H. pose proof (holds_held H) as Hh. unfold background, sd_content. destruct (sd_todo s) as [|[[x y] d] r]; [auto|].
  assert (Hc : contents (if held s x y then sd_files s else (x, y, d) :: sd_files s) tid path = contents (sd_files s) tid path).
  { destruct (held s x y) eqn:Hxy; [reflexivity|]. apply contents_other. exact (not_same _ _ _ _ _ Hh Hxy). }
  split; [|exact Hc]. destruct H as (H1 & H2 & H3). split; [exact H1|]. split; [exact H2|]. cbn [sd_files]. rewrite Hc. exact H3.
Qed.
Lemma view_unview i s v : view i (unview i s v) = v.
Proof.
  unfold view, unview. cbn [sd_files sd_open sd_next]. rewrite filter_app.
  assert (H1 : forall l, filter (fun e : nat * (N * (N * text)) => Nat.eqb (fst e) i) (map (pair i) l) = map (pair i) l).
  { induction l as [|x l IH]; [reflexivity|]. cbn [map filter fst]. rewrite Nat.eqb_refl, IH. reflexivity. }
  assert (H2 : forall l : list (nat * (N * (N * text))), filter (fun e => Nat.eqb (fst e) i) (filter (fun e => negb (Nat.eqb (fst e) i)) l) = []).
  { induction l as [|x l IH]; [reflexivity|]. cbn [filter]. destruct (Nat.eqb (fst x) i) eqn:E; cbn [negb filter]; [exact IH|rewrite E; exact IH]. }
  rewrite H1, H2, app_nil_r, map_map, map_id. destruct v. reflexivity.
Qed.
Lemma view_other i j s v : i <> j -> fs_open (view i (unview j s v)) = fs_open (view i s).
Proof.
  intros H. unfold view, unview. cbn [sd_files sd_open sd_next fs_open]. rewrite filter_app.
  assert (H1 : forall l, filter (fun e : nat * (N * (N * text)) => Nat.eqb (fst e) i) (map (pair j) l) = []).
  { induction l as [|x l IH]; [reflexivity|]. cbn [map filter fst]. destruct (Nat.eqb_spec j i); [congruence|exact IH]. }
  rewrite H1. cbn [app]. f_equal. induction (sd_open s) as [|x l IH]; [reflexivity|]. cbn [filter].
  destruct (Nat.eqb_spec (fst x) j) as [E|E]; cbn [negb filter]; destruct (Nat.eqb_spec (fst x) i) as [E'|E']; try congruence.
Qed.
(** what an operation does to a file that is open *)
Lemma fs_keep R who (o : op R) v f T P : f < fs_next v -> opened (fs_open v) f = Some (T, P) -> ~ closes_file o f ->
  (match o with ODelete t p => (t =? T) && text_eqb p P = false | _ => True end) ->
  fs_next v <= fs_next (snd (FS R who o v)) /\ opened (fs_open (snd (FS R who o v))) f = Some (T, P)
  /\ contents (fs_files (snd (FS R who o v))) T P = contents (fs_files v) T P.
Proof.
  intros Hf Ho Hc Hd. destruct o; cbn [file_service closes_file snd] in *; try (split; [lia|]; split; [exact Ho|reflexivity]).
  - destruct (contents (fs_files v) tid path) as [d|]; [|split; [cbn [snd]; lia|]; split; [exact Ho|reflexivity]].
    destruct (_ && _ && _); cbn [snd fs_next fs_open fs_files opened]; (split; [lia|]; split; [|reflexivity]); [|exact Ho].
    destruct (N.eqb_spec (fs_next v) f); [lia|exact Ho].
  - destruct (opened (fs_open v) fid); cbn [snd fs_next fs_open fs_files]; (split; [lia|]; split; [|reflexivity]); [|exact Ho].
    rewrite opened_closed; [exact Ho|congruence].
  - destruct (opened (fs_open v) fid) as [[t p]|]; [destruct (contents (fs_files v) t p)|]; cbn [snd]; (split; [lia|]; split; [exact Ho|reflexivity]).
  - destruct (contents (fs_files v) tid path); cbn [snd fs_next fs_open fs_files]; (split; [lia|]; split; [exact Ho|]); [|reflexivity].
    apply contents_without. exact Hd.
Qed.
Lemma fs_others R who (o : op R) v T P :
  (match o with ODelete t p => (t =? T) && text_eqb p P = false | _ => True end) ->
  fs_next v <= fs_next (snd (FS R who o v)) /\ contents (fs_files (snd (FS R who o v))) T P = contents (fs_files v) T P.
Proof.
  intros Hd. destruct o; cbn [file_service snd] in *; try (split; [lia|reflexivity]).
  - destruct (contents (fs_files v) tid path) as [d|]; [|split; [cbn [snd]; lia|reflexivity]].
    destruct (_ && _ && _); cbn [snd fs_next fs_open fs_files opened]; (split; [lia|reflexivity]).
  - destruct (opened (fs_open v) fid); cbn [snd fs_next fs_open fs_files]; (split; [lia|reflexivity]).
  - destruct (opened (fs_open v) fid) as [[t p]|]; [destruct (contents (fs_files v) t p)|]; cbn [snd]; (split; [lia|reflexivity]).
  - destruct (contents (fs_files v) tid path); cbn [snd fs_next fs_open fs_files]; (split; [lia|]); [|reflexivity].
    apply contents_without. exact Hd.
Qed.
Lemma shared_keep i t f tid path s j R who (o : op R) : sd_holds s i t f tid path -> (j = i -> ~ closes_file o f) ->
  sd_holds (snd (shared_service j who o s)) i t f tid path /\ sd_content (snd (shared_service j who o s)) tid path = sd_content s tid path.
Proof.
  intros H Hj. destruct (background_keep H) as [Hb Hbc]. rewrite <- Hbc. pose proof (holds_held Hb) as Hh.
  unfold shared_service. cbv zeta. remember (background s) as s1 eqn:Es. clear Es H Hbc s. destruct (blocked o s1) eqn:Hbl; cbn [snd]; [auto|].
  assert (Hd : match o with ODelete t p => (t =? tid) && text_eqb p path = false | _ => True end).
  { destruct o; try exact I. exact (not_same _ _ _ _ _ Hh Hbl). }
  destruct Hb as (H1 & H2 & H3). unfold sd_holds, sd_content. destruct (Nat.eq_dec j i) as [->|Hji].
  - destruct (@fs_keep R who o (view i s1) f tid path H1 H2 (Hj eq_refl) Hd) as (K1 & K2 & K3). rewrite view_unview.
    cbn [unview sd_next sd_files]. split; [|exact K3]. cbn [view fs_next] in K1. split; [lia|]. split; [exact K2|]. rewrite K3. exact H3.
  - destruct (@fs_others R who o (view j s1) tid path Hd) as (K1 & K3). rewrite view_other by congruence.
    cbn [unview sd_next sd_files]. split; [|exact K3]. cbn [view fs_next] in K1. split; [lia|]. split; [exact H2|]. rewrite K3. exact H3.
Qed.
Lemma shared_modes : share_modes shared_service sd_content sd_holds 65534.
Proof.
  split.
  - lia.
  - intros i who tid path st h st' H. unfold shared_service in H. cbv zeta in H. cbn [blocked] in H.
    remember (background st) as s eqn:Es. clear Es st. cbn [file_service view fs_files] in H.
    destruct (contents (sd_files s) tid path) as [d|] eqn:Hc; [|cbn [fst snd] in H; discriminate H]. change (fs_next (view i s)) with (sd_next s) in H.
    destruct ((sd_next s <? 65536) && (tid <? 65536) && (len d <? 2 ^ 64)) eqn:E; [|cbn [fst snd] in H; discriminate H].
    apply andb_prop in E as [E E3]. apply andb_prop in E as [E1 E2]. apply N.ltb_lt in E1, E2, E3.
    cbn [fst snd] in H. injection H as <- <-. cbn [the_handle h_tid h_fid h_size].
    split; [exact E2|]. split; [exact E1|]. split; [exact E3|]. split.
    + split; [cbn [unview sd_next fs_next]; lia|]. rewrite view_unview. cbn [fs_open opened unview sd_files fs_files]. rewrite N.eqb_refl.
      split; [reflexivity|congruence].
    + exists d. split; [exact Hc|reflexivity].
  - intros i who t f tid path st d o H Hc Ho. destruct (background_keep H) as [Hb Hbc]. rewrite <- Hbc in Hc. unfold shared_service. cbv zeta. cbn [blocked fst].
    remember (background st) as s eqn:Es. clear Es. destruct Hb as (H1 & H2 & H3). unfold sd_content in Hc.
    cbn [file_service]. rewrite H2. cbn [view fs_files]. rewrite Hc. cbn [fst]. exists (take 65534 (drop o d)), (drop 65534 (drop o d)).
    split; [reflexivity|]. split; [symmetry; apply take_drop|]. rewrite len_take.
    destruct (N.le_gt_cases 65534 (len (drop o d))); [left; lia|right]. apply drop_all. lia.
  - intros i who t f tid path st H. destruct (background_keep H) as [(H1 & H2 & H3) _]. unfold shared_service. cbv zeta. cbn [blocked fst].
    cbn [file_service]. rewrite H2. reflexivity.
  - exact shared_keep.
Qed.
End Shared.
