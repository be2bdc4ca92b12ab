(** * OutageFileFacts: several clients download from one file service, over connections that may break *)
From Verif Require Import Base Text Win Errors Common Reply Ntlm Prog Client Spec SpecReply SpecMsg Api SpecCall BaseFacts
  RunFacts MsgFacts SizeFacts ReqFacts CallFacts FindFacts Flow FlowFacts SpecRemote RemoteFacts RefServer FileService FileFacts SpecPool PoolFacts PoolFileFacts
  SpecCutoff SpecOutage OutageFacts.
Open Scope N_scope.
Set Implicit Arguments.

Lemma goes_view St A (B : service St) (y : flow A * cifs * bool) st b x st' : goes B y st b x st' ->
  match fst (fst y) with
  | FCall q k => exists a o, x = (k a, next_client (snd (fst y)), o)
      /\ (a = returned (fst (B _ (uid (snd (fst y))) (op_of q) st)) /\ st' = snd (B _ (uid (snd (fst y))) (op_of q) st)
          \/ (exists e, a = Bad (ENetBios e)) /\ o = false /\ (st' = st \/ st' = snd (B _ (uid (snd (fst y))) (op_of q) st)))
  | FRet _ | FPanic | FFuel => False
  | _ => True
  end.
Proof.
  intros [R q k c s r s' o H|R q k c s e|R q k c s r s' e H|R q k c s e|y0 s x0 o H]; cbn [fst snd].
  - exists (returned r), o. split; [reflexivity|]. left. rewrite H. split; reflexivity.
  - exists (Bad (ENetBios e)), false. split; [reflexivity|]. right. split; [eauto|]. split; [reflexivity|]. now left.
  - exists (Bad (ENetBios e)), false. split; [reflexivity|]. right. split; [eauto|]. split; [reflexivity|]. right. rewrite H. reflexivity.
  - exists (Bad (ENetBios e)), false. split; [reflexivity|]. right. split; [eauto|]. split; [reflexivity|]. now left.
  - apply advances_view in H. destruct (fst y0) as [a| | |R q k|k|u k|m u k]; auto. destruct H as (H & _). discriminate H.
Qed.
Lemma goings_invariant St A (B : nat -> service St) (P : (nat -> flow A * cifs * bool) -> St -> Prop) g st l g' st' :
  goings B g st l g' st' -> P g st -> (forall h s i b x s', P h s -> goes (B i) (h i) s b x s' -> P (upd h i x) s') -> P g' st'.
Proof. intros H. induction H as [|g st l h st1 i b p st2 _ IH Ha]; auto. intros H0 Hs. exact (Hs _ _ _ _ _ _ (IH H0 Hs) Ha). Qed.

(** ** as in PoolFileFacts *)
Lemma room_less E c k : room E c (S k) -> room E (next_client c) k.
Proof.
  intros H Ho. specialize (H Ho). unfold next_client. cbn [mid]. pose proof (N.mod_le (mid c + 1) 65536 ltac:(lia)). lia.
Qed.
Lemma reads_more (sh : nat -> share) (d : nat -> bytes) i fid m data : len data < len (d i) ->
  reading sh d i fid (S m) data = FCall (ReadAt (the_handle (sh_tid (sh i)) fid (len (d i))) (len data))
    (fun r => fbind (fbind (FRet r) (fun chunk => download_reads m (the_handle (sh_tid (sh i)) fid (len (d i))) (data ++ chunk))) (rest_of sh d i fid)).
Proof.
  intros H. unfold reading, hd. cbn [download_reads the_handle h_size]. destruct (N.ltb_spec (len data) (len (d i))); [reflexivity|lia].
Qed.
Lemma reads_all (sh : nat -> share) (d : nat -> bytes) i fid m data : len data = len (d i) ->
  reading sh d i fid (S m) data = FCall (Close (the_handle (sh_tid (sh i)) fid (len (d i)))) (fun r => fbind (FRet r) (fun _ => FRet (Good data))).
Proof.
  intros H. unfold reading, hd. cbn [download_reads the_handle h_size]. destruct (N.ltb_spec (len data) (len (d i))); [lia|reflexivity].
Qed.
Lemma without (l : list nat) i : NoDup l -> In i l -> exists l', NoDup l' /\ ~ In i l' /\ len l = len l' + 1 /\ forall j, j <> i -> (In j l' <-> In j l).
Proof.
  intros Hl Hi. apply in_split in Hi as (a & b & ->). exists (a ++ b). split; [exact (NoDup_remove_1 _ _ _ Hl)|].
  split; [exact (NoDup_remove_2 _ _ _ Hl)|]. split; [rewrite !len_app, len_cons; lia|].
  intros j Hj. rewrite !in_app_iff. cbn [In]. split; [tauto|]. intros [|[<-|]]; tauto.
Qed.

Section Downloads.
Variable tree : text -> text -> option N.
Variable setup : server_setup.
Variable accepts : text -> text -> bytes -> option N.
Notation FS := (file_service tree setup accepts).
Variable E : env.
Variable n : nat.
(** the jobs: share, path, and what is there *)
Variable sh : nat -> share.
Variable path : nat -> text.
Variable d : nat -> bytes.
Variable L : list nat.
Variable g0 : nat -> flow bytes * cifs.
Variable st0 : files.
Hypothesis Hnodup : NoDup L.
Hypothesis Hjobs : forall i, In i L -> fst (g0 i) = download_flow n (sh i) (path i)
  /\ contents (fs_files st0) (sh_tid (sh i)) (backslashes (path i)) = Some (d i)
  /\ u16 (sh_tid (sh i)) /\ is_str (path i) /\ len (d i) < 2 ^ 64
  /\ fits_request (use_unicode (snd (g0 i))) (OpenFile (sh i) (path i))
  /\ room E (snd (g0 i)) (2 + pieces (len (d i)) 65534) /\ (pieces (len (d i)) 65534 < n)%nat.
Hypothesis Hothers : forall i, ~ In i L -> exists a, fst (g0 i) = FRet a.
Hypothesis Hroom : fs_next st0 + len L <= 65536.

Notation hd i fid := (the_handle (sh_tid (sh i)) fid (len (d i))).
Notation reading := (reading sh d).

Inductive stage (i : nat) : flow bytes * cifs * bool -> files -> option N -> bool -> Prop :=
| sg_wait st o : stage i (g0 i, o) st None true
| sg_read fid m data rest c st o : d i = data ++ rest -> (pieces (len rest) 65534 < m)%nat -> fid < 65536 ->
    room E c (1 + pieces (len rest) 65534) ->
    opened (fs_open st) fid = Some (sh_tid (sh i), backslashes (path i)) ->
    stage i (reading i fid m data, c, o) st (Some fid) false
| sg_done c st o : stage i (FRet (Good (d i)), c, o) st None false
| sg_fail e c st : stage i (FRet (Bad (ENetBios e)), c, false) st None false.

(** [own]: the file each client has open; [W]: the clients that have not begun *)
Definition inv2 (h : nat -> flow bytes * cifs * bool) (st : files) : Prop :=
  fs_files st = fs_files st0 /\ exists own W, NoDup W /\ fs_next st + len W <= 65536
  /\ (forall i f, own i = Some f -> f < fs_next st) /\ (forall i j f, own i = Some f -> own j = Some f -> i = j)
  /\ (forall i, ~ In i L -> own i = None)
  /\ (forall i, In i L -> exists b, stage i (h i) st (own i) b /\ (b = true <-> In i W))
  /\ (forall i, ~ In i L -> exists a, fst (fst (h i)) = FRet a).

Definition all_online : nat -> flow bytes * cifs * bool := fun i => (g0 i, true).
Lemma inv2_start : inv2 all_online st0.
Proof.
  split; [reflexivity|]. exists (fun _ => None), L. split; [exact Hnodup|]. split; [exact Hroom|].
  split; [discriminate|]. split; [discriminate|]. split; [reflexivity|]. split; [|exact Hothers].
  intros i Hi. exists true. split; [constructor|]. tauto.
Qed.
(** a client keeps its stage as long as its file stays open *)
Lemma stage_keep i x st st' o b : stage i x st o b -> (forall f, o = Some f -> opened (fs_open st') f = opened (fs_open st) f) -> stage i x st' o b.
Proof.
  intros [s o'|fid m data rest c s o' H1 H2 H3 H4 H5|c s o'|e c s] H; [constructor| |constructor|constructor]. econstructor; try eassumption. rewrite H; auto.
Qed.
(** the invariant, after client [i] has gone on *)
Lemma inv2_upd h st i x st' own W o w : In i L ->
  fs_files st = fs_files st0 -> (forall i f, own i = Some f -> f < fs_next st) -> (forall i j f, own i = Some f -> own j = Some f -> i = j) ->
  (forall i, ~ In i L -> own i = None) ->
  (forall i, In i L -> exists b, stage i (h i) st (own i) b /\ (b = true <-> In i W)) ->
  (forall i, ~ In i L -> exists a, fst (fst (h i)) = FRet a) ->
  fs_files st' = fs_files st -> fs_next st <= fs_next st' ->
  forall W', NoDup W' -> fs_next st' + len W' <= 65536 -> (forall j, j <> i -> (In j W' <-> In j W)) ->
  (forall f, o = Some f -> f < fs_next st' /\ forall j, j <> i -> own j <> Some f) ->
  stage i x st' o w -> (w = true <-> In i W') ->
  (forall j f, j <> i -> own j = Some f -> opened (fs_open st') f = opened (fs_open st) f) ->
  inv2 (upd h i x) st'.
Proof.
  intros HL Hfs Hlt Hinj Hno Hph Hret Hfs' Hle W' HW Hnext HWW Ho Hp Hw Hop.
  split; [congruence|]. exists (upd own i o), W'. split; [exact HW|]. split; [exact Hnext|]. split; [|split; [|split; [|split]]].
  - intros j f. destruct (Nat.eq_dec j i) as [->|Hj]; [rewrite upd_same|rewrite upd_other by exact Hj].
    + intros H. apply (Ho f H).
    + intros H. specialize (Hlt _ _ H). lia.
  - intros j k f. destruct (Nat.eq_dec j i) as [->|Hj]; [rewrite upd_same|rewrite upd_other by exact Hj];
      (destruct (Nat.eq_dec k i) as [->|Hk]; [rewrite upd_same|rewrite upd_other by exact Hk]); auto.
    + intros H H'. destruct (proj2 (Ho f H) k Hk H').
    + intros H H'. destruct (proj2 (Ho f H') j Hj H).
    + apply Hinj.
  - intros j Hj. rewrite upd_other by (intros ->; contradiction). now apply Hno.
  - intros j Hj. destruct (Nat.eq_dec j i) as [->|Hji]; [rewrite !upd_same|rewrite !upd_other by exact Hji].
    + exists w. auto.
    + destruct (Hph j Hj) as (b & H1 & H2). exists b. split; [|rewrite (HWW j Hji); exact H2].
      apply stage_keep with st; [exact H1|]. intros f Hf. now apply (Hop j).
  - intros j Hj. rewrite upd_other by (intros ->; contradiction). now apply Hret.
Qed.
Lemma inv2_step h st i b x st' : inv2 h st -> goes FS (h i) st b x st' -> inv2 (upd h i x) st'.
Proof.
  intros (Hfs & own & W & HW & Hnext & Hlt & Hinj & Hno & Hph & Hret) Ha. apply goes_view in Ha.
  destruct (in_dec Nat.eq_dec i L) as [HL|HL].
  2:{ exfalso. destruct (Hret i HL) as [a Hr]. rewrite Hr in Ha. exact Ha. }
  destruct (Hph i HL) as (w & Hp & Hw). destruct (Hjobs i HL) as (Hf & Hc & Ht & Hs & Hd & Hfit & Hrm & Hn).
  inversion Hp as [s o E1 E2 E3 E4|fid m data rest c s o H1 H2 H3 H4 H5 E1 E2 E3 E4|c s o E1 E2 E3 E4|e c s E1 E2 E3 E4]; subst w; [subst s|subst s|subst s|subst s].
  - (* open *)
    rewrite <- E1 in Ha. clear E1. destruct (g0 i) as [f c] eqn:Hg. cbn [fst snd] in *. subst f.
    unfold download_flow, fcall in Ha. cbn [fbind op_of] in Ha.
    destruct (@without W i HW (proj1 Hw eq_refl)) as (W' & HW' & HnW & HlW & HiW).
    assert (Hnx : fs_next st < 65536) by lia.
    assert (Hop : FS _ (uid c) (OOpenFile (sh_tid (sh i)) (backslashes (path i))) st
      = (inl (hd i (fs_next st)), mk_files (fs_files st) ((fs_next st, (sh_tid (sh i), backslashes (path i))) :: fs_open st) (fs_next st + 1))).
    { cbn [file_service]. rewrite Hfs, Hc. unfold u16 in Ht.
      destruct (N.ltb_spec (fs_next st) 65536); [|lia]. destruct (N.ltb_spec (sh_tid (sh i)) 65536); [|lia].
      destruct (N.ltb_spec (len (d i)) (2 ^ 64)); [|lia]. reflexivity. }
    rewrite Hop in Ha. cbn [fst snd returned] in Ha. destruct Ha as (a & o' & Hx & [(-> & Hst)|((e & ->) & -> & Hst)]); cbn [fbind] in Hx.
    + assert (Hx' : x = (reading i (fs_next st) n [], next_client c, o')) by exact Hx. clear Hx.
      apply (@inv2_upd h st i x st' own W (Some (fs_next st)) false HL Hfs Hlt Hinj Hno Hph Hret) with (W' := W');
        rewrite ?Hst; cbn [fs_files fs_next fs_open]; auto; try lia.
      * intros f [= <-]. split; [lia|]. intros j Hj Hf. specialize (Hlt _ _ Hf). lia.
      * rewrite Hx'. apply sg_read with (d i); auto.
        -- apply room_less. exact Hrm.
        -- cbn [fs_open opened]. now rewrite N.eqb_refl.
      * split; [discriminate|contradiction].
      * intros j f Hj Hf. cbn [opened]. specialize (Hlt _ _ Hf). destruct (N.eqb_spec (fs_next st) f); [lia|reflexivity].
    + assert (Hx' : x = (FRet (Bad (ENetBios e)), next_client c, false)) by exact Hx. clear Hx.
      destruct Hst as [Hst|Hst];
        (apply (@inv2_upd h st i x st' own W None false HL Hfs Hlt Hinj Hno Hph Hret) with (W' := W');
        rewrite ?Hst; cbn [fs_files fs_next fs_open]; auto; try lia; try discriminate; try (rewrite Hx'; constructor); try (split; [discriminate|contradiction])).
      intros j f Hj Hf. cbn [opened]. specialize (Hlt _ _ Hf). destruct (N.eqb_spec (fs_next st) f); [lia|reflexivity].
  - rewrite <- E1 in Ha. clear E1. cbn [fst snd] in Ha. destruct m as [|m]; [lia|].
    assert (HnW : ~ In i W) by (intros Hi; apply Hw in Hi; discriminate Hi).
    assert (Hle : len data <= len (d i)) by (rewrite H1, len_app; lia).
    assert (Hclosed : forall j f, j <> i -> own j = Some f -> opened (closed (fs_open st) fid) f = opened (fs_open st) f).
    { intros j f Hj Hjf. apply opened_closed. intros ->. apply Hj. apply (Hinj _ _ fid); congruence. }
    destruct (N.eq_dec (len data) (len (d i))) as [Heq|Hne].
    + (* close *)
      rewrite (reads_all sh d i fid m data Heq) in Ha. cbn [op_of file_service the_handle h_fid h_tid] in Ha.
      rewrite H5 in Ha. cbn [fst snd returned] in Ha.
      assert (Hda : data = d i).
      { destruct rest; [now rewrite H1, app_nil_r|]. rewrite H1, len_app, len_cons in Heq. lia. }
      destruct Ha as (a & o' & Hx & [(-> & Hst)|((e & ->) & -> & Hst)]); cbn [fbind] in Hx.
      * rewrite Hda in Hx.
        apply (@inv2_upd h st i x st' own W None false HL Hfs Hlt Hinj Hno Hph Hret) with (W' := W);
          rewrite ?Hst; cbn [fs_files fs_next fs_open]; auto; try lia; try discriminate.
        -- tauto.
        -- rewrite Hx. constructor.
      * destruct Hst as [Hst|Hst];
          (apply (@inv2_upd h st i x st' own W None false HL Hfs Hlt Hinj Hno Hph Hret) with (W' := W);
          rewrite ?Hst; cbn [fs_files fs_next fs_open]; auto; try lia; try discriminate; try tauto; try (rewrite Hx; constructor)).
    + (* read *)
      rewrite reads_more in Ha by lia. cbn [op_of file_service the_handle h_fid h_tid] in Ha.
      rewrite H5, Hfs, Hc in Ha. cbn [fst snd returned] in Ha.
      assert (Hdr : drop (len data) (d i) = rest) by (rewrite H1; apply drop_exact).
      rewrite Hdr in Ha. destruct Ha as (a & o' & Hx & [(-> & Hst)|((e & ->) & -> & Hst)]); cbn [fbind] in Hx.
      * subst st'. assert (Hx' : x = (reading i fid m (data ++ take 65534 rest), next_client c, o')) by exact Hx. clear Hx.
        assert (Hlr : 0 < len rest) by (rewrite H1, len_app in Hne; lia).
        assert (Hpc : (S (pieces (len (drop 65534 rest)) 65534) <= pieces (len rest) 65534)%nat).
        { destruct (N.leb_spec 65534 (len rest)) as [Hb|Hb].
          - rewrite len_drop. apply pieces_more; lia.
          - rewrite drop_all by lia. rewrite pieces_none by lia. apply pieces_last; lia. }
        apply (@inv2_upd h st i x st own W (Some fid) false HL Hfs Hlt Hinj Hno Hph Hret) with (W' := W); auto; try lia.
        -- tauto.
        -- intros f [= <-]. split; [apply (Hlt i); auto|]. intros j Hj Hjf. apply Hj. apply (Hinj _ _ fid); auto.
        -- rewrite Hx'. apply sg_read with (drop 65534 rest); auto.
           ++ rewrite <- app_assoc, take_drop. exact H1.
           ++ lia.
           ++ intros Ho. specialize (room_less H4 Ho). lia.
      * assert (Hst' : st' = st) by (destruct Hst; assumption). clear Hst. subst st'.
        apply (@inv2_upd h st i x st own W None false HL Hfs Hlt Hinj Hno Hph Hret) with (W' := W); auto; try lia; try discriminate; [tauto|].
        rewrite Hx. constructor.
  - rewrite <- E1 in Ha. contradiction.
  - rewrite <- E1 in Ha. contradiction.
Qed.
Lemma inv2_goings : forall l h st, goings (fun _ => FS) all_online st0 l h st -> inv2 h st.
Proof. intros l h st H. apply (goings_invariant inv2 H inv2_start). exact inv2_step. Qed.
Lemma outage_sensible : sensible_off E (fun _ => FS) all_online st0.
Proof.
  intros l h st H i. destruct (inv2_goings H) as (Hfs & own & W & HW & Hnext & Hlt & Hinj & Hno & Hph & Hret).
  destruct (in_dec Nat.eq_dec i L) as [HL|HL].
  2:{ destruct (Hret i HL) as [a Hr]. unfold can_call. rewrite Hr. exact I. }
  destruct (Hph i HL) as (w & Hp & Hw). destruct (Hjobs i HL) as (Hf & Hc & Ht & Hs & Hd & Hfit & Hrm & Hn).
  destruct Hp as [s o|fid m data rest c s o H1 H2 H3 H4 H5|c s o|e c s]; cbn [fst].
  - unfold can_call. rewrite Hf. unfold download_flow, fcall. cbn [fbind]. split; [split; assumption|]. split; [exact I|].
    split; [exact Hfit|]. intros Ho. specialize (Hrm Ho). lia.
  - unfold can_call. cbn [fst snd]. destruct m as [|m]; [lia|].
    assert (Hle : len data <= len (d i)) by (rewrite H1, len_app; lia).
    assert (Hm : overflow_checks E = true -> mid c < 65535) by (intros Ho; specialize (H4 Ho); lia).
    destruct (N.eq_dec (len data) (len (d i))) as [Heq|Hne].
    + rewrite reads_all by exact Heq. split; [split; assumption|]. split; [exact I|]. split; [exact I|exact Hm].
    + rewrite reads_more by lia. split; [|split; [exact I|split; [exact I|exact Hm]]].
      split; [exact Ht|]. split; [exact H3|lia].
  - exact I.
  - exact I.
Qed.
Lemma outage_end l h st i : goings (fun _ => FS) all_online st0 l h st -> In i L ->
  match fst (fst (h i)) with
  | FRet a => a = Good (d i) \/ (exists e, a = Bad (ENetBios e)) /\ snd (h i) = false
  | FPanic | FFuel => False | _ => True end /\ fs_files st = fs_files st0.
Proof.
  intros H HL. destruct (inv2_goings H) as (Hfs & own & W & HW & Hnext & Hlt & Hinj & Hno & Hph & Hret). split; [|exact Hfs].
  destruct (Hph i HL) as (w & Hp & Hw). destruct (Hjobs i HL) as (Hf & _). destruct Hp as [s o|fid m data rest c s o H1 H2 H3 H4 H5|c s o|e c s]; cbn [fst snd].
  - rewrite Hf. exact I.
  - destruct m as [|m]; [lia|]. assert (Hle : len data <= len (d i)) by (rewrite H1, len_app; lia).
    destruct (N.eq_dec (len data) (len (d i))) as [Heq|Hne]; [rewrite reads_all by exact Heq|rewrite reads_more by lia]; exact I.
  - left. reflexivity.
  - right. split; [eauto|reflexivity].
Qed.
End Downloads.

(** the same, for the programs *)
Section Outage.
Variable tree : text -> text -> option N.
Variable setup : server_setup.
Variable accepts : text -> text -> bytes -> option N.
Notation FS := (file_service tree setup accepts).
Variables Sn Sv : Type.
Variable net : nat -> Sn -> bytes -> reaction Sn.
Variable inner : Sn -> Sv.
Variable up : nat -> Sn -> Prop.
Variable react : nat -> Sv -> bytes -> reaction Sv.
Variable abs : Sv -> files.
Hypothesis Hnet : outages net react inner up.
Hypothesis conf : forall i, conforming (react i) FS abs.
Variable E : env.
Variable fuel : nat.
Hypothesis enough : ample net fuel.
Variable n : nat.
Variable sh : nat -> share.
Variable path : nat -> text.
Variable d : nat -> bytes.
Variable g : nat -> proc bytes.
Variable s : Sn.
Definition starting (i : nat) : Prop :=
  p_prog (g i) = download E fuel (sh i) (path i) /\ p_rx (g i) = [] /\ p_tl (g i) = Open /\ typed_client (p_cl (g i))
  /\ contents (fs_files (abs (inner s))) (sh_tid (sh i)) (backslashes (path i)) = Some (d i)
  /\ u16 (sh_tid (sh i)) /\ is_str (path i) /\ len (d i) < 2 ^ 64
  /\ fits_request (use_unicode (p_cl (g i))) (OpenFile (sh i) (path i))
  /\ room E (p_cl (g i)) (2 + pieces (len (d i)) 65534) /\ (pieces (len (d i)) 65534 < fuel)%nat.
Hypothesis Hstart : forall i, (i < n)%nat -> starting i.
Hypothesis Hroom : fs_next (abs (inner s)) + N.of_nat n <= 65536.
Hypothesis Hrest : forall i, (n <= i)%nat -> (exists a, p_prog (g i) = Ret a) /\ p_rx (g i) = [] /\ p_tl (g i) = Open /\ typed_client (p_cl (g i)).
Definition flows (i : nat) : flow bytes * cifs :=
  (if (i <? n)%nat then download_flow fuel (sh i) (path i) else match p_prog (g i) with Ret a => FRet a | _ => FPanic end, p_cl (g i)).
Lemma flows_start i : starts E fuel (g i) (flows i) /\ typed_client (snd (flows i)).
Proof.
  unfold flows, starts. cbn [fst snd]. destruct (Nat.ltb_spec i n) as [Hi|Hi].
  - destruct (Hstart Hi) as (H1 & H2 & H3 & H4 & _). rewrite H1. split; [|exact H4]. split; [apply tree_download|]. auto.
  - destruct (Hrest Hi) as ((a & H1) & H2 & H3 & H4). rewrite H1. split; [|exact H4]. split; [apply tree_refl|]. auto.
Qed.
Lemma flows_jobs i : In i (seq 0 n) -> fst (flows i) = download_flow fuel (sh i) (path i)
  /\ contents (fs_files (abs (inner s))) (sh_tid (sh i)) (backslashes (path i)) = Some (d i)
  /\ u16 (sh_tid (sh i)) /\ is_str (path i) /\ len (d i) < 2 ^ 64
  /\ fits_request (use_unicode (snd (flows i))) (OpenFile (sh i) (path i))
  /\ room E (snd (flows i)) (2 + pieces (len (d i)) 65534) /\ (pieces (len (d i)) 65534 < fuel)%nat.
Proof.
  intros Hi. apply in_seq in Hi as [_ Hi]. cbn in Hi. destruct (Hstart Hi) as (_ & _ & _ & _ & H). unfold flows.
  destruct (Nat.ltb_spec i n); [|lia]. cbn [fst snd]. split; [reflexivity|exact H].
Qed.
Lemma flows_others i : ~ In i (seq 0 n) -> exists a, fst (flows i) = FRet a.
Proof.
  intros Hi. unfold flows. cbn [fst]. destruct (Nat.ltb_spec i n) as [H|H]; [destruct Hi; apply in_seq; lia|].
  destruct (Hrest H) as ((a & Ha) & _). rewrite Ha. eauto.
Qed.
Lemma flows_room : fs_next (abs (inner s)) + len (seq 0 n) <= 65536.
Proof. unfold len. rewrite seq_length. exact Hroom. Qed.
Lemma outage_flows : sensible_off E (fun _ => FS) (all_online flows) (abs (inner s)).
Proof. exact (@outage_sensible tree setup accepts E fuel sh path d (seq 0 n) flows (abs (inner s)) (seq_NoDup n 0) flows_jobs flows_others flows_room). Qed.

Theorem outage_downloads l g' s' : (forall i, up i s) -> steps net g s l g' s' ->
  (forall i, (i < n)%nat -> match p_prog (g' i) with
    | Ret a => a = Good (d i) \/ (exists e, a = Bad (ENetBios e)) /\ ~ up i s'
    | Panicked | OutOfFuel => False | _ => True end)
  /\ (forall i, (i < n)%nat -> ended (g' i) = false -> exists b p s'', moves (net i) (g' i) s' b p s'')
  /\ fs_files (abs (inner s')) = fs_files (abs (inner s)).
Proof.
  intros Hup H. pose proof outage_flows as Hsens.
  destruct (@simulates _ _ _ _ net react inner up (fun _ => FS) abs Hnet conf E fuel enough (all_online flows) (abs (inner s)) Hsens _ _ _ _ _ H eq_refl) as (h & Hser & Hf).
  { intros i. destruct (flows_start i). split; [now apply starts_follow|exact (Hup i)]. }
  split; [|split].
  - intros i Hi. destruct (@finishes _ _ _ _ net react inner up (fun _ => FS) abs Hnet conf E fuel enough (all_online flows) (abs (inner s)) Hsens n s' g' l h Hser Hf) as (h' & Hser' & Hf' & Hfin).
    specialize (Hfin i Hi). assert (HL : In i (seq 0 n)) by (apply in_seq; lia).
    destruct (@outage_end tree setup accepts E fuel sh path d (seq 0 n) flows (abs (inner s)) (seq_NoDup n 0) flows_jobs flows_others flows_room _ _ _ _ Hser' HL) as [He _].
    destruct (Hf' i) as [_ Hon]. unfold finished in Hfin. destruct (p_prog (g' i)); auto; rewrite Hfin in He; cbn [fst] in He; [|exact He|exact He].
    destruct He as [He|(He & Ho)]; [now left|right]. split; [exact He|]. rewrite Ho in Hon. exact Hon.
  - intros i Hi He. destruct (Hf i) as [Hf1 Hf2].
    exact (@progresses _ _ _ _ net react inner up (fun _ => FS) abs Hnet conf E fuel enough (all_online flows) (abs (inner s)) Hsens s' (g' i) i l h Hser Hf1 Hf2 He).
  - exact (proj1 (@inv2_goings tree setup accepts E fuel sh path d (seq 0 n) flows (abs (inner s)) (seq_NoDup n 0) flows_jobs flows_others flows_room _ _ _ Hser)).
Qed.
End Outage.
