(** * BusyFacts: clients copying directory trees while others remove them (C125) *)
From Verif Require Import Base Text Win Errors Common Reply Ntlm Prog Client Spec SpecReply SpecMsg Api SpecCall BaseFacts TextFacts
  RunFacts MsgFacts SizeFacts ReqFacts CallFacts FindFacts Flow FlowFacts SpecRemote RemoteFacts RefServer FileService FileFacts SpecPool PoolFacts PoolFileFacts
  SpecTree TreeFacts SpecRemoval RemovalFacts SpecRemovers RemoversFacts SpecBusy.
Open Scope N_scope.
Set Implicit Arguments.

Lemma pruned_copies t t' : pruned t t' -> (copy_calls t' <= copy_calls t)%nat.
Proof. induction 1; cbn [copy_calls]; lia. Qed.
Lemma pruned_reads t t' : pruned t t' -> (most_reads t' <= most_reads t)%nat.
Proof. induction 1; cbn [most_reads]; lia. Qed.
Lemma open_without l f f' : f <> f' -> open_path (without_fid l f') f = open_path l f.
Proof.
  intros H. induction l as [|[x e] l IH]; [reflexivity|]. cbn [without_fid filter fst]. destruct (N.eqb_spec x f') as [->|Hx]; cbn [negb open_path].
  - destruct (N.eqb_spec f' f); [congruence|exact IH].
  - destruct (N.eqb_spec x f); [reflexivity|exact IH].
Qed.
Lemma open_fresh l : open_path l (fresh l) = None.
Proof.
  assert (H : forall l f, Forall (fun e : N * list text => fst e < f) l -> open_path l f = None).
  { clear. intros l f H. induction H as [|[x e] l Hx _ IH]; [reflexivity|]. cbn [open_path fst] in *. destruct (N.eqb_spec x f); [lia|exact IH]. }
  apply H. apply fresh_above.
Qed.

(** ** one of the clients *)
Section Worker.
Variable the_tid : N.
Variable setup : server_setup.
Notation DS := (dir_service the_tid setup).
(** the file the client has open *)
Definition own := option (N * list text).
Definition holds (o : own) (l : list (N * list text)) : Prop := match o with Some (f, p) => open_path l f = Some p | None => True end.
Definition handles (o o' : own) (l l' : list (N * list text)) : Prop :=
  (forall f p, open_path l f = Some p -> (forall p', o <> Some (f, p')) -> open_path l' f = Some p)
  /\ holds o' l' /\ (forall f p, o' = Some (f, p) -> o = Some (f, p) \/ open_path l f = None).
Lemma handles_refl o l : holds o l -> handles o o l l.
Proof. intros H. split; [auto|]. split; [exact H|auto]. Qed.

Section Working.
(** what the client does to the tree *)
Variable G : tree -> tree -> Prop.
Hypothesis G_pruned : forall R R', G R R' -> pruned R R'.
Fixpoint working {A} (P : ans A -> own -> tree -> Prop) (f : flow A) (m : nat) (o : own) (R : tree) : Prop :=
  match f with
  | FRet a => P a o R
  | @FCall _ X q k =>
    match m with
    | O => False
    | S m =>
      typed q /\ unambiguous q /\ (forall u, fits_request u q) /\
      forall who st, names_once (ds_root st) -> pruned R (ds_root st) -> holds o (ds_open st) -> exists o',
        handles o o' (ds_open st) (ds_open (snd (DS X who (op_of q) st))) /\ G (ds_root st) (ds_root (snd (DS X who (op_of q) st)))
        /\ working P (k (returned (fst (DS X who (op_of q) st)))) m o' (ds_root (snd (DS X who (op_of q) st)))
    end
  | _ => False
  end.
Definition steady {A} (P : ans A -> own -> tree -> Prop) : Prop := forall a o R R', names_once R -> pruned R R' -> P a o R -> P a o R'.
Lemma working_keep A (P : ans A -> own -> tree -> Prop) f : steady P -> forall m o R R', names_once R -> pruned R R' -> working P f m o R -> working P f m o R'.
Proof.
  clear G_pruned. intros HP. destruct f as [a| | |X q k|k|u k|mm u k]; intros m o R R' Ho Hr; cbn [working]; auto; [now apply HP|].
  destruct m as [|m]; [auto|]. intros (H1 & H2 & H3 & H4). split; [exact H1|]. split; [exact H2|]. split; [exact H3|].
  intros who st Hst Hst' Hh. apply H4; [exact Hst| |exact Hh]. exact (pruned_trans Hr Hst').
Qed.
Lemma working_more A (P : ans A -> own -> tree -> Prop) f : forall m m' o R, (m <= m')%nat -> working P f m o R -> working P f m' o R.
Proof.
  clear G_pruned. induction f as [a| | |X q k IH|k IH|u k IH|mm u k IH]; intros m m' o R Hm; cbn [working]; auto.
  destruct m as [|m]; [contradiction|]. destruct m' as [|m']; [lia|]. intros (H1 & H2 & H3 & H4). split; [exact H1|]. split; [exact H2|]. split; [exact H3|].
  intros who st Hst Hr Hh. destruct (H4 who st Hst Hr Hh) as (o' & K1 & K2 & K3). exists o'. split; [exact K1|]. split; [exact K2|]. apply IH with m; [lia|exact K3].
Qed.
Lemma working_bind A B (P : ans A -> own -> tree -> Prop) (Q : ans B -> own -> tree -> Prop) f k m' R0 :
  (forall a o R, P (Good a) o R -> names_once R -> pruned R0 R -> working Q (k a) m' o R) ->
  (forall e o R, P (Bad e) o R -> Q (Bad e) o R) ->
  forall m o R, names_once R -> pruned R0 R -> working P f m o R -> working Q (fbind f k) (m + m') o R.
Proof.
  intros HG HB. induction f as [a| | |X q g IH|g IH|u g IH|mm u g IH]; intros m o R Ho Hp; cbn [working fbind]; auto.
  - destruct a as [a|e]; cbn [working].
    + intros H. apply working_more with m'; [lia|]. now apply HG.
    + apply HB.
  - destruct m as [|m]; [contradiction|]. cbn [Nat.add]. intros (H1 & H2 & H3 & H4). split; [exact H1|]. split; [exact H2|]. split; [exact H3|].
    intros who st Hst Hr Hh. destruct (H4 who st Hst Hr Hh) as (o' & K1 & K2 & K3). exists o'. split; [exact K1|]. split; [exact K2|].
    apply IH; [exact (pruned_once (G_pruned K2) Hst)| |exact K3]. exact (pruned_trans Hp (pruned_trans Hr (G_pruned K2))).
Qed.
Lemma working_imp A (P Q : ans A -> own -> tree -> Prop) f R0 : (forall a o R, P a o R -> names_once R -> pruned R0 R -> Q a o R) ->
  forall m o R, names_once R -> pruned R0 R -> working P f m o R -> working Q f m o R.
Proof.
  intros HPQ. induction f as [a| | |X q g IH|g IH|u g IH|mm u g IH]; intros m o R Ho Hp; cbn [working]; auto.
  destruct m as [|m]; [contradiction|]. intros (H1 & H2 & H3 & H4). split; [exact H1|]. split; [exact H2|]. split; [exact H3|].
  intros who st Hst Hr Hh. destruct (H4 who st Hst Hr Hh) as (o' & K1 & K2 & K3). exists o'. split; [exact K1|]. split; [exact K2|].
  apply IH; [exact (pruned_once (G_pruned K2) Hst)| |exact K3]. exact (pruned_trans Hp (pruned_trans Hr (G_pruned K2))).
Qed.
End Working.

(** who removes, opens nothing *)
Lemma removing_working ns A (P : ans A -> tree -> Prop) f : forall m R, removing the_tid setup ns false P f m R ->
  working (guarantee ns) (fun a (o : own) R => o = None /\ P a R) f m None R.
Proof.
  induction f as [a| | |X q k IH|k IH|u k IH|mm u k IH]; intros m R; cbn [removing working]; auto.
  destruct m as [|m]; [auto|]. intros (H1 & H2 & H3 & H4). split; [exact H1|]. split; [exact H2|]. split; [exact H3|].
  intros who st Hst Hr _. destruct (H4 who st Hst) as (K1 & K2 & K3); [split; [exact Hr|discriminate]|]. exists None.
  split; [rewrite K1; now apply handles_refl|]. split; [exact K2|]. now apply IH.
Qed.

(** ** copying *)
Hypothesis tid16 : u16 the_tid.
Variable s : share.
Hypothesis s_tid : sh_tid s = the_tid.
Notation working_c := (working (@eq tree)).
Lemma eq_pruned (R R' : tree) : R = R' -> pruned R R'.
Proof. intros ->. apply pruned_refl. Qed.
Definition server_error {A} (a : ans A) : Prop := forall e, a = Bad e -> exists x, e = ServerError x.
Definition file_read (d : bytes) (a : ans bytes) (o : own) (_ : tree) : Prop := server_error a /\ forall x, a = Good x -> x = d /\ o = None.
Lemma bad_error A x : server_error (Bad (ServerError x) : ans A).
Proof. intros e [= <-]. eauto. Qed.
Lemma working_reads fid q d fuel : fid < 65536 -> len d < 2 ^ 64 -> forall data rest R, d = data ++ rest -> (pieces (len rest) 65534 < fuel)%nat ->
  (file_of R q = None \/ file_of R q = Some d) -> names_once R ->
  working_c (file_read d) (fbind (download_reads fuel (the_handle the_tid fid (len d)) data) (fun x => fbind (fcall (Close (the_handle the_tid fid (len d)))) (fun _ => FRet (Good x))))
    (1 + pieces (len rest) 65534) (Some (fid, q)) R.
Proof.
  intros Hfid Hd. induction fuel as [|fuel IH]; intros data rest R Hdr Hf HR Honce; [lia|]. cbn [download_reads].
  change (h_size (the_handle the_tid fid (len d))) with (len d).
  destruct (N.ltb_spec (len data) (len d)) as [Hlt|Hge].
  - unfold fcall. cbn [fbind working Nat.add]. split; [split; [exact tid16|split; [exact Hfid|lia]]|]. split; [exact I|]. split; [intros u; exact I|].
    intros who st Hst Hpr Hh. cbn [holds] in Hh. cbn [op_of dir_service the_handle h_fid h_tid]. rewrite Hh.
    exists (Some (fid, q)).
    assert (HR1 : file_of (ds_root st) q = None \/ file_of (ds_root st) q = Some d).
    { destruct (pruned_files Hpr Honce q) as [K|K]; [auto|]. rewrite K. exact HR. }
    assert (Hne : 0 < len rest) by (rewrite Hdr, len_app in Hlt; lia).
    destruct HR1 as [K|K]; rewrite K; cbn [fst snd returned fbind].
    + split; [now apply handles_refl|]. split; [reflexivity|]. cbn [working]. split; [apply bad_error|discriminate].
    + split; [now apply handles_refl|]. split; [reflexivity|].
      assert (Hdrop : drop (len data) d = rest) by (rewrite Hdr; apply drop_exact). rewrite Hdrop.
      assert (Hpc : (S (pieces (len (drop 65534 rest)) 65534) <= pieces (len rest) 65534)%nat).
      { destruct (N.leb_spec 65534 (len rest)) as [Hb|Hb].
        - rewrite len_drop. apply pieces_more; lia.
        - rewrite drop_all by lia. rewrite pieces_none by lia. apply pieces_last; lia. }
      apply working_more with (1 + pieces (len (drop 65534 rest)) 65534)%nat; [lia|].
      apply IH; auto; [|lia]. rewrite <- app_assoc, take_drop. exact Hdr.
  - assert (Hda : data = d).
    { destruct rest; [now rewrite Hdr, app_nil_r|]. rewrite Hdr, len_app, len_cons in Hge. lia. }
    unfold fcall. cbn [fbind working Nat.add]. split; [split; [exact tid16|exact Hfid]|]. split; [exact I|]. split; [intros u; exact I|].
    intros who st Hst Hpr Hh. cbn [holds] in Hh. cbn [op_of dir_service the_handle h_fid h_tid]. rewrite Hh. cbn [fst snd returned fbind ds_root ds_open].
    exists None. split.
    { split; [|split; [exact I|discriminate]]. intros f p Hf' Hn. rewrite open_without; [exact Hf'|]. intros ->. exact (Hn q eq_refl). }
    split; [reflexivity|]. cbn [working]. split; [discriminate|]. intros x [= <-]. auto.
Qed.
Lemma working_download fuel q x d R : Forall a_name q -> a_name x -> short (path_of q ++ x) -> len d < 2 ^ 64 -> (pieces (len d) 65534 < fuel)%nat ->
  (file_of R (q ++ [x]) = None \/ file_of R (q ++ [x]) = Some d) -> names_once R ->
  working_c (file_read d) (download_flow fuel s (path_of q ++ x)) (2 + pieces (len d) 65534) None R.
Proof.
  intros Hq Hx Hs Hd Hf HR Honce. pose proof Hx as (X1 & _ & _ & _ & X2 & X3).
  unfold download_flow, fcall at 1. cbn [fbind working Nat.add]. split; [split; [now rewrite s_tid|]; apply str_app; [now apply str_path|exact X1]|].
  split; [exact I|]. split; [unfold short in Hs; intros u; cbn [fits_request]; lia|].
  intros who st Hst Hpr _. cbn [op_of dir_service]. rewrite names_path by assumption. rewrite s_tid, N.eqb_refl. cbn [andb].
  assert (HR1 : file_of (ds_root st) (q ++ [x]) = None \/ file_of (ds_root st) (q ++ [x]) = Some d).
  { destruct (pruned_files Hpr Honce (q ++ [x])) as [K|K]; [auto|]. rewrite K. exact HR. }
  assert (Herr : forall e, exists o', handles None o' (ds_open st) (ds_open st) /\ ds_root st = ds_root st
     /\ working_c (file_read d) (FRet (Bad (ServerError e))) (S (pieces (len d) 65534)) o' (ds_root st)).
  { intros e. exists None. split; [now apply handles_refl|]. split; [reflexivity|]. cbn [working]. split; [apply bad_error|discriminate]. }
  destruct HR1 as [K|K]; rewrite K; [apply Herr|].
  destruct (N.ltb_spec (fresh (ds_open st)) 65536) as [Hfr|Hfr]; cbn [andb]; [|apply Herr].
  destruct (N.ltb_spec (len d) (2 ^ 64)) as [_|Hb]; [|lia]. cbn [fst snd returned fbind ds_root ds_open].
  exists (Some (fresh (ds_open st), q ++ [x])). split.
  { split; [|split].
    - intros f p Hp _. cbn [open_path]. destruct (N.eqb_spec (fresh (ds_open st)) f) as [<-|]; [rewrite open_fresh in Hp; discriminate|exact Hp].
    - cbn [holds open_path]. now rewrite N.eqb_refl.
    - intros f p [= <- <-]. right. apply open_fresh. }
  split; [reflexivity|].
  apply (@working_reads (fresh (ds_open st)) (q ++ [x]) d fuel Hfr Hd [] d); auto.
Qed.

(** the entries named [l] of the directory [q] are in [t] *)
Definition covered (l : text -> Prop) (R : tree) (q : list text) (t : tree) : Prop := forall x p, l x ->
  (file_of R (q ++ x :: p) = None \/ file_of R (q ++ x :: p) = file_of t (x :: p))
  /\ (dir_at R (q ++ x :: p) = None \/ dir_at t (x :: p) <> None).
Lemma covered_keep l R R' q t : names_once R -> pruned R R' -> covered l R q t -> covered l R' q t.
Proof.
  intros Ho Hp H x p Hx. destruct (H x p Hx) as [H1 H2]. split.
  - destruct (pruned_files Hp Ho (q ++ x :: p)) as [K|K]; [auto|]. rewrite K. exact H1.
  - destruct (pruned_dirs Hp Ho (q ++ x :: p)) as [K|(u & u' & K1 & K2 & _)]; [auto|]. destruct H2 as [H2|H2]; [congruence|auto].
Qed.
Definition among (R : tree) (q : list text) (t : tree) : Prop := forall x p, In x (entry_names t) ->
  (file_of R (q ++ x :: p) = None \/ file_of R (q ++ x :: p) = file_of t (x :: p)) /\ some_pruned (dir_at t (x :: p)) (dir_at R (q ++ x :: p)).
Lemma among_keep R R' q t : names_once R -> pruned R R' -> among R q t -> among R' q t.
Proof.
  intros Ho Hp H x p Hx. destruct (H x p Hx) as [H1 H2]. split.
  - destruct (pruned_files Hp Ho (q ++ x :: p)) as [K|K]; [auto|]. rewrite K. exact H1.
  - exact (some_trans H2 (pruned_dirs Hp Ho _)).
Qed.
Definition copied (l : text -> Prop) (q : list text) (t : tree) (a : ans tree) (o : own) (R : tree) : Prop :=
  server_error a /\ forall t', a = Good t' -> o = None /\ pruned t t' /\ covered l R q t'.
Lemma copied_steady l q t : steady (copied l q t).
Proof.
  intros a o R R' Ho Hp [H1 H2]. split; [exact H1|]. intros t' Ha. destruct (H2 t' Ha) as (K1 & K2 & K3).
  split; [exact K1|]. split; [exact K2|]. exact (covered_keep Ho Hp K3).
Qed.
Variable fuel : nat.
Definition copies_at (n : nat) : Prop := forall t q R, Forall a_name q -> ordinary_tree (path_of q) t -> listable t ->
  short (path_of q ++ [42]) -> (depth t <= n)%nat -> (most_reads t < fuel)%nat -> names_once R -> some_pruned (Some t) (dir_at R q) ->
  working_c (copied (fun _ => True) q t) (copy_flow fuel (S n) s (path_of q)) (1 + copy_calls t) None R.
Lemma working_each n : (forall n', n = S n' -> copies_at n') -> forall t q R, Forall a_name q -> ordinary_tree (path_of q) t ->
  (depth t <= n)%nat -> (most_reads t < fuel)%nat -> names_once R -> among R q t ->
  working_c (copied (fun x => In x (entry_names t)) q t) (copy_each_flow fuel s (path_of q) (copy_flow fuel n s) (infos t)) (copy_calls t) None R.
Proof.
  intros IHn. induction t as [|x d r IH|x sub _ r IH]; intros q R Hq Ho Hd Hmr Honce Hb.
  - cbn [infos copy_each_flow working]. split; [discriminate|]. intros t' [= <-]. split; [reflexivity|]. split; [constructor|]. intros x p [].
  - cbn [ordinary_tree] in Ho. destruct Ho as (Hx & Hn & Hs & Hl & Hr). cbn [infos copy_each_flow d_filename].
    rewrite (dots_not Hx). change (is_directory (mk_dir 0 0 0 0 x (len d) ATTR_NORMAL)) with false. cbn iota.
    cbn [depth most_reads] in Hd, Hmr.
    change (copy_calls (AFile x d r)) with ((2 + pieces (len d) 65534) + copy_calls r)%nat.
    assert (Hfx : file_of R (q ++ [x]) = None \/ file_of R (q ++ [x]) = Some d).
    { destruct (Hb x [] (or_introl eq_refl)) as [K _]. cbn [file_of] in K. rewrite eqb_same in K. exact K. }
    apply (@working_bind _ eq_pruned _ _ (file_read d)) with (R0 := R); [| |exact Honce|apply pruned_refl|apply working_download; auto; lia].
    + intros data o R1 [_ HP] Honce1 Hpr1. destruct (HP data eq_refl) as [-> ->].
      pose proof (among_keep Honce Hpr1 Hb) as Hb1.
      assert (Hbr : among R1 q r).
      { intros y p Hy. destruct (Hb1 y p (or_intror Hy)) as [K1 K2]. cbn [file_of dir_at] in K1, K2. split; [|exact K2].
        destruct p as [|z p]; [|exact K1]. rewrite eqb_other in K1 by congruence. exact K1. }
      replace (copy_calls r) with (copy_calls r + 0)%nat by lia.
      apply (@working_bind _ eq_pruned _ _ (copied (fun y => In y (entry_names r)) q r)) with (R0 := R1);
        [| |exact Honce1|apply pruned_refl|apply IH; auto; lia].
      * intros r' o R2 [_ HP2] Honce2 Hpr2. destruct (HP2 r' eq_refl) as (-> & Hpr & Hcov). cbn [working].
        split; [discriminate|]. intros t' [= <-]. split; [reflexivity|]. split; [now apply pr_file|].
        pose proof (among_keep Honce1 Hpr2 Hb1) as Hb2.
        intros y p Hy. cbn [file_of dir_at]. destruct (list_eq_dec N.eq_dec x y) as [<-|Hxy].
        -- destruct (Hb2 x p (or_introl eq_refl)) as [K1 K2]. cbn [file_of dir_at] in K1, K2. rewrite dir_unnamed in K2 by exact Hn.
           split; [|destruct K2 as [K2|(u & u' & K2 & _)]; [now left|discriminate K2]].
           destruct p as [|z p]; [rewrite eqb_same in K1 |- *; exact K1|]. rewrite file_unnamed in K1 by exact Hn. left. now destruct K1.
        -- cbn [entry_names In] in Hy. destruct Hy as [Hy|Hy]; [contradiction|]. destruct (Hcov y p Hy) as [K1 K2].
           split; [|exact K2]. destruct p as [|z p]; [|exact K1]. rewrite eqb_other by exact Hxy. exact K1.
      * intros e o R2 [H1 _]. split; [|discriminate]. intros e' [= <-]. exact (H1 e eq_refl).
    + intros e o R2 [H1 _]. split; [|discriminate]. intros e' [= <-]. exact (H1 e eq_refl).
  - cbn [ordinary_tree] in Ho. destruct Ho as (Hx & Hn & Hs & Hl & Hsub & Hr). cbn [infos copy_each_flow d_filename].
    rewrite (dots_not Hx). change (is_directory (mk_dir 0 0 0 0 x 0 ATTR_DIRECTORY)) with true. cbn iota.
    cbn [depth most_reads] in Hd, Hmr. destruct n as [|n']; [lia|]. specialize (IHn n' eq_refl).
    change (copy_calls (ADir x sub r)) with ((1 + copy_calls sub) + copy_calls r)%nat.
    rewrite path_snoc in Hsub |- *.
    apply (@working_bind _ eq_pruned _ _ (copied (fun _ => True) (q ++ [x]) sub)) with (R0 := R); [| |exact Honce|apply pruned_refl|].
    + intros sub' o R1 [_ HP] Honce1 Hpr1. destruct (HP sub' eq_refl) as (-> & Hps & Hcs).
      pose proof (among_keep Honce Hpr1 Hb) as Hb1.
      assert (Hbr : among R1 q r).
      { intros y p Hy. assert (Hyx : x <> y) by congruence. destruct (Hb1 y p (or_intror Hy)) as [K1 K2]. cbn [file_of dir_at] in K1, K2.
        rewrite (eqb_other Hyx) in K1, K2. split; [|exact K2]. destruct p; exact K1. }
      replace (copy_calls r) with (copy_calls r + 0)%nat by lia.
      apply (@working_bind _ eq_pruned _ _ (copied (fun y => In y (entry_names r)) q r)) with (R0 := R1);
        [| |exact Honce1|apply pruned_refl|apply IH; auto; lia].
      * intros r' o R2 [_ HP2] Honce2 Hpr2. destruct (HP2 r' eq_refl) as (-> & Hpr & Hcov). cbn [working].
        split; [discriminate|]. intros t' [= <-]. split; [reflexivity|]. split; [now apply pr_dir|].
        pose proof (among_keep Honce1 Hpr2 Hb1) as Hb2. pose proof (covered_keep Honce1 Hpr2 Hcs) as Hcs2.
        intros y p Hy. cbn [file_of dir_at]. destruct (list_eq_dec N.eq_dec x y) as [<-|Hxy].
        -- rewrite eqb_same. destruct p as [|z p].
           ++ destruct (Hb2 x [] (or_introl eq_refl)) as [K1 K2]. cbn [file_of] in K1. rewrite file_unnamed in K1 by exact Hn.
              split; [left; now destruct K1|]. right. rewrite dir_root. discriminate.
           ++ destruct (Hcs2 z p I) as [K1 K2]. rewrite <- app_assoc in K1, K2. split; [exact K1|exact K2].
        -- rewrite (eqb_other Hxy). cbn [entry_names In] in Hy. destruct Hy as [Hy|Hy]; [contradiction|]. destruct (Hcov y p Hy) as [K1 K2].
           split; [|exact K2]. destruct p; exact K1.
      * intros e o R2 [H1 _]. split; [|discriminate]. intros e' [= <-]. exact (H1 e eq_refl).
    + intros e o R2 [H1 _]. split; [|discriminate]. intros e' [= <-]. exact (H1 e eq_refl).
    + apply IHn; auto; try lia.
      * apply Forall_app. auto.
      * rewrite <- path_snoc. rewrite <- !app_assoc. exact Hs.
      * destruct (Hb x [] (or_introl eq_refl)) as [_ K]. cbn [dir_at] in K. rewrite eqb_same, dir_root in K. exact K.
Qed.
Lemma working_copy n : copies_at n.
Proof.
  induction n as [n IHn] using (well_founded_induction Nat.lt_wf_0). intros t q R Hq Ho Hl Hs Hd Hmr Honce Hb.
  cbn [copy_flow]. unfold list_flow, fcall. cbn [fbind working Nat.add].
  split; [split; [now rewrite s_tid|]; apply str_app; [now apply str_path|reflexivity]|].
  split; [exact I|]. split; [unfold short in Hs; intros u; cbn [fits_request]; lia|].
  intros who st Hst Hpr _. cbn [op_of]. rewrite s_tid. exists None.
  destruct (some_trans Hb (pruned_dirs Hpr Honce q)) as [K|(t0 & u & K1 & K2 & K3)].
  - cbn [dir_service]. rewrite names_path; [|exact Hq|cbn; intuition discriminate|cbn; intuition discriminate].
    rewrite removelast_last, K. cbn [fst snd returned fbind working]. split; [now apply handles_refl|]. split; [reflexivity|].
    split; [apply bad_error|discriminate].
  - injection K1 as <-.
    rewrite (@tree_listed the_tid setup st who q u _ Hq K2 (pruned_listable K3 Hl) (pruned_ordinary K3 _ Ho)).
    cbn [fst snd returned fbind ff_end ff_info]. split; [now apply handles_refl|]. split; [reflexivity|].
    apply working_more with (copy_calls u); [exact (pruned_copies K3)|].
    pose proof (bounded_dir _ _ K2) as HB.
    apply (@working_imp _ eq_pruned _ (copied (fun x => In x (entry_names u)) q u)) with (R0 := ds_root st); [|exact Hst|apply pruned_refl|].
    + intros a o R1 [H1 H2] Honce1 Hpr1. split; [exact H1|]. intros t' Ha. destruct (H2 t' Ha) as (L1 & L2 & L3).
      split; [exact L1|]. split; [exact (pruned_trans K3 L2)|].
      intros x p _. destruct (in_dec (list_eq_dec N.eq_dec) x (entry_names u)) as [Hin|Hin]; [now apply L3|].
      destruct (bounded_keep Hst Hpr1 HB) as [B1 B2]. split; left.
      * destruct (B1 x p) as [B|B]; [exact B|]. rewrite B. now apply file_unnamed.
      * destruct (B2 x p) as [B|(v & v' & B & _)]; [exact B|]. rewrite dir_unnamed in B by exact Hin. discriminate B.
    + apply working_each; auto.
      * intros n' ->. apply IHn. lia.
      * exact (pruned_ordinary K3 _ Ho).
      * pose proof (pruned_depth K3). lia.
      * pose proof (pruned_reads K3). lia.
      * intros x p _. destruct HB as [B1 B2]. auto.
Qed.
End Worker.

(** ** all of them *)
Lemma tree_copy_each E fuel s pre go gof l : (forall p, same_tree (go p) (interp E fuel (gof p))) ->
  same_tree (copy_each E fuel s pre go l) (interp E fuel (copy_each_flow fuel s pre gof l)).
Proof.
  intros Hg. induction l as [|d r IH]; cbn [copy_each copy_each_flow]; [apply tree_refl|].
  destruct (is_dots (d_filename d)); [exact IH|]. destruct (is_directory d); apply tree_sym.
  - eapply tree_trans; [apply tree_fbind|]. apply tree_mbind; [apply tree_sym, Hg|]. intros x.
    eapply tree_trans; [apply tree_fbind|]. apply tree_mbind; [apply tree_sym, IH|]. intros xs. apply tree_refl.
  - eapply tree_trans; [apply tree_fbind|]. apply tree_mbind; [apply tree_sym, tree_download|]. intros x.
    eapply tree_trans; [apply tree_fbind|]. apply tree_mbind; [apply tree_sym, IH|]. intros xs. apply tree_refl.
Qed.
Lemma tree_copy E fuel s n : forall pre, same_tree (copy_tree E fuel n s pre) (interp E fuel (copy_flow fuel n s pre)).
Proof.
  induction n as [|n IH]; intros pre; cbn [copy_tree copy_flow]; [apply tree_refl|].
  apply tree_sym. eapply tree_trans; [apply tree_fbind|]. apply tree_mbind; [apply tree_sym, tree_list|]. intros l.
  apply tree_sym. now apply tree_copy_each.
Qed.
Definition job_flow (fuel n : nat) (j : job) (s : share) (ns : list text) : flow tree :=
  match j with
  | Copy => copy_flow fuel n s (path_of ns)
  | Remove => fbind (clear_flow fuel n s (path_of ns)) (fun _ => FRet (Good Nothing))
  end.
Lemma tree_job E fuel n j s ns : same_tree (job_prog E fuel n j s ns) (interp E fuel (job_flow fuel n j s ns)).
Proof.
  destruct j; cbn [job_prog job_flow]; [apply tree_copy|]. apply tree_sym. eapply tree_trans; [apply tree_fbind|].
  apply tree_mbind; [apply tree_sym, tree_clear|]. intros x. apply tree_refl.
Qed.
Lemma once_inside R : names_once R -> forall q t, dir_at R q = Some t -> names_once t.
Proof.
  induction R as [|n d r IH|n sub IHs r IH]; intros H [|x q] t Hd; cbn [dir_at] in Hd; try (injection Hd as <-; exact H); [discriminate Hd|exact (IH (proj2 H) _ _ Hd)|].
  destruct (text_eqb n x); [exact (IHs (proj1 (proj2 H)) _ _ Hd)|exact (IH (proj2 (proj2 H)) _ _ Hd)].
Qed.

Section Pool.
Variable the_tid : N.
Variable setup : server_setup.
Notation DS := (dir_service the_tid setup).
Variable E : env.
Variable fuel depths n : nat.
Variable jobs : nat -> job.
Variable sh : nat -> share.
Variable ns : nat -> list text.
Variable g0 : nat -> flow tree * cifs.
Variable st0 : dirs.
Hypothesis Honce : names_once (ds_root st0).
Variable t : nat -> tree.
Hypothesis Hjobs : forall i, (i < n)%nat -> fst (g0 i) = job_flow fuel depths (jobs i) (sh i) (ns i)
  /\ u16 (sh_tid (sh i)) /\ sh_tid (sh i) = the_tid /\ Forall a_name (ns i) /\ short (path_of (ns i) ++ [42])
  /\ dir_at (ds_root st0) (ns i) = Some (t i) /\ listable (t i) /\ ordinary_tree (path_of (ns i)) (t i) /\ (depth (t i) < depths)%nat
  /\ (most_reads (t i) < fuel)%nat /\ room E (snd (g0 i)) (1 + job_calls (jobs i) (t i)).
Hypothesis Hothers : forall i, (n <= i)%nat -> exists a, fst (g0 i) = FRet a.

Definition does (i : nat) : tree -> tree -> Prop := match jobs i with Copy => eq | Remove => guarantee (ns i) end.
Definition reached (i : nat) (a : ans tree) (o : own) (R : tree) : Prop :=
  match jobs i with
  | Copy => copied (fun _ => True) (ns i) (t i) a o R
  | Remove => server_error a /\ forall x, a = Good x -> o = None /\ gone (ns i) R
  end.
Lemma does_pruned i R R' : does i R R' -> pruned R R'.
Proof. unfold does. destruct (jobs i); [apply eq_pruned|]. intros H. exact (proj1 H). Qed.
Lemma gone_keep q R R' : names_once R -> pruned R R' -> gone q R -> gone q R'.
Proof.
  intros Ho Hp H p Hb. destruct (H p Hb) as [H1 H2]. split.
  - destruct (pruned_files Hp Ho p) as [K|K]; congruence.
  - destruct (pruned_dirs Hp Ho p) as [K|(u & u' & K & _)]; [exact K|congruence].
Qed.
Lemma reached_steady i : steady (reached i).
Proof.
  intros a o R R' Ho Hp. unfold reached. destruct (jobs i); [now apply copied_steady|]. intros [H1 H2]. split; [exact H1|].
  intros x Hx. destruct (H2 x Hx) as [K1 K2]. split; [exact K1|]. exact (gone_keep Ho Hp K2).
Qed.
Definition proceeds (i : nat) (x : flow tree * cifs) (o : own) (R : tree) : Prop :=
  exists m, working the_tid setup (does i) (reached i) (fst x) m o R /\ room E (snd x) m.
Definition all_working (h : nat -> flow tree * cifs) (st : dirs) : Prop :=
  names_once (ds_root st) /\ pruned (ds_root st0) (ds_root st)
  /\ (forall p, ~ removed_in n jobs ns p ->
        file_of (ds_root st) p = file_of (ds_root st0) p /\ (dir_at (ds_root st) p = None <-> dir_at (ds_root st0) p = None))
  /\ (exists ow : nat -> own,
        (forall i, (i < n)%nat -> proceeds i (h i) (ow i) (ds_root st) /\ holds (ow i) (ds_open st))
        /\ (forall i j f p p', (i < n)%nat -> (j < n)%nat -> i <> j -> ow i = Some (f, p) -> ow j <> Some (f, p'))
        /\ (forall f p, open_path (ds_open st0) f = Some p -> open_path (ds_open st) f = Some p /\ forall i p', (i < n)%nat -> ow i <> Some (f, p')))
  /\ (forall i, (n <= i)%nat -> exists a, fst (h i) = FRet a).
Lemma working_start : all_working g0 st0.
Proof.
  split; [exact Honce|]. split; [apply pruned_refl|]. split; [intros p _; tauto|]. split; [|exact Hothers].
  exists (fun _ => None). split; [|split; [intros; discriminate|intros f p Hp; split; [exact Hp|intros; discriminate]]].
  intros i Hi. split; [|exact I]. destruct (Hjobs Hi) as (H1 & H2 & H3 & H4 & H5 & H6 & H7 & H8 & H9 & H10 & H11).
  exists (1 + job_calls (jobs i) (t i))%nat. split; [|exact H11].
  rewrite H1. unfold does, reached, job_flow. destruct depths as [|k]; [lia|].
  assert (Ht : u16 the_tid) by (now rewrite <- H3).
  destruct (jobs i); cbn [job_calls].
  - apply (@working_copy the_tid setup Ht (sh i) H3 fuel k); auto; try lia. rewrite H6. right. exists (t i), (t i). auto using pruned_refl.
  - pose proof (@removing_clear the_tid setup Ht (sh i) H3 (ns i) H4 false fuel k (t i) (t i) [] (ds_root st0)) as K. rewrite app_nil_r in K.
    assert (K' : removing the_tid setup (ns i) false (after (ns i) false (t i) []) (clear_flow fuel (S k) (sh i) (path_of (ns i))) (1 + clear_calls (t i)) (ds_root st0)).
    { apply K; auto; try lia.
      - rewrite H6. right. exists (t i), (t i). auto using pruned_refl.
      - discriminate. }
    apply removing_working in K'. replace (1 + clear_calls (t i))%nat with (1 + clear_calls (t i) + 0)%nat by lia.
    eapply (@working_bind the_tid setup (guarantee (ns i))) with (R0 := ds_root st0); [intros R R' HG; exact (proj1 HG)| | |exact Honce|apply pruned_refl|exact K'].
    + intros [] o R [-> (_ & K2 & _)] _ _. cbn [working]. split; [discriminate|]. intros x _. rewrite app_nil_r in K2. auto.
    + intros e o R [_ (K1 & _)]. split; [|discriminate]. intros e' [= <-]. exact (K1 e eq_refl).
Qed.
Lemma working_step h st i b x st' : all_working h st -> advances DS (h i) st b x st' -> all_working (upd h i x) st'.
Proof.
  intros (H1 & H2 & H4 & (ow & H5 & HD & HI) & H6) Ha.
  destruct (Nat.lt_ge_cases i n) as [Hi|Hi].
  2:{ exfalso. destruct (H6 i Hi) as [a Hr]. apply advances_view in Ha. now rewrite Hr in Ha. }
  destruct (H5 i Hi) as ((m & Hm & Hrm) & Hh). destruct (h i) as [f c] eqn:Ehi. cbn [fst snd] in Hm, Hrm.
  assert (Hstep : exists o', does i (ds_root st) (ds_root st') /\ handles (ow i) o' (ds_open st) (ds_open st') /\ proceeds i x o' (ds_root st')).
  { apply advances_view in Ha. cbn [fst snd] in Ha. destruct f as [a| | |X q k|k|u k|mm u k]; cbn [working] in Hm; try contradiction.
    destruct m as [|m]; [contradiction|]. destruct Hm as (_ & _ & _ & Hm). destruct Ha as (_ & -> & ->).
    destruct (Hm (uid c) st H1 (pruned_refl _) Hh) as (o' & K1 & K2 & K3). exists o'. split; [exact K2|]. split; [exact K1|].
    exists m. split; [exact K3|]. cbn [snd]. now apply room_one. }
  destruct Hstep as (o' & Hdo & (HL1 & HL2 & HL3) & Hgo). pose proof (@does_pruned i _ _ Hdo) as G1.
  split; [exact (pruned_once G1 H1)|]. split; [exact (pruned_trans H2 G1)|]. split; [|split].
  - intros p Hp. destruct (H4 p Hp) as [K1 K2]. unfold does in Hdo. destruct (jobs i) eqn:Ej; [rewrite <- Hdo; auto|].
    destruct Hdo as (_ & G2 & _). destruct (G2 p) as [L1 L2]; [|split; [congruence|tauto]].
    destruct (below (ns i) p) eqn:Eb; [|reflexivity]. destruct Hp. exists i. auto.
  - exists (upd ow i o'). split; [|split].
    + intros j Hj. destruct (Nat.eq_dec j i) as [->|Hji]; [rewrite !upd_same; auto|rewrite !upd_other by exact Hji].
      destruct (H5 j Hj) as ((mj & K1 & K2) & K3). split.
      * exists mj. split; [|exact K2]. apply working_keep with (R := ds_root st); [apply reached_steady|exact H1|exact G1|exact K1].
      * destruct (ow j) as [[f' p']|] eqn:Ej; [|exact I]. cbn [holds] in *. apply HL1; [exact K3|].
        intros p'' Hp''. exact (HD i j f' p'' p' Hi Hj (not_eq_sym Hji) Hp'' Ej).
    + intros a b' f' p p' Ha' Hb' Hab. destruct (Nat.eq_dec a i) as [->|Hai].
      * rewrite upd_same, upd_other by congruence. intros Ho' Hob. destruct (HL3 f' p Ho') as [K|K].
        -- exact (HD i b' f' p p' Hi Hb' Hab K Hob).
        -- destruct (H5 b' Hb') as [_ K3]. rewrite Hob in K3. cbn [holds] in K3. congruence.
      * rewrite (upd_other _ _ Hai). intros Hoa. destruct (Nat.eq_dec b' i) as [->|Hbi].
        -- rewrite upd_same. intros Ho'. destruct (HL3 f' p' Ho') as [K|K].
           ++ exact (HD a i f' p p' Ha' Hi Hab Hoa K).
           ++ destruct (H5 a Ha') as [_ K3]. rewrite Hoa in K3. cbn [holds] in K3. congruence.
        -- rewrite (upd_other _ _ Hbi). exact (HD a b' f' p p' Ha' Hb' Hab Hoa).
    + intros f' p Hp. destruct (HI f' p Hp) as [K1 K2]. split; [apply HL1; [exact K1|]; intros p'; now apply K2|].
      intros j p' Hj. destruct (Nat.eq_dec j i) as [->|Hji]; [rewrite upd_same|rewrite upd_other by exact Hji; now apply K2].
      intros Ho'. destruct (HL3 f' p' Ho') as [K|K]; [exact (K2 i p' Hi K)|congruence].
  - intros j Hj. rewrite upd_other by lia. now apply H6.
Qed.
Lemma working_all l h st : serial (fun _ => DS) g0 st0 l h st -> all_working h st.
Proof. intros H. apply (serial_invariant all_working H working_start). exact working_step. Qed.
Lemma working_sensible : sensible E (fun _ => DS) g0 st0.
Proof.
  intros l h st H i. destruct (working_all H) as (H1 & H2 & H4 & (ow & H5 & _) & H6).
  destruct (Nat.lt_ge_cases i n) as [Hi|Hi].
  2:{ destruct (H6 i Hi) as [a Hr]. unfold can_call. rewrite Hr. exact I. }
  destruct (H5 i Hi) as ((m & Hm & Hrm) & _). unfold can_call. destruct (h i) as [f c]. cbn [fst snd] in *.
  destruct f as [a| | |X q k|k|u k|mm u k]; cbn [working] in Hm; try contradiction; auto.
  destruct m as [|m]; [contradiction|]. destruct Hm as (K1 & K2 & K3 & _). split; [exact K1|]. split; [exact K2|]. split; [apply K3|].
  intros Ho. specialize (Hrm Ho). lia.
Qed.
Lemma working_end l h st i : serial (fun _ => DS) g0 st0 l h st -> (i < n)%nat ->
  match fst (h i) with
  | FRet a => exists o, reached i a o (ds_root st)
  | FPanic | FFuel => False
  | _ => True
  end.
Proof.
  intros H Hi. destruct (working_all H) as (_ & _ & _ & (ow & H5 & _) & _). destruct (H5 i Hi) as ((m & Hm & _) & _).
  destruct (fst (h i)) as [a| | |X q k|k|u k|mm u k]; cbn [working] in Hm; eauto.
Qed.
End Pool.

Lemma between_copied q R R' t t' : names_once R -> dir_at R q = Some t -> pruned t t' -> covered (fun _ => True) R' q t' -> copy_between q R R' t'.
Proof.
  intros Ho Hd Hp Hc p Hne. destruct p as [|x p]; [congruence|]. pose proof (@once_inside R Ho q t Hd) as Hot.
  rewrite (file_inside R q Hd), (dir_inside R q Hd). destruct (Hc x p I) as [K1 K2].
  split; [exact (pruned_files Hp Hot (x :: p))|]. split; [|split; [exact K1|exact K2]].
  destruct (pruned_dirs Hp Hot (x :: p)) as [K|(u & u' & K & _)]; [now left|right; congruence].
Qed.

Section Concurrent.
Variable the_tid : N.
Variable setup : server_setup.
Notation DS := (dir_service the_tid setup).
Variable Sv : Type.
Variable abs : Sv -> dirs.
Variable E : env.
Variable fuel depths : nat.
Variable n : nat.
Variable jobs : nat -> job.
Variable sh : nat -> share.
Variable ns : nat -> list text.
Variable g : nat -> proc tree.
Variable s : Sv.
Hypothesis Honce : names_once (ds_root (abs s)).
Hypothesis Hstart : forall i, (i < n)%nat -> worker E fuel depths the_tid (ds_root (abs s)) (g i) (jobs i) (sh i) (ns i).
Hypothesis Hrest : forall i, (n <= i)%nat -> (exists a, p_prog (g i) = Ret a) /\ p_rx (g i) = [] /\ p_tl (g i) = Open /\ typed_client (p_cl (g i)).
Definition wflows (i : nat) : flow tree * cifs :=
  (if (i <? n)%nat then job_flow fuel depths (jobs i) (sh i) (ns i) else match p_prog (g i) with Ret a => FRet a | _ => FPanic end, p_cl (g i)).
Definition what_there (i : nat) : tree := match dir_at (ds_root (abs s)) (ns i) with Some t => t | None => Nothing end.
Lemma wflows_start i : starts E fuel (g i) (wflows i) /\ typed_client (snd (wflows i)).
Proof.
  unfold wflows, starts. cbn [fst snd]. destruct (Nat.ltb_spec i n) as [Hi|Hi].
  - destruct (Hstart Hi) as (H1 & H2 & H3 & H4 & _). rewrite H1. split; [|exact H4]. split; [apply tree_job|]. auto.
  - destruct (Hrest Hi) as ((a & H1) & H2 & H3 & H4). rewrite H1. split; [|exact H4]. split; [apply tree_refl|]. auto.
Qed.
Lemma wflows_jobs i : (i < n)%nat -> fst (wflows i) = job_flow fuel depths (jobs i) (sh i) (ns i)
  /\ u16 (sh_tid (sh i)) /\ sh_tid (sh i) = the_tid /\ Forall a_name (ns i) /\ short (path_of (ns i) ++ [42])
  /\ dir_at (ds_root (abs s)) (ns i) = Some (what_there i) /\ listable (what_there i) /\ ordinary_tree (path_of (ns i)) (what_there i)
  /\ (depth (what_there i) < depths)%nat /\ (most_reads (what_there i) < fuel)%nat /\ room E (snd (wflows i)) (1 + job_calls (jobs i) (what_there i)).
Proof.
  intros Hi. destruct (Hstart Hi) as (_ & _ & _ & _ & H5 & H6 & H7 & H8 & t & T1 & T2 & T3 & T4 & T5 & T6). unfold wflows, what_there. rewrite T1.
  destruct (Nat.ltb_spec i n); [|lia]. cbn [fst snd]. auto 12.
Qed.
Lemma wflows_others i : (n <= i)%nat -> exists a, fst (wflows i) = FRet a.
Proof.
  intros Hi. unfold wflows. cbn [fst]. destruct (Nat.ltb_spec i n) as [H|H]; [lia|]. destruct (Hrest H) as ((a & Ha) & _). rewrite Ha. eauto.
Qed.
Variable react : nat -> Sv -> bytes -> reaction Sv.
Hypothesis conf : forall i, conforming (react i) DS abs.
Hypothesis enough : ample react fuel.
Theorem concurrent_work l g' s' : steps react g s l g' s' ->
  (forall i, (i < n)%nat -> match p_prog (g' i) with
    | Ret (Good t) => match jobs i with
                      | Copy => copy_between (ns i) (ds_root (abs s)) (ds_root (abs s')) t
                      | Remove => gone (ns i) (ds_root (abs s'))
                      end
    | Ret (Bad e) => exists x, e = ServerError x
    | Panicked | OutOfFuel => False | _ => True end)
  /\ (forall i, (i < n)%nat -> ended (g' i) = false -> exists b p s'', moves (react i) (g' i) s' b p s'')
  /\ (forall p, ~ removed_in n jobs ns p -> file_of (ds_root (abs s')) p = file_of (ds_root (abs s)) p
       /\ (dir_at (ds_root (abs s')) p = None <-> dir_at (ds_root (abs s)) p = None))
  /\ (forall p, (file_of (ds_root (abs s')) p = None \/ file_of (ds_root (abs s')) p = file_of (ds_root (abs s)) p)
       /\ (dir_at (ds_root (abs s')) p = None \/ dir_at (ds_root (abs s)) p <> None))
  /\ still_open (ds_open (abs s)) (ds_open (abs s')).
Proof.
  intros H.
  pose proof (@working_sensible the_tid setup E fuel depths n jobs sh ns wflows (abs s) Honce what_there wflows_jobs wflows_others) as Hsens.
  destruct (@simulate _ _ _ react (fun _ => DS) abs conf E fuel enough wflows (abs s) Hsens _ _ _ _ _ H eq_refl) as (h & Hser & Hf).
  { intros i. destruct (wflows_start i). now apply starts_follows. }
  split; [|split].
  - intros i Hi.
    destruct (@finish _ _ _ react (fun _ => DS) abs conf E fuel enough wflows (abs s) Hsens n s' g' l h Hser Hf) as (h' & Hser' & _ & Hfin).
    specialize (Hfin i Hi).
    pose proof (@working_end the_tid setup E fuel depths n jobs sh ns wflows (abs s) Honce what_there wflows_jobs wflows_others
      _ _ _ i Hser' Hi) as He.
    destruct (wflows_jobs Hi) as (_ & _ & _ & _ & _ & W & _).
    unfold finished in Hfin. destruct (p_prog (g' i)) as [[t'|e]| | | | | |]; auto; rewrite Hfin in He; cbn [fst] in He; auto;
      destruct He as [o He]; unfold reached in He.
    + destruct (jobs i).
      * destruct He as [_ He]. destruct (He t' eq_refl) as (_ & K2 & K3). exact (@between_copied (ns i) _ _ _ _ Honce W K2 K3).
      * destruct He as [_ He]. exact (proj2 (He t' eq_refl)).
    + destruct (jobs i); destruct He as [He _]; exact (He e eq_refl).
  - intros i Hi He. exact (@progress _ _ _ react (fun _ => DS) abs conf E fuel enough wflows (abs s) Hsens s' (g' i) i l h Hser (Hf i) He).
  - destruct (@working_all the_tid setup E fuel depths n jobs sh ns wflows (abs s) Honce what_there wflows_jobs wflows_others _ _ _ Hser)
      as (H1 & H2 & H4 & (ow & _ & _ & H5) & _). split; [exact H4|]. split.
    + intros p. split; [exact (pruned_files H2 Honce p)|].
      destruct (pruned_dirs H2 Honce p) as [K|(u & u' & K & _)]; [now left|]. right. rewrite K. discriminate.
    + intros f p Hp. exact (proj1 (H5 f p Hp)).
Qed.
End Concurrent.
