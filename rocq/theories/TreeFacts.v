(** * TreeFacts: copying and removing directory trees (C121, C122) *)
From Verif Require Import Base Text Win Errors Common Reply Ntlm Prog Client Spec SpecReply SpecMsg Api SpecCall BaseFacts TextFacts
  RunFacts MsgFacts SizeFacts Flow FlowFacts SpecRemote RemoteFacts RefServer RefFacts FileService FileFacts SpecMirror SpecFetch FetchFacts
  MirrorFacts SpecTree.
Open Scope N_scope.
Set Implicit Arguments.

Lemma eqb_same x : text_eqb x x = true.
Proof. now apply text_eqb_iff. Qed.
Lemma eqb_other x y : x <> y -> text_eqb x y = false.
Proof. intros H. destruct (text_eqb x y) eqn:E; [|reflexivity]. apply text_eqb_iff in E. contradiction. Qed.

(** ** paths *)
Lemma names_single x : ~ In 92 x -> names_of x = [x].
Proof.
  induction x as [|c r IH]; [reflexivity|]. cbn [names_of In]. intros H. destruct (N.eqb_spec c 92) as [->|]; [exfalso; apply H; now left|].
  rewrite IH by tauto. reflexivity.
Qed.
Lemma names_first n q : ~ In 92 n -> names_of (n ++ 92 :: q) = n :: names_of q.
Proof.
  induction n as [|c r IH]; [reflexivity|]. cbn [names_of app In]. intros H. destruct (N.eqb_spec c 92) as [->|]; [exfalso; apply H; now left|].
  rewrite IH by tauto. reflexivity.
Qed.
Lemma backslashes_app a b : backslashes (a ++ b) = backslashes a ++ backslashes b.
Proof. apply map_app. Qed.
Lemma names_path ns x : Forall a_name ns -> ~ In 47 x -> ~ In 92 x -> names_of (backslashes (path_of ns ++ x)) = ns ++ [x].
Proof.
  intros H H1 H2. rewrite backslashes_app, (@same_backslashes x) by exact H1. induction H as [|n ns (_ & _ & _ & _ & N1 & N2) _ IH].
  - now apply names_single.
  - unfold path_of in *. cbn [map concat]. rewrite !backslashes_app, (@same_backslashes n) by exact N1.
    change (backslashes [47]) with [92]. rewrite <- !app_assoc. cbn [app]. rewrite names_first by exact N2. now rewrite IH.
Qed.
Lemma path_snoc ns n : path_of ns ++ n ++ [47] = path_of (ns ++ [n]).
Proof. unfold path_of. rewrite map_app, concat_app. cbn [map concat]. now rewrite app_nil_r. Qed.
Lemma last_snoc A (l : list A) x d : last (l ++ [x]) d = x.
Proof. apply last_last. Qed.

Lemma file_nowhere t : file_of t [] = None.
Proof. induction t; cbn [file_of]; auto. Qed.
Lemma file_inside R : forall ns t, dir_at R ns = Some t -> forall x q, file_of R (ns ++ x :: q) = file_of t (x :: q).
Proof.
  induction R as [|n d r IH|n sub IHs r IH]; intros [|y ns] t; cbn [dir_at app].
  - now intros [= <-].
  - discriminate.
  - now intros [= <-].
  - intros H x q. cbn [file_of]. specialize (IH (y :: ns) t H x q). cbn [app] in IH. rewrite <- IH. destruct ns; reflexivity.
  - now intros [= <-].
  - intros H x q. cbn [file_of]. destruct (text_eqb n y) eqn:Ey.
    + specialize (IHs ns t H x q). rewrite <- IHs. destruct ns; reflexivity.
    + specialize (IH (y :: ns) t H x q). cbn [app] in IH. rewrite <- IH. destruct ns; reflexivity.
Qed.
Lemma dir_inside R : forall ns t, dir_at R ns = Some t -> forall q, dir_at R (ns ++ q) = dir_at t q.
Proof.
  induction R as [|n d r IH|n sub IHs r IH]; intros [|y ns] t H q; cbn [dir_at app] in *; try (injection H as <-; reflexivity).
  - discriminate H.
  - exact (IH (y :: ns) t H q).
  - destruct (text_eqb n y); [exact (IHs ns t H q)|exact (IH (y :: ns) t H q)].
Qed.

(** ** the directory at a path replaced *)
Fixpoint put (R : tree) (ns : list text) (t : tree) : tree :=
  match ns with
  | [] => t
  | x :: p =>
    match R with
    | Nothing => Nothing
    | AFile n d r => AFile n d (put r ns t)
    | ADir n sub r => if text_eqb n x then ADir n (put sub p t) r else ADir n sub (put r ns t)
    end
  end.
Lemma put_same R : forall ns t, dir_at R ns = Some t -> put R ns t = R.
Proof.
  induction R as [|n d r IH|n sub IHs r IH]; intros [|y ns] t; cbn [dir_at put].
  - now intros [= ->].
  - reflexivity.
  - now intros [= ->].
  - intros H. now rewrite IH.
  - now intros [= ->].
  - destruct (text_eqb n y); intros H; [now rewrite IHs|now rewrite IH].
Qed.
Lemma put_dir R : forall ns u t, dir_at R ns = Some u -> dir_at (put R ns t) ns = Some t.
Proof.
  induction R as [|n d r IH|n sub IHs r IH]; intros [|y ns] u t; cbn [dir_at put]; try reflexivity; try discriminate; intros H;
    try (destruct t; reflexivity).
  - exact (IH (y :: ns) u t H).
  - destruct (text_eqb n y) eqn:Ey; cbn [dir_at]; rewrite Ey; [exact (IHs ns u t H)|exact (IH (y :: ns) u t H)].
Qed.
Lemma put_unlink R : forall ns u t x, dir_at R ns = Some u -> unlink (put R ns t) (ns ++ [x]) = put R ns (unlink t [x]).
Proof.
  induction R as [|n d r IH|n sub IHs r IH]; intros [|y ns] u t x H; cbn [dir_at put app] in *; try reflexivity; try discriminate.
  - cbn [unlink]. rewrite <- (IH (y :: ns) u t x H). destruct ns; reflexivity.
  - destruct (text_eqb n y) eqn:Ey; cbn [unlink]; rewrite Ey.
    + rewrite <- (IHs ns u t x H). destruct ns; reflexivity.
    + rewrite <- (IH (y :: ns) u t x H). destruct ns; reflexivity.
Qed.
Lemma put_remove R : forall ns u t x, dir_at R ns = Some u -> remove_dir (put R ns t) (ns ++ [x]) = put R ns (remove_dir t [x]).
Proof.
  induction R as [|n d r IH|n sub IHs r IH]; intros [|y ns] u t x H; cbn [dir_at put app] in *; try reflexivity; try discriminate.
  - cbn [remove_dir]. rewrite <- (IH (y :: ns) u t x H). reflexivity.
  - destruct (text_eqb n y) eqn:Ey; cbn [remove_dir]; rewrite Ey.
    + rewrite <- (IHs ns u t x H). destruct ns; reflexivity.
    + rewrite <- (IH (y :: ns) u t x H). destruct ns; reflexivity.
Qed.
Lemma put_root R t : put R [] t = t.
Proof. destruct R; reflexivity. Qed.
Lemma put_inner R : forall ns u n v sub r, dir_at R ns = Some u ->
  put (put R ns (ADir n v r)) (ns ++ [n]) sub = put R ns (ADir n sub r).
Proof.
  induction R as [|m d r' IH|m sub' IHs r' IH]; intros [|y ns] u n v sub r H; cbn [dir_at put app] in *; try discriminate;
    try (rewrite eqb_same, put_root; reflexivity).
  - f_equal. exact (IH (y :: ns) u n v sub r H).
  - destruct (text_eqb m y) eqn:Ey; cbn [put]; rewrite Ey; f_equal; [exact (IHs ns u n v sub r H)|exact (IH (y :: ns) u n v sub r H)].
Qed.

(** what is left *)
Lemma cleared_files R : forall ns u p, dir_at R ns = Some u ->
  file_of (put R ns Nothing) p = if below ns p then None else file_of R p.
Proof.
  induction R as [|n d r IH|n sub IHs r IH]; intros [|y ns] u p H; cbn [dir_at put] in *; try discriminate;
    try (destruct p; cbn [below]; [now rewrite !file_nowhere|reflexivity]).
  - specialize (IH (y :: ns) u p H). cbn [file_of]. destruct p as [|x [|z p]]; try exact IH. rewrite IH.
    replace (below (y :: ns) [x]) with false; [reflexivity|]. cbn [below]. destruct ns; cbn [below]; now rewrite andb_false_r.
  - destruct (text_eqb n y) eqn:Ey; cbn [file_of].
    + apply text_eqb_iff in Ey. subst y. destruct p as [|x [|z p]]; cbn [below]; try reflexivity.
      * replace (below ns []) with false by (destruct ns; reflexivity). now rewrite andb_false_r.
      * destruct (text_eqb n x) eqn:Ex; cbn [andb]; [exact (IHs ns u (z :: p) H)|reflexivity].
    + specialize (IH (y :: ns) u p H). destruct p as [|x [|z p]]; try exact IH. rewrite IH. cbn [below].
      destruct (text_eqb n x) eqn:Ex; [|reflexivity]. apply text_eqb_iff in Ex. subst x.
      rewrite (@eqb_other y n); [reflexivity|]. intros ->. rewrite eqb_same in Ey. discriminate.
Qed.
Lemma cleared_dirs R : forall ns u p, dir_at R ns = Some u ->
  if below ns p then dir_at (put R ns Nothing) p = None else (dir_at (put R ns Nothing) p = None <-> dir_at R p = None).
Proof.
  induction R as [|n d r IH|n sub IHs r IH]; intros [|y ns] u p H; cbn [dir_at put] in *; try discriminate;
    try (destruct p; cbn [below dir_at]; [split; discriminate|reflexivity]).
  - specialize (IH (y :: ns) u p H). destruct p as [|x p]; [cbn [below dir_at] in *; split; discriminate|].
    cbn [dir_at]. exact IH.
  - destruct p as [|x p]; [cbn [below]; destruct (text_eqb n y); cbn [dir_at]; split; discriminate|].
    destruct (text_eqb n y) eqn:Ey; cbn [dir_at below].
    + apply text_eqb_iff in Ey. subst y. destruct (text_eqb n x) eqn:Ex; cbn [andb]; [exact (IHs ns u p H)|tauto].
    + destruct (text_eqb n x) eqn:Ex; [|exact (IH (y :: ns) u (x :: p) H)]. apply text_eqb_iff in Ex. subst x.
      rewrite (@eqb_other y n); [cbn [andb]; tauto|]. intros ->. rewrite eqb_same in Ey. discriminate.
Qed.

(** ** the programs as calls *)
Lemma copy_each_same E fuel s pre go gof l : (forall p, same_prog (go p) (interp E fuel (gof p))) ->
  same_prog (copy_each E fuel s pre go l) (interp E fuel (copy_each_flow fuel s pre gof l)).
Proof.
  intros Hg. induction l as [|d r IH]; cbn [copy_each copy_each_flow]; [apply same_refl|].
  destruct (is_dots (d_filename d)); [exact IH|]. destruct (is_directory d); apply same_sym.
  - eapply same_trans; [apply interp_fbind|]. apply same_mbind; [apply same_sym, Hg|]. intros x.
    eapply same_trans; [apply interp_fbind|]. apply same_mbind; [apply same_sym, IH|]. intros xs. apply same_refl.
  - eapply same_trans; [apply interp_fbind|]. apply same_mbind; [apply same_sym, download_same|]. intros x.
    eapply same_trans; [apply interp_fbind|]. apply same_mbind; [apply same_sym, IH|]. intros xs. apply same_refl.
Qed.
Lemma copy_same E fuel s n : forall pre, same_prog (copy_tree E fuel n s pre) (interp E fuel (copy_flow fuel n s pre)).
Proof.
  induction n as [|n IH]; intros pre; cbn [copy_tree copy_flow]; [apply same_refl|].
  apply same_sym. eapply same_trans; [apply interp_fbind|]. apply same_mbind; [apply same_sym, list_same|]. intros l.
  apply same_sym. now apply copy_each_same.
Qed.
Lemma clear_each_same E fuel s pre go gof l : (forall p, same_prog (go p) (interp E fuel (gof p))) ->
  same_prog (clear_each E fuel s pre go l) (interp E fuel (clear_each_flow s pre gof l)).
Proof.
  intros Hg. induction l as [|d r IH]; cbn [clear_each clear_each_flow]; [apply same_refl|].
  destruct (is_dots (d_filename d)); [exact IH|]. destruct (is_directory d); apply same_sym.
  - eapply same_trans; [apply interp_fbind|]. apply same_mbind; [apply same_sym, Hg|]. intros x.
    eapply same_trans; [apply interp_fbind|]. apply same_mbind; [apply interp_fcall|]. intros xs. apply same_sym, IH.
  - eapply same_trans; [apply interp_fbind|]. apply same_mbind; [apply interp_fcall|]. intros xs. apply same_sym, IH.
Qed.
Lemma clear_same E fuel s n : forall pre, same_prog (clear_tree E fuel n s pre) (interp E fuel (clear_flow fuel n s pre)).
Proof.
  induction n as [|n IH]; intros pre; cbn [clear_tree clear_flow]; [apply same_refl|].
  apply same_sym. eapply same_trans; [apply interp_fbind|]. apply same_mbind; [apply same_sym, list_same|]. intros l.
  apply same_sym. now apply clear_each_same.
Qed.
Lemma less_copy_each s pre l n m (go go' : text -> flow tree) : (n <= m)%nat -> (forall p, less (go p) (go' p)) ->
  less (copy_each_flow n s pre go l) (copy_each_flow m s pre go' l).
Proof.
  intros H Hg. induction l as [|d r IH]; cbn [copy_each_flow]; [apply less_refl|].
  destruct (is_dots (d_filename d)); [exact IH|]. destruct (is_directory d).
  - apply less_bind; [apply Hg|]. intros x. apply less_bind; [exact IH|]. intros xs. apply less_refl.
  - apply less_bind; [now apply less_download|]. intros x. apply less_bind; [exact IH|]. intros xs. apply less_refl.
Qed.
Lemma less_copy s a b n : (a <= b)%nat -> forall m pre, (n <= m)%nat -> less (copy_flow a n s pre) (copy_flow b m s pre).
Proof.
  intros H. induction n as [|n IH]; intros m pre Hm; [constructor|]. destruct m as [|m]; [lia|]. cbn [copy_flow].
  apply less_bind; [now apply less_list|]. intros l. apply less_copy_each; [exact H|]. intros p. apply IH. lia.
Qed.
Lemma less_clear_each s pre l (go go' : text -> flow unit) : (forall p, less (go p) (go' p)) ->
  less (clear_each_flow s pre go l) (clear_each_flow s pre go' l).
Proof.
  intros Hg. induction l as [|d r IH]; cbn [clear_each_flow]; [apply less_refl|].
  destruct (is_dots (d_filename d)); [exact IH|]. destruct (is_directory d).
  - apply less_bind; [apply Hg|]. intros x. apply less_bind; [apply less_refl|]. intros xs. exact IH.
  - apply less_bind; [apply less_refl|]. intros x. exact IH.
Qed.
Lemma less_clear s a b n : (a <= b)%nat -> forall m pre, (n <= m)%nat -> less (clear_flow a n s pre) (clear_flow b m s pre).
Proof.
  intros H. induction n as [|n IH]; intros m pre Hm; [constructor|]. destruct m as [|m]; [lia|]. cbn [clear_flow].
  apply less_bind; [now apply less_list|]. intros l. apply less_clear_each. intros p. apply IH. lia.
Qed.

(** enough fuel and depth *)
Fixpoint weight (t : tree) : nat :=
  match t with
  | Nothing => 1
  | AFile _ d r => 1 + length d + weight r
  | ADir _ sub r => 1 + weight sub + weight r
  end.

(** ** the service *)
Lemma fresh_above l : Forall (fun e : N * list text => fst e < fresh l) l.
Proof.
  apply Forall_forall. unfold fresh. induction l as [|e l IH]; intros x; [intros []|]. cbn [fold_right]. intros [->|H]; [lia|].
  specialize (IH x H). lia.
Qed.
Lemma without_same l fid : Forall (fun e : N * list text => fst e < fid) l -> without_fid l fid = l.
Proof.
  induction 1 as [|e l H _ IH]; [reflexivity|]. cbn [without_fid filter]. destruct (N.eqb_spec (fst e) fid); [lia|].
  cbn [negb]. f_equal. exact IH.
Qed.
Lemma dots_not n : a_name n -> is_dots n = false.
Proof. intros (_ & _ & H1 & H2 & _). unfold is_dots. now rewrite !eqb_other. Qed.
Lemma str_app a b : is_str a -> is_str b -> is_str (a ++ b).
Proof. unfold is_str. rewrite !is_text_str. unfold str. intros H1 H2. now apply Forall_app. Qed.
Lemma str_path ns : Forall a_name ns -> is_str (path_of ns).
Proof.
  induction 1 as [|n ns (H & _) _ IH]; [reflexivity|]. unfold path_of in *. cbn [map concat].
  apply str_app; [|exact IH]. apply str_app; [exact H|reflexivity].
Qed.
Lemma utf16_app a b : utf16_len (a ++ b) = utf16_len a + utf16_len b.
Proof. unfold utf16_len. induction a as [|c a IH]; [reflexivity|]. cbn [map app fold_right] in *. lia. Qed.
Lemma ordinary_fits t pre : ordinary_tree pre t -> forallb info_fits (infos t) = true.
Proof.
  revert pre. induction t as [|n d r IH|n sub _ r IH]; intros pre; cbn [ordinary_tree infos forallb]; [reflexivity| |].
  - intros ((Hn & _) & _ & _ & Hd & Hr). rewrite (IH _ Hr), andb_true_r. unfold info_fits. cbn [d_filename d_filesize].
    unfold is_str in Hn. rewrite Hn. apply N.ltb_lt in Hd. now rewrite Hd.
  - intros ((Hn & _) & _ & _ & _ & _ & Hr). rewrite (IH _ Hr), andb_true_r. unfold info_fits. cbn [d_filename d_filesize].
    unfold is_str in Hn. now rewrite Hn.
Qed.
Section Service.
Variable the_tid : N.
Variable setup : server_setup.
Notation DS := (dir_service the_tid setup).
Hypothesis tid16 : u16 the_tid.

Lemma dirs_proper : proper_server setup -> proper DS.
Proof.
  intros Hs R who o s. destruct o; cbn [dir_service fst proper_value].
  - unfold proper_share. cbn [sh_tid sh_access_rights sh_guest_rights sh_service sh_filesystem rights].
    split; [exact tid16|]. split; [exact I|]. split; [exact I|]. split; [reflexivity|].
    split; [split; [repeat constructor; left; reflexivity|cbn; lia]|].
    split; [split; [repeat constructor; left; reflexivity|cbn; lia]|]. vm_compute. reflexivity.
  - exact I.
  - destruct (file_of (ds_root s) (names_of path)) as [d|]; [|repeat split; discriminate].
    destruct ((tid =? the_tid) && (fresh (ds_open s) <? 65536) && (len d <? 2 ^ 64)) eqn:E; [|repeat split; discriminate].
    apply andb_prop in E as [E E3]. apply andb_prop in E as [E1 E2]. apply N.ltb_lt in E2, E3. apply N.eqb_eq in E1. subst tid.
    unfold proper_handle, the_handle, u64, within.
    cbn [fst h_tid h_fid h_oplock h_disposition h_create_time h_access_time h_write_time h_change_time h_attributes h_allocation_size h_size h_file_type].
    change (2 ^ 64) with 18446744073709551616 in E3.
    split; [exact tid16|]. split; [exact E2|]. split; [reflexivity|]. split; [reflexivity|]. split; [reflexivity|]. split; [reflexivity|].
    split; [reflexivity|]. split; [reflexivity|]. split; [reflexivity|]. split; [exact E3|]. split; [exact E3|reflexivity].
  - repeat split; discriminate.
  - destruct (open_path (ds_open s) fid); [exact I|repeat split; discriminate].
  - destruct (open_path (ds_open s) fid) as [p|]; [|repeat split; discriminate].
    destruct (file_of (ds_root s) p) as [d|]; [|repeat split; discriminate]. cbn [fst]. rewrite len_take. lia.
  - destruct (file_of (ds_root s) (names_of path)); [|repeat split; discriminate]. destruct (tid =? the_tid); [exact I|repeat split; discriminate].
  - destruct (dir_at (ds_root s) (names_of path)) as [[| |]|]; try (repeat split; discriminate). destruct (tid =? the_tid); [exact I|repeat split; discriminate].
  - repeat split; discriminate.
  - destruct (dir_at (ds_root s) (removelast (names_of pattern))) as [t|]; [|repeat split; discriminate].
    destruct ((tid =? the_tid) && text_eqb (last (names_of pattern) []) [42] && forallb info_fits (dir_listing t)
           && (len (write_entries (dir_listing t)) <? 65400)) eqn:E; [|repeat split; discriminate].
    apply andb_prop in E as [E E3]. apply andb_prop in E as [E E2]. apply N.ltb_lt in E3.
    cbn [fst proper_value]. unfold proper_found. cbn [ff_sid ff_info ff_end]. split; [reflexivity|]. split; [|split; [reflexivity|exact E3]].
    assert (HE : forall l, (forall d, In d l -> d_creation d = 0 /\ d_access d = 0 /\ d_write d = 0 /\ d_change d = 0
        /\ within FILE_ATTR_BITS (d_attributes d)) -> forallb info_fits l = true -> Forall proper_entry l).
    { intros l H Hl. apply Forall_forall. intros d Hd. rewrite forallb_forall in Hl. specialize (Hl d Hd). unfold info_fits in Hl.
      apply andb_prop in Hl as [Hx Hz]. apply is_text_str in Hx. apply N.ltb_lt in Hz. change (2 ^ 64) with 18446744073709551616 in Hz.
      unfold proper_entry. destruct (H d Hd) as (-> & -> & -> & -> & Ha).
      split; [reflexivity|]. split; [reflexivity|]. split; [reflexivity|]. split; [reflexivity|]. split; [exact Hz|]. split; [exact Ha|exact Hx]. }
    apply HE; [|exact E2]. clear. intros d [<-|[<-|H]]; try (repeat split; fail).
    induction t as [|n x r IH|n sub _ r IH]; cbn [infos] in H; [destruct H| |].
    + destruct H as [<-|H]; [repeat split|exact (IH H)].
    + destruct H as [<-|H]; [repeat split|exact (IH H)].
  - split; reflexivity.
  - exact Hs.
  - split; reflexivity.
  - repeat split; discriminate.
Qed.

Lemma tree_file st who path d : file_of (ds_root st) (names_of path) = Some d -> fresh (ds_open st) < 65536 -> len d < 2 ^ 64 ->
  file_at DS who the_tid path d 65534 st (the_handle the_tid (fresh (ds_open st)) (len d)) (fun s' => s' = st).
Proof.
  intros Hc Hn Hd. split; [discriminate|]. split; [reflexivity|]. split; [exact tid16|]. split; [exact Hn|].
  exists (fun s' => s' = mk_dirs (ds_root st) ((fresh (ds_open st), names_of path) :: ds_open st)). split; [|split].
  - eexists. split; [|reflexivity]. cbn [dir_service]. rewrite Hc, N.eqb_refl.
    destruct (N.ltb_spec (fresh (ds_open st)) 65536); [|lia]. destruct (N.ltb_spec (len d) (2 ^ 64)); [|lia]. reflexivity.
  - intros s o -> Ho. cbn [dir_service the_handle h_tid h_fid ds_open open_path ds_root]. rewrite N.eqb_refl, Hc.
    exists (take 65534 (drop o d)), (drop 65534 (drop o d)). eexists. split; [reflexivity|]. split; [reflexivity|].
    split; [symmetry; apply take_drop|]. destruct (N.leb_spec 65534 (len (drop o d))) as [X|X].
    + left. rewrite len_take. lia.
    + right. apply drop_all. lia.
  - intros s ->. cbn [dir_service the_handle h_tid h_fid ds_open open_path ds_root]. rewrite N.eqb_refl.
    eexists. split; [reflexivity|]. cbn [without_fid filter fst]. rewrite N.eqb_refl. cbn [negb].
    fold (without_fid (ds_open st) (fresh (ds_open st))). rewrite without_same by apply fresh_above. now destruct st.
Qed.
Lemma tree_listed st who ns t pre : Forall a_name ns -> dir_at (ds_root st) ns = Some t -> listable t -> ordinary_tree pre t ->
  DS found who (OFindFirst the_tid (backslashes (path_of ns ++ [42]))) st = (inl (mk_found 1 true (dir_listing t)), st).
Proof.
  intros Hns Hd Hl Ho. cbn [dir_service]. rewrite names_path; [|exact Hns|cbn; intuition discriminate|cbn; intuition discriminate].
  rewrite removelast_last, last_snoc, Hd, N.eqb_refl. change (text_eqb [42] [42]) with true.
  assert (Hfi : forallb info_fits (dir_listing t) = true) by (unfold dir_listing; cbn [forallb]; rewrite (ordinary_fits _ _ Ho); reflexivity).
  rewrite Hfi.
  apply N.ltb_lt in Hl. rewrite Hl. reflexivity.
Qed.

Variable s : share.
Hypothesis s_tid : sh_tid s = the_tid.
Lemma local_listed fuel c st ns t pre : Forall a_name ns -> dir_at (ds_root st) ns = Some t -> listable t -> ordinary_tree pre t ->
  short (path_of ns ++ [42]) ->
  local DS (list_flow fuel s (path_of ns ++ [42])) c st 1 (Good (dir_listing t)) (next_client c) st.
Proof.
  intros Hns Hd Hl Ho Hs. apply local_list with (sid := 1).
  - rewrite s_tid. now apply (@tree_listed st (uid c) ns t pre).
  - now rewrite s_tid.
  - apply str_app; [now apply str_path|reflexivity].
  - unfold short in Hs. cbn [fits_request]. lia.
Qed.

(** ** copying *)
Lemma local_copy_each t : forall ns fuel n c st, Forall a_name ns -> fresh (ds_open st) < 65536 ->
  (forall x p, In x (entry_names t) -> file_of (ds_root st) (ns ++ x :: p) = file_of t (x :: p)) ->
  (forall x p, In x (entry_names t) -> dir_at (ds_root st) (ns ++ x :: p) = dir_at t (x :: p)) ->
  ordinary_tree (path_of ns) t -> (weight t <= fuel)%nat -> (weight t <= n)%nat ->
  exists m c', local DS (copy_each_flow fuel s (path_of ns) (copy_flow fuel n s) (infos t)) c st m (Good t) c' st
    /\ (m <= copy_calls t)%nat.
Proof.
  induction t as [|x d r IH|x sub IHs r IH]; intros ns fuel n c st Hns Hfr Hf Hd Ho Hfu Hn;
    cbn [infos copy_each_flow weight copy_calls ordinary_tree entry_names] in *.
  - exists 0%nat, c. split; [constructor|lia].
  - destruct Ho as (Hx & Hnot & Hsh & Hlen & Hor). pose proof Hx as (X1 & _ & _ & _ & X2 & X3). cbn [d_filename].
    rewrite dots_not by exact Hx. change (is_directory (mk_dir 0 0 0 0 x (len d) ATTR_NORMAL)) with false. cbn iota.
    assert (Hc : file_of (ds_root st) (names_of (backslashes (path_of ns ++ x))) = Some d).
    { rewrite names_path by assumption. rewrite (Hf x [] (or_introl eq_refl)). cbn [file_of]. now rewrite eqb_same. }
    destruct (local_download (B := DS) (s := s) (path := path_of ns ++ x) (c := c) (n := fuel) (who := uid c) (st := st) (d := d) (q := 65534)
        (h := the_handle the_tid (fresh (ds_open st)) (len d)) (over := fun s' => s' = st)) as (m1 & c1 & st1 & L1 & -> & _ & M1 & _).
    + rewrite s_tid. now apply tree_file.
    + now rewrite s_tid.
    + apply str_app; [now apply str_path|exact X1].
    + unfold short in Hsh. cbn [fits_request]. lia.
    + reflexivity.
    + exact Hlen.
    + lia.
    + destruct (IH ns fuel n c1 st Hns Hfr) as (m2 & c2 & L2 & M2); [| |exact Hor|lia|lia|].
      * intros y p Hy. rewrite Hf by now right. cbn [file_of]. destruct p; [|reflexivity]. rewrite eqb_other; [reflexivity|]. now intros ->.
      * intros y p Hy. rewrite Hd by now right. reflexivity.
      * exists (m1 + (m2 + 0))%nat, c2. split; [|lia]. eapply local_bind; [exact L1|]. eapply local_bind; [exact L2|]. constructor.
  - destruct Ho as (Hx & Hnot & Hsh & Hl & Hos & Hor). pose proof Hx as (X1 & _ & _ & _ & X2 & X3). cbn [d_filename].
    rewrite dots_not by exact Hx. change (is_directory (mk_dir 0 0 0 0 x 0 ATTR_DIRECTORY)) with true. cbn iota.
    rewrite path_snoc in *. destruct n as [|n]; [lia|].
    assert (Hns' : Forall a_name (ns ++ [x])) by (apply Forall_app; split; [exact Hns|now constructor]).
    assert (Hdx : dir_at (ds_root st) (ns ++ [x]) = Some sub).
    { rewrite (Hd x [] (or_introl eq_refl)). cbn [dir_at]. rewrite eqb_same. now destruct sub. }
    assert (L0 : local DS (list_flow fuel s (path_of (ns ++ [x]) ++ [42])) c st 1 (Good (dir_listing sub)) (next_client c) st).
    { apply (@local_listed fuel c st (ns ++ [x]) sub (path_of (ns ++ [x])) Hns' Hdx Hl Hos). rewrite <- path_snoc, <- !app_assoc. exact Hsh. }
    destruct (IHs (ns ++ [x]) fuel n (next_client c) st Hns' Hfr) as (m1 & c1 & L1 & M1); [| |exact Hos|lia|lia|].
    { intros y p _. now apply file_inside. }
    { intros y p _. now apply dir_inside. }
    destruct (IH ns fuel (S n) c1 st Hns Hfr) as (m2 & c2 & L2 & M2); [| |exact Hor|lia|lia|].
    { intros y p Hy. rewrite Hf by now right. cbn [file_of]. destruct p; [reflexivity|]. rewrite eqb_other; [reflexivity|]. now intros ->. }
    { intros y p Hy. rewrite Hd by now right. cbn [dir_at]. rewrite eqb_other; [reflexivity|]. now intros ->. }
    exists ((1 + m1) + (m2 + 0))%nat, c2. split; [|lia].
    eapply local_bind; [|eapply local_bind; [exact L2|constructor]].
    cbn [copy_flow]. eapply local_bind; [exact L0|]. exact L1.
Qed.
Lemma local_copy t ns fuel n c st : Forall a_name ns -> fresh (ds_open st) < 65536 -> dir_at (ds_root st) ns = Some t -> listable t ->
  ordinary_tree (path_of ns) t -> short (path_of ns ++ [42]) -> (weight t <= fuel)%nat -> (weight t <= n)%nat ->
  exists m c', local DS (copy_flow fuel (S n) s (path_of ns)) c st m (Good t) c' st /\ (m <= 1 + copy_calls t)%nat.
Proof.
  intros Hns Hfr Hd Hl Ho Hsh Hf Hn.
  destruct (@local_copy_each t ns fuel n (next_client c) st Hns Hfr) as (m & c' & L & M); try assumption.
  { intros y p _. now apply file_inside. }
  { intros y p _. now apply dir_inside. }
  exists (1 + m)%nat, c'. split; [|lia]. cbn [copy_flow].
  eapply local_bind; [now apply (@local_listed fuel c st ns t (path_of ns))|]. exact L.
Qed.

(** ** removing *)
Lemma local_deleted R u ns x d r c op : Forall a_name ns -> dir_at R ns = Some u -> a_name x -> short (path_of ns ++ x) ->
  local DS (fcall (Delete s (path_of ns ++ x))) c (mk_dirs (put R ns (AFile x d r)) op) 1 (Good tt) (next_client c) (mk_dirs (put R ns r) op).
Proof.
  intros Hns HR Hx Hsh. pose proof Hx as (X1 & _ & _ & _ & X2 & X3).
  refine (local_call (q := Delete s (path_of ns ++ x)) (r := inl tt) _ _ _ _).
  - split; [now rewrite s_tid|]. apply str_app; [now apply str_path|exact X1].
  - exact I.
  - unfold short in Hsh. cbn [fits_request]. lia.
  - cbn [op_of dir_service ds_root ds_open]. rewrite names_path by assumption.
    rewrite (file_inside (put R ns (AFile x d r)) ns (put_dir R ns _ HR)). cbn [file_of]. rewrite eqb_same, s_tid, N.eqb_refl.
    rewrite (put_unlink R ns _ _ HR). cbn [unlink]. now rewrite eqb_same.
Qed.
Lemma local_removed R u ns x r c op : Forall a_name ns -> dir_at R ns = Some u -> a_name x -> short (path_of ns ++ x) ->
  local DS (fcall (Rmdir s (path_of ns ++ x))) c (mk_dirs (put R ns (ADir x Nothing r)) op) 1 (Good tt) (next_client c) (mk_dirs (put R ns r) op).
Proof.
  intros Hns HR Hx Hsh. pose proof Hx as (X1 & _ & _ & _ & X2 & X3).
  refine (local_call (q := Rmdir s (path_of ns ++ x)) (r := inl tt) _ _ _ _).
  - split; [now rewrite s_tid|]. apply str_app; [now apply str_path|exact X1].
  - exact I.
  - unfold short in Hsh. cbn [fits_request]. lia.
  - cbn [op_of dir_service ds_root ds_open]. rewrite names_path by assumption.
    rewrite (dir_inside (put R ns (ADir x Nothing r)) ns (put_dir R ns _ HR)). cbn [dir_at]. rewrite eqb_same, s_tid, N.eqb_refl.
    rewrite (put_remove R ns _ _ HR). cbn [remove_dir]. now rewrite eqb_same.
Qed.
Lemma local_clear_each t : forall R u ns fuel n c op, Forall a_name ns -> dir_at R ns = Some u ->
  ordinary_tree (path_of ns) t -> (weight t <= n)%nat ->
  exists m c', local DS (clear_each_flow s (path_of ns) (clear_flow fuel n s) (infos t)) c (mk_dirs (put R ns t) op) m (Good tt) c'
      (mk_dirs (put R ns Nothing) op)
    /\ (m <= clear_calls t)%nat.
Proof.
  induction t as [|x d r IH|x sub IHs r IH]; intros R u ns fuel n c op Hns HR Ho Hn;
    cbn [infos clear_each_flow weight clear_calls ordinary_tree] in *.
  - exists 0%nat, c. split; [constructor|lia].
  - destruct Ho as (Hx & Hnot & Hsh & Hlen & Hor). pose proof Hx as (X1 & _ & _ & _ & X2 & X3). cbn [d_filename].
    rewrite dots_not by exact Hx. change (is_directory (mk_dir 0 0 0 0 x (len d) ATTR_NORMAL)) with false. cbn iota.
    destruct (IH R u ns fuel n (next_client c) op Hns HR Hor) as (m & c' & L & M); [lia|].
    exists (1 + m)%nat, c'. split; [|lia]. eapply local_bind; [|exact L].
    now apply (@local_deleted R u ns x d r c op).
  - destruct Ho as (Hx & Hnot & Hsh & Hl & Hos & Hor). pose proof Hx as (X1 & _ & _ & _ & X2 & X3). cbn [d_filename].
    rewrite dots_not by exact Hx. change (is_directory (mk_dir 0 0 0 0 x 0 ATTR_DIRECTORY)) with true. cbn iota.
    rewrite path_snoc in *. destruct n as [|n]; [lia|].
    assert (Hns' : Forall a_name (ns ++ [x])) by (apply Forall_app; split; [exact Hns|now constructor]).
    set (R' := put R ns (ADir x Nothing r)).
    assert (HR' : dir_at R' (ns ++ [x]) = Some Nothing).
    { unfold R'. rewrite (dir_inside _ ns (put_dir R ns _ HR)). cbn [dir_at]. now rewrite eqb_same. }
    assert (Hput : forall v, put R ns (ADir x v r) = put R' (ns ++ [x]) v) by (intros v; symmetry; unfold R'; now apply (put_inner R ns x Nothing v r HR)).
    destruct (IHs R' Nothing (ns ++ [x]) fuel n (next_client c) op Hns' HR' Hos) as (m1 & c1 & L1 & M1); [lia|].
    destruct (IH R u ns fuel (S n) (next_client c1) op Hns HR Hor) as (m2 & c2 & L2 & M2); [lia|].
    assert (L0 : local DS (list_flow fuel s (path_of (ns ++ [x]) ++ [42])) c (mk_dirs (put R' (ns ++ [x]) sub) op) 1 (Good (dir_listing sub))
      (next_client c) (mk_dirs (put R' (ns ++ [x]) sub) op)).
    { apply (@local_listed fuel c (mk_dirs (put R' (ns ++ [x]) sub) op) (ns ++ [x]) sub (path_of (ns ++ [x]))); try assumption.
      * cbn [ds_root]. exact (put_dir R' (ns ++ [x]) sub HR').
      * rewrite <- path_snoc, <- !app_assoc. exact Hsh. }
    exists ((1 + m1) + (1 + m2))%nat, c2. split; [|lia].
    eapply local_bind; [|eapply local_bind; [|exact L2]].
    + cbn [clear_flow]. rewrite Hput. eapply local_bind; [exact L0|exact L1].
    + rewrite <- Hput. apply (@local_removed R u ns x r c1 op); try assumption.
      unfold short in *. rewrite !utf16_app in *. lia.
Qed.
Lemma local_clear t ns fuel n c st : Forall a_name ns -> dir_at (ds_root st) ns = Some t -> listable t ->
  ordinary_tree (path_of ns) t -> short (path_of ns ++ [42]) -> (weight t <= n)%nat ->
  exists m c', local DS (clear_flow fuel (S n) s (path_of ns)) c st m (Good tt) c' (mk_dirs (put (ds_root st) ns Nothing) (ds_open st))
    /\ (m <= 1 + clear_calls t)%nat.
Proof.
  intros Hns Hd Hl Ho Hsh Hn.
  destruct (@local_clear_each t (ds_root st) t ns fuel n (next_client c) (ds_open st) Hns Hd Ho Hn) as (m & c' & L & M).
  rewrite (put_same _ _ Hd) in L. exists (1 + m)%nat, c'. split; [|lia]. cbn [clear_flow].
  eapply local_bind; [now apply (@local_listed fuel c st ns t (path_of ns))|]. destruct st. exact L.
Qed.
End Service.

(** ** behind a server *)
Section Behind.
Variable the_tid : N.
Variable setup : server_setup.
Variable Sv : Type.
Variable react : Sv -> bytes -> reaction Sv.
Variable abs : Sv -> dirs.
Hypothesis conf : conforming react (dir_service the_tid setup) abs.
Variable E : env.
Lemma tree_copied (w : world cifs Sv) s ns t :
  typed_client (cl w) -> idle w -> u16 (sh_tid s) -> sh_tid s = the_tid -> fresh (ds_open (abs (srv w))) < 65536 ->
  Forall a_name ns -> dir_at (ds_root (abs (srv w))) ns = Some t -> listable t -> ordinary_tree (path_of ns) t ->
  short (path_of ns ++ [42]) -> room E (cl w) (1 + copy_calls t) ->
  exists k w', (forall fuel n, (k <= fuel)%nat -> (k <= n)%nat -> run react (copy_tree E fuel n s (path_of ns)) w = Done (Good t) w')
    /\ idle w' /\ abs (srv w') = abs (srv w).
Proof.
  intros Hc Hi Hu Hs Hfr Hns Hd Hl Ho Hsh Hr. rewrite Hs in Hu.
  destruct (@local_copy the_tid setup Hu s Hs t ns (weight t) (weight t) (cl w) (abs (srv w))) as (m & c' & L & M); try assumption; try lia.
  destruct (@remote_local _ _ react _ abs conf E _ _ _ _ _ _ _ _ L w eq_refl eq_refl Hc Hi) as (k & w' & fs & Hrun & Hi' & _ & Hst & _).
  { intros Hov. specialize (Hr Hov). lia. }
  exists (Nat.max k (S (weight t))), w'. split; [|now split]. intros fuel n Hf Hn. rewrite (copy_same E fuel s n (path_of ns)).
  eapply run_less; [apply less_copy|apply Hrun; lia]; lia.
Qed.
Lemma tree_cleared (w : world cifs Sv) s ns t :
  typed_client (cl w) -> idle w -> u16 (sh_tid s) -> sh_tid s = the_tid ->
  Forall a_name ns -> dir_at (ds_root (abs (srv w))) ns = Some t -> listable t -> ordinary_tree (path_of ns) t ->
  short (path_of ns ++ [42]) -> room E (cl w) (1 + clear_calls t) ->
  exists k w', (forall fuel n, (k <= fuel)%nat -> (k <= n)%nat -> run react (clear_tree E fuel n s (path_of ns)) w = Done (Good tt) w')
    /\ idle w' /\ ds_open (abs (srv w')) = ds_open (abs (srv w))
    /\ dir_at (ds_root (abs (srv w'))) ns = Some Nothing
    /\ (forall p, file_of (ds_root (abs (srv w'))) p = if below ns p then None else file_of (ds_root (abs (srv w))) p)
    /\ (forall p, if below ns p then dir_at (ds_root (abs (srv w'))) p = None
                  else (dir_at (ds_root (abs (srv w'))) p = None <-> dir_at (ds_root (abs (srv w))) p = None)).
Proof.
  intros Hc Hi Hu Hs Hns Hd Hl Ho Hsh Hr. rewrite Hs in Hu.
  destruct (@local_clear the_tid setup Hu s Hs t ns (weight t) (weight t) (cl w) (abs (srv w))) as (m & c' & L & M); try assumption; try lia.
  destruct (@remote_local _ _ react _ abs conf E _ _ _ _ _ _ _ _ L w eq_refl eq_refl Hc Hi) as (k & w' & fs & Hrun & Hi' & _ & Hst & _).
  { intros Hov. specialize (Hr Hov). lia. }
  exists (Nat.max k (S (weight t))), w'. split; [|split; [exact Hi'|]].
  - intros fuel n Hf Hn. rewrite (clear_same E fuel s n (path_of ns)). eapply run_less; [apply less_clear|apply Hrun; lia]; lia.
  - rewrite Hst. cbn [ds_open ds_root]. split; [reflexivity|]. split; [now apply (put_dir _ _ _ Hd)|].
    split; intros p; [now apply (cleared_files _ _ _ Hd)|now apply (cleared_dirs _ _ _ Hd)].
Qed.
End Behind.
