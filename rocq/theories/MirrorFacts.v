(** * MirrorFacts: listing and downloading a directory (C74) *)
From Verif Require Import Base Text Win Errors Common Reply Ntlm Prog Client Spec SpecReply SpecMsg Api SpecCall BaseFacts TextFacts
  RunFacts MsgFacts SizeFacts Flow FlowFacts SpecRemote RemoteFacts RefServer RefFacts FileService FileFacts SpecMirror SpecFetch FetchFacts.
Open Scope N_scope.
Set Implicit Arguments.

Lemma each_same E fuel s l : same_prog (fetch_each E fuel s l) (interp E fuel (each_flow fuel s l)).
Proof.
  induction l as [|d r IH]; cbn [fetch_each each_flow]; [apply same_refl|]. apply same_sym.
  eapply same_trans; [apply interp_fbind|]. apply same_mbind; [apply same_sym, download_same|]. intros x.
  eapply same_trans; [apply interp_fbind|]. apply same_mbind; [apply same_sym, IH|]. intros xs. apply same_refl.
Qed.
Lemma mirror_same E fuel s : same_prog (mirror E fuel s) (interp E fuel (mirror_flow fuel s)).
Proof.
  apply same_sym. unfold mirror, mirror_flow. eapply same_trans; [apply interp_fbind|].
  apply same_mbind; [apply same_sym, list_same|]. intros l. apply same_sym, each_same.
Qed.
Lemma less_each s l n m : (n <= m)%nat -> less (each_flow n s l) (each_flow m s l).
Proof.
  intros H. induction l as [|d r IH]; cbn [each_flow]; [apply less_refl|].
  apply less_bind; [now apply less_download|]. intros x. apply less_bind; [exact IH|]. intros xs. apply less_refl.
Qed.
Lemma less_mirror s n m : (n <= m)%nat -> less (mirror_flow n s) (mirror_flow m s).
Proof. intros H. apply less_bind; [now apply less_list|]. intros l. now apply less_each. Qed.

(** ** the list *)
Lemma entry_name_small d l : In d l -> 2 * utf16_len (d_filename d) + 60 <= len (write_entries l).
Proof.
  induction l as [|e r IH]; [intros []|]. cbn [write_entries]. rewrite !len_app. intros [->|H].
  - unfold write_entry at 2. rewrite !len_app. rewrite ?len_le, ?len_encode_utf16le, ?utf16_len_utf16. lia.
  - specialize (IH H). lia.
Qed.
Section Files.
Variable tree : text -> text -> option N.
Variable setup : server_setup.
Variable accepts : text -> text -> bytes -> option N.
Notation FS := (file_service tree setup accepts).
Lemma same_backslashes p : ~ In 47 p -> backslashes p = p.
Proof. intros H. apply backslashes_same, Forall_forall. intros c Hc ->. exact (H Hc). Qed.
Lemma once_contents l t p d : once l -> In (t, p, d) l -> contents l t p = Some d.
Proof.
  unfold once. induction l as [|((t0, p0), d0) r IH]; [intros _ []|]. cbn [map fst contents]. intros Hn [H|H].
  - injection H as <- <- <-. rewrite N.eqb_refl. replace (text_eqb p0 p0) with true by (symmetry; now apply text_eqb_iff). reflexivity.
  - inversion Hn as [|? ? Hx Hr]; subst. destruct (N.eqb_spec t0 t) as [->|]; [|exact (IH Hr H)].
    destruct (text_eqb p0 p) eqn:Ep; [|exact (IH Hr H)]. apply text_eqb_iff in Ep. subst p0. exfalso. apply Hx. apply (in_map fst) in H. exact H.
Qed.

Definition pair_of (e : N * text * bytes) : text * bytes := (snd (fst e), snd e).
Lemma listing_all s tid : Forall ordinary (files_in (fs_files s) tid) ->
  listing s tid [42] = map entry_of (filter (fun e => fst (fst e) =? tid) (fs_files s)).
Proof.
  unfold listing, files_in. intros H. f_equal. induction (fs_files s) as [|e r IH]; [reflexivity|]. cbn [filter] in *.
  destruct (fst (fst e) =? tid) eqn:Et.
  - cbn [map] in H. inversion H as [|? ? H1 H2]; subst. destruct H1 as (H1 & _ & H3). cbn [fst snd] in H1, H3.
    change (text_eqb [42] [42]) with true. unfold expressible. unfold is_str in H1. rewrite H1. destruct (N.ltb_spec (len (snd e)) (2 ^ 64)); [|lia].
    cbn [andb orb]. f_equal. exact (IH H2).
  - cbn [andb]. exact (IH H).
Qed.
Lemma local_each s n es : forall c st, u16 (sh_tid s) -> sound_files st -> fs_next st + len es <= 65536 ->
  (forall e, In e es -> ordinary (pair_of e) /\ contents (fs_files st) (sh_tid s) (snd (fst e)) = Some (snd e)
    /\ 2 * utf16_len (snd (fst e)) <= 65400 /\ (length (snd e) < n)%nat) ->
  exists m c', local FS (each_flow n s (map entry_of es)) c st m (Good (map pair_of es)) c'
      (mk_files (fs_files st) (fs_open st) (fs_next st + len es))
    /\ (m <= list_sum (map (fun f => (2 + pieces (len (snd f)) 65534)%nat) (map pair_of es)))%nat
    /\ uid c' = uid c /\ use_unicode c' = use_unicode c.
Proof.
  induction es as [|e r IH]; intros c st Hu Hs Hn He.
  - exists 0%nat, c. split; [|repeat split; cbn; lia]. cbn [map each_flow]. destruct st as [a b x]. cbn [fs_files fs_open fs_next].
    change (len (@nil (N * text * bytes))) with 0. rewrite N.add_0_r. constructor.
  - rewrite len_cons in Hn. destruct (He e (or_introl eq_refl)) as ((O1 & O2 & O3) & Hc & Hl & Hfu). cbn [pair_of fst snd] in O1, O2, O3.
    assert (Hx : fs_next st < 65536) by lia.
    assert (Hc' : contents (fs_files st) (sh_tid s) (backslashes (snd (fst e))) = Some (snd e)) by (now rewrite same_backslashes).
    assert (Hfit : fits_request (use_unicode c) (OpenFile s (snd (fst e)))) by (cbn [fits_request]; lia).
    destruct (local_download (s := s) (path := snd (fst e)) (c := c) (n := n) (file_there tree setup accepts (uid c) Hs Hc' Hx Hu O3) Hu O1 Hfit eq_refl O3 Hfu)
      as (m1 & c1 & st1 & L1 & -> & U1 & M1 & N1).
    set (st1 := mk_files (fs_files st) (fs_open st) (fs_next st + 1)) in *.
    destruct (IH c1 st1) as (m2 & c2 & L2 & M2 & U2 & N2).
    + exact Hu.
    + unfold sound_files, st1. cbn [fs_open fs_next]. eapply Forall_impl; [|exact Hs]. intros x. cbn beta. lia.
    + unfold st1. cbn [fs_next]. lia.
    + intros x Hi. exact (He x (or_intror Hi)).
    + exists (m1 + (m2 + 0))%nat, c2. split; [|split; [|split; [congruence|congruence]]].
      * cbn [map each_flow]. change (d_filename (entry_of e)) with (snd (fst e)). eapply local_bind; [exact L1|].
        eapply local_bind; [exact L2|]. unfold st1. cbn [fs_files fs_open fs_next]. rewrite len_cons.
        replace (fs_next st + 1 + len r) with (fs_next st + (1 + len r)) by lia. constructor.
      * cbn [map]. unfold list_sum in M2 |- *. cbn [fold_right]. unfold pair_of at 1. cbn [snd]. lia.
Qed.
End Files.
Section Behind.
Variable tree : text -> text -> option N.
Variable setup : server_setup.
Variable accepts : text -> text -> bytes -> option N.
Variable Sv : Type.
Variable react : Sv -> bytes -> reaction Sv.
Variable abs : Sv -> files.
Hypothesis conf : conforming react (file_service tree setup accepts) abs.
Variable E : env.
Lemma mirror_files (w : world cifs Sv) s : let all := files_in (fs_files (abs (srv w))) (sh_tid s) in
  typed_client (cl w) -> idle w -> u16 (sh_tid s) -> sound_files (abs (srv w)) ->
  once (fs_files (abs (srv w))) -> Forall ordinary all ->
  len (write_entries (listing (abs (srv w)) (sh_tid s) [42])) < 65400 ->
  fs_next (abs (srv w)) + len all <= 65536 -> room E (cl w) (mirror_calls all) ->
  exists k w', (forall fuel, (k <= fuel)%nat -> run react (mirror E fuel s) w = Done (Good all) w') /\ idle w'
    /\ abs (srv w') = mk_files (fs_files (abs (srv w))) (fs_open (abs (srv w))) (fs_next (abs (srv w)) + len all).
Proof.
  intros all Hc Hi Hu Hs Ho Hord Hlen Hn Hr.
  set (es := filter (fun e => fst (fst e) =? sh_tid s) (fs_files (abs (srv w)))).
  assert (Hall : all = map pair_of es) by reflexivity.
  assert (Hlist : listing (abs (srv w)) (sh_tid s) [42] = map entry_of es) by (apply listing_all; exact Hord).
  assert (Hlall : len all = len es) by (rewrite Hall; unfold len; now rewrite map_length).
  pose (n := S (list_sum (map (fun e => length (snd e)) es))).
  destruct (local_each tree setup accepts s (n := n) es (next_client (cl w)) (st := abs (srv w))) as (m & c' & HL & Hm & _ & _).
  - exact Hu.
  - exact Hs.
  - lia.
  - intros e He. assert (Ht : fst (fst e) = sh_tid s /\ In e (fs_files (abs (srv w)))).
    { apply filter_In in He. destruct He as [He Ht]. apply N.eqb_eq in Ht. now split. }
    destruct Ht as [Ht Hin]. split; [|split; [|split]].
    + rewrite Forall_forall in Hord. apply Hord. rewrite Hall. now apply in_map.
    + apply once_contents; [exact Ho|]. rewrite <- Ht. destruct e as ((a, b), x). exact Hin.
    + rewrite Hlist in Hlen. pose proof (@entry_name_small (entry_of e) (map entry_of es)) as K.
      change (d_filename (entry_of e)) with (snd (fst e)) in K. specialize (K ltac:(now apply in_map)). lia.
    + unfold n. clear - He. induction es as [|x r IH]; [destruct He|]. cbn [map list_sum fold_right]. unfold list_sum in *. cbn [fold_right].
      destruct He as [->|He]; [lia|]. specialize (IH He). lia.
  - rewrite <- Hall in HL, Hm. rewrite <- Hlall in HL.
    assert (HM : local (file_service tree setup accepts) (mirror_flow n s) (cl w) (abs (srv w)) (1 + m) (Good all) c'
      (mk_files (fs_files (abs (srv w))) (fs_open (abs (srv w))) (fs_next (abs (srv w)) + len all))).
    { unfold mirror_flow. eapply local_bind; [|exact HL]. rewrite <- Hlist.
      apply local_list with (sid := 1).
      - change (backslashes [42]) with [42]. cbn [file_service]. destruct (N.ltb_spec (len (write_entries (listing (abs (srv w)) (sh_tid s) [42]))) 65400); [reflexivity|lia].
      - exact Hu.
      - reflexivity.
      - cbn [fits_request]. change (utf16_len [42]) with 1. lia. }
    destruct (@remote_local _ _ react _ abs conf E _ _ _ _ _ _ _ _ HM w eq_refl eq_refl Hc Hi) as (k & w' & fs & Hrun & Hi' & _ & Hst & _).
    + intros Hov. specialize (Hr Hov). unfold mirror_calls in Hr. lia.
    + exists (Nat.max k n), w'. split; [|split; [exact Hi'|exact Hst]]. intros fuel Hf. rewrite (mirror_same E fuel s).
      eapply run_less; [apply less_mirror|apply Hrun; lia]. lia.
Qed.
End Behind.
