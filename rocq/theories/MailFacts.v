(** * MailFacts: fetching the files in a directory over connections that break (C128) *)
From Verif Require Import Base Text Win Errors Common Reply Ntlm Prog Client Spec SpecReply SpecMsg Api SpecCall BaseFacts TextFacts
  RunFacts MsgFacts SizeFacts Flow FlowFacts SpecRemote RemoteFacts RefServer RefFacts FileService FileFacts
  SpecLost SpecCutoff SpecHalf HalfFacts SpecTree TreeFacts SpecRemoval RemovalFacts SpecMove MoveFacts SpecMail.
Open Scope N_scope.
Set Implicit Arguments.

(** ** a file less *)
Lemma unlink_names x y t : In y (entry_names (unlink t [x])) -> In y (entry_names t).
Proof.
  induction t as [|n d r IH|n sub _ r IH]; cbn [unlink entry_names]; [easy| |].
  - destruct (text_eqb n x); [now right|]. cbn [entry_names In]. intuition.
  - cbn [In]. intuition.
Qed.
Lemma unlink_ordinary x pre t : ordinary_tree pre t -> ordinary_tree pre (unlink t [x]).
Proof.
  induction t as [|n d r IH|n sub _ r IH]; cbn [unlink ordinary_tree]; [easy| |].
  - intros (H1 & H2 & H3 & H4 & H5). destruct (text_eqb n x); [exact H5|]. cbn [ordinary_tree].
    repeat (split; [assumption||(intros K; exact (H2 (unlink_names _ _ _ K)))|]). now apply IH.
  - intros (H1 & H2 & H3 & H4 & H5 & H6). 
    repeat (split; [assumption||(intros K; exact (H2 (unlink_names _ _ _ K)))|]). now apply IH.
Qed.
Lemma no_file t x p : ~ In x (entry_names t) -> file_of t (x :: p) = None.
Proof. intros H. destruct (file_of t (x :: p)) as [d|] eqn:K; [|reflexivity]. destruct (H (file_named _ _ _ K)). Qed.
Lemma unlink_gone x pre t : ordinary_tree pre t -> file_of t [x] <> None -> file_of (unlink t [x]) [x] = None.
Proof.
  induction t as [|n d r IH|n sub _ r IH]; cbn [unlink ordinary_tree file_of]; [reflexivity| |].
  - intros (H1 & H2 & H3 & H4 & H5) Hf. destruct (text_eqb n x) eqn:Ex.
    + apply text_eqb_iff in Ex. subst n. now apply no_file.
    + cbn [file_of]. rewrite Ex. now apply IH.
  - intros (H1 & H2 & H3 & H4 & H5 & H6) Hf. now apply IH.
Qed.
Lemma unlink_others x t p : p <> [x] -> file_of (unlink t [x]) p = file_of t p.
Proof.
  intros Hp. induction t as [|n d r IH|n sub _ r IH]; cbn [unlink file_of]; [reflexivity| |].
  - destruct (text_eqb n x) eqn:Ex; cbn [file_of]; destruct p as [|y [|z p]]; try exact IH; try reflexivity.
    + apply text_eqb_iff in Ex. subst n. rewrite eqb_other; [reflexivity|]. now intros ->.
    + now rewrite IH.
  - destruct p as [|y [|z p]]; try exact IH. now rewrite IH.
Qed.
Lemma unlink_dirs x t p : dir_at (unlink t [x]) p = None <-> dir_at t p = None.
Proof.
  destruct p as [|y p]; [destruct t, (unlink _ _); cbn; split; discriminate|].
  induction t as [|n d r IH|n sub _ r IH]; cbn [unlink dir_at]; [tauto| |].
  - destruct (text_eqb n x); [tauto|]. exact IH.
  - destruct (text_eqb n y); [tauto|exact IH].
Qed.
Lemma below_split ns : forall p, below ns p = true -> exists y q, p = ns ++ y :: q.
Proof.
  induction ns as [|n ns IH]; intros [|x p]; cbn [below]; try discriminate; [now exists x, p|].
  intros H. apply andb_true_iff in H. destruct H as [H1 H2]. apply text_eqb_iff in H1. subst x.
  destruct (IH p H2) as (y & q & ->). now exists y, q.
Qed.
Section Less.
Variables (R u : tree) (ns : list text) (x : text).
Hypothesis HR : dir_at R ns = Some u.
Hypothesis Ho : ordinary_tree (path_of ns) u.
Let R' := unlink R (ns ++ [x]).
Lemma less_put : R' = put R ns (unlink u [x]).
Proof. unfold R'. rewrite <- (put_same _ _ HR) at 1. exact (put_unlink R ns _ _ HR). Qed.
Lemma less_at : dir_at R' ns = Some (unlink u [x]).
Proof. rewrite less_put. exact (put_dir R ns _ HR). Qed.
Lemma less_other p : p <> ns ++ [x] -> file_of R' p = file_of R p.
Proof.
  intros Hp. rewrite less_put. pose proof (put_files R ns (unlink u [x]) p HR) as K. destruct (below ns p) eqn:Eb; [|exact K].
  destruct (below_split _ _ Eb) as (y & q & ->). rewrite <- less_put, (file_inside _ ns less_at), (file_inside _ ns HR).
  apply unlink_others. intros [= -> ->]. now apply Hp.
Qed.
Lemma less_gone : file_of R (ns ++ [x]) <> None -> file_of R' (ns ++ [x]) = None.
Proof. rewrite (file_inside _ ns less_at), (file_inside _ ns HR). now apply (unlink_gone _ (path_of ns)). Qed.
Lemma less_dirs p : dir_at R' p = None <-> dir_at R p = None.
Proof.
  rewrite less_put. pose proof (put_dirs R ns (unlink u [x]) p HR) as K. destruct (below ns p) eqn:Eb; [|exact K].
  destruct (below_split _ _ Eb) as (y & q & ->). rewrite <- less_put, (dir_inside _ ns less_at), (dir_inside _ ns HR). apply unlink_dirs.
Qed.
End Less.

(** ** the program *)
Section Net.
Variable the_tid : N.
Variable setup : server_setup.
Variables Sn Sv : Type.
Variable net : Sn -> bytes -> reaction Sn.
Variable react : Sv -> bytes -> reaction Sv.
Variable inner : Sn -> Sv.
Variable up : Sn -> Prop.
Hypothesis Hnet : unreliable net react inner up.
Variable abs : Sv -> dirs.
Notation DS := (dir_service the_tid setup).
Hypothesis conf : conforming react DS abs.
Variable E : env.
Notation view := (fun n => abs (inner n)).
Definition linked (w : world cifs Sn) : Prop := idle w /\ up (srv w) \/ silent w /\ ~ up (srv w).

(** a program of calls on a connection in order or gone *)
Lemma step A (f : flow A) c st n r c' st' : local DS f c st n r c' st' -> strict f ->
  forall w : world cifs Sn, cl w = c -> view (srv w) = st -> typed_client c -> linked w -> room E c n ->
  exists k a w', (forall fuel, (k <= fuel)%nat -> run net (interp E fuel f) w = Done a w')
  /\ ((a = r /\ cl w' = c' /\ view (srv w') = st' /\ linked w')
      \/ ((exists e, a = Bad (ENetBios e)) /\ visited DS f c st (view (srv w')))).
Proof.
  intros L Hs w Hcl Hst Hc [[Hi Hup]|[Hsi Hup]] Hr.
  - destruct (@half_program _ _ _ net react inner up Hnet _ abs conf E _ _ _ _ _ _ _ _ L Hs w Hcl Hst Hc Hi Hup Hr)
      as (k & a & w' & H1 & [H2|(H2 & H3 & _)]); exists k, a, w'; (split; [exact H1|]); [left; exact H2|right; now split].
  - destruct (@silent_strict _ _ _ net react inner up Hnet _ E _ _ _ _ _ _ _ _ L Hs w Hcl Hsi Hup Hr)
      as (k & a & w' & H1 & Hin & Hs' & [(-> & H2 & H3)|H2]).
    + exists k, r, w'. split; [exact H1|]. left. split; [reflexivity|]. split; [exact H2|]. rewrite Hin, Hst, H3. split; [reflexivity|now right].
    + exists k, a, w'. split; [exact H1|]. right. split; [exact H2|]. rewrite Hin, Hst. apply v_none.
Qed.

Variable ns : list text.
Hypothesis Hns : Forall a_name ns.
Variable s : share.
Hypothesis Hu : u16 the_tid.
Hypothesis Hs : sh_tid s = the_tid.

Lemma download_step x d (w : world cifs Sn) : a_name x -> short (path_of ns ++ x) -> len d < 2 ^ 64 ->
  file_of (ds_root (view (srv w))) (ns ++ [x]) = Some d -> fresh (ds_open (view (srv w))) < 65536 ->
  typed_client (cl w) -> linked w -> room E (cl w) (2 + pieces (len d) 65534) ->
  exists k a w', (forall fuel, (k <= fuel)%nat -> run net (download E fuel s (path_of ns ++ x)) w = Done a w')
  /\ ((a = Good d /\ view (srv w') = view (srv w) /\ typed_client (cl w') /\ mid (cl w') <= mid (cl w) + N.of_nat (2 + pieces (len d) 65534) /\ linked w')
      \/ ((exists e, a = Bad (ENetBios e)) /\ ds_root (view (srv w')) = ds_root (view (srv w)))).
Proof.
  intros Hx Hsh Hlen Hf Hfr Hc Hw Hr. pose proof Hx as (X1 & _ & _ & _ & X2 & X3).
  destruct (local_download (B := DS) (s := s) (path := path_of ns ++ x) (c := cl w) (n := length d + 1) (who := uid (cl w)) (st := view (srv w)) (d := d)
    (q := 65534) (h := the_handle the_tid (fresh (ds_open (view (srv w)))) (len d)) (over := fun s' => s' = view (srv w))) as (m1 & c1 & st1 & L1 & E1 & _ & M1 & _).
  - rewrite Hs. apply tree_file; [exact Hu| |exact Hfr|exact Hlen]. now rewrite names_path.
  - now rewrite Hs.
  - apply str_app; [now apply str_path|exact X1].
  - unfold short in Hsh. cbn [fits_request]. lia.
  - reflexivity.
  - exact Hlen.
  - lia.
  - subst st1. destruct (local_counted L1 Hc) as [C1 C2].
    destruct (@step _ _ _ _ _ _ _ _ L1 (strict_download _ _ _) w eq_refl eq_refl Hc Hw) as (k & a & w' & H1 & H2).
    { intros Hov. specialize (Hr Hov). lia. }
    exists (Nat.max k (length d + 1)), a, w'. split.
    + intros fuel Hfu. rewrite (download_same E fuel s (path_of ns ++ x)). eapply run_less; [apply less_download|apply H1; lia]; lia.
    + destruct H2 as [(-> & Hcl & H3 & H4)|(H2 & H3)].
      * left. split; [reflexivity|]. split; [exact H3|]. rewrite Hcl. split; [exact C1|]. split; [lia|exact H4].
      * right. split; [exact H2|]. exact (harmless_visited H3 (harmless_download _ _ _)).
Qed.
Lemma delete_step x d (w : world cifs Sn) : a_name x -> short (path_of ns ++ x) ->
  file_of (ds_root (view (srv w))) (ns ++ [x]) = Some d ->
  typed_client (cl w) -> linked w -> room E (cl w) 1 ->
  exists k a w', (forall fuel, (k <= fuel)%nat -> run net (delete E fuel s (path_of ns ++ x)) w = Done a w')
  /\ ((a = Good tt /\ view (srv w') = mk_dirs (unlink (ds_root (view (srv w))) (ns ++ [x])) (ds_open (view (srv w)))
       /\ typed_client (cl w') /\ mid (cl w') <= mid (cl w) + 1 /\ linked w')
      \/ ((exists e, a = Bad (ENetBios e))
          /\ (ds_root (view (srv w')) = ds_root (view (srv w)) \/ ds_root (view (srv w')) = unlink (ds_root (view (srv w))) (ns ++ [x])))).
Proof.
  intros Hx Hsh Hf Hc Hw Hr. pose proof Hx as (X1 & _ & _ & _ & X2 & X3).
  assert (L : local DS (fcall (Delete s (path_of ns ++ x))) (cl w) (view (srv w)) 1 (Good tt) (next_client (cl w))
    (mk_dirs (unlink (ds_root (view (srv w))) (ns ++ [x])) (ds_open (view (srv w))))).
  { refine (local_call (q := Delete s (path_of ns ++ x)) (r := inl tt) _ _ _ _).
    - split; [now rewrite Hs|]. apply str_app; [now apply str_path|exact X1].
    - exact I.
    - unfold short in Hsh. cbn [fits_request]. lia.
    - cbn [op_of dir_service]. rewrite names_path by assumption. now rewrite Hf, Hs, N.eqb_refl. }
  destruct (local_counted L Hc) as [C1 C2].
  destruct (@step _ _ _ _ _ _ _ _ L (strict_fcall _) w eq_refl eq_refl Hc Hw Hr) as (k & a & w' & H1 & H2).
  exists k, a, w'. split.
  - intros fuel Hfu. rewrite <- (H1 fuel Hfu). symmetry. apply interp_fcall.
  - destruct H2 as [(-> & Hcl & H3 & H4)|(H2 & H3)].
    + left. split; [reflexivity|]. split; [exact H3|]. rewrite Hcl. split; [exact C1|]. split; [lia|exact H4].
    + right. split; [exact H2|]. destruct (visited_once L H3) as [-> | ->]; [now left|now right].
Qed.

Lemma empty_rest t : forall (w : world cifs Sn) u, ordinary_tree (path_of ns) t ->
  dir_at (ds_root (view (srv w))) ns = Some u -> ordinary_tree (path_of ns) u ->
  (forall x, In x (entry_names t) -> file_of u [x] = file_of t [x]) ->
  fresh (ds_open (view (srv w))) < 65536 -> typed_client (cl w) -> linked w -> room E (cl w) (copy_calls t + clear_calls t) ->
  exists k got a w', (forall fuel, (k <= fuel)%nat -> run net (empty_each E fuel s (path_of ns) (infos t)) w = Done (got, a) w')
  /\ fetched ns (ds_root (view (srv w))) got (ds_root (view (srv w')))
  /\ ((a = Good tt /\ ds_open (view (srv w')) = ds_open (view (srv w))
       /\ forall x d, In x (entry_names t) -> file_of (ds_root (view (srv w))) (ns ++ [x]) = Some d ->
            In (x, d) got /\ file_of (ds_root (view (srv w'))) (ns ++ [x]) = None)
      \/ exists e, a = Bad (ENetBios e)).
Proof.
  induction t as [|x d r IH|x sub _ r IH]; intros w u Ho Hd Hou Hsame Hfr Hc Hw Hr; cbn [infos empty_each d_filename ordinary_tree entry_names] in *.
  - exists 0%nat, [], (Good tt), w. split; [reflexivity|]. split.
    + split; [intros x d []|]. split; [now left|]. split; [reflexivity|]. exists [], []. split; [reflexivity|]. split; [cbn; lia|intros x d []].
    + left. split; [reflexivity|]. split; [reflexivity|intros x d []].
  - pose proof Ho as (Hx & Hnot & Hsh & Hlen & Hor). rewrite dots_not by exact Hx.
    change (is_directory (mk_dir 0 0 0 0 x (len d) ATTR_NORMAL)) with false. cbn [orb]. cbn [copy_calls clear_calls] in Hr.
    assert (Hf : file_of (ds_root (view (srv w))) (ns ++ [x]) = Some d).
    { rewrite (file_inside _ ns Hd), (Hsame x (or_introl eq_refl)). cbn [file_of]. now rewrite eqb_same. }
    destruct (@download_step x d w Hx Hsh Hlen Hf Hfr Hc Hw) as (k1 & a1 & w1 & H1 & [(-> & Hv1 & Hc1 & Hm1 & Hw1)|((e & ->) & Hv1)]).
    { intros Hov. specialize (Hr Hov). lia. }
    + destruct (@delete_step x d w1 Hx Hsh) as (k2 & a2 & w2 & H2 & [(-> & Hv2 & Hc2 & Hm2 & Hw2)|((e & ->) & Hv2)]).
      * now rewrite Hv1.
      * exact Hc1.
      * exact Hw1.
      * intros Hov. specialize (Hr Hov). lia.
      * rewrite Hv1 in Hv2.
        assert (Hroot : ds_root (view (srv w2)) = unlink (ds_root (view (srv w))) (ns ++ [x])) by now rewrite Hv2.
        destruct (IH w2 (unlink u [x])) as (k3 & got & a & w' & H3 & F & Hres).
        -- exact Hor.
        -- rewrite Hroot. exact (less_at _ _ _ Hd).
        -- now apply unlink_ordinary.
        -- intros y Hy. assert (y <> x) by now intros ->. rewrite unlink_others by congruence.
           rewrite Hsame by now right. cbn [file_of]. rewrite eqb_other; [reflexivity|]. congruence.
        -- rewrite Hv2. exact Hfr.
        -- exact Hc2.
        -- exact Hw2.
        -- intros Hov. specialize (Hr Hov). lia.
        -- exists (Nat.max k1 (Nat.max k2 k3)), ((x, d) :: got), a, w'.
           assert (Hgone : file_of (ds_root (view (srv w2))) (ns ++ [x]) = None).
           { rewrite Hroot. apply (less_gone _ _ _ Hd Hou). congruence. }
           destruct F as (F1 & F2 & F3 & l & o & F4 & F5 & F6).
           assert (Hgone' : file_of (ds_root (view (srv w'))) (ns ++ [x]) = None).
           { destruct (F2 (ns ++ [x])) as [K|[K _]]; congruence. }
           assert (Hoth : forall p, p <> ns ++ [x] -> file_of (ds_root (view (srv w2))) p = file_of (ds_root (view (srv w))) p).
           { intros p Hp. rewrite Hroot. now apply (less_other _ _ _ Hd). }
           assert (Hne : forall y, y <> x -> ns ++ [y] <> ns ++ [x]) by (intros y Hy K; apply app_inv_head in K; congruence).
           split; [|split].
           ++ intros fuel Hfu. rewrite run_bind, H1 by lia. cbn [obind]. rewrite run_bind, H2 by lia. cbn [obind]. rewrite run_bind, H3 by lia. reflexivity.
           ++ split; [|split; [|split]].
              ** intros y b [[= <- <-]|Hin]; [exact Hf|]. specialize (F1 y b Hin). rewrite <- Hoth; [exact F1|]. apply Hne. intros ->. congruence.
              ** intros p. destruct (list_eq_dec (list_eq_dec N.eq_dec) p (ns ++ [x])) as [->|Hp].
                 --- right. split; [exact Hgone'|]. exists x, d. split; [reflexivity|now left].
                 --- rewrite <- (Hoth p Hp). destruct (F2 p) as [K|(K & y & b & K1 & K2)]; [now left|]. right. split; [exact K|]. exists y, b. split; [exact K1|now right].
              ** intros p. rewrite F3, Hroot. exact (@less_dirs _ _ _ x Hd p).
              ** exists ((x, d) :: l), o. split; [now rewrite F4|]. split; [exact F5|]. intros y b [[= <- <-]|Hin]; [exact Hgone'|exact (F6 y b Hin)].
           ++ destruct Hres as [(-> & Hop & Hall)|He]; [left|now right]. split; [reflexivity|]. split; [rewrite Hop, Hv2; reflexivity|].
              intros y b Hy Hb. destruct (list_eq_dec N.eq_dec y x) as [->|Hyx].
              ** split; [left; congruence|exact Hgone'].
              ** destruct Hy as [->|Hy]; [now destruct Hyx|]. destruct (Hall y b Hy) as [K1 K2]; [now rewrite Hoth by now apply Hne|]. split; [now right|exact K2].
      * exists (Nat.max k1 k2), [(x, d)], (Bad (ENetBios e)), w2. split; [|split].
        -- intros fuel Hfu. rewrite run_bind, H1 by lia. cbn [obind]. rewrite run_bind, H2 by lia. reflexivity.
        -- rewrite Hv1 in Hv2. split; [intros y b [[= <- <-]|[]]; exact Hf|]. destruct Hv2 as [-> | ->].
           ++ split; [now left|]. split; [reflexivity|]. exists [], [(x, d)]. split; [reflexivity|]. split; [cbn; lia|intros y b []].
           ++ split; [|split; [exact (@less_dirs _ _ _ x Hd)|exists [], [(x, d)]; split; [reflexivity|]; split; [cbn; lia|intros y b []]]].
              intros p. destruct (list_eq_dec (list_eq_dec N.eq_dec) p (ns ++ [x])) as [->|Hp].
              ** right. split; [apply (less_gone _ _ _ Hd Hou); congruence|]. exists x, d. split; [reflexivity|now left].
              ** left. now apply (less_other _ _ _ Hd).
        -- right. now exists e.
    + exists k1, [], (Bad (ENetBios e)), w1. split; [|split].
      * intros fuel Hfu. rewrite run_bind, H1 by lia. reflexivity.
      * rewrite Hv1. split; [intros y b []|]. split; [now left|]. split; [reflexivity|]. exists [], []. split; [reflexivity|]. split; [cbn; lia|intros y b []].
      * right. now exists e.
  - pose proof Ho as (Hx & Hnot & Hsh & Hl & Hos & Hor).
    change (is_directory (mk_dir 0 0 0 0 x 0 ATTR_DIRECTORY)) with true. rewrite orb_true_r. cbn [copy_calls clear_calls] in Hr.
    destruct (IH w u Hor Hd Hou) as (k & got & a & w' & H1 & H2 & H3).
    + intros y Hy. rewrite Hsame by now right. reflexivity.
    + exact Hfr.
    + exact Hc.
    + exact Hw.
    + intros Hov. specialize (Hr Hov). lia.
    + exists k, got, a, w'. split; [exact H1|]. split; [exact H2|]. destruct H3 as [(-> & Hop & Hall)|He]; [left|now right].
      split; [reflexivity|]. split; [exact Hop|]. intros y b [<-|Hy] Hb; [|now apply Hall]. exfalso.
      rewrite (file_inside _ ns Hd), (Hsame x (or_introl eq_refl)) in Hb. cbn [file_of] in Hb. rewrite no_file in Hb by exact Hnot. discriminate.
Qed.

Hypothesis Hshort : short (path_of ns ++ [42]).
Lemma empty_once m (w : world cifs Sn) : movable ns (ds_root (view (srv w))) m -> ready E up the_tid view m w s ->
  exists got a w', empties net E s ns w (got, a) w'
  /\ fetched ns (ds_root (view (srv w))) got (ds_root (view (srv w')))
  /\ ((a = Good tt /\ ds_open (view (srv w')) = ds_open (view (srv w)) /\ all_fetched ns (ds_root (view (srv w))) got (ds_root (view (srv w'))))
      \/ exists e, a = Bad (ENetBios e)).
Proof.
  intros (t & Hd & Hl & Ho & Hm) ((Hc & Hi & Hup & _ & _ & Hr) & Hfr).
  pose proof (@local_listed the_tid setup Hu s Hs 0 (cl w) (view (srv w)) ns t (path_of ns) Hns Hd Hl Ho Hshort) as L.
  destruct (local_counted L Hc) as [C1 C2].
  destruct (@step _ _ _ _ _ _ _ _ L (strict_list _ _ _) w eq_refl eq_refl Hc (or_introl (conj Hi Hup))) as (k & a & w1 & H1 & H2).
  { intros Hov. specialize (Hr Hov). lia. }
  assert (H1' : forall fuel, (k <= fuel)%nat -> run net (list_dir E fuel s (path_of ns ++ [42])) w = Done a w1).
  { intros fuel Hfu. rewrite (list_same E fuel s (path_of ns ++ [42])). eapply run_less; [apply less_list|apply H1; exact Hfu]. lia. }
  destruct H2 as [(-> & Hcl & Hv & Hw)|((e & ->) & Hvis)].
  - destruct (@empty_rest t w1 t Ho) as (k2 & got & a & w' & H2 & F & H3).
    + now rewrite Hv.
    + exact Ho.
    + reflexivity.
    + now rewrite Hv.
    + now rewrite Hcl.
    + exact Hw.
    + rewrite Hcl. intros Hov. specialize (Hr Hov). lia.
    + rewrite Hv in F, H3. exists got, a, w'. split; [|split; [exact F|]].
      * exists (Nat.max k k2). intros fuel Hfu. unfold empty_box. rewrite run_bind, H1' by lia. cbn [obind dir_listing empty_each d_filename].
        apply H2. lia.
      * destruct H3 as [(-> & Hop & Hall)|He]; [left|now right]. split; [reflexivity|]. split; [exact Hop|]. split.
        -- intros x d Hx. apply Hall; [|exact Hx]. rewrite (file_inside _ ns Hd) in Hx. exact (file_named _ _ _ Hx).
        -- intros x. destruct F as (_ & F2 & _). destruct (F2 (ns ++ [x])) as [K|[K _]]; [|exact K].
           destruct (file_of (ds_root (view (srv w))) (ns ++ [x])) as [d|] eqn:Hx; [|exact K].
           apply (Hall x d); [|exact Hx]. rewrite (file_inside _ ns Hd) in Hx. exact (file_named _ _ _ Hx).
  - exists [], (Bad (ENetBios e)), w1. split; [|split; [|right; now exists e]].
    + exists k. intros fuel Hfu. unfold empty_box. rewrite run_bind, H1' by exact Hfu. reflexivity.
    + rewrite (harmless_visited Hvis (harmless_list _ _ _)). split; [intros y b []|]. split; [now left|]. split; [reflexivity|].
      exists [], []. split; [reflexivity|]. split; [cbn; lia|intros y b []].
Qed.
End Net.

(** any number of runs *)
Section Rounds.
Variable the_tid : N.
Variable setup : server_setup.
Variables Sn Sv : Type.
Variable net : Sn -> bytes -> reaction Sn.
Variable react : Sv -> bytes -> reaction Sv.
Variable inner : Sn -> Sv.
Variable up : Sn -> Prop.
Hypothesis Hnet : unreliable net react inner up.
Variable abs : Sv -> dirs.
Hypothesis conf : conforming react (dir_service the_tid setup) abs.
Variable E : env.
Notation view := (fun n => abs (inner n)).
Variable ns : list text.
Hypothesis Hns : Forall a_name ns.
Hypothesis Hshort : short (path_of ns ++ [42]).
Lemma empties_same s (w : world cifs Sn) x w' y v : empties net E s ns w x w' -> empties net E s ns w y v -> x = y /\ w' = v.
Proof.
  intros (k & H) (k' & H'). specialize (H (Nat.max k k')). specialize (H' (Nat.max k k')).
  specialize (H ltac:(lia)). specialize (H' ltac:(lia)). rewrite H' in H. injection H as -> ->. now split.
Qed.
Lemma empty_often m seen got l R R' : rounds net E view (box_ready E up the_tid view ns m) ns seen got l R R' ->
  (forall x d, file_of R (ns ++ [x]) = Some d -> In (x, d) got \/ file_of R' (ns ++ [x]) = Some d)
  /\ (forall T x d, In T seen -> file_of T (ns ++ [x]) = Some d -> In (x, d) got \/ file_of R' (ns ++ [x]) = Some d)
  /\ (forall x d, In (x, d) got -> exists T, In T seen /\ file_of T (ns ++ [x]) = Some d)
  /\ (forall a, In a l -> a = Good tt \/ exists e, a = Bad (ENetBios e)).
Proof.
  induction 1 as [R|seen got l R R1 R' Hk _ IH|w s new a w' seen got l R' [Hm Hrd] Hrun _ IH].
  - split; [now right|]. split; [intros T x d []|]. split; [intros x d []|intros a []].
  - destruct IH as (I1 & I2 & I3 & I4). split; [|split; [exact I2|split; [exact I3|exact I4]]].
    intros x d Hx. exact (I1 x d (Hk x d Hx)).
  - destruct IH as (I1 & I2 & I3 & I4). pose proof Hrd as ((_ & _ & _ & Hu & Hs & _) & _).
    assert (Hu' : u16 the_tid) by now rewrite <- Hs.
    destruct (@empty_once the_tid setup _ _ net react inner up Hnet abs conf E ns Hns s Hu' Hs Hshort m w Hm Hrd) as (new' & b & v & H1 & F & H2).
    destruct (empties_same Hrun H1) as [[= -> ->] ->]. destruct F as (F1 & F2 & _).
    assert (Hfirst : forall x d, file_of (ds_root (view (srv w))) (ns ++ [x]) = Some d -> In (x, d) (new' ++ got) \/ file_of R' (ns ++ [x]) = Some d).
    { intros x d Hx. destruct (F2 (ns ++ [x])) as [K|(_ & y & c & K1 & K2)].
      - rewrite Hx in K. destruct (I1 x d K) as [J|J]; [left; apply in_or_app; now right|now right].
      - apply app_inv_head in K1. injection K1 as <-. left. apply in_or_app. left. specialize (F1 x c K2). congruence. }
    split; [exact Hfirst|]. split; [|split].
    + intros T x d [<-|HT] Hx; [now apply Hfirst|]. destruct (I2 T x d HT Hx) as [J|J]; [left; apply in_or_app; now right|now right].
    + intros x d Hin. apply in_app_or in Hin. destruct Hin as [Hin|Hin].
      * eexists. split; [left; reflexivity|]. exact (F1 x d Hin).
      * destruct (I3 x d Hin) as (T & J1 & J2). exists T. split; [now right|exact J2].
    + intros c [<-|Hin]; [|now apply I4]. destruct H2 as [(-> & _)|H2]; [now left|now right].
Qed.
End Rounds.
