(** * RemoversFacts: several clients removing directory trees at the same time (C124) *)
From Verif Require Import Base Text Win Errors Common Reply Ntlm Prog Client Spec SpecReply SpecMsg Api SpecCall BaseFacts TextFacts
  RunFacts MsgFacts SizeFacts ReqFacts CallFacts FindFacts Flow FlowFacts SpecRemote RemoteFacts RefServer FileService FileFacts SpecPool PoolFacts PoolFileFacts
  SpecTree TreeFacts SpecRemoval RemovalFacts SpecRemovers.
Open Scope N_scope.
Set Implicit Arguments.

(** ** trees from which something has been removed *)
Inductive pruned : tree -> tree -> Prop :=
| pr_nothing : pruned Nothing Nothing
| pr_file n d r r' : pruned r r' -> pruned (AFile n d r) (AFile n d r')
| pr_no_file n d r r' : pruned r r' -> pruned (AFile n d r) r'
| pr_dir n sub sub' r r' : pruned sub sub' -> pruned r r' -> pruned (ADir n sub r) (ADir n sub' r')
| pr_no_dir n sub r r' : pruned r r' -> pruned (ADir n sub r) r'.
Lemma pruned_refl t : pruned t t.
Proof. induction t; constructor; assumption. Qed.
Lemma pruned_trans a b : pruned a b -> forall c, pruned b c -> pruned a c.
Proof.
  induction 1 as [|n d r r' _ IH|n d r r' _ IH|n sub sub' r r' _ IHs _ IH|n sub r r' _ IH]; intros c Hc; [exact Hc| | | |].
  - inversion Hc; subst; [apply pr_file|apply pr_no_file]; auto.
  - apply pr_no_file; auto.
  - inversion Hc; subst; [apply pr_dir|apply pr_no_dir]; auto.
  - apply pr_no_dir; auto.
Qed.
Lemma pruned_names t t' : pruned t t' -> forall x, In x (entry_names t') -> In x (entry_names t).
Proof. induction 1; cbn [entry_names In]; intuition. Qed.
Lemma pruned_once t t' : pruned t t' -> names_once t -> names_once t'.
Proof.
  induction 1 as [|n d r r' H IH|n d r r' H IH|n sub sub' r r' Hs IHs H IH|n sub r r' H IH]; cbn [names_once]; try tauto.
  - intros [H1 H2]. split; [|auto]. intros Hi. apply H1. exact (pruned_names H _ Hi).
  - intros (H1 & H2 & H3). split; [|auto]. intros Hi. apply H1. exact (pruned_names H _ Hi).
Qed.
Lemma pruned_infos t t' : pruned t t' -> len (write_entries (infos t')) <= len (write_entries (infos t)).
Proof. induction 1; cbn [infos]; rewrite ?write_entries_cons; lia. Qed.
Lemma pruned_listable t t' : pruned t t' -> listable t -> listable t'.
Proof. intros H. pose proof (pruned_infos H). unfold listable, dir_listing. rewrite !write_entries_cons. lia. Qed.
Lemma pruned_ordinary t t' : pruned t t' -> forall pre, ordinary_tree pre t -> ordinary_tree pre t'.
Proof.
  induction 1 as [|n d r r' H IH|n d r r' H IH|n sub sub' r r' Hs IHs H IH|n sub r r' H IH]; intros pre; cbn [ordinary_tree]; try tauto.
  - intros (H1 & H2 & H3 & H4 & H5). split; [assumption|]. split; [intros Hi; apply H2; exact (pruned_names H _ Hi)|]. auto.
  - intros (H1 & H2 & H3 & H4 & H5). auto.
  - intros (H1 & H2 & H3 & H4 & H5 & H6). split; [assumption|]. split; [intros Hi; apply H2; exact (pruned_names H _ Hi)|].
    split; [assumption|]. split; [exact (pruned_listable Hs H4)|]. auto.
  - intros (H1 & H2 & H3 & H4 & H5 & H6). auto.
Qed.
Lemma pruned_calls t t' : pruned t t' -> (clear_calls t' <= clear_calls t)%nat.
Proof. induction 1; cbn [clear_calls]; lia. Qed.
Lemma pruned_depth t t' : pruned t t' -> (depth t' <= depth t)%nat.
Proof. induction 1; cbn [depth]; lia. Qed.
Lemma file_unnamed t x p : ~ In x (entry_names t) -> file_of t (x :: p) = None.
Proof. intros H. destruct (file_of t (x :: p)) eqn:E; [|reflexivity]. apply file_named in E. contradiction. Qed.
Lemma dir_unnamed t x p : ~ In x (entry_names t) -> dir_at t (x :: p) = None.
Proof. intros H. destruct (dir_at t (x :: p)) eqn:E; [|reflexivity]. apply dir_named in E. contradiction. Qed.
Lemma pruned_files t t' : pruned t t' -> names_once t -> forall p, file_of t' p = None \/ file_of t' p = file_of t p.
Proof.
  induction 1 as [|n d r r' H IH|n d r r' H IH|n sub sub' r r' Hs IHs H IH|n sub r r' H IH]; cbn [names_once]; intros Ho p; [now left| | | |].
  - destruct Ho as [H1 H2]. cbn [file_of]. destruct p as [|x [|y p]]; try exact (IH H2 _). destruct (text_eqb n x); [now right|exact (IH H2 _)].
  - destruct Ho as [H1 H2]. cbn [file_of]. destruct p as [|x [|y p]]; try exact (IH H2 _). destruct (text_eqb n x) eqn:Ex; [|exact (IH H2 _)].
    apply text_eqb_iff in Ex. subst x. left. apply file_unnamed. intros Hi. apply H1. exact (pruned_names H _ Hi).
  - destruct Ho as (H1 & H2 & H3). cbn [file_of]. destruct p as [|x [|y p]]; try exact (IH H3 _).
    destruct (text_eqb n x); [exact (IHs H2 _)|exact (IH H3 _)].
  - destruct Ho as (H1 & H2 & H3). cbn [file_of]. destruct p as [|x [|y p]]; try exact (IH H3 _). destruct (text_eqb n x) eqn:Ex; [|exact (IH H3 _)].
    apply text_eqb_iff in Ex. subst x. left. apply file_unnamed. intros Hi. apply H1. exact (pruned_names H _ Hi).
Qed.
Definition some_pruned (o o' : option tree) : Prop := o' = None \/ exists u u', o = Some u /\ o' = Some u' /\ pruned u u'.
Lemma dir_root t : dir_at t [] = Some t.
Proof. now destruct t. Qed.
Lemma pruned_dirs t t' : pruned t t' -> names_once t -> forall p, some_pruned (dir_at t p) (dir_at t' p).
Proof.
  induction 1 as [|n d r r' H IH|n d r r' H IH|n sub sub' r r' Hs IHs H IH|n sub r r' H IH]; cbn [names_once]; intros Ho [|x p];
    try (right; eexists; eexists; split; [apply dir_root|]; split; [apply dir_root|]; constructor; assumption).
  - now left.
  - destruct Ho as [H1 H2]. exact (IH H2 (x :: p)).
  - destruct Ho as [H1 H2]. exact (IH H2 (x :: p)).
  - destruct Ho as (H1 & H2 & H3). cbn [dir_at]. destruct (text_eqb n x); [exact (IHs H2 p)|exact (IH H3 (x :: p))].
  - destruct Ho as (H1 & H2 & H3). cbn [dir_at]. destruct (text_eqb n x) eqn:Ex; [|exact (IH H3 (x :: p))].
    apply text_eqb_iff in Ex. subst x. left. apply dir_unnamed. intros Hi. apply H1. exact (pruned_names H _ Hi).
Qed.
Lemma some_trans a b c : some_pruned a b -> some_pruned b c -> some_pruned a c.
Proof.
  intros H [->|(v & v' & K1 & -> & K3)]; [now left|]. destruct H as [H|(u & u' & H1 & H2 & H3)]; [congruence|].
  right. exists u, v'. split; [exact H1|]. split; [reflexivity|]. apply pruned_trans with u'; [exact H3|]. congruence.
Qed.

(** ** what delete and rmdir do to a tree *)
Lemma unlink_pruned R : forall q, pruned R (unlink R q).
Proof.
  induction R as [|n d r IH|n sub IHs r IH]; intros q; cbn [unlink]; [constructor| |].
  - destruct q as [|x [|y q]]; try (apply pr_file; apply IH). destruct (text_eqb n x); [apply pr_no_file; apply pruned_refl|apply pr_file; apply IH].
  - destruct q as [|x [|y q]]; [apply pruned_refl|apply pr_dir; [apply pruned_refl|apply IH]|].
    destruct (text_eqb n x); apply pr_dir; auto using pruned_refl.
Qed.
Lemma remove_pruned R : forall q, pruned R (remove_dir R q).
Proof.
  induction R as [|n d r IH|n sub IHs r IH]; intros q; cbn [remove_dir]; [constructor|apply pr_file; apply IH|].
  destruct q as [|x [|y q]]; [apply pruned_refl| |].
  - destruct (text_eqb n x); [apply pr_no_dir; apply pruned_refl|apply pr_dir; auto using pruned_refl].
  - destruct (text_eqb n x); apply pr_dir; auto using pruned_refl.
Qed.
Lemma unlink_file R : forall q p, p <> q -> file_of (unlink R q) p = file_of R p.
Proof.
  induction R as [|n d r IH|n sub IHs r IH]; intros q p Hp; cbn [unlink]; [reflexivity| |].
  - destruct q as [|x [|y q]].
    + cbn [file_of]. now rewrite IH.
    + destruct (text_eqb n x) eqn:Ex.
      * apply text_eqb_iff in Ex. subst x. cbn [file_of]. destruct p as [|z [|z' p]]; try reflexivity. rewrite eqb_other; [reflexivity|congruence].
      * cbn [file_of]. now rewrite IH.
    + cbn [file_of]. now rewrite IH.
  - destruct q as [|x [|y q]].
    + reflexivity.
    + cbn [file_of]. now rewrite IH.
    + destruct (text_eqb n x) eqn:Ex; cbn [file_of].
      * apply text_eqb_iff in Ex. subst x. destruct p as [|z [|z' p]]; try reflexivity. destruct (text_eqb n z) eqn:Ez; [|reflexivity].
        apply text_eqb_iff in Ez. subst z. apply IHs. congruence.
      * now rewrite IH.
Qed.
Lemma unlink_gone R : names_once R -> forall q, file_of (unlink R q) q = None.
Proof.
  induction R as [|n d r IH|n sub IHs r IH]; cbn [names_once]; intros Ho q; cbn [unlink]; [reflexivity| |].
  - destruct Ho as [H1 H2]. destruct q as [|x [|y q]]; try (cbn [file_of]; now apply IH). destruct (text_eqb n x) eqn:Ex.
    + apply text_eqb_iff in Ex. subst x. now apply file_unnamed.
    + cbn [file_of]. rewrite Ex. now apply IH.
  - destruct Ho as (H1 & H2 & H3). destruct q as [|x [|y q]]; [apply file_nowhere|cbn [file_of]; now apply IH|].
    destruct (text_eqb n x) eqn:Ex; cbn [file_of]; rewrite Ex; [now apply IHs|now apply IH].
Qed.
(** the directory [ns] and the path [q] of something: the path leads into it, or has nothing to do with it *)
Lemma unlink_other R : forall ns q, below ns q = false -> dir_at (unlink R q) ns = dir_at R ns \/ ns = [].
Proof.
  induction R as [|n d r IH|n sub IHs r IH]; intros [|z ns] q H; auto; left; cbn [unlink].
  - destruct q as [|x [|y q]]; try (cbn [dir_at]; destruct (IH (z :: ns) _ H) as [K|K]; [exact K|discriminate]).
    destruct (text_eqb n x); [reflexivity|]. cbn [dir_at]. destruct (IH (z :: ns) _ H) as [K|K]; [exact K|discriminate].
  - destruct q as [|x [|y q]]; [reflexivity|cbn [dir_at]; destruct (text_eqb n z); [reflexivity|]; destruct (IH (z :: ns) _ H) as [K|K]; [exact K|discriminate]|].
    destruct (text_eqb n x) eqn:Ex; cbn [dir_at].
    + destruct (text_eqb n z) eqn:Ez; [|reflexivity]. apply text_eqb_iff in Ex, Ez. subst x z. cbn [below] in H. rewrite eqb_same in H. cbn [andb] in H.
      destruct (IHs ns _ H) as [K| ->]; [exact K|discriminate H].
    + destruct (text_eqb n z); [reflexivity|]. destruct (IH (z :: ns) _ H) as [K|K]; [exact K|discriminate].
Qed.
Lemma unlink_dirs R : forall q p, dir_at (unlink R q) p = None <-> dir_at R p = None.
Proof.
  induction R as [|n d r IH|n sub IHs r IH]; intros q [|z p]; try (rewrite !dir_root; split; discriminate); cbn [unlink]; [tauto| |].
  - destruct q as [|x [|y q]]; try (cbn [dir_at]; apply IH). destruct (text_eqb n x); cbn [dir_at]; [tauto|apply IH].
  - destruct q as [|x [|y q]]; [tauto|cbn [dir_at]; destruct (text_eqb n z); [tauto|apply IH]|].
    destruct (text_eqb n x); cbn [dir_at]; (destruct (text_eqb n z); [try apply IHs; tauto|try apply IH; tauto]).
Qed.
(** [q] is a part of the way to [p] *)
Fixpoint leads (q p : list text) : bool :=
  match q, p with
  | [], _ => true
  | x :: q, y :: p => text_eqb x y && leads q p
  | _, [] => false
  end.
Lemma remove_file R : forall q p, leads q p = false -> file_of (remove_dir R q) p = file_of R p.
Proof.
  induction R as [|n d r IH|n sub IHs r IH]; intros q p Hp; cbn [remove_dir]; [reflexivity|cbn [file_of]; now rewrite IH|].
  destruct q as [|x [|y q]]; [reflexivity| |].
  - destruct (text_eqb n x) eqn:Ex; cbn [file_of]; [|now rewrite IH].
    apply text_eqb_iff in Ex. subst x. destruct p as [|z [|z' p]]; try reflexivity. cbn [leads] in Hp. rewrite andb_true_r in Hp. now rewrite Hp.
  - destruct (text_eqb n x) eqn:Ex; cbn [file_of]; [|now rewrite IH].
    apply text_eqb_iff in Ex. subst x. destruct p as [|z [|z' p]]; try reflexivity. destruct (text_eqb n z) eqn:Ez; [|reflexivity].
    apply IHs. cbn [leads] in Hp |- *. rewrite Ez in Hp. exact Hp.
Qed.
Lemma remove_dirs R : forall q p, leads q p = false -> dir_at (remove_dir R q) p = None <-> dir_at R p = None.
Proof.
  induction R as [|n d r IH|n sub IHs r IH]; intros q [|z p] Hp; try (rewrite !dir_root; split; discriminate);
    cbn [remove_dir]; [tauto|cbn [dir_at]; now apply IH|].
  destruct q as [|x [|y q]]; [tauto| |].
  - cbn [leads] in Hp. rewrite andb_true_r in Hp. destruct (text_eqb n x) eqn:Ex; cbn [dir_at].
    + apply text_eqb_iff in Ex. subst x. rewrite Hp. tauto.
    + destruct (text_eqb n z); [tauto|]. apply IH. cbn [leads]. now rewrite Hp.
  - destruct (text_eqb n x) eqn:Ex; cbn [dir_at].
    + apply text_eqb_iff in Ex. subst x. destruct (text_eqb n z) eqn:Ez; [|tauto]. apply IHs. cbn [leads] in Hp |- *. rewrite Ez in Hp. exact Hp.
    + destruct (text_eqb n z); [tauto|]. now apply IH.
Qed.
Lemma remove_other R : forall ns q, below ns q = false -> leads q ns = false -> dir_at (remove_dir R q) ns = dir_at R ns \/ ns = [].
Proof.
  induction R as [|n d r IH|n sub IHs r IH]; intros [|z ns] q H Hl; auto; left; cbn [remove_dir].
  - cbn [dir_at]. destruct (IH (z :: ns) _ H Hl) as [K|K]; [exact K|discriminate].
  - destruct q as [|x [|y q]]; [reflexivity| |].
    + destruct (text_eqb n x) eqn:Ex; cbn [dir_at].
      * apply text_eqb_iff in Ex. subst x. cbn [leads] in Hl. rewrite andb_true_r in Hl. now rewrite Hl.
      * destruct (text_eqb n z); [reflexivity|]. destruct (IH (z :: ns) _ H Hl) as [K|K]; [exact K|discriminate].
    + destruct (text_eqb n x) eqn:Ex; cbn [dir_at].
      * destruct (text_eqb n z) eqn:Ez; [|reflexivity]. apply text_eqb_iff in Ex, Ez. subst x z. cbn [below leads] in H, Hl.
        rewrite eqb_same in H, Hl. cbn [andb] in H, Hl. destruct (IHs ns _ H Hl) as [K| ->]; [exact K|discriminate H].
      * destruct (text_eqb n z); [reflexivity|]. destruct (IH (z :: ns) _ H Hl) as [K|K]; [exact K|discriminate].
Qed.
Lemma remove_gone R : names_once R -> forall q, q <> [] -> dir_at (remove_dir R q) q = None.
Proof.
  induction R as [|n d r IH|n sub IHs r IH]; cbn [names_once]; intros Ho [|x q] Hq; try contradiction; cbn [remove_dir]; [reflexivity| |].
  - cbn [dir_at]. now apply IH.
  - destruct Ho as (H1 & H2 & H3). destruct q as [|y q].
    + destruct (text_eqb n x) eqn:Ex; [apply text_eqb_iff in Ex; subst x; now apply dir_unnamed|]. cbn [dir_at]. rewrite Ex. now apply IH.
    + destruct (text_eqb n x) eqn:Ex; cbn [dir_at]; rewrite Ex; [|now apply IH]. now apply IHs.
Qed.
(** no directory, nothing in it *)
Lemma dir_none R : forall q p, dir_at R q = None -> dir_at R (q ++ p) = None.
Proof.
  induction R as [|n d r IH|n sub IHs r IH]; intros [|x q] p; cbn [app]; try discriminate; cbn [dir_at]; [reflexivity|apply (IH (x :: q))|].
  destruct (text_eqb n x); [apply IHs|apply (IH (x :: q))].
Qed.
Lemma file_none R : forall q y p, dir_at R q = None -> file_of R (q ++ y :: p) = None.
Proof.
  induction R as [|n d r IH|n sub IHs r IH]; intros [|x q] y p; cbn [app]; try discriminate; cbn [dir_at file_of]; [reflexivity| |].
  - intros H. destruct (q ++ y :: p) eqn:E; [destruct q; discriminate E|]. rewrite <- E. now apply (IH (x :: q)).
  - intros H. destruct (q ++ y :: p) eqn:E; [destruct q; discriminate E|]. rewrite <- E. destruct (text_eqb n x); [now apply IHs|now apply (IH (x :: q))].
Qed.
Lemma below_app ns : forall p, below ns p = true <-> exists x r, p = ns ++ x :: r.
Proof.
  induction ns as [|n ns IH]; intros p; cbn [below app].
  - destruct p as [|x r]; split; try discriminate; eauto. intros (x & r & H). discriminate.
  - destruct p as [|x p]; [split; [discriminate|intros (x & r & H); discriminate]|]. split.
    + intros H. apply andb_prop in H as [H1 H2]. apply text_eqb_iff in H1. subst x. apply IH in H2 as (x & r & ->). eauto.
    + intros (y & r & H). injection H as -> ->. rewrite eqb_same. apply IH. eauto.
Qed.
Lemma leads_app q : forall p, leads q p = true <-> exists r, p = q ++ r.
Proof.
  induction q as [|n q IH]; intros p; cbn [leads app]; [split; eauto|].
  destruct p as [|x p]; [split; [discriminate|intros (r & H); discriminate]|]. split.
  - intros H. apply andb_prop in H as [H1 H2]. apply text_eqb_iff in H1. subst x. apply IH in H2 as (r & ->). eauto.
  - intros (r & H). injection H as -> ->. rewrite eqb_same. apply IH. eauto.
Qed.
Lemma below_not_leads ns q p : below ns q = true -> below ns p = false -> leads q p = false.
Proof.
  intros H Hp. destruct (leads q p) eqn:E; [|reflexivity]. apply leads_app in E as (r & ->). apply below_app in H as (x & r' & ->).
  rewrite <- Hp. symmetry. apply below_app. exists x, (r' ++ r). now rewrite <- app_assoc.
Qed.

Lemma unlink_inside R : forall ns t q, dir_at R ns = Some t -> q <> [] -> dir_at (unlink R (ns ++ q)) ns = Some (unlink t q).
Proof.
  induction R as [|n d r IH|n sub IHs r IH]; intros [|y ns] t q H Hq; cbn [app dir_at] in *; try discriminate;
    try (injection H as <-; apply dir_root).
  - cbn [unlink]. destruct (ns ++ q) eqn:E; [destruct ns; [contradiction|discriminate]|]. rewrite <- E. cbn [dir_at]. exact (IH (y :: ns) t q H Hq).
  - cbn [unlink]. destruct (ns ++ q) eqn:E; [destruct ns; [contradiction|discriminate]|]. rewrite <- E.
    destruct (text_eqb n y) eqn:Ey; cbn [dir_at]; rewrite Ey; [exact (IHs ns t q H Hq)|exact (IH (y :: ns) t q H Hq)].
Qed.
Lemma remove_inside R : forall ns t q, dir_at R ns = Some t -> q <> [] -> dir_at (remove_dir R (ns ++ q)) ns = Some (remove_dir t q).
Proof.
  induction R as [|n d r IH|n sub IHs r IH]; intros [|y ns] t q H Hq; cbn [app dir_at] in *; try discriminate;
    try (injection H as <-; apply dir_root).
  - cbn [remove_dir dir_at]. exact (IH (y :: ns) t q H Hq).
  - cbn [remove_dir]. destruct (ns ++ q) eqn:E; [destruct ns; [contradiction|discriminate]|]. rewrite <- E.
    destruct (text_eqb n y) eqn:Ey; cbn [dir_at]; rewrite Ey; [exact (IHs ns t q H Hq)|exact (IH (y :: ns) t q H Hq)].
Qed.

(** ** one of the clients, whatever the others remove *)
Section Remover.
Variable the_tid : N.
Variable setup : server_setup.
Notation DS := (dir_service the_tid setup).
Hypothesis tid16 : u16 the_tid.
Variable s : share.
Hypothesis s_tid : sh_tid s = the_tid.
(** the directory of the client; [alone]: the others leave it as it is *)
Variable ns : list text.
Hypothesis names : Forall a_name ns.
Variable alone : bool.
Definition rely (R R1 : tree) : Prop := pruned R R1 /\ (alone = true -> dir_at R1 ns = dir_at R ns).
Definition guarantee (R R1 : tree) : Prop :=
  pruned R R1 /\ (forall p, below ns p = false -> file_of R1 p = file_of R p /\ (dir_at R1 p = None <-> dir_at R p = None))
  /\ (forall o, apart ns o -> dir_at R1 o = dir_at R o).
Lemma rely_refl R : rely R R.
Proof. split; [apply pruned_refl|reflexivity]. Qed.
Lemma rely_trans a b c : rely a b -> rely b c -> rely a c.
Proof. intros [H1 H2] [H3 H4]. split; [exact (pruned_trans H1 H3)|]. intros H. now rewrite H4, H2. Qed.
Lemma guarantee_refl R : guarantee R R.
Proof. split; [apply pruned_refl|]. split; [intros p _; tauto|reflexivity]. Qed.
Lemma guarantee_unlink R q : below ns q = true -> guarantee R (unlink R q).
Proof.
  intros Hq. split; [apply unlink_pruned|]. split.
  - intros p Hp. split; [apply unlink_file; congruence|apply unlink_dirs].
  - intros o (H1 & H2 & H3). destruct (@unlink_other R o q) as [K| ->]; [|exact K|].
    + destruct (below o q) eqn:E; [exfalso|reflexivity]. apply below_app in Hq as (x & r & ->). apply below_app in E as (y & r' & E).
      clear - H1 H2 H3 E. revert o H1 H2 H3 E. induction ns as [|a l IH]; intros [|b o] H1 H2 H3 E; cbn [below app] in *; try congruence.
      injection E as -> E. rewrite eqb_same in H2, H3. cbn [andb] in H2, H3. apply (IH o); auto. congruence.
    + destruct ns; [contradiction|discriminate H3].
Qed.
Lemma guarantee_remove R q : below ns q = true -> guarantee R (remove_dir R q).
Proof.
  intros Hq. split; [apply remove_pruned|]. split.
  - intros p Hp. pose proof (@below_not_leads ns q p Hq Hp) as K. split; [now apply remove_file|now apply remove_dirs].
  - intros o (H1 & H2 & H3). destruct (@remove_other R o q) as [K| ->]; [| |exact K|].
    + destruct (below o q) eqn:E; [exfalso|reflexivity]. apply below_app in Hq as (x & r & ->). apply below_app in E as (y & r' & E).
      clear - H1 H2 H3 E. revert o H1 H2 H3 E. induction ns as [|a l IH]; intros [|b o] H1 H2 H3 E; cbn [below app] in *; try congruence.
      injection E as -> E. rewrite eqb_same in H2, H3. cbn [andb] in H2, H3. apply (IH o); auto. congruence.
    + exact (@below_not_leads ns q o Hq H2).
    + destruct ns; [contradiction|discriminate H3].
Qed.

(** at most [m] more calls, each of them proper and leaving alone what is not the client's, and
    at the end [P] *)
Fixpoint removing {A} (P : ans A -> tree -> Prop) (f : flow A) (m : nat) (R : tree) : Prop :=
  match f with
  | FRet a => P a R
  | @FCall _ X q k =>
    match m with
    | O => False
    | S m =>
      typed q /\ unambiguous q /\ (forall u, fits_request u q) /\
      forall who st, names_once (ds_root st) -> rely R (ds_root st) ->
        ds_open (snd (DS X who (op_of q) st)) = ds_open st /\ guarantee (ds_root st) (ds_root (snd (DS X who (op_of q) st)))
        /\ removing P (k (returned (fst (DS X who (op_of q) st)))) m (ds_root (snd (DS X who (op_of q) st)))
    end
  | _ => False
  end.
Definition lasting {A} (P : ans A -> tree -> Prop) : Prop := forall a R R', names_once R -> rely R R' -> P a R -> P a R'.
Lemma removing_keep A (P : ans A -> tree -> Prop) f : lasting P -> forall m R R', names_once R -> rely R R' -> removing P f m R -> removing P f m R'.
Proof.
  intros HP. destruct f as [a| | |X q k|k|u k|mm u k]; intros m R R' Ho Hr; cbn [removing]; auto; [now apply HP|].
  destruct m as [|m]; [auto|]. intros (H1 & H2 & H3 & H4). split; [exact H1|]. split; [exact H2|]. split; [exact H3|].
  intros who st Hst Hst'. apply H4; [exact Hst|]. exact (rely_trans Hr Hst').
Qed.
Lemma removing_more A (P : ans A -> tree -> Prop) f : forall m m' R, (m <= m')%nat -> removing P f m R -> removing P f m' R.
Proof.
  induction f as [a| | |X q k IH|k IH|u k IH|mm u k IH]; intros m m' R Hm; cbn [removing]; auto.
  destruct m as [|m]; [contradiction|]. destruct m' as [|m']; [lia|]. intros (H1 & H2 & H3 & H4). split; [exact H1|]. split; [exact H2|]. split; [exact H3|].
  intros who st Hst Hr. destruct (H4 who st Hst Hr) as (K1 & K2 & K3). split; [exact K1|]. split; [exact K2|]. apply IH with m; [lia|exact K3].
Qed.
Lemma removing_bind A B (P : ans A -> tree -> Prop) (Q : ans B -> tree -> Prop) f k m' R0 :
  (forall a R, P (Good a) R -> names_once R -> pruned R0 R -> removing Q (k a) m' R) ->
  (forall e R, P (Bad e) R -> Q (Bad e) R) ->
  forall m R, names_once R -> pruned R0 R -> removing P f m R -> removing Q (fbind f k) (m + m') R.
Proof.
  intros HG HB. induction f as [a| | |X q g IH|g IH|u g IH|mm u g IH]; intros m R Ho Hp; cbn [removing fbind]; auto.
  - destruct a as [a|e]; cbn [removing].
    + intros H. apply removing_more with m'; [lia|]. now apply HG.
    + apply HB.
  - destruct m as [|m]; [contradiction|]. cbn [Nat.add]. intros (H1 & H2 & H3 & H4). split; [exact H1|]. split; [exact H2|]. split; [exact H3|].
    intros who st Hst Hr. destruct (H4 who st Hst Hr) as (K1 & K2 & K3). split; [exact K1|]. split; [exact K2|].
    apply IH; [exact (pruned_once (proj1 K2) Hst)| |exact K3]. exact (pruned_trans Hp (pruned_trans (proj1 Hr) (proj1 K2))).
Qed.

(** what is found in the directory [q] is, at most, [t] *)
Definition bounded (R : tree) (q : list text) (t : tree) : Prop :=
  (forall x p, file_of R (q ++ x :: p) = None \/ file_of R (q ++ x :: p) = file_of t (x :: p))
  /\ (forall x p, some_pruned (dir_at t (x :: p)) (dir_at R (q ++ x :: p))).
Lemma bounded_keep R R' q t : names_once R -> pruned R R' -> bounded R q t -> bounded R' q t.
Proof.
  intros Ho Hp [H1 H2]. split; intros x p.
  - destruct (pruned_files Hp Ho (q ++ x :: p)) as [K|K]; [auto|]. rewrite K. apply H1.
  - exact (some_trans (H2 x p) (pruned_dirs Hp Ho _)).
Qed.
Lemma bounded_dir R q t : dir_at R q = Some t -> bounded R q t.
Proof.
  intros H. split; intros x p; [right; exact (file_inside R q H x p)|]. rewrite (dir_inside R q H).
  destruct (dir_at t (x :: p)) as [u|]; [right|now left]. exists u, u. auto using pruned_refl.
Qed.
Lemma bounded_gone R q : bounded R q Nothing -> gone q R.
Proof.
  intros [H1 H2] p Hp. apply below_app in Hp as (x & r & ->). split.
  - now destruct (H1 x r) as [K|K].
  - destruct (H2 x r) as [K|(u & u' & K & _)]; [exact K|discriminate K].
Qed.
Definition after (T : tree) (more : list text) (a : ans unit) (R : tree) : Prop :=
  (forall e, a = Bad e -> exists x, e = ServerError x) /\ (a = Good tt -> gone (ns ++ more) R)
  /\ (alone = true -> a = Good tt /\ dir_at R ns = Some (put T more Nothing)).
Definition undisturbed (T : tree) (more : list text) (t R : tree) : Prop :=
  alone = true -> exists u, dir_at T more = Some u /\ dir_at R ns = Some (put T more t).
Lemma undisturbed_keep T more t R R' : rely R R' -> undisturbed T more t R -> undisturbed T more t R'.
Proof. intros [_ H] K Ha. destruct (K Ha) as (u & K1 & K2). exists u. rewrite (H Ha). auto. Qed.
Lemma undisturbed_dir T more t R : undisturbed T more t R -> alone = true -> dir_at R (ns ++ more) = Some t.
Proof. intros K Ha. destruct (K Ha) as (u & K1 & K2). rewrite (dir_inside R ns K2). exact (put_dir T more t K1). Qed.
Lemma after_lasting T more : lasting (after T more).
Proof.
  intros a R R' Ho [Hr1 Hr2] (H1 & H2 & H3). split; [exact H1|]. split.
  - intros Ha p Hp. destruct (H2 Ha p Hp) as [K1 K2]. split.
    + destruct (pruned_files Hr1 Ho p) as [K|K]; [exact K|congruence].
    + destruct (pruned_dirs Hr1 Ho p) as [K|(u & u' & K & _)]; [exact K|congruence].
  - intros Ha. rewrite (Hr2 Ha). auto.
Qed.

Variable fuel : nat.
(** removing all in one of the client's directories *)
Definition clears_at (n : nat) : Prop := forall t T more R, Forall a_name more -> ordinary_tree (path_of (ns ++ more)) t -> listable t ->
  short (path_of (ns ++ more) ++ [42]) -> (depth t <= n)%nat -> names_once R -> some_pruned (Some t) (dir_at R (ns ++ more)) ->
  undisturbed T more t R ->
  removing (after T more) (clear_flow fuel (S n) s (path_of (ns ++ more))) (1 + clear_calls t) R.
Lemma below_more more x : below ns ((ns ++ more) ++ [x]) = true.
Proof.
  apply below_app. destruct more as [|y more]; [exists x, []; now rewrite app_nil_r|]. exists y, (more ++ [x]). now rewrite <- app_assoc.
Qed.
Lemma no_error T more (P : Prop) st R : undisturbed T more st R -> (alone = true -> P) -> forall e, ~ P -> after T more (Bad (ServerError e)) R.
Proof.
  intros _ HP e Hn. split; [intros ? [= <-]; eauto|]. split; [discriminate|]. intros Ha. destruct (Hn (HP Ha)).
Qed.
Lemma removing_each n : (forall n', n = S n' -> clears_at n') -> forall t T more R, Forall a_name more -> ordinary_tree (path_of (ns ++ more)) t ->
  (depth t <= n)%nat -> names_once R -> bounded R (ns ++ more) t -> undisturbed T more t R ->
  removing (after T more) (clear_each_flow s (path_of (ns ++ more)) (clear_flow fuel n s) (infos t)) (clear_calls t) R.
Proof.
  intros IHn. induction t as [|x d r IH|x sub _ r IH]; intros T more R Hm Ho Hd Honce Hb Hu.
  - cbn [infos clear_each_flow removing]. split; [discriminate|]. split; [intros _; now apply bounded_gone|].
    intros Ha. destruct (Hu Ha) as (u & K1 & K2). auto.
  - cbn [ordinary_tree] in Ho. destruct Ho as (Hx & Hn & Hs & Hl & Hr). cbn [infos clear_each_flow d_filename].
    rewrite (dots_not Hx). change (is_directory (mk_dir 0 0 0 0 x (len d) ATTR_NORMAL)) with false. cbn iota.
    assert (Hnm : Forall a_name (ns ++ more)) by (apply Forall_app; auto).
    pose proof Hx as (X1 & _ & _ & _ & X2 & X3).
    unfold fcall. cbn [fbind removing clear_calls Nat.add]. split; [split; [now rewrite s_tid|]; apply str_app; [now apply str_path|exact X1]|].
    split; [exact I|]. split; [unfold short in Hs; intros u; cbn [fits_request]; lia|].
    intros who st Hst Hrl. cbn [op_of dir_service]. rewrite names_path by assumption.
    pose proof (@bounded_keep _ _ _ _ Honce (proj1 Hrl) Hb) as Hb1. pose proof (undisturbed_keep Hrl Hu) as Hu1.
    assert (Hal : alone = true -> file_of (ds_root st) ((ns ++ more) ++ [x]) = Some d).
    { intros Ha. rewrite (file_inside (ds_root st) (ns ++ more) (undisturbed_dir Hu1 Ha)). cbn [file_of]. now rewrite eqb_same. }
    destruct (file_of (ds_root st) ((ns ++ more) ++ [x])) as [d'|] eqn:Ef.
    2:{ cbn [fst snd returned fbind removing]. split; [reflexivity|]. split; [apply guarantee_refl|].
        apply (no_error Hu1 Hal). discriminate. }
    rewrite s_tid, N.eqb_refl. cbn [fst snd returned fbind ds_root ds_open].
    pose proof (@guarantee_unlink (ds_root st) _ (below_more more x)) as HG.
    split; [reflexivity|]. split; [exact HG|].
    apply IH; auto.
    + exact (pruned_once (proj1 HG) Hst).
    + pose proof (@bounded_keep _ _ _ _ Hst (proj1 HG) Hb1) as [B1 B2]. split; intros y p; [|exact (B2 y p)].
      specialize (B1 y p). cbn [file_of] in B1. destruct p as [|z p]; [|exact B1]. destruct (text_eqb x y) eqn:Ey; [|exact B1].
      apply text_eqb_iff in Ey. subst y. left. now apply unlink_gone.
    + intros Ha. destruct (Hu1 Ha) as (u & K1 & K2). exists u. split; [exact K1|].
      rewrite <- app_assoc. rewrite (@unlink_inside (ds_root st) ns _ (more ++ [x]) K2) by (destruct more; discriminate).
      rewrite (put_unlink T more _ _ K1). cbn [unlink]. now rewrite eqb_same.
  - cbn [ordinary_tree] in Ho. destruct Ho as (Hx & Hn & Hs & Hl & Hsub & Hr). cbn [infos clear_each_flow d_filename].
    rewrite (dots_not Hx). change (is_directory (mk_dir 0 0 0 0 x 0 ATTR_DIRECTORY)) with true. cbn iota.
    assert (Hnm : Forall a_name (ns ++ more)) by (apply Forall_app; auto).
    pose proof Hx as (X1 & _ & _ & _ & X2 & X3).
    cbn [depth] in Hd. destruct n as [|n']; [lia|]. specialize (IHn n' eq_refl).
    replace (clear_calls (ADir x sub r)) with ((1 + clear_calls sub) + (1 + clear_calls r))%nat by (cbn [clear_calls]; lia).
    rewrite path_snoc, <- (app_assoc ns more [x]) in Hsub |- *.
    apply (@removing_bind _ _ (after (put T more (ADir x sub r)) (more ++ [x]))) with (R0 := R); [| |exact Honce|apply pruned_refl|].
    + intros [] R' HP Honce' Hpr. destruct HP as (_ & HP2 & HP3). specialize (HP2 eq_refl).
      unfold fcall. cbn [fbind removing Nat.add]. split; [split; [now rewrite s_tid|]; apply str_app; [now apply str_path|exact X1]|].
      split; [exact I|]. split; [unfold short in Hs; intros u; rewrite !utf16_app in Hs; cbn [fits_request]; rewrite ?utf16_app; lia|].
      intros who st Hst Hrl. cbn [op_of dir_service]. rewrite names_path by assumption.
      pose proof (@bounded_keep _ _ _ _ Honce Hpr Hb) as Hb0.
      pose proof (@bounded_keep _ _ _ _ Honce' (proj1 Hrl) Hb0) as Hb1.
      assert (Hu1 : undisturbed T more (ADir x Nothing r) (ds_root st)).
      { intros Ha. destruct (Hu Ha) as (u & K1 & K2). exists u. split; [exact K1|]. destruct (HP3 Ha) as [_ K]. rewrite (proj2 Hrl Ha), K.
        now rewrite (put_inner T more _ _ _ _ K1). }
      assert (Hal : alone = true -> dir_at (ds_root st) ((ns ++ more) ++ [x]) = Some Nothing).
      { intros Ha. rewrite (dir_inside (ds_root st) (ns ++ more) (undisturbed_dir Hu1 Ha)). cbn [dir_at]. now rewrite eqb_same. }
      destruct (dir_at (ds_root st) ((ns ++ more) ++ [x])) as [d'|] eqn:Ef.
      2:{ cbn [fst snd returned fbind removing]. split; [reflexivity|]. split; [apply guarantee_refl|].
          apply (no_error Hu1 Hal). discriminate. }
      destruct d' as [| |];
        try (cbn [fst snd returned fbind removing]; split; [reflexivity|]; split; [apply guarantee_refl|]; apply (no_error Hu1 Hal); discriminate).
      rewrite s_tid, N.eqb_refl. cbn [fst snd returned fbind ds_root ds_open].
      pose proof (@guarantee_remove (ds_root st) _ (below_more more x)) as HG.
      split; [reflexivity|]. split; [exact HG|].
      assert (Hgone : dir_at (remove_dir (ds_root st) ((ns ++ more) ++ [x])) ((ns ++ more) ++ [x]) = None)
        by (apply remove_gone; [exact Hst|destruct (ns ++ more); discriminate]).
      apply IH; auto.
      * lia.
      * exact (pruned_once (proj1 HG) Hst).
      * pose proof (@bounded_keep _ _ _ _ Hst (proj1 HG) Hb1) as [B1 B2]. split; intros y p.
        -- specialize (B1 y p). cbn [file_of] in B1. destruct p as [|z p]; [exact B1|]. destruct (text_eqb x y) eqn:Ey; [|exact B1].
           apply text_eqb_iff in Ey. subst y. left. pose proof (@file_none _ _ z p Hgone) as K. rewrite <- (app_assoc (ns ++ more) [x]) in K. exact K.
        -- specialize (B2 y p). cbn [dir_at] in B2. destruct (text_eqb x y) eqn:Ey; [|exact B2].
           apply text_eqb_iff in Ey. subst y. left. pose proof (@dir_none _ _ p Hgone) as K. rewrite <- (app_assoc (ns ++ more) [x]) in K. exact K.
      * intros Ha. destruct (Hu1 Ha) as (u & K1 & K2). exists u. split; [exact K1|].
        rewrite <- app_assoc. rewrite (@remove_inside (ds_root st) ns _ (more ++ [x]) K2) by (destruct more; discriminate).
        rewrite (put_remove T more _ _ K1). cbn [remove_dir]. now rewrite eqb_same.
    + intros e R' (H1 & _ & H3). split; [exact H1|]. split; [discriminate|]. intros Ha. destruct (H3 Ha) as [K _]. discriminate K.
    + apply IHn; auto.
      * apply Forall_app. auto.
      * rewrite (app_assoc ns more [x]), <- path_snoc. rewrite <- !app_assoc. exact Hs.
      * lia.
      * destruct Hb as [_ Hb2]. specialize (Hb2 x []). cbn [dir_at] in Hb2. rewrite eqb_same, dir_root in Hb2. rewrite app_assoc. exact Hb2.
      * intros Ha. destruct (Hu Ha) as (u & K1 & K2). exists sub. split.
        -- rewrite (dir_inside _ more (put_dir T more _ K1)). cbn [dir_at]. rewrite eqb_same. apply dir_root.
        -- rewrite (put_inner T more _ _ _ _ K1). exact K2.
Qed.
Lemma removing_clear n : clears_at n.
Proof.
  induction n as [n IHn] using (well_founded_induction Nat.lt_wf_0). intros t T more R Hm Ho Hl Hs Hd Honce Hb Hu.
  assert (Hnm : Forall a_name (ns ++ more)) by (apply Forall_app; auto).
  cbn [clear_flow]. unfold list_flow, fcall. cbn [fbind removing Nat.add].
  split; [split; [now rewrite s_tid|]; apply str_app; [now apply str_path|reflexivity]|].
  split; [exact I|]. split; [unfold short in Hs; intros u; cbn [fits_request]; lia|].
  intros who st Hst Hrl. cbn [op_of]. rewrite s_tid.
  pose proof (undisturbed_keep Hrl Hu) as Hu1.
  destruct (some_trans Hb (pruned_dirs (proj1 Hrl) Honce (ns ++ more))) as [K|(t0 & u & K1 & K2 & K3)].
  - assert (Hal : alone = true -> dir_at (ds_root st) (ns ++ more) = Some t) by (intros Ha; exact (undisturbed_dir Hu1 Ha)).
    cbn [dir_service]. rewrite names_path; [|exact Hnm|cbn; intuition discriminate|cbn; intuition discriminate].
    rewrite removelast_last, K. cbn [fst snd returned fbind removing]. split; [reflexivity|]. split; [apply guarantee_refl|].
    rewrite K in Hal. apply (no_error Hu1 Hal). discriminate.
  - injection K1 as <-.
    rewrite (@tree_listed the_tid setup st who (ns ++ more) u _ Hnm K2 (pruned_listable K3 Hl) (pruned_ordinary K3 _ Ho)).
    cbn [fst snd returned fbind ff_end ff_info]. split; [reflexivity|]. split; [apply guarantee_refl|].
    apply removing_more with (clear_calls u); [exact (pruned_calls K3)|].
    change (removing (after T more) (clear_each_flow s (path_of (ns ++ more)) (clear_flow fuel n s) (infos u)) (clear_calls u) (ds_root st)).
    apply removing_each; auto.
    + intros n' ->. apply IHn. lia.
    + exact (pruned_ordinary K3 _ Ho).
    + pose proof (pruned_depth K3). lia.
    + now apply bounded_dir.
    + intros Ha. destruct (Hu1 Ha) as (v & L1 & L2). exists v. split; [exact L1|]. rewrite L2.
      pose proof (undisturbed_dir Hu1 Ha) as L3. congruence.
Qed.
End Remover.

(** ** all of them *)
Lemma tree_clear_each E fuel s pre go gof l : (forall p, same_tree (go p) (interp E fuel (gof p))) ->
  same_tree (clear_each E fuel s pre go l) (interp E fuel (clear_each_flow s pre gof l)).
Proof.
  intros Hg. induction l as [|d r IH]; cbn [clear_each clear_each_flow]; [apply tree_refl|].
  destruct (is_dots (d_filename d)); [exact IH|]. destruct (is_directory d); apply tree_sym.
  - eapply tree_trans; [apply tree_fbind|]. apply tree_mbind; [apply tree_sym, Hg|]. intros x.
    eapply tree_trans; [apply tree_fbind|]. apply tree_mbind; [apply tree_fcall|]. intros xs. apply tree_sym, IH.
  - eapply tree_trans; [apply tree_fbind|]. apply tree_mbind; [apply tree_fcall|]. intros xs. apply tree_sym, IH.
Qed.
Lemma tree_clear E fuel s n : forall pre, same_tree (clear_tree E fuel n s pre) (interp E fuel (clear_flow fuel n s pre)).
Proof.
  induction n as [|n IH]; intros pre; cbn [clear_tree clear_flow]; [apply tree_refl|].
  apply tree_sym. eapply tree_trans; [apply tree_fbind|]. apply tree_mbind; [apply tree_sym, tree_list|]. intros l.
  apply tree_sym. now apply tree_clear_each.
Qed.
Lemma room_one E c k : room E c (S k) -> room E (next_client c) k.
Proof.
  intros H Ho. specialize (H Ho). unfold next_client. cbn [mid]. pose proof (N.mod_le (mid c + 1) 65536 ltac:(lia)). lia.
Qed.
Lemma apart_sym a b : apart a b -> apart b a.
Proof. intros (H1 & H2 & H3). split; [congruence|]. auto. Qed.

Section Pool.
Variable the_tid : N.
Variable setup : server_setup.
Notation DS := (dir_service the_tid setup).
Variable E : env.
Variable fuel depths n : nat.
Variable sh : nat -> share.
Variable ns : nat -> list text.
Variable g0 : nat -> flow unit * cifs.
Variable st0 : dirs.
Variable al : nat -> bool.
Hypothesis Hal : forall i, (i < n)%nat -> al i = true -> forall j, (j < n)%nat -> j <> i -> apart (ns i) (ns j).
Hypothesis Honce : names_once (ds_root st0).
Variable t : nat -> tree.
Hypothesis Hjobs : forall i, (i < n)%nat -> fst (g0 i) = clear_flow fuel depths (sh i) (path_of (ns i))
  /\ u16 (sh_tid (sh i)) /\ sh_tid (sh i) = the_tid /\ Forall a_name (ns i) /\ short (path_of (ns i) ++ [42])
  /\ dir_at (ds_root st0) (ns i) = Some (t i) /\ listable (t i) /\ ordinary_tree (path_of (ns i)) (t i) /\ (depth (t i) < depths)%nat
  /\ room E (snd (g0 i)) (1 + clear_calls (t i)).
Hypothesis Hothers : forall i, (n <= i)%nat -> exists a, fst (g0 i) = FRet a.

Definition goes_on (i : nat) (x : flow unit * cifs) (R : tree) : Prop :=
  exists m, removing the_tid setup (ns i) (al i) (after (ns i) (al i) (t i) []) (fst x) m R /\ room E (snd x) m.
Definition all_removing (h : nat -> flow unit * cifs) (st : dirs) : Prop :=
  names_once (ds_root st) /\ pruned (ds_root st0) (ds_root st) /\ ds_open st = ds_open st0
  /\ (forall p, (forall i, (i < n)%nat -> below (ns i) p = false) ->
        file_of (ds_root st) p = file_of (ds_root st0) p /\ (dir_at (ds_root st) p = None <-> dir_at (ds_root st0) p = None))
  /\ (forall i, (i < n)%nat -> goes_on i (h i) (ds_root st)) /\ (forall i, (n <= i)%nat -> exists a, fst (h i) = FRet a).
Lemma removing_start : all_removing g0 st0.
Proof.
  split; [exact Honce|]. split; [apply pruned_refl|]. split; [reflexivity|]. split; [intros p _; tauto|]. split; [|exact Hothers].
  intros i Hi. destruct (Hjobs Hi) as (H1 & H2 & H3 & H4 & H5 & H6 & H7 & H8 & H9 & H10). exists (1 + clear_calls (t i))%nat. split; [|exact H10].
  rewrite H1. destruct depths as [|k]; [lia|].
  assert (u16 the_tid) by (now rewrite <- H3).
  pose proof (@removing_clear the_tid setup H (sh i) H3 (ns i) H4 (al i) fuel k (t i) (t i) [] (ds_root st0)) as K. rewrite app_nil_r in K.
  apply K; auto; try lia.
  - right. exists (t i), (t i). auto using pruned_refl.
  - intros _. exists (t i). split; [apply dir_root|]. rewrite H6. f_equal. symmetry. apply put_root.
Qed.
Lemma removing_step h st i b x st' : all_removing h st -> advances DS (h i) st b x st' -> all_removing (upd h i x) st'.
Proof.
  intros (H1 & H2 & H3 & H4 & H5 & H6) Ha.
  destruct (Nat.lt_ge_cases i n) as [Hi|Hi].
  2:{ exfalso. destruct (H6 i Hi) as [a Hr]. apply advances_view in Ha. now rewrite Hr in Ha. }
  destruct (H5 i Hi) as (m & Hm & Hrm). destruct (h i) as [f c] eqn:Ehi. cbn [fst snd] in Hm, Hrm.
  assert (Hstep : guarantee (ns i) (ds_root st) (ds_root st') /\ ds_open st' = ds_open st /\ goes_on i x (ds_root st')).
  { apply advances_view in Ha. cbn [fst snd] in Ha. destruct f as [a| | |X q k|k|u k|mm u k]; cbn [removing] in Hm; try contradiction.
    destruct m as [|m]; [contradiction|]. destruct Hm as (_ & _ & _ & Hm). destruct Ha as (_ & -> & ->).
    destruct (Hm (uid c) st H1 (rely_refl _ _ _)) as (K1 & K2 & K3). split; [exact K2|]. split; [exact K1|].
    exists m. split; [exact K3|]. cbn [snd]. now apply room_one. }
  destruct Hstep as ((G1 & G2 & G3) & Hop & Hgo).
  split; [exact (pruned_once G1 H1)|]. split; [exact (pruned_trans H2 G1)|]. split; [congruence|]. split; [|split].
  - intros p Hp. destruct (H4 p Hp) as [K1 K2]. destruct (G2 p (Hp i Hi)) as [L1 L2]. split; [congruence|tauto].
  - intros j Hj. destruct (Nat.eq_dec j i) as [->|Hji]; [rewrite upd_same; exact Hgo|rewrite upd_other by exact Hji].
    destruct (H5 j Hj) as (mj & K1 & K2). exists mj. split; [|exact K2].
    apply removing_keep with (R := ds_root st); [apply after_lasting|exact H1| |exact K1].
    split; [exact G1|]. intros Hj1. apply G3. apply apart_sym. apply Hal; auto.
  - intros j Hj. rewrite upd_other by lia. now apply H6.
Qed.
Lemma removing_all l h st : serial (fun _ => DS) g0 st0 l h st -> all_removing h st.
Proof. intros H. apply (serial_invariant all_removing H removing_start). exact removing_step. Qed.
Lemma removing_sensible : sensible E (fun _ => DS) g0 st0.
Proof.
  intros l h st H i. destruct (removing_all H) as (H1 & H2 & H3 & H4 & H5 & H6).
  destruct (Nat.lt_ge_cases i n) as [Hi|Hi].
  2:{ destruct (H6 i Hi) as [a Hr]. unfold can_call. rewrite Hr. exact I. }
  destruct (H5 i Hi) as (m & Hm & Hrm). unfold can_call. destruct (h i) as [f c]. cbn [fst snd] in *.
  destruct f as [a| | |X q k|k|u k|mm u k]; cbn [removing] in Hm; try contradiction; auto.
  destruct m as [|m]; [contradiction|]. destruct Hm as (K1 & K2 & K3 & _). split; [exact K1|]. split; [exact K2|]. split; [apply K3|].
  intros Ho. specialize (Hrm Ho). lia.
Qed.
Lemma removing_end l h st i : serial (fun _ => DS) g0 st0 l h st -> (i < n)%nat ->
  match fst (h i) with
  | FRet a => (forall e, a = Bad e -> exists x, e = ServerError x) /\ (a = Good tt -> gone (ns i) (ds_root st)) /\ (al i = true -> a = Good tt)
  | FPanic | FFuel => False
  | _ => True
  end.
Proof.
  intros H Hi. destruct (removing_all H) as (_ & _ & _ & _ & H5 & _). destruct (H5 i Hi) as (m & Hm & _).
  destruct (fst (h i)) as [a| | |X q k|k|u k|mm u k]; cbn [removing] in Hm; auto. destruct Hm as (K1 & K2 & K3). rewrite app_nil_r in K2.
  split; [exact K1|]. split; [exact K2|]. intros Ha. now destruct (K3 Ha).
Qed.
End Pool.

Section Concurrent.
Variable the_tid : N.
Variable setup : server_setup.
Notation DS := (dir_service the_tid setup).
Variable Sv : Type.
Variable react : nat -> Sv -> bytes -> reaction Sv.
Variable abs : Sv -> dirs.
Hypothesis conf : forall i, conforming (react i) DS abs.
Variable E : env.
Variable fuel depths : nat.
Hypothesis enough : ample react fuel.
Variable n : nat.
Variable sh : nat -> share.
Variable ns : nat -> list text.
Variable g : nat -> proc unit.
Variable s : Sv.
Hypothesis Honce : names_once (ds_root (abs s)).
Hypothesis Hstart : forall i, (i < n)%nat -> remover E fuel depths the_tid (ds_root (abs s)) (g i) (sh i) (ns i).
Hypothesis Hrest : forall i, (n <= i)%nat -> (exists a, p_prog (g i) = Ret a) /\ p_rx (g i) = [] /\ p_tl (g i) = Open /\ typed_client (p_cl (g i)).
Definition rflows (i : nat) : flow unit * cifs :=
  (if (i <? n)%nat then clear_flow fuel depths (sh i) (path_of (ns i)) else match p_prog (g i) with Ret a => FRet a | _ => FPanic end, p_cl (g i)).
Definition tree_there (i : nat) : tree := match dir_at (ds_root (abs s)) (ns i) with Some t => t | None => Nothing end.
Lemma rflows_start i : starts E fuel (g i) (rflows i) /\ typed_client (snd (rflows i)).
Proof.
  unfold rflows, starts. cbn [fst snd]. destruct (Nat.ltb_spec i n) as [Hi|Hi].
  - destruct (Hstart Hi) as (H1 & H2 & H3 & H4 & _). rewrite H1. split; [|exact H4]. split; [apply tree_clear|]. auto.
  - destruct (Hrest Hi) as ((a & H1) & H2 & H3 & H4). rewrite H1. split; [|exact H4]. split; [apply tree_refl|]. auto.
Qed.
Lemma rflows_jobs i : (i < n)%nat -> fst (rflows i) = clear_flow fuel depths (sh i) (path_of (ns i))
  /\ u16 (sh_tid (sh i)) /\ sh_tid (sh i) = the_tid /\ Forall a_name (ns i) /\ short (path_of (ns i) ++ [42])
  /\ dir_at (ds_root (abs s)) (ns i) = Some (tree_there i) /\ listable (tree_there i) /\ ordinary_tree (path_of (ns i)) (tree_there i)
  /\ (depth (tree_there i) < depths)%nat /\ room E (snd (rflows i)) (1 + clear_calls (tree_there i)).
Proof.
  intros Hi. destruct (Hstart Hi) as (_ & _ & _ & _ & H5 & H6 & H7 & H8 & t & T1 & T2 & T3 & T4 & T5). unfold rflows, tree_there. rewrite T1.
  destruct (Nat.ltb_spec i n); [|lia]. cbn [fst snd]. auto 12.
Qed.
Lemma rflows_others i : (n <= i)%nat -> exists a, fst (rflows i) = FRet a.
Proof.
  intros Hi. unfold rflows. cbn [fst]. destruct (Nat.ltb_spec i n) as [H|H]; [lia|]. destruct (Hrest H) as ((a & Ha) & _). rewrite Ha. eauto.
Qed.
Theorem concurrent_removals l g' s' : steps react g s l g' s' ->
  (forall i, (i < n)%nat -> match p_prog (g' i) with
    | Ret (Good _) => gone (ns i) (ds_root (abs s'))
    | Ret (Bad e) => (exists x, e = ServerError x) /\ exists j, (j < n)%nat /\ j <> i /\ ~ apart (ns i) (ns j)
    | Panicked | OutOfFuel => False | _ => True end)
  /\ (forall i, (i < n)%nat -> ended (g' i) = false -> exists b p s'', moves (react i) (g' i) s' b p s'')
  /\ only_removed n ns (ds_root (abs s)) (ds_root (abs s')) /\ ds_open (abs s') = ds_open (abs s).
Proof.
  intros H.
  pose proof (@removing_sensible the_tid setup E fuel depths n sh ns rflows (abs s) (fun _ => false) ltac:(discriminate) Honce tree_there rflows_jobs rflows_others) as Hsens.
  destruct (@simulate _ _ _ react (fun _ => DS) abs conf E fuel enough rflows (abs s) Hsens _ _ _ _ _ H eq_refl) as (h & Hser & Hf).
  { intros i. destruct (rflows_start i). now apply starts_follows. }
  split; [|split].
  - intros i Hi.
    destruct (@finish _ _ _ react (fun _ => DS) abs conf E fuel enough rflows (abs s) Hsens n s' g' l h Hser Hf) as (h' & Hser' & _ & Hfin).
    specialize (Hfin i Hi).
    pose proof (@removing_end the_tid setup E fuel depths n sh ns rflows (abs s) (fun _ => false) ltac:(discriminate) Honce tree_there rflows_jobs rflows_others
      _ _ _ i Hser' Hi) as He.
    unfold finished in Hfin. destruct (p_prog (g' i)) as [[[]|e]| | | | | |]; auto; rewrite Hfin in He; cbn [fst] in He; auto.
    + apply He. reflexivity.
    + destruct He as (He & _). split; [exact (He e eq_refl)|].
      assert (Hdec : (exists j, (j < n)%nat /\ j <> i /\ ~ apart (ns i) (ns j)) \/ forall j, (j < n)%nat -> j <> i -> apart (ns i) (ns j)).
      { clear. induction n as [|k [(j & J1 & J2 & J3)|IH]]; [right; intros; lia|left; exists j; split; [lia|auto]|].
        destruct (Nat.eq_dec k i) as [->|Hk].
        { right. intros j Hj Hji. apply IH; [lia|exact Hji]. }
        assert (Hd : apart (ns i) (ns k) \/ ~ apart (ns i) (ns k)).
        { unfold apart. destruct (list_eq_dec (list_eq_dec N.eq_dec) (ns i) (ns k)); [right; tauto|].
          destruct (below (ns i) (ns k)); [right; intuition discriminate|]. destruct (below (ns k) (ns i)); [right; intuition discriminate|left; auto]. }
        destruct Hd as [Hd|Hd]; [right|left; exists k; split; [lia|auto]].
        intros j Hj Hji. destruct (Nat.eq_dec j k) as [->|]; [exact Hd|]. apply IH; [lia|exact Hji]. }
      destruct Hdec as [Hj|Hall]; [exact Hj|exfalso].
      assert (Hal : forall i0, (i0 < n)%nat -> Nat.eqb i0 i = true -> forall j, (j < n)%nat -> j <> i0 -> apart (ns i0) (ns j)).
      { intros i0 _ E0. apply Nat.eqb_eq in E0. subst i0. exact Hall. }
      pose proof (@removing_end the_tid setup E fuel depths n sh ns rflows (abs s) (fun j => Nat.eqb j i) Hal Honce tree_there rflows_jobs rflows_others
        _ _ _ i Hser' Hi) as He2. rewrite Hfin in He2. cbn [fst] in He2. destruct He2 as (_ & _ & He2).
      specialize (He2 (Nat.eqb_refl i)). discriminate He2.
  - intros i Hi He. exact (@progress _ _ _ react (fun _ => DS) abs conf E fuel enough rflows (abs s) Hsens s' (g' i) i l h Hser (Hf i) He).
  - destruct (@removing_all the_tid setup E fuel depths n sh ns rflows (abs s) (fun _ => false) ltac:(discriminate) Honce tree_there rflows_jobs rflows_others _ _ _ Hser)
      as (H1 & H2 & H3 & H4 & _). split; [|exact H3]. split; [exact H4|]. intros p. split; [exact (pruned_files H2 Honce p)|].
    destruct (pruned_dirs H2 Honce p) as [K|(u & u' & K & _)]; [now left|]. right. rewrite K. discriminate.
Qed.
End Concurrent.
