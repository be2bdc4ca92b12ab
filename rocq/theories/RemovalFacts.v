(** * RemovalFacts: removing a directory tree over connections that break (C123) *)
From Verif Require Import Base Text Win Errors Common Reply Ntlm Prog Client Spec SpecReply SpecMsg Api SpecCall BaseFacts TextFacts
  RunFacts MsgFacts SizeFacts Flow FlowFacts SpecRemote RemoteFacts RefServer RefFacts FileService FileFacts
  SpecCutoff SpecHalf HalfFacts SpecTree TreeFacts SpecRemoval.
Open Scope N_scope.
Set Implicit Arguments.

(** ** what is left of a tree while it is being removed *)
Inductive left_of : tree -> tree -> Prop :=
| left_all t : left_of t t
| left_file n d r t' : left_of r t' -> left_of (AFile n d r) t'
| left_in n sub r sub' : left_of sub sub' -> left_of (ADir n sub r) (ADir n sub' r)
| left_dir n sub r t' : left_of r t' -> left_of (ADir n sub r) t'.
Lemma left_nothing t : left_of t Nothing.
Proof. induction t; constructor; assumption. Qed.
Lemma write_entries_cons d l : len (write_entries (d :: l)) = 4 + len (write_entry d) + len (write_entries l).
Proof. cbn [write_entries]. rewrite !len_app, len_le. lia. Qed.
Lemma left_infos t t' : left_of t t' -> len (write_entries (infos t')) <= len (write_entries (infos t)).
Proof.
  induction 1 as [t|n d r t' _ IH|n sub r sub' _ IH|n sub r t' _ IH]; cbn [infos]; rewrite ?write_entries_cons; lia.
Qed.
Lemma left_listable t t' : left_of t t' -> listable t -> listable t'.
Proof. intros H. pose proof (left_infos H). unfold listable, dir_listing. rewrite !write_entries_cons. lia. Qed.
Lemma left_ordinary t t' : left_of t t' -> forall pre, ordinary_tree pre t -> ordinary_tree pre t'.
Proof.
  induction 1 as [t|n d r t' _ IH|n sub r sub' Hl IH|n sub r t' _ IH]; intros pre; cbn [ordinary_tree]; [trivial| | |].
  - intros (_ & _ & _ & _ & H). exact (IH _ H).
  - intros (H1 & H2 & H3 & H4 & H5 & H6). repeat (split; [assumption|]). split; [exact (left_listable Hl H4)|]. split; [exact (IH _ H5)|exact H6].
  - intros (_ & _ & _ & _ & _ & H). exact (IH _ H).
Qed.
Lemma left_calls t t' : left_of t t' -> (clear_calls t' <= clear_calls t)%nat.
Proof. induction 1; cbn [clear_calls]; lia. Qed.
Lemma file_named t x p d : file_of t (x :: p) = Some d -> In x (entry_names t).
Proof.
  induction t as [|n e r IH|n sub _ r IH]; cbn [file_of entry_names In]; [discriminate| |].
  - destruct p; [|auto]. destruct (text_eqb n x) eqn:Ex; [|auto]. apply text_eqb_iff in Ex. auto.
  - destruct p; [auto|]. destruct (text_eqb n x) eqn:Ex; [|auto]. apply text_eqb_iff in Ex. auto.
Qed.
Lemma dir_named t x p d : dir_at t (x :: p) = Some d -> In x (entry_names t).
Proof.
  induction t as [|n e r IH|n sub _ r IH]; cbn [dir_at entry_names In]; [discriminate|auto|].
  destruct (text_eqb n x) eqn:Ex; [|auto]. apply text_eqb_iff in Ex. auto.
Qed.
Lemma left_files t t' : left_of t t' -> forall pre, ordinary_tree pre t -> forall p, file_of t' p = None \/ file_of t' p = file_of t p.
Proof.
  induction 1 as [t|n d r t' _ IH|n sub r sub' _ IH|n sub r t' _ IH]; intros pre Ho p; cbn [ordinary_tree] in Ho; [auto| | |].
  - destruct Ho as (_ & Hn & _ & _ & Hr). destruct (IH _ Hr p) as [K|K]; [auto|]. rewrite K. cbn [file_of].
    destruct p as [|x [|y p]]; auto. destruct (text_eqb n x) eqn:Ex; [|auto]. apply text_eqb_iff in Ex. subst x. left.
    destruct (file_of r [n]) eqn:Er; [|reflexivity]. apply file_named in Er. contradiction.
  - destruct Ho as (_ & _ & _ & _ & Hs & _). cbn [file_of]. destruct p as [|x [|y p]]; auto.
    destruct (text_eqb n x); [|auto]. exact (IH _ Hs (y :: p)).
  - destruct Ho as (_ & Hn & _ & _ & _ & Hr). destruct (IH _ Hr p) as [K|K]; [auto|]. rewrite K. cbn [file_of].
    destruct p as [|x [|y p]]; auto. destruct (text_eqb n x) eqn:Ex; [|auto]. apply text_eqb_iff in Ex. subst x. left.
    destruct (file_of r (n :: y :: p)) eqn:Er; [|reflexivity]. apply file_named in Er. contradiction.
Qed.
Lemma left_dirs t t' : left_of t t' -> forall pre, ordinary_tree pre t -> forall p, dir_at t' p = None \/ dir_at t p <> None.
Proof.
  induction 1 as [t|n d r t' _ IH|n sub r sub' _ IH|n sub r t' _ IH]; intros pre Ho p; cbn [ordinary_tree] in Ho.
  - destruct (dir_at t p); [right; discriminate|auto].
  - destruct Ho as (_ & Hn & _ & _ & Hr). destruct (IH _ Hr p) as [K|K]; [auto|]. right. destruct p; cbn [dir_at] in *; [discriminate|exact K].
  - destruct Ho as (_ & _ & _ & _ & Hs & _). destruct p as [|x p]; [right; discriminate|]. cbn [dir_at].
    destruct (text_eqb n x); [exact (IH _ Hs p)|]. destruct (dir_at r (x :: p)); [right; discriminate|auto].
  - destruct Ho as (_ & Hn & _ & _ & _ & Hr). destruct p as [|x p]; [right; discriminate|].
    destruct (IH _ Hr (x :: p)) as [K|K]; [auto|]. right. cbn [dir_at]. destruct (text_eqb n x) eqn:Ex; [|exact K].
    apply text_eqb_iff in Ex. subst x. destruct (dir_at r (n :: p)) eqn:Er; [|contradiction]. apply dir_named in Er. contradiction.
Qed.
(** the directory replaced by what is left of it *)
Lemma put_files R : forall ns u t p, dir_at R ns = Some u ->
  if below ns p then exists q, file_of (put R ns t) p = file_of t q /\ file_of R p = file_of u q
  else file_of (put R ns t) p = file_of R p.
Proof.
  induction R as [|n d r IH|n sub IHs r IH]; intros [|y ns] u t p H; cbn [dir_at put] in *; try discriminate;
    try (injection H as <-; destruct p as [|x p]; cbn [below]; [now rewrite !file_nowhere|exists (x :: p); now split]).
  - specialize (IH (y :: ns) u t p H). cbn [file_of]. destruct p as [|x [|z p]]; try exact IH.
    replace (below (y :: ns) [x]) with false in * by (cbn [below]; destruct ns; cbn [below]; now rewrite andb_false_r).
    now rewrite IH.
  - destruct (text_eqb n y) eqn:Ey; cbn [file_of].
    + apply text_eqb_iff in Ey. subst y. destruct p as [|x [|z p]]; cbn [below]; try reflexivity.
      * replace (below ns []) with false by (destruct ns; reflexivity). now rewrite andb_false_r.
      * destruct (text_eqb n x) eqn:Ex; cbn [andb]; [exact (IHs ns u t (z :: p) H)|reflexivity].
    + specialize (IH (y :: ns) u t p H). destruct p as [|x [|z p]]; try exact IH. cbn [below] in *.
      destruct (text_eqb n x) eqn:Ex; [|exact IH]. apply text_eqb_iff in Ex. subst x.
      rewrite (@eqb_other y n); [reflexivity|]. intros ->. rewrite eqb_same in Ey. discriminate.
Qed.
Lemma put_dirs R : forall ns u t p, dir_at R ns = Some u ->
  if below ns p then exists q, dir_at (put R ns t) p = dir_at t q /\ dir_at R p = dir_at u q
  else (dir_at (put R ns t) p = None <-> dir_at R p = None).
Proof.
  induction R as [|n d r IH|n sub IHs r IH]; intros [|y ns] u t p H; cbn [dir_at put] in *; try discriminate;
    try (injection H as <-; destruct p as [|x p]; cbn [below]; [destruct t; cbn [dir_at]; split; discriminate|exists (x :: p); now split]).
  - destruct p as [|x p]; [cbn [below dir_at] in *; split; discriminate|]. cbn [dir_at]. exact (IH (y :: ns) u t (x :: p) H).
  - destruct p as [|x p]; [cbn [below]; destruct (text_eqb n y); cbn [dir_at]; split; discriminate|].
    destruct (text_eqb n y) eqn:Ey; cbn [dir_at below].
    + apply text_eqb_iff in Ey. subst y. destruct (text_eqb n x) eqn:Ex; cbn [andb]; [exact (IHs ns u t p H)|tauto].
    + destruct (text_eqb n x) eqn:Ex; [|exact (IH (y :: ns) u t (x :: p) H)]. apply text_eqb_iff in Ex. subst x.
      rewrite (@eqb_other y n); [cbn [andb]; tauto|]. intros ->. rewrite eqb_same in Ey. discriminate.
Qed.
Lemma left_partly R ns u t pre : dir_at R ns = Some u -> ordinary_tree pre u -> left_of u t -> partly_removed ns R (put R ns t).
Proof.
  intros H Ho Hl. split; intros p Hp.
  - pose proof (put_files R ns t p H) as K1. pose proof (put_dirs R ns t p H) as K2. rewrite Hp in K1, K2. now split.
  - pose proof (put_files R ns t p H) as K1. pose proof (put_dirs R ns t p H) as K2. rewrite Hp in K1, K2.
    destruct K1 as (q & -> & ->). destruct K2 as (q' & -> & ->). split; [exact (left_files Hl _ Ho q)|exact (left_dirs Hl _ Ho q')].
Qed.
Lemma partly_trans ns a b c : partly_removed ns a b -> partly_removed ns b c -> partly_removed ns a c.
Proof.
  intros [A1 A2] [B1 B2]. split; intros p Hp.
  - destruct (A1 p Hp) as [X1 X2], (B1 p Hp) as [Y1 Y2]. split; [congruence|tauto].
  - destruct (A2 p Hp) as [X1 X2], (B2 p Hp) as [Y1 Y2]. split.
    + destruct Y1 as [Y1|Y1]; [auto|]. rewrite Y1. exact X1.
    + destruct Y2 as [Y2|Y2]; [auto|]. destruct X2 as [X2|X2]; [contradiction|auto].
Qed.
Lemma partly_refl ns a : partly_removed ns a a.
Proof.
  split; intros p _; [now split|]. split; [auto|]. destruct (dir_at a p); [right; discriminate|auto].
Qed.

(** ** the states in between *)
Section Visited.
Variable St : Type.
Variable B : service St.
Lemma visited_bind A X (p : flow A) (k : A -> flow X) c st n a c1 st1 : local B p c st n (Good a) c1 st1 ->
  forall st', visited B (fbind p k) c st st' -> visited B p c st st' \/ visited B (k a) c1 st1 st'.
Proof.
  intros H. remember (Good a) as x eqn:Ex. revert a Ex.
  induction H as [x c st|R q f c st r st1 n x c' st' Hq Hun Hfit HB _ IH|f c st n x c' st' _ IH|u f c st n x c' st' Hu _ IH|mm u f c st n x c' st' _ IH];
    intros a -> st2 Hv; cbn [fbind] in Hv.
  - now right.
  - assert (HC : st2 = st \/ visited B (fbind (f (returned r)) k) (next_client c) st1 st2).
    { clear - Hv HB. remember (FCall q (fun y => fbind (f y) k)) as g eqn:Eg.
      destruct Hv as [g0 c0 s0|R0 q0 k0 c0 s0 r0 s1 s2 HB0 Hv0|k0 c0 s0 s2 Hv0|u k0 c0 s0 s2 Hv0|m u k0 c0 s0 s2 Hv0]; try discriminate Eg; [now left|].
      right. pose (kk := fun (g : flow X) => match g with FCall q k => B (uid c0) (op_of q) s0 = B (uid c0) (op_of q) s0 /\
         visited B (k (returned (fst (B (uid c0) (op_of q) s0)))) (next_client c0) (snd (B (uid c0) (op_of q) s0)) s2 | _ => True end).
      assert (K : kk (FCall q0 k0)) by (unfold kk; rewrite HB0; cbn [fst snd]; now split).
      rewrite Eg in K. unfold kk in K. rewrite HB in K. cbn [fst snd] in K. exact (proj2 K). }
    destruct HC as [->|HC]; [left; constructor|]. destruct (IH a eq_refl st2 HC) as [K|K]; [|now right].
    left. exact (@v_call _ B _ _ q f c st r st1 st2 HB K).
  - assert (HC : st2 = st \/ visited B (fbind (f c) k) c st st2).
    { clear - Hv. remember (FState (fun y => fbind (f y) k)) as g eqn:Eg.
      destruct Hv as [g0 c0 s0|R0 q0 k0 c0 s0 r0 s1 s2 HB0 Hv0|k0 c0 s0 s2 Hv0|u k0 c0 s0 s2 Hv0|m u k0 c0 s0 s2 Hv0]; try discriminate Eg; [now left|].
      injection Eg as ->. now right. }
    destruct HC as [->|HC]; [left; constructor|]. destruct (IH a eq_refl st2 HC) as [K|K]; [left; now constructor|now right].
  - assert (HC : st2 = st \/ visited B (fbind f k) (set_uid u c) st st2).
    { clear - Hv. remember (FUid u (fbind f k)) as g eqn:Eg.
      destruct Hv as [g0 c0 s0|R0 q0 k0 c0 s0 r0 s1 s2 HB0 Hv0|k0 c0 s0 s2 Hv0|u0 k0 c0 s0 s2 Hv0|m u0 k0 c0 s0 s2 Hv0]; try discriminate Eg; [now left|].
      injection Eg as -> ->. now right. }
    destruct HC as [->|HC]; [left; constructor|]. destruct (IH a eq_refl st2 HC) as [K|K]; [left; now constructor|now right].
  - assert (HC : st2 = st \/ visited B (fbind f k) (set_options mm u c) st st2).
    { clear - Hv. remember (FOptions mm u (fbind f k)) as g eqn:Eg.
      destruct Hv as [g0 c0 s0|R0 q0 k0 c0 s0 r0 s1 s2 HB0 Hv0|k0 c0 s0 s2 Hv0|u0 k0 c0 s0 s2 Hv0|m u0 k0 c0 s0 s2 Hv0]; try discriminate Eg; [now left|].
      injection Eg as -> -> ->. now right. }
    destruct HC as [->|HC]; [left; constructor|]. destruct (IH a eq_refl st2 HC) as [K|K]; [left; now constructor|now right].
Qed.
Lemma visited_ret A (a : ans A) c st st' : visited B (FRet a) c st st' -> st' = st.
Proof. intros H. remember (FRet a) as g eqn:Eg. destruct H; try discriminate Eg; reflexivity. Qed.
(** one call *)
Lemma visited_once A (p : flow A) c st a c1 st1 : local B p c st 1 a c1 st1 -> forall st', visited B p c st st' -> st' = st \/ st' = st1.
Proof.
  assert (H0 : forall A (p : flow A) c st n a c1 st1, local B p c st n a c1 st1 -> n = 0%nat -> st1 = st /\ forall st', visited B p c st st' -> st' = st).
  { clear. induction 1 as [x c st|R q f c st r st1 n x c' st' Hq Hun Hfit HB _ IH|f c st n x c' st' _ IH|u f c st n x c' st' Hu _ IH|mm u f c st n x c' st' _ IH];
      intros Hn; try discriminate Hn.
    - split; [reflexivity|]. intros s. apply visited_ret.
    - destruct (IH Hn) as [K1 K2]. split; [exact K1|]. intros s Hv. remember (FState f) as g eqn:Eg. destruct Hv; try discriminate Eg; [reflexivity|].
      injection Eg as ->. auto.
    - destruct (IH Hn) as [K1 K2]. split; [exact K1|]. intros s Hv. remember (FUid u f) as g eqn:Eg. destruct Hv; try discriminate Eg; [reflexivity|].
      injection Eg as -> ->. auto.
    - destruct (IH Hn) as [K1 K2]. split; [exact K1|]. intros s Hv. remember (FOptions mm u f) as g eqn:Eg. destruct Hv; try discriminate Eg; [reflexivity|].
      injection Eg as -> -> ->. auto. }
  intros H. remember 1%nat as n eqn:En. revert En.
  induction H as [x c st|R q f c st r st1 n x c' st' Hq Hun Hfit HB HL IH|f c st n x c' st' _ IH|u f c st n x c' st' Hu _ IH|mm u f c st n x c' st' _ IH];
    intros Hn st2 Hv; try discriminate Hn.
  - injection Hn as ->. destruct (H0 _ _ _ _ _ _ _ _ HL eq_refl) as [K1 K2]. subst st'.
    assert (HC : st2 = st \/ visited B (f (returned r)) (next_client c) st1 st2).
    { clear - Hv HB. remember (FCall q f) as g eqn:Eg.
      destruct Hv as [g0 c0 s0|R0 q0 k0 c0 s0 r0 s1 s2 HB0 Hv0|k0 c0 s0 s2 Hv0|u k0 c0 s0 s2 Hv0|m u k0 c0 s0 s2 Hv0]; try discriminate Eg; [now left|].
      right. pose (kk := fun (g : flow A) => match g with FCall q k =>
         visited B (k (returned (fst (B (uid c0) (op_of q) s0)))) (next_client c0) (snd (B (uid c0) (op_of q) s0)) s2 | _ => True end).
      assert (K : kk (FCall q0 k0)) by (unfold kk; rewrite HB0; cbn [fst snd]; exact Hv0).
      rewrite Eg in K. unfold kk in K. rewrite HB in K. cbn [fst snd] in K. exact K. }
    destruct HC as [->|HC]; [now left|]. right. exact (K2 _ HC).
  - remember (FState f) as g eqn:Eg. destruct Hv; try discriminate Eg; [now left|]. injection Eg as ->. auto.
  - remember (FUid u f) as g eqn:Eg. destruct Hv; try discriminate Eg; [now left|]. injection Eg as -> ->. auto.
  - remember (FOptions mm u f) as g eqn:Eg. destruct Hv; try discriminate Eg; [now left|]. injection Eg as -> -> ->. auto.
Qed.
End Visited.

Lemma strict_clear_each s pre go l : (forall p, strict (go p)) -> strict (clear_each_flow s pre go l).
Proof.
  intros Hg. induction l as [|d r IH]; cbn [clear_each_flow]; [constructor|]. destruct (is_dots (d_filename d)); [exact IH|].
  destruct (is_directory d).
  - apply strict_bind; [apply Hg|]. intros u. apply strict_bind; [apply strict_fcall|]. intros u'. exact IH.
  - apply strict_bind; [apply strict_fcall|]. intros u. exact IH.
Qed.
Lemma strict_clear fuel s n : forall pre, strict (clear_flow fuel n s pre).
Proof.
  induction n as [|n IH]; intros pre; cbn [clear_flow]; [constructor|]. apply strict_bind; [apply strict_list|]. intros l. now apply strict_clear_each.
Qed.
Section Service.
Variable the_tid : N.
Variable setup : server_setup.
Notation DS := (dir_service the_tid setup).
Hypothesis tid16 : u16 the_tid.
Variable s : share.
Hypothesis s_tid : sh_tid s = the_tid.
Lemma visited_clear_each t : forall R u ns fuel n c op st', Forall a_name ns -> dir_at R ns = Some u ->
  ordinary_tree (path_of ns) t -> (weight t <= n)%nat ->
  visited DS (clear_each_flow s (path_of ns) (clear_flow fuel n s) (infos t)) c (mk_dirs (put R ns t) op) st' ->
  exists t', st' = mk_dirs (put R ns t') op /\ left_of t t'.
Proof.
  induction t as [|x d r IH|x sub IHs r IH]; intros R u ns fuel n c op st' Hns HR Ho Hn Hv.
  - cbn [infos clear_each_flow] in Hv. apply visited_ret in Hv. subst st'. exists Nothing. split; [reflexivity|constructor].
  - pose proof Ho as (Hx & Hnot & Hsh & Hlen & Hor). pose proof Hx as (X1 & _ & _ & _ & X2 & X3).
    cbn [infos clear_each_flow d_filename weight] in *. rewrite dots_not in Hv by exact Hx.
    change (is_directory (mk_dir 0 0 0 0 x (len d) ATTR_NORMAL)) with false in Hv. cbn iota in Hv.
    assert (L1 : local DS (fcall (Delete s (path_of ns ++ x))) c (mk_dirs (put R ns (AFile x d r)) op) 1 (Good tt) (next_client c) (mk_dirs (put R ns r) op)).
    { now apply (@local_deleted the_tid setup tid16 s s_tid R u ns x d r c op). }
    destruct (visited_bind _ L1 Hv) as [K|K].
    + destruct (visited_once L1 K) as [->| ->]; eexists; (split; [reflexivity|]); [constructor|constructor; constructor].
    + destruct (IH R u ns fuel n _ op st' Hns HR Hor ltac:(lia) K) as (t' & -> & Hl). exists t'. split; [reflexivity|now constructor].
  - pose proof Ho as (Hx & Hnot & Hsh & Hl & Hos & Hor). pose proof Hx as (X1 & _ & _ & _ & X2 & X3).
    cbn [infos clear_each_flow d_filename weight] in *. rewrite dots_not in Hv by exact Hx.
    change (is_directory (mk_dir 0 0 0 0 x 0 ATTR_DIRECTORY)) with true in Hv. cbn iota in Hv.
    rewrite path_snoc in *. destruct n as [|n]; [lia|].
    assert (Hns' : Forall a_name (ns ++ [x])) by (apply Forall_app; split; [exact Hns|now constructor]).
    set (R' := put R ns (ADir x Nothing r)).
    assert (HR' : dir_at R' (ns ++ [x]) = Some Nothing).
    { unfold R'. rewrite (dir_inside _ ns (put_dir R ns _ HR)). cbn [dir_at]. now rewrite eqb_same. }
    assert (Hput : forall v, put R ns (ADir x v r) = put R' (ns ++ [x]) v) by (intros v; symmetry; unfold R'; now apply (put_inner R ns x Nothing v r HR)).
    assert (L0 : local DS (list_flow fuel s (path_of (ns ++ [x]) ++ [42])) c (mk_dirs (put R' (ns ++ [x]) sub) op) 1 (Good (dir_listing sub))
      (next_client c) (mk_dirs (put R' (ns ++ [x]) sub) op)).
    { apply (@local_listed the_tid setup tid16 s s_tid fuel c (mk_dirs (put R' (ns ++ [x]) sub) op) (ns ++ [x]) sub (path_of (ns ++ [x]))); try assumption.
      * cbn [ds_root]. exact (put_dir R' (ns ++ [x]) sub HR').
      * rewrite <- path_snoc, <- !app_assoc. exact Hsh. }
    destruct (@local_clear_each the_tid setup tid16 s s_tid sub R' Nothing (ns ++ [x]) fuel n (next_client c) op Hns' HR' Hos) as (m1 & c1 & L1 & _); [lia|].
    assert (LG : local DS (clear_flow fuel (S n) s (path_of (ns ++ [x]))) c (mk_dirs (put R' (ns ++ [x]) sub) op) (1 + m1) (Good tt) c1
      (mk_dirs (put R' (ns ++ [x]) Nothing) op)).
    { cbn [clear_flow]. eapply local_bind; [exact L0|exact L1]. }
    rewrite Hput in Hv. destruct (visited_bind _ LG Hv) as [K|K].
    + cbn [clear_flow] in K. destruct (visited_bind _ L0 K) as [K0|K0].
      * exists (ADir x sub r). rewrite Hput. destruct (visited_once L0 K0) as [->| ->]; (split; [reflexivity|constructor]).
      * destruct (IHs R' Nothing (ns ++ [x]) fuel n _ op st' Hns' HR' Hos ltac:(lia) K0) as (t' & -> & Hlt).
        exists (ADir x t' r). rewrite Hput. split; [reflexivity|now constructor].
    + rewrite <- Hput in K.
      assert (L2 : local DS (fcall (Rmdir s (path_of ns ++ x))) c1 (mk_dirs (put R ns (ADir x Nothing r)) op) 1 (Good tt) (next_client c1) (mk_dirs (put R ns r) op)).
      { apply (@local_removed the_tid setup tid16 s s_tid R u ns x r c1 op); try assumption.
        unfold short in *. rewrite !utf16_app in *. lia. }
      destruct (visited_bind _ L2 K) as [K2|K2].
      * destruct (visited_once L2 K2) as [->| ->].
        -- exists (ADir x Nothing r). split; [reflexivity|]. apply left_in. apply left_nothing.
        -- exists r. split; [reflexivity|]. apply left_dir. constructor.
      * destruct (IH R u ns fuel (S n) _ op st' Hns HR Hor ltac:(lia) K2) as (t' & -> & Hlt). exists t'. split; [reflexivity|now constructor].
Qed.
Lemma visited_clear t ns fuel n c st st' : Forall a_name ns -> dir_at (ds_root st) ns = Some t -> listable t ->
  ordinary_tree (path_of ns) t -> short (path_of ns ++ [42]) -> (weight t <= n)%nat ->
  visited DS (clear_flow fuel (S n) s (path_of ns)) c st st' ->
  exists t', st' = mk_dirs (put (ds_root st) ns t') (ds_open st) /\ left_of t t'.
Proof.
  intros Hns Hd Hl Ho Hsh Hn Hv. cbn [clear_flow] in Hv.
  pose proof (@local_listed the_tid setup tid16 s s_tid fuel c st ns t (path_of ns) Hns Hd Hl Ho Hsh) as L0.
  destruct (visited_bind _ L0 Hv) as [K|K].
  - exists t. rewrite (put_same _ _ Hd). destruct (visited_once L0 K) as [->| ->]; (split; [now destruct st|constructor]).
  - apply (@visited_clear_each t (ds_root st) t ns fuel n (next_client c) (ds_open st) st' Hns Hd Ho Hn).
    rewrite (put_same _ _ Hd). destruct st. exact K.
Qed.
End Service.

(** ** over connections that break *)
Section Net.
Variable the_tid : N.
Variable setup : server_setup.
Variables Sn Sv : Type.
Variable net : Sn -> bytes -> reaction Sn.
Variable react : Sv -> bytes -> reaction Sv.
Variable inner : Sn -> Sv.
Variable up : Sn -> Prop.
Hypothesis Hnet : unreliable net react inner up.
Variable abs : Sv -> dirs.
Hypothesis conf : conforming react (dir_service the_tid setup) abs.
Variable E : env.
Variable ns : list text.
Hypothesis Hns : Forall a_name ns.
Hypothesis Hshort : short (path_of ns ++ [42]).
Notation view := (fun n => abs (inner n)).

Lemma attempt m (w : world cifs Sn) s : usable E up the_tid m w s -> removable ns (ds_root (view (srv w))) m ->
  exists a w', clears net E s ns w a w'
  /\ ds_open (view (srv w')) = ds_open (view (srv w))
  /\ partly_removed ns (ds_root (view (srv w))) (ds_root (view (srv w')))
  /\ removable ns (ds_root (view (srv w'))) m
  /\ ((a = Good tt /\ dir_at (ds_root (view (srv w'))) ns = Some Nothing) \/ exists e, a = Bad (ENetBios e)).
Proof.
  intros (Ht & Hi & Hup & Hu & Hs & Hr) (t & Hd & Hl & Ho & Hm). rewrite Hs in Hu.
  destruct (@local_clear the_tid setup Hu s Hs t ns (weight t) (weight t) (cl w) (view (srv w))) as (n & c' & L & M); try assumption; try lia.
  destruct (@half_program _ _ _ net react inner up Hnet _ abs conf E _ _ _ _ _ _ _ _ L (strict_clear _ _ _ _) w eq_refl eq_refl Ht Hi Hup)
    as (k & a & w' & Hrun & Hcase).
  { intros Hov. specialize (Hr Hov). lia. }
  assert (Hst : exists t', view (srv w') = mk_dirs (put (ds_root (view (srv w))) ns t') (ds_open (view (srv w))) /\ left_of t t'
    /\ ((a = Good tt /\ t' = Nothing) \/ exists e, a = Bad (ENetBios e))).
  { destruct Hcase as [(-> & _ & Hst & _)|(He & Hv & _)].
    - exists Nothing. split; [exact Hst|]. split; [apply left_nothing|]. left. now split.
    - destruct (@visited_clear the_tid setup Hu s Hs t ns (weight t) (weight t) (cl w) (view (srv w)) (view (srv w'))) as (t' & Hst & Hlt);
        try assumption; [lia|]. exists t'. split; [exact Hst|]. split; [exact Hlt|]. now right. }
  destruct Hst as (t' & Hst & Hlt & Hres).
  exists a, w'. split; [|split; [|split; [|split]]].
  - exists (Nat.max k (S (weight t))). intros fuel d Hf Hdd. rewrite (clear_same E fuel s d (path_of ns)).
    eapply run_less; [apply less_clear|apply Hrun; lia]; lia.
  - now rewrite Hst.
  - rewrite Hst. cbn [ds_root]. now apply (@left_partly _ ns t t' (path_of ns)).
  - rewrite Hst. cbn [ds_root]. exists t'. split; [exact (put_dir _ _ _ Hd)|]. split; [exact (left_listable Hlt Hl)|].
    split; [exact (left_ordinary Hlt _ Ho)|]. pose proof (left_calls Hlt). lia.
  - destruct Hres as [(-> & ->)|He]; [left|now right]. split; [reflexivity|]. rewrite Hst. exact (put_dir _ _ _ Hd).
Qed.
Lemma clears_same s (w : world cifs Sn) a w' b v : clears net E s ns w a w' -> clears net E s ns w b v -> a = b /\ w' = v.
Proof.
  intros (k & H) (k' & H'). specialize (H (Nat.max k k') (Nat.max k k')). specialize (H' (Nat.max k k') (Nat.max k k')).
  specialize (H ltac:(lia) ltac:(lia)). specialize (H' ltac:(lia) ltac:(lia)). rewrite H' in H. injection H as -> ->. now split.
Qed.
Lemma repeated m l st st' : attempts net E view (usable E up the_tid m) ns l st st' -> removable ns (ds_root st) m ->
  ds_open st' = ds_open st /\ partly_removed ns (ds_root st) (ds_root st') /\ removable ns (ds_root st') m
  /\ (In (Good tt) l -> dir_at (ds_root st') ns = Some Nothing)
  /\ (forall a, In a l -> a = Good tt \/ exists e, a = Bad (ENetBios e)).
Proof.
  assert (HK : forall R R', partly_removed ns R R' -> forall v, removable ns R' v -> dir_at R ns = Some Nothing -> dir_at R' ns = Some Nothing).
  { intros R R' [_ H2] v (t & Hd & _) HR. rewrite Hd. destruct t as [|x d r|x sub r]; [reflexivity| |].
    - destruct (H2 (ns ++ [x])) as [[K|K] _].
      + clear. induction ns as [|y q IH]; [reflexivity|]. cbn [app below]. now rewrite eqb_same.
      + rewrite (file_inside _ ns Hd) in K. cbn [file_of] in K. rewrite eqb_same in K. discriminate.
      + rewrite (file_inside _ ns Hd), (file_inside _ ns HR) in K. cbn [file_of] in K. rewrite eqb_same in K. discriminate.
    - destruct (H2 (ns ++ [x])) as [_ [K|K]].
      + clear. induction ns as [|y q IH]; [reflexivity|]. cbn [app below]. now rewrite eqb_same.
      + rewrite (dir_inside _ ns Hd) in K. cbn [dir_at] in K. rewrite eqb_same in K. destruct sub; discriminate.
      + rewrite (dir_inside _ ns HR) in K. exfalso. now apply K. }
  induction 1 as [st|w s a w' l st' Hu Hc _ IH]; intros Hrem.
  - split; [reflexivity|]. split; [apply partly_refl|]. split; [exact Hrem|]. split; intros; contradiction.
  - destruct (attempt Hu Hrem) as (b & v & Hc' & H1 & H2 & H3 & H4). destruct (clears_same Hc Hc') as [-> ->].
    destruct (IH H3) as (I1 & I2 & I3 & I4 & I5). split; [congruence|]. split; [exact (partly_trans H2 I2)|]. split; [exact I3|]. split.
    + intros [->|Hin]; [|exact (I4 Hin)]. destruct H4 as [[_ H4]|[e H4]]; [|discriminate H4]. exact (HK _ _ I2 m I3 H4).
    + intros y [<-|Hin]; [|exact (I5 _ Hin)]. destruct H4 as [[H4 _]|H4]; [left; exact H4|right; exact H4].
Qed.
End Net.

(** ** copying over a connection that breaks *)
Definition harmless {R} (q : call R) : Prop := match q with Delete _ _ | Rmdir _ _ => False | _ => True end.
Inductive harmless_flow {A} : flow A -> Prop :=
| h_ret a : harmless_flow (FRet a)
| h_panic : harmless_flow FPanic
| h_fuel : harmless_flow FFuel
| h_call R (q : call R) k : harmless q -> (forall r, harmless_flow (k r)) -> harmless_flow (FCall q k).
Lemma harmless_bind A X (p : flow A) (k : A -> flow X) : harmless_flow p -> (forall a, harmless_flow (k a)) -> harmless_flow (fbind p k).
Proof. intros H Hk. induction H as [[a|e]| | |R q f Hq _ IH]; cbn [fbind]; try (constructor; auto; fail). apply Hk. Qed.
Lemma harmless_fcall R (q : call R) : harmless q -> harmless_flow (fcall q).
Proof. intros H. constructor; [exact H|]. intros r. constructor. Qed.
Lemma harmless_reads n h : forall data, harmless_flow (download_reads n h data).
Proof.
  induction n as [|n IH]; intros data; cbn [download_reads]; [constructor|]. destruct (_ <? _); [|constructor].
  apply harmless_bind; [now apply harmless_fcall|]. intros x. apply IH.
Qed.
Lemma harmless_download n s path : harmless_flow (download_flow n s path).
Proof.
  unfold download_flow. apply harmless_bind; [now apply harmless_fcall|]. intros h. apply harmless_bind; [apply harmless_reads|]. intros d.
  apply harmless_bind; [now apply harmless_fcall|]. intros u. constructor.
Qed.
Lemma harmless_nexts n s sid : forall l, harmless_flow (list_nexts n s sid l).
Proof.
  induction n as [|n IH]; intros l; cbn [list_nexts]; [constructor|]. destruct (last _ _) as [d|]; [|constructor].
  apply harmless_bind; [now apply harmless_fcall|]. intros r. destruct (fn_end r); [constructor|apply IH].
Qed.
Lemma harmless_list n s pattern : harmless_flow (list_flow n s pattern).
Proof.
  unfold list_flow. apply harmless_bind; [now apply harmless_fcall|]. intros r. destruct (ff_end r); [constructor|apply harmless_nexts].
Qed.
Lemma harmless_copy fuel s n : forall pre, harmless_flow (copy_flow fuel n s pre) /\ strict (copy_flow fuel n s pre).
Proof.
  induction n as [|n IH]; intros pre; cbn [copy_flow]; [split; constructor|]. split.
  - apply harmless_bind; [apply harmless_list|]. intros l. induction l as [|d r IHl]; cbn [copy_each_flow]; [constructor|].
    destruct (is_dots (d_filename d)); [exact IHl|]. destruct (is_directory d).
    + apply harmless_bind; [apply IH|]. intros sub. apply harmless_bind; [exact IHl|]. intros rest. constructor.
    + apply harmless_bind; [apply harmless_download|]. intros sub. apply harmless_bind; [exact IHl|]. intros rest. constructor.
  - apply strict_bind; [apply strict_list|]. intros l. induction l as [|d r IHl]; cbn [copy_each_flow]; [constructor|].
    destruct (is_dots (d_filename d)); [exact IHl|]. destruct (is_directory d).
    + apply strict_bind; [apply IH|]. intros sub. apply strict_bind; [exact IHl|]. intros rest. constructor.
    + apply strict_bind; [apply strict_download|]. intros sub. apply strict_bind; [exact IHl|]. intros rest. constructor.
Qed.
Section Copy.
Variable the_tid : N.
Variable setup : server_setup.
Notation DS := (dir_service the_tid setup).
Lemma harmless_op R (q : call R) who st r st1 : harmless q -> DS R who (op_of q) st = (r, st1) -> ds_root st1 = ds_root st.
Proof.
  intros Hq. destruct q; cbn [harmless op_of dir_service] in *; try contradiction;
    repeat match goal with |- context [match ?x with _ => _ end] => destruct x end; intros [= <- <-]; reflexivity.
Qed.
Lemma harmless_visited A (f : flow A) c st st' : visited DS f c st st' -> harmless_flow f -> ds_root st' = ds_root st.
Proof.
  induction 1 as [f c st|R q k c st r st1 st' HB _ IH|k c st st' _ IH|u f c st st' _ IH|m u f c st st' _ IH]; intros Hh; [reflexivity| | | |].
  - assert (HI : harmless q /\ forall r, harmless_flow (k r)).
    { change (match FCall q k with FCall q k => harmless q /\ (forall r, harmless_flow (k r)) | _ => True end). destruct Hh; try exact I. now split. }
    destruct HI as [Hq Hk]. rewrite (IH (Hk _)). exact (harmless_op _ _ _ Hq HB).
  - exfalso. change (match FState k with FState _ => False | _ => True end). destruct Hh; exact I.
  - exfalso. change (match FUid u f with FUid _ _ => False | _ => True end). destruct Hh; exact I.
  - exfalso. change (match FOptions m u f with FOptions _ _ _ => False | _ => True end). destruct Hh; exact I.
Qed.
Variables Sn Sv : Type.
Variable net : Sn -> bytes -> reaction Sn.
Variable react : Sv -> bytes -> reaction Sv.
Variable inner : Sn -> Sv.
Variable up : Sn -> Prop.
Hypothesis Hnet : unreliable net react inner up.
Variable abs : Sv -> dirs.
Hypothesis conf : conforming react DS abs.
Variable E : env.
Lemma copy_cut (w : world cifs Sn) s ns t :
  typed_client (cl w) -> idle w -> up (srv w) -> u16 (sh_tid s) -> sh_tid s = the_tid -> fresh (ds_open (abs (inner (srv w)))) < 65536 ->
  Forall a_name ns -> dir_at (ds_root (abs (inner (srv w)))) ns = Some t -> listable t -> ordinary_tree (path_of ns) t ->
  short (path_of ns ++ [42]) -> room E (cl w) (1 + copy_calls t) ->
  exists k a w', (forall fuel n, (k <= fuel)%nat -> (k <= n)%nat -> run net (copy_tree E fuel n s (path_of ns)) w = Done a w')
    /\ ds_root (abs (inner (srv w'))) = ds_root (abs (inner (srv w)))
    /\ ((a = Good t /\ ds_open (abs (inner (srv w'))) = ds_open (abs (inner (srv w)))) \/ exists e, a = Bad (ENetBios e)).
Proof.
  intros Hc Hi Hup Hu Hs Hfr Hns Hd Hl Ho Hsh Hr. rewrite Hs in Hu.
  destruct (@local_copy the_tid setup Hu s Hs t ns (weight t) (weight t) (cl w) (abs (inner (srv w)))) as (m & c' & L & M); try assumption; try lia.
  destruct (harmless_copy (weight t) s (S (weight t)) (path_of ns)) as [Hh Hst].
  destruct (@half_program _ _ _ net react inner up Hnet _ abs conf E _ _ _ _ _ _ _ _ L Hst w eq_refl eq_refl Hc Hi Hup)
    as (k & a & w' & Hrun & Hcase).
  { intros Hov. specialize (Hr Hov). lia. }
  exists (Nat.max k (S (weight t))), a, w'. split; [|].
  - intros fuel n Hf Hn. rewrite (copy_same E fuel s n (path_of ns)). eapply run_less; [apply less_copy|apply Hrun; lia]; lia.
  - destruct Hcase as [(-> & _ & He & _)|(He & Hv & _)].
    + rewrite He. split; [reflexivity|]. left. now split.
    + split; [exact (harmless_visited Hv Hh)|]. now right.
Qed.
End Copy.
