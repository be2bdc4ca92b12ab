(** * PostFacts: emptying a mailbox while others put files into it (C129) *)
From Verif Require Import Base Text Win Errors Common Reply Ntlm Prog Client Spec SpecReply SpecMsg Api SpecCall BaseFacts TextFacts
  RunFacts MsgFacts SizeFacts Flow FlowFacts SpecRemote RemoteFacts RefServer RefFacts FileService FileFacts
  SpecLost SpecCutoff Gate GateFacts SpecFetch FetchFacts SpecErrand ErrandFacts SpecHalf HalfFacts SpecTree TreeFacts SpecRemoval RemovalFacts SpecRemovers RemoversFacts SpecBusy BusyFacts
  SpecMove MoveFacts SpecMail MailFacts SpecPost.
Open Scope N_scope.
Set Implicit Arguments.

Lemma keeps_refl ns R : keeps ns R R. Proof. intros x d H. exact H. Qed.
Lemma keeps_trans ns a b c : keeps ns a b -> keeps ns b c -> keeps ns a c.
Proof. intros H1 H2 x d H. exact (H2 x d (H1 x d H)). Qed.
Lemma movable_unlink ns R m x : movable ns R m -> movable ns (unlink R (ns ++ [x])) m.
Proof.
  intros (t & H1 & H2 & H3 & H4). exists (unlink t [x]). pose proof (unlink_pruned t [x]) as Hp.
  split; [apply unlink_inside; [exact H1|discriminate]|]. split; [exact (pruned_listable Hp H2)|]. split; [exact (pruned_ordinary Hp _ H3)|].
  pose proof (pruned_copies Hp). pose proof (pruned_calls Hp). lia.
Qed.
Lemma others_proper B : proper B -> proper (with_others B).
Proof. intros H R who o s. unfold with_others. cbn [fst]. apply H. Qed.

Lemma works_download n s path : works (download_flow n s path).
Proof.
  unfold download_flow. apply works_bind; [now apply works_call|]. intros h. apply works_bind; [apply works_reads|]. intros d.
  apply works_bind; [now apply works_call|]. intros u. exact I.
Qed.
Lemma works_list n s pattern : works (list_flow n s pattern).
Proof. unfold list_flow. apply works_bind; [now apply works_call|]. intros r. destruct (ff_end r); [exact I|apply works_nexts]. Qed.

(** a program of calls on a connection in order or gone *)
Lemma step_service Sn Sv (net : Sn -> bytes -> reaction Sn) (react : Sv -> bytes -> reaction Sv) inner up St (B : service St) abs E :
  unreliable net react inner up -> conforming react B abs ->
  forall A (f : flow A) c st n r c' st', local B f c st n r c' st' -> strict f ->
  forall w : world cifs Sn, cl w = c -> abs (inner (srv w)) = st -> typed_client c -> linked up w -> room E c n ->
  exists k a w', (forall fuel, (k <= fuel)%nat -> run net (interp E fuel f) w = Done a w')
  /\ ((a = r /\ cl w' = c' /\ abs (inner (srv w')) = st' /\ linked up w')
      \/ ((exists e, a = Bad (ENetBios e)) /\ visited B f c st (abs (inner (srv w'))))).
Proof.
  intros Hnet conf A f c st n r c' st' L Hs w Hcl Hst Hc [[Hi Hup]|[Hsi Hup]] Hr.
  - destruct (@half_program _ _ _ net react inner up Hnet _ abs conf E _ _ _ _ _ _ _ _ L Hs w Hcl Hst Hc Hi Hup Hr)
      as (k & a & w' & H1 & [H2|(H2 & H3 & _)]); exists k, a, w'; (split; [exact H1|]); [left; exact H2|right; now split].
  - destruct (@silent_strict _ _ _ net react inner up Hnet _ E _ _ _ _ _ _ _ _ L Hs w Hcl Hsi Hup Hr)
      as (k & a & w' & H1 & Hin & Hs' & [(-> & H2 & H3)|H2]).
    + exists k, r, w'. split; [exact H1|]. left. split; [reflexivity|]. split; [exact H2|]. rewrite Hin, Hst, H3. split; [reflexivity|now right].
    + exists k, a, w'. split; [exact H1|]. right. split; [exact H2|]. rewrite Hin, Hst. apply v_none.
Qed.
Section Gen.
Variable the_tid : N.
Variable setup : server_setup.
Variable Sn : Type.
Variable net : Sn -> bytes -> reaction Sn.
Variable view : Sn -> dirs * list (tree -> tree).
Variable E : env.
Notation DS := (with_others (dir_service the_tid setup)).
(** connections on which a program is carried out, or fails with an error of the network on the way *)
Variable link : world cifs Sn -> Prop.
Hypothesis Hstep : forall A (f : flow A) c st n r c' st', local DS f c st n r c' st' -> strict f -> works f ->
  forall w : world cifs Sn, cl w = c -> view (srv w) = st -> typed_client c -> link w -> room E c n ->
  exists k a w', (forall fuel, (k <= fuel)%nat -> run net (interp E fuel f) w = Done a w')
  /\ ((a = r /\ cl w' = c' /\ view (srv w') = st' /\ link w')
      \/ ((exists e, a = Bad (ENetBios e)) /\ visited DS f c st (view (srv w')))).

Variable ns : list text.
Hypothesis Hns : Forall a_name ns.
Variable m : nat.
(** the mailbox is in order *)
Definition fine (st : dirs * list (tree -> tree)) : Prop := movable ns (ds_root (fst st)) m /\ Forall (decent ns m) (snd st).
Notation root st := (ds_root (fst st)).
Lemma fine_stirred st : fine st -> movable ns (ds_root (stirred st)) m /\ keeps ns (root st) (ds_root (stirred st))
  /\ ds_open (stirred st) = ds_open (fst st) /\ Forall (decent ns m) (List.tl (snd st)).
Proof.
  intros [H1 H2]. unfold stirred. destruct (snd st) as [|c cs]; cbn [List.tl].
  - split; [exact H1|]. split; [apply keeps_refl|]. split; [reflexivity|constructor].
  - inversion H2 as [|? ? Hc Hcs]; subst. destruct (Hc _ H1) as [K1 K2]. cbn [ds_root ds_open]. auto.
Qed.
Lemma harmless_fine R (q : call R) who st r st1 : harmless q -> fine st -> DS R who (op_of q) st = (r, st1) -> fine st1 /\ keeps ns (root st) (root st1).
Proof.
  intros Hq Hf. unfold with_others. destruct (dir_service the_tid setup R who (op_of q) (stirred st)) as [r' d'] eqn:HB. cbn [fst snd].
  intros [= <- <-]. destruct (fine_stirred Hf) as (K1 & K2 & _ & K4). unfold fine. cbn [fst snd].
  rewrite (@harmless_op the_tid setup R q who _ _ _ Hq HB). split; [split; [exact K1|exact K4]|exact K2].
Qed.
Lemma harmless_others A (f : flow A) c st st' : visited DS f c st st' -> harmless_flow f -> fine st -> fine st' /\ keeps ns (root st) (root st').
Proof.
  induction 1 as [f c st|R q k c st r st1 st' HB _ IH|k c st st' _ IH|u f c st st' _ IH|mm u f c st st' _ IH]; intros Hh Hf; [split; [exact Hf|apply keeps_refl]| | | |].
  - assert (HI : harmless q /\ forall r, harmless_flow (k r)).
    { change (match FCall q k with FCall q k => harmless q /\ (forall r, harmless_flow (k r)) | _ => True end). destruct Hh; try exact I. now split. }
    destruct HI as [Hq Hk]. destruct (@harmless_fine _ _ _ _ _ _ Hq Hf HB) as [K1 K2]. destruct (IH (Hk _) K1) as [I1 I2]. split; [exact I1|exact (keeps_trans K2 I2)].
  - exfalso. change (match FState k with FState _ => False | _ => True end). destruct Hh; exact I.
  - exfalso. change (match FUid u f with FUid _ _ => False | _ => True end). destruct Hh; exact I.
  - exfalso. change (match FOptions mm u f with FOptions _ _ _ => False | _ => True end). destruct Hh; exact I.
Qed.
Variable s : share.
Hypothesis Hu : u16 the_tid.
Hypothesis Hs : sh_tid s = the_tid.

(** a file stays readable while others are at work *)
Lemma file_others st who path x d : names_of path = ns ++ [x] -> file_of (root st) (ns ++ [x]) = Some d -> fine st ->
  fresh (ds_open (fst st)) < 65536 -> len d < 2 ^ 64 ->
  file_at DS who the_tid path d 65534 st (the_handle the_tid (fresh (ds_open (fst st))) (len d))
    (fun st' => fine st' /\ keeps ns (root st) (root st') /\ ds_open (fst st') = ds_open (fst st)).
Proof.
  intros Hp Hf Hfine Hfr Hd. split; [discriminate|]. split; [reflexivity|]. split; [exact Hu|]. split; [exact Hfr|].
  exists (fun st' => fine st' /\ keeps ns (root st) (root st') /\ ds_open (fst st') = (fresh (ds_open (fst st)), names_of path) :: ds_open (fst st)).
  split; [|split].
  - destruct (fine_stirred Hfine) as (K1 & K2 & K3 & K4). eexists. split.
    + unfold with_others. cbn [dir_service]. rewrite Hp, (K2 x d Hf), K3, N.eqb_refl.
      destruct (N.ltb_spec (fresh (ds_open (fst st))) 65536); [|lia]. destruct (N.ltb_spec (len d) (2 ^ 64)); [|lia]. cbn [andb fst snd]. reflexivity.
    + cbn [fst ds_open ds_root]. split; [split; [exact K1|exact K4]|]. split; [exact K2|now rewrite Hp].
  - intros st' o (F1 & F2 & F3) Ho. destruct (fine_stirred F1) as (K1 & K2 & K3 & K4).
    exists (take 65534 (drop o d)), (drop 65534 (drop o d)). eexists. split.
    + unfold with_others. cbn [dir_service the_handle h_tid h_fid]. rewrite K3, F3. cbn [open_path]. rewrite N.eqb_refl, Hp, (K2 x d (F2 x d Hf)). cbn [fst snd]. reflexivity.
    + split; [|split; [symmetry; apply take_drop|]].
      * cbn [fst]. split; [split; [exact K1|exact K4]|]. split; [exact (keeps_trans F2 K2)|congruence].
      * destruct (N.leb_spec 65534 (len (drop o d))) as [X|X]; [left; rewrite len_take; lia|right; apply drop_all; lia].
  - intros st' (F1 & F2 & F3). destruct (fine_stirred F1) as (K1 & K2 & K3 & K4). eexists. split.
    + unfold with_others. cbn [dir_service the_handle h_tid h_fid]. rewrite K3, F3. cbn [open_path]. rewrite N.eqb_refl. cbn [fst snd]. reflexivity.
    + cbn [fst ds_open ds_root]. split; [split; [exact K1|exact K4]|]. split; [exact (keeps_trans F2 K2)|].
      cbn [without_fid filter fst]. rewrite N.eqb_refl. cbn [negb]. apply without_same. apply fresh_above.
Qed.
Lemma download_others x d (w : world cifs Sn) : a_name x -> short (path_of ns ++ x) -> len d < 2 ^ 64 ->
  file_of (root (view (srv w))) (ns ++ [x]) = Some d -> fine (view (srv w)) -> fresh (ds_open (fst (view (srv w)))) < 65536 ->
  typed_client (cl w) -> link w -> room E (cl w) (2 + pieces (len d) 65534) ->
  exists k a w', (forall fuel, (k <= fuel)%nat -> run net (download E fuel s (path_of ns ++ x)) w = Done a w')
  /\ fine (view (srv w')) /\ keeps ns (root (view (srv w))) (root (view (srv w')))
  /\ ((a = Good d /\ ds_open (fst (view (srv w'))) = ds_open (fst (view (srv w))) /\ typed_client (cl w')
       /\ mid (cl w') <= mid (cl w) + N.of_nat (2 + pieces (len d) 65534) /\ link w')
      \/ exists e, a = Bad (ENetBios e)).
Proof.
  intros Hx Hsh Hlen Hf Hfine Hfr Hc Hw Hr. pose proof Hx as (X1 & _ & _ & _ & X2 & X3).
  destruct (local_download (B := DS) (s := s) (path := path_of ns ++ x) (c := cl w) (n := length d + 1) (who := uid (cl w)) (st := view (srv w)) (d := d)
    (q := 65534) (h := the_handle the_tid (fresh (ds_open (fst (view (srv w))))) (len d))
    (over := fun st' => fine st' /\ keeps ns (root (view (srv w))) (root st') /\ ds_open (fst st') = ds_open (fst (view (srv w)))))
    as (m1 & c1 & st1 & L1 & (E1 & E2 & E3) & _ & M1 & _).
  - rewrite Hs. apply (@file_others _ _ _ x); auto. now rewrite names_path.
  - now rewrite Hs.
  - apply str_app; [now apply str_path|exact X1].
  - unfold short in Hsh. cbn [fits_request]. lia.
  - reflexivity.
  - exact Hlen.
  - lia.
  - destruct (local_counted L1 Hc) as [C1 C2].
    destruct (@Hstep _ _ _ _ _ _ _ _ L1 (strict_download _ _ _) (works_download _ _ _) w eq_refl eq_refl Hc Hw) as (k & a & w' & H1 & H2).
    { intros Hov. specialize (Hr Hov). lia. }
    exists (Nat.max k (length d + 1)), a, w'. split.
    + intros fuel Hfu. rewrite (download_same E fuel s (path_of ns ++ x)). eapply run_less; [apply less_download|apply H1; lia]; lia.
    + destruct H2 as [(-> & Hcl & H3 & H4)|(H2 & H3)].
      * rewrite H3. split; [exact E1|]. split; [exact E2|]. left. split; [reflexivity|]. split; [exact E3|]. rewrite Hcl. split; [exact C1|]. split; [lia|exact H4].
      * destruct (harmless_others H3 (harmless_download _ _ _) Hfine) as [K1 K2]. split; [exact K1|]. split; [exact K2|]. now right.
Qed.
Lemma delete_others x d (w : world cifs Sn) : a_name x -> short (path_of ns ++ x) ->
  file_of (root (view (srv w))) (ns ++ [x]) = Some d -> fine (view (srv w)) ->
  typed_client (cl w) -> link w -> room E (cl w) 1 ->
  exists k a w', (forall fuel, (k <= fuel)%nat -> run net (delete E fuel s (path_of ns ++ x)) w = Done a w')
  /\ fine (view (srv w'))
  /\ (forall y b, y <> x -> file_of (root (view (srv w))) (ns ++ [y]) = Some b -> file_of (root (view (srv w'))) (ns ++ [y]) = Some b)
  /\ ((a = Good tt /\ ds_open (fst (view (srv w'))) = ds_open (fst (view (srv w))) /\ typed_client (cl w') /\ mid (cl w') <= mid (cl w) + 1 /\ link w')
      \/ exists e, a = Bad (ENetBios e)).
Proof.
  intros Hx Hsh Hf Hfine Hc Hw Hr. pose proof Hx as (X1 & _ & _ & _ & X2 & X3).
  destruct (fine_stirred Hfine) as (K1 & K2 & K3 & K4).
  assert (L : local DS (fcall (Delete s (path_of ns ++ x))) (cl w) (view (srv w)) 1 (Good tt) (next_client (cl w))
    (mk_dirs (unlink (ds_root (stirred (view (srv w)))) (ns ++ [x])) (ds_open (fst (view (srv w)))), List.tl (snd (view (srv w))))).
  { refine (local_call (q := Delete s (path_of ns ++ x)) (r := inl tt) _ _ _ _).
    - split; [now rewrite Hs|]. apply str_app; [now apply str_path|exact X1].
    - exact I.
    - unfold short in Hsh. cbn [fits_request]. lia.
    - unfold with_others. cbn [op_of dir_service]. rewrite names_path by assumption. rewrite (K2 x d Hf), Hs, N.eqb_refl, K3. reflexivity. }
  destruct (local_counted L Hc) as [C1 C2].
  destruct (@Hstep _ _ _ _ _ _ _ _ L (strict_fcall _) (@works_call _ (Delete s (path_of ns ++ x)) I) w eq_refl eq_refl Hc Hw Hr) as (k & a & w' & H1 & H2).
  assert (Hafter : forall st', st' = view (srv w) \/ st' = (mk_dirs (unlink (ds_root (stirred (view (srv w)))) (ns ++ [x])) (ds_open (fst (view (srv w)))), List.tl (snd (view (srv w)))) ->
    fine st' /\ (forall y b, y <> x -> file_of (root (view (srv w))) (ns ++ [y]) = Some b -> file_of (root st') (ns ++ [y]) = Some b)).
  { intros st' [-> | ->]; [split; [exact Hfine|auto]|]. split.
    - split; cbn [fst snd ds_root]; [now apply movable_unlink|exact K4].
    - intros y b Hy Hb. cbn [fst ds_root]. rewrite unlink_file; [exact (K2 y b Hb)|]. intros K. apply app_inv_head in K. congruence. }
  exists k, a, w'. split.
  - intros fuel Hfu. rewrite <- (H1 fuel Hfu). symmetry. apply interp_fcall.
  - destruct H2 as [(-> & Hcl & H3 & H4)|(H2 & H3)].
    + destruct (Hafter (view (srv w')) (or_intror H3)) as [J1 J2]. split; [exact J1|]. split; [exact J2|]. left.
      split; [reflexivity|]. split; [now rewrite H3|]. rewrite Hcl. split; [exact C1|]. split; [lia|exact H4].
    + destruct (Hafter (view (srv w')) (visited_once L H3)) as [J1 J2]. split; [exact J1|]. split; [exact J2|]. now right.
Qed.

Lemma post_rest t : forall w : world cifs Sn, ordinary_tree (path_of ns) t -> fine (view (srv w)) ->
  (forall x d, file_of t [x] = Some d -> file_of (root (view (srv w))) (ns ++ [x]) = Some d) ->
  fresh (ds_open (fst (view (srv w)))) < 65536 -> typed_client (cl w) -> link w -> room E (cl w) (copy_calls t + clear_calls t) ->
  exists k got a w', (forall fuel, (k <= fuel)%nat -> run net (empty_each E fuel s (path_of ns) (infos t)) w = Done (got, a) w')
  /\ fine (view (srv w')) /\ (forall x d, In (x, d) got -> file_of t [x] = Some d)
  /\ delivered ns (root (view (srv w))) got (root (view (srv w')))
  /\ ((a = Good tt /\ ds_open (fst (view (srv w'))) = ds_open (fst (view (srv w))) /\ forall x d, file_of t [x] = Some d -> In (x, d) got)
      \/ exists e, a = Bad (ENetBios e)).
Proof.
  induction t as [|x d r IH|x sub _ r IH]; intros w Ho Hfine Hsame Hfr Hc Hw Hr; cbn [infos empty_each d_filename ordinary_tree] in *.
  - exists 0%nat, [], (Good tt), w. split; [reflexivity|]. split; [exact Hfine|]. split; [intros x d []|]. split; [now right|].
    left. split; [reflexivity|]. split; [reflexivity|]. intros x d H. discriminate H.
  - pose proof Ho as (Hx & Hnot & Hsh & Hlen & Hor). rewrite dots_not by exact Hx.
    change (is_directory (mk_dir 0 0 0 0 x (len d) ATTR_NORMAL)) with false. cbn [orb]. cbn [copy_calls clear_calls] in Hr.
    assert (Htx : file_of (AFile x d r) [x] = Some d) by (cbn [file_of]; now rewrite eqb_same).
    assert (Hrest : forall y b, file_of r [y] = Some b -> y <> x /\ file_of (AFile x d r) [y] = Some b).
    { intros y b Hy. assert (Hyx : y <> x) by (intros ->; rewrite no_file in Hy by exact Hnot; discriminate Hy). split; [exact Hyx|].
      cbn [file_of]. rewrite eqb_other; [exact Hy|congruence]. }
    assert (Hinv : forall y b, file_of (AFile x d r) [y] = Some b -> (y = x /\ b = d) \/ file_of r [y] = Some b).
    { intros y b Hy. cbn [file_of] in Hy. destruct (text_eqb x y) eqn:Ex; [|now right]. apply text_eqb_iff in Ex. left. split; congruence. }
    pose proof (Hsame x d Htx) as Hf.
    destruct (@download_others x d w Hx Hsh Hlen Hf Hfine Hfr Hc Hw) as (k1 & a1 & w1 & H1 & Hf1 & Hk1 & [(-> & Hop1 & Hc1 & Hm1 & Hw1)|(e & ->)]).
    { intros Hov. specialize (Hr Hov). lia. }
    + destruct (@delete_others x d w1 Hx Hsh (Hk1 x d Hf) Hf1 Hc1 Hw1) as (k2 & a2 & w2 & H2 & Hf2 & Hk2 & [(-> & Hop2 & Hc2 & Hm2 & Hw2)|(e & ->)]).
      { intros Hov. specialize (Hr Hov). lia. }
      * destruct (IH w2) as (k3 & got & a & w' & H3 & F1 & F2 & F3 & Hres).
        -- exact Hor.
        -- exact Hf2.
        -- intros y b Hy. destruct (Hrest y b Hy) as [Hyx Hty]. apply Hk2; [exact Hyx|]. apply Hk1. now apply Hsame.
        -- rewrite Hop2, Hop1. exact Hfr.
        -- exact Hc2.
        -- exact Hw2.
        -- intros Hov. specialize (Hr Hov). lia.
        -- exists (Nat.max k1 (Nat.max k2 k3)), ((x, d) :: got), a, w'. split; [|split; [exact F1|split; [|split]]].
           ++ intros fuel Hfu. rewrite run_bind, H1 by lia. cbn [obind]. rewrite run_bind, H2 by lia. cbn [obind]. rewrite run_bind, H3 by lia. reflexivity.
           ++ intros y b [[= <- <-]|Hin]; [exact Htx|]. exact (proj2 (Hrest y b (F2 y b Hin))).
           ++ intros y b Hy. destruct (list_eq_dec N.eq_dec y x) as [->|Hyx]; [left; left; congruence|].
              destruct (F3 y b (Hk2 y b Hyx (Hk1 y b Hy))) as [K|K]; [left; now right|now right].
           ++ destruct Hres as [(-> & Hop & Hall)|He]; [left|now right]. split; [reflexivity|]. split; [congruence|].
              intros y b Hy. destruct (Hinv y b Hy) as [[-> ->]|K]; [now left|]. right. now apply Hall.
      * exists (Nat.max k1 k2), [(x, d)], (Bad (ENetBios e)), w2. split; [|split; [exact Hf2|split; [|split; [|right; now exists e]]]].
        -- intros fuel Hfu. rewrite run_bind, H1 by lia. cbn [obind]. rewrite run_bind, H2 by lia. reflexivity.
        -- intros y b [[= <- <-]|[]]. exact Htx.
        -- intros y b Hy. destruct (list_eq_dec N.eq_dec y x) as [->|Hyx]; [left; left; congruence|]. right. exact (Hk2 y b Hyx (Hk1 y b Hy)).
    + exists k1, [], (Bad (ENetBios e)), w1. split; [|split; [exact Hf1|split; [intros y b []|split; [|right; now exists e]]]].
      * intros fuel Hfu. rewrite run_bind, H1 by lia. reflexivity.
      * intros y b Hy. right. exact (Hk1 y b Hy).
  - pose proof Ho as (Hx & Hnot & Hsh & Hl & Hos & Hor).
    change (is_directory (mk_dir 0 0 0 0 x 0 ATTR_DIRECTORY)) with true. rewrite orb_true_r. cbn [copy_calls clear_calls] in Hr.
    apply IH; auto. intros Hov. specialize (Hr Hov). lia.
Qed.

Hypothesis Hshort : short (path_of ns ++ [42]).
Lemma post_gen (w : world cifs Sn) : fine (view (srv w)) -> fresh (ds_open (fst (view (srv w)))) < 65536 ->
  typed_client (cl w) -> link w -> room E (cl w) m ->
  exists got a w', empties net E s ns w (got, a) w' /\ fine (view (srv w'))
  /\ (forall x d, In (x, d) got -> file_of (ds_root (stirred (view (srv w)))) (ns ++ [x]) = Some d)
  /\ delivered ns (root (view (srv w))) got (root (view (srv w')))
  /\ ((a = Good tt /\ ds_open (fst (view (srv w'))) = ds_open (fst (view (srv w)))
       /\ forall x d, file_of (root (view (srv w))) (ns ++ [x]) = Some d -> In (x, d) got)
      \/ exists e, a = Bad (ENetBios e)).
Proof.
  intros Hfine Hfr Hc Hlink Hr.
  destruct (fine_stirred Hfine) as ((t & Hd & Hl & Ho & Hm) & K2 & K3 & K4).
  assert (L : local DS (list_flow 0 s (path_of ns ++ [42])) (cl w) (view (srv w)) 1 (Good (dir_listing t)) (next_client (cl w))
    (stirred (view (srv w)), List.tl (snd (view (srv w))))).
  { unfold list_flow. change 1%nat with (1 + 0)%nat. eapply local_bind.
    - refine (local_call (q := FindFirst s (path_of ns ++ [42])) (r := inl (mk_found 1 true (dir_listing t))) _ _ _ _).
      + split; [now rewrite Hs|]. apply str_app; [now apply str_path|reflexivity].
      + exact I.
      + unfold short in Hshort. cbn [fits_request]. lia.
      + unfold with_others. cbn [op_of]. rewrite Hs.
        rewrite (@tree_listed the_tid setup (stirred (view (srv w))) (uid (cl w)) ns t (path_of ns) Hns Hd Hl Ho). reflexivity.
    - cbn [returned fst snd ff_end ff_info]. constructor. }
  destruct (local_counted L Hc) as [C1 C2].
  destruct (@Hstep _ _ _ _ _ _ _ _ L (strict_list _ _ _) (works_list _ _ _) w eq_refl eq_refl Hc Hlink) as (k & a & w1 & H1 & H2).
  { intros Hov. specialize (Hr Hov). lia. }
  assert (H1' : forall fuel, (k <= fuel)%nat -> run net (list_dir E fuel s (path_of ns ++ [42])) w = Done a w1).
  { intros fuel Hfu. rewrite (list_same E fuel s (path_of ns ++ [42])). eapply run_less; [apply less_list|apply H1; exact Hfu]. lia. }
  destruct H2 as [(-> & Hcl & Hv & Hw)|((e & ->) & Hvis)].
  - destruct (@post_rest t w1 Ho) as (k2 & got & a & w' & H2 & F1 & F2 & F3 & H3).
    + rewrite Hv. split; cbn [fst snd]; [exists t; auto|exact K4].
    + intros x d Hx. rewrite Hv. cbn [fst]. rewrite (file_inside _ ns Hd). exact Hx.
    + rewrite Hv. cbn [fst]. now rewrite K3.
    + now rewrite Hcl.
    + exact Hw.
    + rewrite Hcl. intros Hov. specialize (Hr Hov). lia.
    + rewrite Hv in F3, H3. cbn [fst] in F3, H3. exists got, a, w'. split; [|split; [exact F1|split; [|split]]].
      * exists (Nat.max k k2). intros fuel Hfu. unfold empty_box. rewrite run_bind, H1' by lia. cbn [obind dir_listing empty_each d_filename].
        apply H2. lia.
      * intros x d Hin. rewrite (file_inside _ ns Hd). now apply F2.
      * intros x d Hx. apply F3. exact (K2 x d Hx).
      * destruct H3 as [(-> & Hop & Hall)|He]; [left|now right]. split; [reflexivity|]. split; [now rewrite Hop|].
        intros x d Hx. apply Hall. apply K2 in Hx. rewrite (file_inside _ ns Hd) in Hx. exact Hx.
  - destruct (harmless_others Hvis (harmless_list _ _ _) Hfine) as [J1 J2].
    exists [], (Bad (ENetBios e)), w1. split; [|split; [exact J1|split; [intros x d []|split; [|right; now exists e]]]].
    + exists k. intros fuel Hfu. unfold empty_box. rewrite run_bind, H1' by exact Hfu. reflexivity.
    + intros x d Hx. right. exact (J2 x d Hx).
Qed.
End Gen.

Section Net.
Variable the_tid : N.
Variable setup : server_setup.
Variables Sn Sv : Type.
Variable net : Sn -> bytes -> reaction Sn.
Variable react : Sv -> bytes -> reaction Sv.
Variable inner : Sn -> Sv.
Variable up : Sn -> Prop.
Hypothesis Hnet : unreliable net react inner up.
Variable abs : Sv -> dirs * list (tree -> tree).
Notation DS := (with_others (dir_service the_tid setup)).
Hypothesis conf : conforming react DS abs.
Variable E : env.
Notation view := (fun n => abs (inner n)).
Notation linked := (linked up).

Lemma step_any A (f : flow A) c st n r c' st' : local DS f c st n r c' st' -> strict f ->
  forall w : world cifs Sn, cl w = c -> view (srv w) = st -> typed_client c -> linked w -> room E c n ->
  exists k a w', (forall fuel, (k <= fuel)%nat -> run net (interp E fuel f) w = Done a w')
  /\ ((a = r /\ cl w' = c' /\ view (srv w') = st' /\ linked w')
      \/ ((exists e, a = Bad (ENetBios e)) /\ visited DS f c st (view (srv w')))).
Proof. exact (@step_service Sn Sv net react inner up _ DS abs E Hnet conf A f c st n r c' st'). Qed.

Variable ns : list text.
Hypothesis Hns : Forall a_name ns.
Variable m : nat.
Variable s : share.
Hypothesis Hu : u16 the_tid.
Hypothesis Hs : sh_tid s = the_tid.
Hypothesis Hshort : short (path_of ns ++ [42]).
Notation fine := (fine ns m).
Notation root st := (ds_root (fst st)).
Lemma post_linked (w : world cifs Sn) : fine (view (srv w)) -> fresh (ds_open (fst (view (srv w)))) < 65536 ->
  typed_client (cl w) -> linked w -> room E (cl w) m ->
  exists got a w', empties net E s ns w (got, a) w' /\ fine (view (srv w'))
  /\ (forall x d, In (x, d) got -> file_of (ds_root (stirred (view (srv w)))) (ns ++ [x]) = Some d)
  /\ delivered ns (root (view (srv w))) got (root (view (srv w')))
  /\ ((a = Good tt /\ ds_open (fst (view (srv w'))) = ds_open (fst (view (srv w)))
       /\ forall x d, file_of (root (view (srv w))) (ns ++ [x]) = Some d -> In (x, d) got)
      \/ exists e, a = Bad (ENetBios e)).
Proof.
  refine (@post_gen the_tid setup Sn net view E linked _ ns Hns m s Hu Hs Hshort w).
  intros A f c st n r c' st' L Hst _. exact (step_any L Hst).
Qed.
Lemma post_once (w : world cifs Sn) : post_ready E up the_tid view ns m w s ->
  exists got a w', empties net E s ns w (got, a) w' /\ fine (view (srv w'))
  /\ (forall x d, In (x, d) got -> file_of (ds_root (stirred (view (srv w)))) (ns ++ [x]) = Some d)
  /\ delivered ns (root (view (srv w))) got (root (view (srv w')))
  /\ ((a = Good tt /\ ds_open (fst (view (srv w'))) = ds_open (fst (view (srv w)))
       /\ forall x d, file_of (root (view (srv w))) (ns ++ [x]) = Some d -> In (x, d) got)
      \/ exists e, a = Bad (ENetBios e)).
Proof.
  intros [[Hmov ((Hc & Hi & Hup & _ & _ & Hr) & Hfr)] Hdec]. apply post_linked; auto; [now split|left; now split].
Qed.
End Net.

(** any number of runs *)
Section Rounds.
Variable the_tid : N.
Variable setup : server_setup.
Variables Sn Sv : Type.
Variable net : Sn -> bytes -> reaction Sn.
Variable react : Sv -> bytes -> reaction Sv.
Variable inner : Sn -> Sv.
Variable up : Sn -> Prop.
Hypothesis Hnet : unreliable net react inner up.
Variable abs : Sv -> dirs * list (tree -> tree).
Hypothesis conf : conforming react (with_others (dir_service the_tid setup)) abs.
Variable E : env.
Notation view := (fun n => abs (inner n)).
Variable ns : list text.
Hypothesis Hns : Forall a_name ns.
Hypothesis Hshort : short (path_of ns ++ [42]).
Lemma post_often m seen got l R R' : rounds net E (fun n => fst (view n)) (post_ready E up the_tid view ns m) ns seen got l R R' ->
  delivered ns R got R' /\ (forall T, In T seen -> delivered ns T got R')
  /\ (forall a, In a l -> a = Good tt \/ exists e, a = Bad (ENetBios e)).
Proof.
  induction 1 as [R|seen got l R R1 R' Hk _ IH|w s new a w' seen got l R' Hrd Hrun _ IH].
  - split; [now right|]. split; [intros T []|intros a []].
  - destruct IH as (I1 & I2 & I3). split; [|split; [exact I2|exact I3]]. intros x d Hx. exact (I1 x d (Hk x d Hx)).
  - destruct IH as (I1 & I2 & I3). pose proof Hrd as ((_ & ((_ & _ & _ & Hu & Hs & _) & _)) & _).
    assert (Hu' : u16 the_tid) by now rewrite <- Hs.
    destruct (@post_once the_tid setup _ _ net react inner up Hnet abs conf E ns Hns m s Hu' Hs Hshort w Hrd) as (new' & b & v & H1 & _ & _ & F & H2).
    destruct (empties_same Hrun H1) as [[= -> ->] ->].
    assert (Hfirst : delivered ns (ds_root (fst (view (srv w)))) (new' ++ got) R').
    { intros x d Hx. destruct (F x d Hx) as [K|K]; [left; apply in_or_app; now left|].
      destruct (I1 x d K) as [J|J]; [left; apply in_or_app; now right|now right]. }
    split; [exact Hfirst|]. split.
    + intros T [<-|HT]; [exact Hfirst|]. intros x d Hx. destruct (I2 T HT x d Hx) as [J|J]; [left; apply in_or_app; now right|now right].
    + intros c [<-|Hin]; [|now apply I3]. destruct H2 as [(-> & _)|H2]; [now left|now right].
Qed.
End Rounds.

(** putting a file there *)
Lemma post_decent ns m x d : a_name x -> short (path_of ns ++ x) -> len d < 2 ^ 64 -> decent ns m (post ns m x d).
Proof.
  intros Hx Hsh Hlen R (t & Hd & Hl & Ho & Hm). unfold post. rewrite Hd.
  destruct (negb (existsb (text_eqb x) (entry_names t))) eqn:E1; [|split; [exists t; auto|apply keeps_refl]].
  destruct (N.ltb_spec (len (write_entries (dir_listing (AFile x d t)))) 65400) as [E2|E2]; [|split; [exists t; auto|apply keeps_refl]].
  destruct (Nat.leb_spec (2 + copy_calls (AFile x d t) + clear_calls (AFile x d t)) m) as [E3|E3]; [|split; [exists t; auto|apply keeps_refl]].
  assert (Hnot : ~ In x (entry_names t)).
  { intros K. apply negb_true_iff in E1. rewrite <- not_true_iff_false in E1. apply E1. apply existsb_exists. exists x. split; [exact K|apply eqb_same]. }
  cbn [andb]. split.
  - exists (AFile x d t). split; [exact (put_dir R ns _ Hd)|]. split; [exact E2|]. split; [|exact E3]. cbn [ordinary_tree]. auto.
  - intros y b Hy. rewrite (file_inside _ ns (put_dir R ns _ Hd)). rewrite (file_inside _ ns Hd) in Hy. cbn [file_of].
    rewrite eqb_other; [exact Hy|]. intros <-. rewrite no_file in Hy by exact Hnot. discriminate Hy.
Qed.
