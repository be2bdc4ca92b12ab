(** * StormFacts: clients copying and removing directory trees over connections that may break (C126) *)
From Verif Require Import Base Text Win Errors Common Reply Ntlm Prog Client Spec SpecReply SpecMsg Api SpecCall BaseFacts TextFacts
  RunFacts MsgFacts SizeFacts ReqFacts CallFacts FindFacts Flow FlowFacts SpecRemote RemoteFacts RefServer FileService FileFacts SpecPool PoolFacts PoolFileFacts
  SpecCutoff SpecOutage OutageFacts OutageFileFacts SpecHalf HalfFacts SpecTree TreeFacts SpecRemoval RemovalFacts SpecRemovers RemoversFacts SpecBusy BusyFacts.
Open Scope N_scope.
Set Implicit Arguments.

Lemma strict_view A (f : flow A) : strict f ->
  match f with FCall _ k => (forall e, k (Bad e) = FRet (Bad e)) /\ (forall a, strict (k a)) | _ => True end.
Proof.
  intros [a| | |R q k H1 H2|k H|u f' H|m u f' H]; auto. split; [exact H1|]. intros [y|e]; [apply H2|]. rewrite H1. constructor.
Qed.
Lemma strict_job fuel n j s ns : strict (job_flow fuel n j s ns).
Proof.
  destruct j; cbn [job_flow]; [apply harmless_copy|]. apply strict_bind; [apply strict_clear|]. intros u. constructor.
Qed.

Section Pool.
Variable the_tid : N.
Variable setup : server_setup.
Notation DS := (dir_service the_tid setup).
Variable E : env.
Variable fuel depths n : nat.
Variable jobs : nat -> job.
Variable sh : nat -> share.
Variable ns : nat -> list text.
Variable g0 : nat -> flow tree * cifs.
Variable st0 : dirs.
Hypothesis Honce : names_once (ds_root st0).
Variable t : nat -> tree.
Hypothesis Hjobs : forall i, (i < n)%nat -> fst (g0 i) = job_flow fuel depths (jobs i) (sh i) (ns i)
  /\ u16 (sh_tid (sh i)) /\ sh_tid (sh i) = the_tid /\ Forall a_name (ns i) /\ short (path_of (ns i) ++ [42])
  /\ dir_at (ds_root st0) (ns i) = Some (t i) /\ listable (t i) /\ ordinary_tree (path_of (ns i)) (t i) /\ (depth (t i) < depths)%nat
  /\ (most_reads (t i) < fuel)%nat /\ room E (snd (g0 i)) (1 + job_calls (jobs i) (t i)).
Hypothesis Hothers : forall i, (n <= i)%nat -> exists a, fst (g0 i) = FRet a.
Notation reached := (reached jobs ns t).
Notation does := (does jobs ns).

Definition carries_on (i : nat) (x : flow tree * cifs * bool) (o : own) (R : tree) : Prop :=
  (strict (fst (fst x)) /\ proceeds the_tid setup E jobs ns t i (fst x) o R)
  \/ (exists e, fst (fst x) = FRet (Bad (ENetBios e))) /\ snd x = false /\ o = None.
Definition all_carry_on (h : nat -> flow tree * cifs * bool) (st : dirs) : Prop :=
  names_once (ds_root st) /\ pruned (ds_root st0) (ds_root st)
  /\ (forall p, ~ removed_in n jobs ns p ->
        file_of (ds_root st) p = file_of (ds_root st0) p /\ (dir_at (ds_root st) p = None <-> dir_at (ds_root st0) p = None))
  /\ (exists ow : nat -> own,
        (forall i, (i < n)%nat -> carries_on i (h i) (ow i) (ds_root st) /\ holds (ow i) (ds_open st))
        /\ (forall i j f p p', (i < n)%nat -> (j < n)%nat -> i <> j -> ow i = Some (f, p) -> ow j <> Some (f, p'))
        /\ (forall f p, open_path (ds_open st0) f = Some p -> open_path (ds_open st) f = Some p /\ forall i p', (i < n)%nat -> ow i <> Some (f, p')))
  /\ (forall i, (n <= i)%nat -> exists a, fst (fst (h i)) = FRet a).
Definition online_all : nat -> flow tree * cifs * bool := fun i => (g0 i, true).
Lemma storm_start : all_carry_on online_all st0.
Proof.
  destruct (@working_start the_tid setup E fuel depths n jobs sh ns g0 st0 Honce t Hjobs Hothers) as (H1 & H2 & H3 & (ow & H4 & H5 & H6) & H7).
  split; [exact H1|]. split; [exact H2|]. split; [exact H3|]. split; [|exact H7].
  exists ow. split; [|split; [exact H5|exact H6]]. intros i Hi. destruct (H4 i Hi) as [K1 K2]. split; [|exact K2]. left. split; [|exact K1].
  cbn [online_all fst]. rewrite (proj1 (Hjobs Hi)). apply strict_job.
Qed.
Lemma storm_step h st i b x st' : all_carry_on h st -> goes DS (h i) st b x st' -> all_carry_on (upd h i x) st'.
Proof.
  intros (H1 & H2 & H4 & (ow & H5 & HD & HI) & H6) Ha.
  destruct (Nat.lt_ge_cases i n) as [Hi|Hi].
  2:{ exfalso. destruct (H6 i Hi) as [a Hr]. apply goes_view in Ha. now rewrite Hr in Ha. }
  destruct (H5 i Hi) as (Hc & Hh). destruct (h i) as [[f c] on] eqn:Ehi.
  assert (Hstep : exists o', (does i (ds_root st) (ds_root st') \/ ds_root st' = ds_root st)
     /\ (holds o' (ds_open st') /\ (forall f p, open_path (ds_open st) f = Some p -> (forall p', ow i <> Some (f, p')) -> open_path (ds_open st') f = Some p)
         /\ (forall f p, o' = Some (f, p) -> ow i = Some (f, p) \/ open_path (ds_open st) f = None)) /\ carries_on i x o' (ds_root st')).
  { apply goes_view in Ha. cbn [fst snd] in Ha. destruct Hc as [(Hs & m & Hm & Hrm)|((e & He) & _)].
    2:{ cbn [fst] in He. rewrite He in Ha. contradiction. }
    cbn [fst snd] in Hs, Hm, Hrm.
    destruct f as [a| | |X q k|k|u k|mm u k]; cbn [working] in Hm; try contradiction.
    destruct m as [|m]; [contradiction|]. destruct Hm as (_ & _ & _ & Hm). destruct (strict_view Hs) as [S1 S2].
    destruct (Hm (uid c) st H1 (pruned_refl _) Hh) as (o' & (K1 & K1' & K1'') & K2 & K3).
    destruct Ha as (a & o & -> & [(-> & ->)|((e & ->) & -> & [->| ->])]).
    - exists o'. split; [now left|]. split; [auto|]. left. cbn [fst]. split; [apply S2|]. exists m. split; [exact K3|]. cbn [snd]. now apply room_one.
    - exists None. split; [now right|]. split; [split; [exact I|]; split; [auto|discriminate]|]. right. cbn [fst snd]. rewrite S1. eauto.
    - exists None. split; [now left|]. split; [split; [exact I|]; split; [exact K1|discriminate]|]. right. cbn [fst snd]. rewrite S1. eauto. }
  destruct Hstep as (o' & Hdo & (HL2 & HL1 & HL3) & Hgo).
  assert (G1 : pruned (ds_root st) (ds_root st')).
  { destruct Hdo as [Hdo|Hdo]; [exact (@does_pruned jobs ns i _ _ Hdo)|rewrite Hdo; apply pruned_refl]. }
  split; [exact (pruned_once G1 H1)|]. split; [exact (pruned_trans H2 G1)|]. split; [|split].
  - intros p Hp. destruct (H4 p Hp) as [K1 K2]. destruct Hdo as [Hdo|Hdo]; [|rewrite Hdo; auto].
    unfold BusyFacts.does in Hdo. destruct (jobs i) eqn:Ej; [rewrite <- Hdo; auto|].
    destruct Hdo as (_ & G2 & _). destruct (G2 p) as [L1 L2]; [|split; [congruence|tauto]].
    destruct (below (ns i) p) eqn:Eb; [|reflexivity]. destruct Hp. exists i. auto.
  - exists (upd ow i o'). split; [|split].
    + intros j Hj. destruct (Nat.eq_dec j i) as [->|Hji]; [rewrite !upd_same; auto|rewrite !upd_other by exact Hji].
      destruct (H5 j Hj) as (Hcj & K3). split.
      * destruct Hcj as [(S & mj & K1 & K2)|Hcj]; [left|now right]. split; [exact S|]. exists mj. split; [|exact K2].
        apply working_keep with (R := ds_root st); [apply reached_steady|exact H1|exact G1|exact K1].
      * destruct (ow j) as [[f' p']|] eqn:Ej; [|exact I]. cbn [holds] in *. apply HL1; [exact K3|].
        intros p'' Hp''. exact (HD i j f' p'' p' Hi Hj (not_eq_sym Hji) Hp'' Ej).
    + intros a b' f' p p' Ha' Hb' Hab. destruct (Nat.eq_dec a i) as [->|Hai].
      * rewrite upd_same, upd_other by congruence. intros Ho' Hob. destruct (HL3 f' p Ho') as [K|K].
        -- exact (HD i b' f' p p' Hi Hb' Hab K Hob).
        -- destruct (H5 b' Hb') as [_ K3]. rewrite Hob in K3. cbn [holds] in K3. congruence.
      * rewrite (upd_other _ _ Hai). intros Hoa. destruct (Nat.eq_dec b' i) as [->|Hbi].
        -- rewrite upd_same. intros Ho'. destruct (HL3 f' p' Ho') as [K|K].
           ++ exact (HD a i f' p p' Ha' Hi Hab Hoa K).
           ++ destruct (H5 a Ha') as [_ K3]. rewrite Hoa in K3. cbn [holds] in K3. congruence.
        -- rewrite (upd_other _ _ Hbi). exact (HD a b' f' p p' Ha' Hb' Hab Hoa).
    + intros f' p Hp. destruct (HI f' p Hp) as [K1 K2]. split; [apply HL1; [exact K1|]; intros p'; now apply K2|].
      intros j p' Hj. destruct (Nat.eq_dec j i) as [->|Hji]; [rewrite upd_same|rewrite upd_other by exact Hji; now apply K2].
      intros Ho'. destruct (HL3 f' p' Ho') as [K|K]; [exact (K2 i p' Hi K)|congruence].
  - intros j Hj. rewrite upd_other by lia. now apply H6.
Qed.
Lemma storm_all l h st : goings (fun _ => DS) online_all st0 l h st -> all_carry_on h st.
Proof. intros H. apply (goings_invariant all_carry_on H storm_start). exact storm_step. Qed.
Lemma storm_sensible : sensible_off E (fun _ => DS) online_all st0.
Proof.
  intros l h st H i. destruct (storm_all H) as (H1 & H2 & H4 & (ow & H5 & _) & H6).
  destruct (Nat.lt_ge_cases i n) as [Hi|Hi].
  2:{ destruct (H6 i Hi) as [a Hr]. unfold can_call. rewrite Hr. exact I. }
  destruct (H5 i Hi) as (Hc & _). unfold can_call. destruct (h i) as [[f c] on].
  destruct Hc as [(_ & m & Hm & Hrm)|((e & He) & _)]; cbn [fst snd] in *; [|rewrite He; exact I].
  destruct f as [a| | |X q k|k|u k|mm u k]; cbn [working] in Hm; try contradiction; auto.
  destruct m as [|m]; [contradiction|]. destruct Hm as (K1 & K2 & K3 & _). split; [exact K1|]. split; [exact K2|]. split; [apply K3|].
  intros Ho. specialize (Hrm Ho). lia.
Qed.
Lemma storm_end l h st i : goings (fun _ => DS) online_all st0 l h st -> (i < n)%nat ->
  match fst (fst (h i)) with
  | FRet a => (exists o, reached i a o (ds_root st)) \/ (exists e, a = Bad (ENetBios e)) /\ snd (h i) = false
  | FPanic | FFuel => False
  | _ => True
  end.
Proof.
  intros H Hi. destruct (storm_all H) as (_ & _ & _ & (ow & H5 & _) & _). destruct (H5 i Hi) as (Hc & _).
  destruct Hc as [(_ & m & Hm & _)|((e & He) & Ho & _)]; [|rewrite He; eauto].
  destruct (fst (fst (h i))) as [a| | |X q k|k|u k|mm u k]; cbn [working] in Hm; eauto.
Qed.
End Pool.

Section Storm.
Variable the_tid : N.
Variable setup : server_setup.
Notation DS := (dir_service the_tid setup).
Variables Sn Sv : Type.
Variable net : nat -> Sn -> bytes -> reaction Sn.
Variable inner : Sn -> Sv.
Variable up : nat -> Sn -> Prop.
Variable react : nat -> Sv -> bytes -> reaction Sv.
Variable abs : Sv -> dirs.
Hypothesis Hnet : outages net react inner up.
Hypothesis conf : forall i, conforming (react i) DS abs.
Variable E : env.
Variable fuel depths : nat.
Hypothesis enough : ample net fuel.
Variable n : nat.
Variable jobs : nat -> job.
Variable sh : nat -> share.
Variable ns : nat -> list text.
Variable g : nat -> proc tree.
Variable s : Sn.
Notation root n := (ds_root (abs (inner n))).
Hypothesis Honce : names_once (root s).
Hypothesis Hstart : forall i, (i < n)%nat -> worker E fuel depths the_tid (root s) (g i) (jobs i) (sh i) (ns i).
Hypothesis Hrest : forall i, (n <= i)%nat -> (exists a, p_prog (g i) = Ret a) /\ p_rx (g i) = [] /\ p_tl (g i) = Open /\ typed_client (p_cl (g i)).
Notation wf := (wflows fuel depths n jobs sh ns g).
Notation there := (what_there abs ns (inner s)).
Theorem storm l g' s' : (forall i, up i s) -> steps net g s l g' s' ->
  (forall i, (i < n)%nat -> match p_prog (g' i) with
    | Ret (Good t) => match jobs i with
                      | Copy => copy_between (ns i) (root s) (root s') t
                      | Remove => gone (ns i) (root s')
                      end
    | Ret (Bad e) => (exists x, e = ServerError x) \/ (exists x, e = ENetBios x) /\ ~ up i s'
    | Panicked | OutOfFuel => False | _ => True end)
  /\ (forall i, (i < n)%nat -> ended (g' i) = false -> exists b p s'', moves (net i) (g' i) s' b p s'')
  /\ (forall p, ~ removed_in n jobs ns p -> file_of (root s') p = file_of (root s) p /\ (dir_at (root s') p = None <-> dir_at (root s) p = None))
  /\ (forall p, (file_of (root s') p = None \/ file_of (root s') p = file_of (root s) p) /\ (dir_at (root s') p = None \/ dir_at (root s) p <> None))
  /\ still_open (ds_open (abs (inner s))) (ds_open (abs (inner s'))).
Proof.
  intros Hup H.
  pose proof (@wflows_jobs the_tid Sv abs E fuel depths n jobs sh ns g (inner s) Hstart Hrest) as HJ. pose proof (@wflows_others the_tid Sv abs E fuel depths n jobs sh ns g (inner s) Hstart Hrest) as HO.
  pose proof (@storm_sensible the_tid setup E fuel depths n jobs sh ns wf (abs (inner s)) Honce there HJ HO) as Hsens.
  destruct (@simulates _ _ _ _ net react inner up (fun _ => DS) abs Hnet conf E fuel enough (online_all wf) (abs (inner s)) Hsens _ _ _ _ _ H eq_refl) as (h & Hser & Hf).
  { intros i. destruct (@wflows_start the_tid Sv abs E fuel depths n jobs sh ns g (inner s) Hstart Hrest i) as [W1 W2]. split; [now apply starts_follow|exact (Hup i)]. }
  split; [|split].
  - intros i Hi.
    destruct (@finishes _ _ _ _ net react inner up (fun _ => DS) abs Hnet conf E fuel enough (online_all wf) (abs (inner s)) Hsens n s' g' l h Hser Hf) as (h' & Hser' & Hf' & Hfin).
    specialize (Hfin i Hi).
    pose proof (@storm_end the_tid setup E fuel depths n jobs sh ns wf (abs (inner s)) Honce there HJ HO _ _ _ i Hser' Hi) as He.
    destruct (HJ i Hi) as (_ & _ & _ & _ & _ & W & _). destruct (Hf' i) as [_ Hon].
    unfold finished in Hfin. destruct (p_prog (g' i)) as [[t'|e]| | | | | |]; auto; rewrite Hfin in He; cbn [fst] in He; auto;
      (destruct He as [(o & He)|((e' & He) & Hoff)]; [unfold reached in He|]); try discriminate He.
    + destruct (jobs i).
      * destruct He as [_ He]. destruct (He t' eq_refl) as (_ & K2 & K3). exact (@between_copied (ns i) _ _ _ _ Honce W K2 K3).
      * destruct He as [_ He]. exact (proj2 (He t' eq_refl)).
    + left. destruct (jobs i); destruct He as [He _]; exact (He e eq_refl).
    + right. injection He as ->. split; [eauto|]. rewrite Hoff in Hon. exact Hon.
  - intros i Hi He. destruct (Hf i) as [Hf1 Hf2].
    exact (@progresses _ _ _ _ net react inner up (fun _ => DS) abs Hnet conf E fuel enough (online_all wf) (abs (inner s)) Hsens s' (g' i) i l h Hser Hf1 Hf2 He).
  - destruct (@storm_all the_tid setup E fuel depths n jobs sh ns wf (abs (inner s)) Honce there HJ HO _ _ _ Hser)
      as (H1 & H2 & H4 & (ow & _ & _ & H5) & _). split; [exact H4|]. split.
    + intros p. split; [exact (pruned_files H2 Honce p)|].
      destruct (pruned_dirs H2 Honce p) as [K|(u & u' & K & _)]; [now left|]. right. rewrite K. discriminate.
    + intros f p Hp. exact (proj1 (H5 f p Hp)).
Qed.
End Storm.
