(** * RepeatFacts: a deletion that is repeated on other connections (C114) *)
From Coq Require Import Lia.
From Verif Require Import Base BaseFacts Text Win Errors Common Reply Ntlm Prog Client Spec SpecReply SpecMsg Api SpecCall MsgFacts SizeFacts Flow FlowFacts
  SpecRemote RemoteFacts FileService FileFacts RunFacts ListFacts FateFacts SpecWild WildFacts SpecCutoff CutoffFacts SpecRepeat.
Open Scope N_scope.

Section Repeat.
Variables Sn Sv St : Type.
Variable net : Sn -> bytes -> reaction Sn.
Variable react : Sv -> bytes -> reaction Sv.
Variable inner : Sn -> Sv.
Variable up : Sn -> Prop.
Hypothesis Hnet : unreliable net react inner up.
Variable B : service St.
Variable abs : Sv -> St.
Hypothesis conf : conforming react B abs.
Variable has : St -> N -> text -> Prop.
Hypothesis wild : deletes_files B has.
Variable E : env.
Variable path : text.

Notation ready := (in_order E up path).

(** one of them *)
Lemma delete_attempt w s : is_str path -> ready w s ->
  exists n a w', (forall fuel, (n <= fuel)%nat -> run net (delete E fuel s path) w = Done a w')
  /\ ((a = returned (fst (B unit (uid (cl w)) (ODelete (sh_tid s) (backslashes path)) (abs (inner (srv w)))))
       /\ abs (inner (srv w')) = snd (B unit (uid (cl w)) (ODelete (sh_tid s) (backslashes path)) (abs (inner (srv w)))))
    \/ ((exists e, a = Bad (ENetBios e))
       /\ (abs (inner (srv w')) = abs (inner (srv w))
           \/ abs (inner (srv w')) = snd (B unit (uid (cl w)) (ODelete (sh_tid s) (backslashes path)) (abs (inner (srv w))))))).
Proof.
  intros Hp (Ht & Hi & Hu & Hts & Hf & Hr).
  destruct (@cutoff_call _ _ _ net react inner up Hnet B abs conf E unit (Delete s path) w Ht Hi Hu)
    as (n & a & w' & Hrun & _ & H).
  - now split.
  - exact I.
  - exact Hf.
  - intros [Ho Hm]. specialize (Hr Ho). lia.
  - exists n, a, w'. split; [exact Hrun|]. destruct H as [(H1 & H2 & _)|[(H1 & H2 & _)|(H1 & H2 & _)]]; auto.
Qed.
Lemma delete_done w s fuel a w' : is_str path -> ready w s -> run net (delete E fuel s path) w = Done a w' ->
     (a = returned (fst (B unit (uid (cl w)) (ODelete (sh_tid s) (backslashes path)) (abs (inner (srv w)))))
       /\ abs (inner (srv w')) = snd (B unit (uid (cl w)) (ODelete (sh_tid s) (backslashes path)) (abs (inner (srv w)))))
    \/ ((exists e, a = Bad (ENetBios e))
       /\ (abs (inner (srv w')) = abs (inner (srv w))
           \/ abs (inner (srv w')) = snd (B unit (uid (cl w)) (ODelete (sh_tid s) (backslashes path)) (abs (inner (srv w)))))).
Proof.
  intros Hp Ho Hrun. destruct (delete_attempt w s Hp Ho) as (n & a1 & w1 & H1 & H2).
  assert (H3 : run net (delete E (Nat.max n fuel) s path) w = Done a w').
  { rewrite <- Hrun. change (delete E fuel s path) with (exec E fuel (Delete s path)). change (delete E (Nat.max n fuel) s path) with (exec E (Nat.max n fuel) (Delete s path)).
    apply ple_run; [apply call_mono; lia|]. intros v. cbn [exec]. rewrite Hrun. discriminate. }
  rewrite H1 in H3 by lia. injection H3 as <- <-. exact H2.
Qed.

Variable name : text.
Hypothesis Hname : terminated (backslashes path) name.
Definition gone (tid : N) (st st' : St) : Prop :=
  forall t q, (has st' t q -> has st t q) /\ (has st t q -> has st' t q \/ (t = tid /\ denotes name q)).
Lemma gone_refl tid st : gone tid st st.
Proof. intros t q. auto. Qed.
Lemma gone_trans tid a b c : gone tid a b -> gone tid b c -> gone tid a c.
Proof. intros H1 H2 t q. destruct (H1 t q) as [A1 A2], (H2 t q) as [B1 B2]. split; [auto|]. intros H. destruct (A2 H) as [K|K]; auto. Qed.
Lemma service_gone who tid st : gone tid st (snd (B unit who (ODelete tid (backslashes path)) st)).
Proof.
  pose proof (wild who tid _ _ st Hname) as K. destruct (B unit who _ st) as [[v|e] st'] eqn:Eb; cbn [snd]; [|exact K].
  intros t q. destruct K as [_ K]. rewrite K. split; [tauto|]. intros H.
  assert (D : (t = tid /\ denotes name q) \/ ~ (t = tid /\ denotes name q)).
  { pose proof (stands_for_ok name q) as D. destruct (N.eq_dec t tid), (stands_for name q); intuition discriminate. }
  tauto.
Qed.
Notation view := (fun n => abs (inner n)).
(** what one attempt does *)
Lemma attempt_gone w s fuel a w' : is_str path -> ready w s -> run net (delete E fuel s path) w = Done a w' ->
  gone (sh_tid s) (view (srv w)) (view (srv w'))
  /\ (a = Good tt -> (exists q, has (view (srv w)) (sh_tid s) q /\ denotes name q) /\ forall q, denotes name q -> ~ has (view (srv w')) (sh_tid s) q)
  /\ (willing B has -> (forall e, a <> Bad (ENetBios e)) -> forall q, denotes name q -> ~ has (view (srv w')) (sh_tid s) q).
Proof.
  intros Hp Ho Hrun. pose proof (delete_done w s fuel a w' Hp Ho Hrun) as H.
  pose proof (service_gone (uid (cl w)) (sh_tid s) (view (srv w))) as G. pose proof (wild (uid (cl w)) (sh_tid s) _ _ (view (srv w)) Hname) as K.
  pose proof (fun Hw : willing B has => Hw (uid (cl w)) (sh_tid s) _ _ (view (srv w)) Hname) as W. cbv beta in *.
  destruct (B unit (uid (cl w)) (ODelete (sh_tid s) (backslashes path)) (abs (inner (srv w)))) as [r st1] eqn:Eb. cbn [fst snd] in *.
  destruct H as [(Ha & Hs)|((e & Ha) & Hs)].
  - rewrite Hs. split; [exact G|]. destruct r as [[]|e]; cbn [returned] in Ha; subst a.
    + destruct K as [K1 K2]. assert (K3 : forall q, denotes name q -> ~ has st1 (sh_tid s) q) by (intros q Hq Hh; apply K2 in Hh; tauto). auto.
    + split; [discriminate|]. intros Hw _ q Hq Hh. destruct (W Hw) as (st2 & Hst); [|discriminate Hst]. exists q. split; [apply K; exact Hh|exact Hq].
  - subst a. split; [destruct Hs as [-> | ->]; [apply gone_refl|exact G]|]. split; [discriminate|]. intros _ He. destruct (He e eq_refl).
Qed.
Theorem deletions_repeated tid l st st' : is_str path -> deletions net E view ready tid path l st st' ->
  gone tid st st'
  /\ (In (Good tt) l -> (exists q, has st tid q /\ denotes name q) /\ forall q, denotes name q -> ~ has st' tid q)
  /\ (forall l1 l2, l = l1 ++ Good tt :: l2 -> ~ In (Good tt) l2)
  /\ (willing B has -> forall a, In a l -> (forall e, a <> Bad (ENetBios e)) -> forall q, denotes name q -> ~ has st' tid q).
Proof.
  intros Hp H. induction H as [st|w s fuel a w' l st' Hr Ht Hrun Hd (I1 & I2 & I3 & I4)].
  - split; [apply gone_refl|]. split; [intros []|]. split; [intros [|x l1] l2 H; discriminate H|]. intros _ a [].
  - destruct (attempt_gone w s fuel a w' Hp Hr Hrun) as (A1 & A2 & A3). rewrite Ht in *. cbv beta in *.
    assert (Hback : forall q, ~ has (abs (inner (srv w'))) tid q -> ~ has st' tid q) by (intros q Hn Hh; apply Hn, I1, Hh).
    split; [exact (gone_trans _ _ _ _ A1 I1)|]. split; [|split].
    + intros [-> |Hin].
      * destruct (A2 eq_refl) as (A4 & A5). split; [exact A4|]. auto.
      * destruct (I2 Hin) as ((q & Hq & Hd') & I6). split; [|exact I6]. exists q. split; [apply A1, Hq|exact Hd'].
    + intros [|x l1] l2 He; injection He as -> He.
      * intros Hin. rewrite <- He in Hin. destruct (I2 Hin) as ((q & Hq & Hd') & _). destruct (A2 eq_refl) as (_ & A5). exact (A5 q Hd' Hq).
      * exact (I3 l1 l2 He).
    + intros Hw b [-> |Hin] Hb q Hq; [apply Hback; exact (A3 Hw Hb q Hq)|exact (I4 Hw b Hin Hb q Hq)].
Qed.
End Repeat.

(** a path that names one file *)
Theorem deletions_one Sn Sv St (net : Sn -> bytes -> reaction Sn) (react : Sv -> bytes -> reaction Sv) inner up (B : service St) abs has E tid path l st st' :
  unreliable net react inner up -> conforming react B abs -> deletes_files B has -> is_str path -> ~ In 0 path -> no_wildcard (backslashes path) ->
  deletions net E (fun n => abs (inner n)) (in_order E up path) tid path l st st' ->
  (forall t q, (t, q) <> (tid, backslashes path) -> (has st' t q <-> has st t q))
  /\ (has st' tid (backslashes path) -> has st tid (backslashes path))
  /\ (In (Good tt) l -> has st tid (backslashes path) /\ ~ has st' tid (backslashes path))
  /\ (forall l1 l2, l = l1 ++ Good tt :: l2 -> ~ In (Good tt) l2)
  /\ (willing B has -> forall a, In a l -> (forall e, a <> Bad (ENetBios e)) -> ~ has st' tid (backslashes path)).
Proof.
  intros H1 H2 H3 Hp H0 Hw H.
  destruct (deletions_repeated _ _ _ net react inner up H1 B abs H2 has H3 E path _ (no_nul path H0) tid l st st' Hp H) as (I1 & I2 & I3 & I4).
  pose proof (proj2 (denotes_plain _ (backslashes path) Hw) eq_refl) as Hself.
  split; [|split; [|split; [|split]]].
  - intros t q Hn. destruct (I1 t q) as [A B']. split; [exact A|]. intros Hh. destruct (B' Hh) as [K|[-> K]]; [exact K|].
    apply (denotes_plain _ q Hw) in K. subst q. destruct (Hn eq_refl).
  - apply I1.
  - intros Hin. destruct (I2 Hin) as ((q & Hq & Hd) & K). apply (denotes_plain _ q Hw) in Hd. subst q. auto.
  - exact I3.
  - intros HB a Ha He. exact (I4 HB a Ha He _ Hself).
Qed.
(** the services of C89 are willing *)
Lemma wild_willing tree setup accepts : willing (wild_service tree setup accepts) has_file.
Proof.
  intros who tid path name st Hn (q & (d & Hin) & Hq). cbn [wild_service].
  replace (existsb (struck tid path) (fs_files st)) with true; [eexists; reflexivity|]. symmetry. apply existsb_exists. exists (tid, q, d). split; [exact Hin|].
  unfold struck. cbn [fst snd]. rewrite (before_nul_ok _ _ Hn), N.eqb_refl. apply stands_for_ok, Hq.
Qed.
