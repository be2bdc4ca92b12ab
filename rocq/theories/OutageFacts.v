(** * OutageFacts: several clients at one server, over connections that may break *)
From Coq Require Import Lia.
From Verif Require Import Base BaseFacts Text Win Errors Common Reply Ntlm Prog Client Spec SpecReply SpecCrash SpecNtlm SpecMsg
  Api SpecCall Flow SpecFault SpecBlame SpecLogin SizeFacts SpecWhy SpecFate SpecFacts ClientFacts MsgFacts ReplyFacts CollectFacts CallFacts FindFacts FlowFacts
  FaultFacts WhyFacts FateFacts RunFacts AnswerFacts LoopFacts EndFacts SpecRemote RemoteFacts ShareFacts FileFacts SpecLost LostFacts SpecCutoff CutoffFacts SpecPool PoolFacts SpecOutage.
Open Scope N_scope.
Set Implicit Arguments.

(** ** the bound of the loops *)
Section Bound.
Variable Sv : Type.
Variable react : Sv -> bytes -> reaction Sv.
Variable E : env.
Notation world := (world cifs Sv).
Lemma after_enough R (c : call R) id fuel : forall (w w' : world), (length (rx w) < fuel)%nat -> run react (after fuel c id) w <> Starved w'.
Proof.
  intros w w' Hf.
  assert (Hrecv : forall R (r : reply R), run react (recv fuel r id) w <> Starved w').
  { intros R0 r. destruct (scans_total id (rx w)) as [sc Hsc]. rewrite (@run_recv _ react _ r id w fuel sc Hsc) by lia. apply received_not_starved. }
  assert (Hcol : forall w', run react (collect fuel fuel id collect2_new) w <> Starved w').
  { intros w1. destruct (@collect_ends _ react id (length (rx w)) w collect2_new (Nat.le_refl _)) as (o & Ho & H). rewrite H by lia. apply Ho. }
  destruct c; cbn [after]; try apply Hrecv.
  - rewrite run_mbind. destruct (run react (collect fuel fuel id collect2_new) w) as [[v|e] w1|w1|w1|w1] eqn:Hr; try discriminate; [|now destruct (Hcol w1)].
    rewrite gbind_good, run_lift. destruct (get_subreply find_first_parse v); discriminate.
  - rewrite run_mbind. destruct (run react (collect fuel fuel id collect2_new) w) as [[v|e] w1|w1|w1|w1] eqn:Hr; try discriminate; [|now destruct (Hcol w1)].
    rewrite gbind_good, run_lift. destruct (get_subreply find_next_parse v); discriminate.
Qed.
Lemma call_enough R (c : call R) fuel (w w' : world) :
  (forall f s inc t, react (srv w) f = Accept s inc t -> (length (fst (deliver (tl w) (rx w) inc t)) < fuel)%nat) ->
  run react (exec E fuel c) w <> Starved w'.
Proof.
  intros Hf. destruct (call_cases react E fuel c w) as [(f & w1 & Hr & (s & inc & t & Ha & _ & _ & _ & Hd) & Hx)|(o & Hu & Hx)]; rewrite Hx.
  - apply after_enough. specialize (Hf _ _ _ _ Ha). rewrite <- Hd in Hf. exact Hf.
  - destruct Hu; discriminate.
Qed.
(** a program that writes nothing does not reach the server *)
Lemma run_quiet X (p : prog cifs X) : forall (w w' : world) a, run react p w = Done a w' -> tx w' = tx w -> srv w' = srv w.
Proof.
  induction p as [a0| | |k IH|c0 k IH|n k IH|f k IH]; intros w w' a H Hx; cbn [run] in H; try discriminate H.
  - injection H as <- <-. reflexivity.
  - exact (IH _ _ _ _ H Hx).
  - exact (IH _ _ _ H Hx).
  - destruct (n <=? len (rx w)); [exact (IH _ _ _ _ H Hx)|]. destruct (tl w); [discriminate H|exact (IH _ _ _ _ H Hx)|exact (IH _ _ _ _ H Hx)].
  - exfalso. destruct (react (srv w) f) as [s inc t|s n e inc t]; destruct (deliver (tl w) (rx w) inc t) as [b t'];
      apply grows in H; destruct H as [l H]; cbn [tx] in H; rewrite H, <- app_assoc in Hx;
      apply (f_equal (@length _)) in Hx; rewrite !app_length in Hx; cbn [length] in Hx; lia.
Qed.
End Bound.

(** ** a write, whether it succeeds or not *)
Definition written {Sn A} (r : reaction Sn) (f : bytes) (kk : option N -> prog cifs (ans A)) (c : cifs) (b : bytes) (t : tail) (x : list bytes) : proc A :=
  match r with
  | Accept _ inc t1 => mk_proc (kk None) c (fst (deliver t b inc t1)) (snd (deliver t b inc t1)) (x ++ [f])
  | Refuse _ n e inc t1 => mk_proc (kk (Some e)) c (fst (deliver t b inc t1)) (snd (deliver t b inc t1)) (x ++ [take n f])
  end.
Lemma moves_writes Sv A (react : Sv -> bytes -> reaction Sv) (p : proc A) s q s' : moves react p s true q s' ->
  exists f k, p_prog p = Write f k /\ settled p = p /\ s' = after_it (react s f) /\ q = written (react s f) f k (p_cl p) (p_rx p) (p_tl p) (p_tx p).
Proof.
  intros H. remember true as w eqn:Ew. destruct H; try discriminate Ew; exists f, k; (split; [reflexivity|]; split; [reflexivity|]); rewrite H; split; reflexivity.
Qed.
Lemma request_writes A X (p : prog cifs X) (F : X -> prog cifs (ans A)) f : forall c b t x, request p c = Some f ->
  exists k c', settle (pbind p F) c b t x = mk_proc (Write f (fun r => pbind (k r) F)) c' b t x
  /\ forall Sv (react : Sv -> bytes -> reaction Sv) s y,
     run react p (mk_world c s b t y)
     = match react s f with
       | Accept s' inc t' => run react (k None) (mk_world c' s' (fst (deliver t b inc t')) (snd (deliver t b inc t')) (y ++ [f]))
       | Refuse s' n e inc t' => run react (k (Some e)) (mk_world c' s' (fst (deliver t b inc t')) (snd (deliver t b inc t')) (y ++ [take n f]))
       end.
Proof.
  induction p as [a0| | |k IH|c0 k IH|n k IH|f0 k IH]; intros c b t x H; cbn [request] in H; try discriminate H; cbn [pbind settle run].
  - exact (IH _ _ _ _ _ H).
  - exact (IH _ _ _ _ H).
  - apply some_inj in H. subst f0. exists k, c. split; [reflexivity|]. intros Sv react s y. cbn [srv cl rx tl tx].
    destruct (react s f) as [s' inc t'|s' n e inc t']; destruct (deliver t b inc t'); reflexivity.
Qed.

Lemma uid_typed c u : typed_client c -> u16 u -> typed_client (set_uid u c).
Proof. intros [H1 H2] H. split; [exact H|exact H2]. Qed.
Lemma next_typed c : typed_client c -> typed_client (next_client c).
Proof. intros [H1 H2]. split; [exact H1|]. unfold next_client, u16. cbn. apply N.mod_lt. lia. Qed.

(** ** the simulation *)
Section Pool.
Variables Sn Sv St A : Type.
Variable net : nat -> Sn -> bytes -> reaction Sn.
Variable react : nat -> Sv -> bytes -> reaction Sv.
Variable inner : Sn -> Sv.
Variable up : nat -> Sn -> Prop.
Variable B : nat -> service St.
Variable abs : Sv -> St.
Hypothesis Hnet : outages net react inner up.
Hypothesis conf : forall i, conforming (react i) (B i) abs.
Variable E : env.
Variable fuel : nat.
Hypothesis enough : ample net fuel.
Notation flow := (flow A).

(** the connection of a client that waits for nothing *)
Definition calm (o : bool) (t : tail) : Prop := if o then t = Open else t <> Open.
Definition coarse_at (t : tail) (x : flow * cifs) : proc A := settle (interp E fuel (fst x)) (snd x) [] t [].
Definition follow (p : proc A) (x : flow * cifs * bool) : Prop :=
  exists t, calm (snd x) t /\ alike (settled p) (coarse_at t (fst x)) /\ typed_client (snd (fst x)).

(** a call *)
Lemma any_call i R (q : call R) k c o t n : calm o t -> online up n i o -> can_call E (FCall q k, c) -> typed_client c ->
  exists f kk c', coarse_at t (FCall q k, c) = mk_proc (Write f kk) c' [] t []
  /\ exists a o' t', calm o' t' /\ online up (after_it (net i n f)) i o'
     /\ goes (B i) (FCall q k, c, o) (abs (inner n)) true (k a, next_client c, o') (abs (inner (after_it (net i n f))))
     /\ forall x, alike (settled (written (net i n f) f kk c' [] t x)) (coarse_at t' (k a, next_client c)).
Proof.
  intros Hcalm Hon (Hq & Hun & Hfit & Hm) Ht. cbn [snd] in Hfit, Hm.
  set (w := mk_world c n [] t [] : world cifs Sn).
  assert (Hmid : ~ mid_full E c) by (intros [Ho Hf]; specialize (Hm Ho); cbn in Hf; lia).
  destruct (proj2 (request_iff E fuel q c) (conj Hfit Hmid)) as [f Hreq].
  destruct (request_writes (exec E fuel q) (fun r => interp E fuel (k r)) c [] t [] Hreq) as (kk & c' & H1 & H2).
  exists f, (fun r => pbind (kk r) (fun r0 => interp E fuel (k r0))), c'. split; [exact H1|].
  assert (Hcall : exists k0 a w', (forall fuel, (k0 <= fuel)%nat -> run (net i) (exec E fuel q) w = Done a w')
    /\ cl w' = next_client c /\ rx w' = [] /\ exists o', calm o' (tl w') /\ online up (srv w') i o'
    /\ goes (B i) (FCall q k, c, o) (abs (inner n)) true (k a, next_client c, o') (abs (inner (srv w')))).
  { destruct o; cbn [calm online] in *.
    - subst t.
      destruct (@cutoff_call_at Sn Sv St (net i) (react i) inner (up i) (proj1 Hnet i) (B i) abs (conf i) E R q w Ht (conj eq_refl eq_refl) Hon Hq Hun Hfit Hmid)
        as (k0 & a & w' & G1 & G2 & G3 & G4). cbn [cl srv w] in G2, G4. exists k0, a, w'. split; [exact G1|]. split; [exact G2|]. split; [exact G3|].
      destruct G4 as [(-> & G4 & (_ & G5) & G6)|[(-> & G4 & (G5 & _) & G6)|((e & ->) & G4 & (G5 & _) & G6)]].
      + exists true. split; [exact G5|]. split; [exact G6|]. rewrite G4. constructor. apply surjective_pairing.
      + exists false. split; [exact G5|]. split; [exact G6|]. rewrite G4. constructor. apply surjective_pairing.
      + exists false. split; [exact G5|]. split; [exact G6|]. destruct G4 as [G4|G4]; rewrite G4; [constructor|].
        eapply go_late. apply surjective_pairing.
    - assert (Hs : silent w) by (split; [exact Hcalm|exact incomplete_nil]).
      assert (Hw : ~ pattern_window q) by (intros Hw; exact (window_unfit Hw Hfit)).
      destruct (@silent_call _ (net i) E R q w Hs Hmid Hw) as (e & w1 & (k1 & Hk1) & Hcause & Hs1 & Ht1).
      assert (Hf : fate (net i) E q w (Done (Bad e) w1)) by (apply call_fate; [discriminate|exists k1; apply Hk1; lia]).
      assert (Hc1 : cl w1 = next_client c) by (apply fails_iff in Hf; exact (fails_next Hf)).
      assert (Hin : inner (srv w1) = inner n /\ ~ up i (srv w1)).
      { pose proof (@run_peer _ (net i) (fun s => inner s = inner n /\ ~ up i s)) as K. specialize (K ltac:(
          intros s b (K1 & K2); pose proof (proj2 (proj1 Hnet i) s b K2) as K3; destruct (net i s b); rewrite <- K1; exact K3) _ (exec E k1 q) w (conj eq_refl Hon)).
        rewrite Hk1 in K by lia. exact K. }
      assert (Hrx : rx w1 = []).
      { destruct (fate_lost (proj1 Hs) Hf) as (_ & Hl & _). cbn [world_of w rx] in Hl. destruct (rx w1); [reflexivity|].
        rewrite len_cons in Hl. change (len (@nil byte)) with 0 in Hl. lia. }
      exists k1, (Bad e), w1. split; [exact Hk1|]. split; [exact Hc1|]. split; [exact Hrx|].
      exists false. split; [rewrite Ht1; exact Hcalm|]. split; [exact (proj2 Hin)|]. rewrite (proj1 Hin).
      destruct Hcause as [Hun'|f0 s0 n0 e0 inc0 t0 _ _|f0 s0 inc0 t0 e0 _ _ _]; [now destruct Hun'|constructor|constructor]. }
  destruct Hcall as (k0 & a & w' & Hrun & Hcl & Hrx & o' & Hcalm' & Hon' & Hgoes).
  assert (Hfuel : run (net i) (exec E fuel q) w = Done a w').
  { destruct (Nat.le_gt_cases k0 fuel) as [Hle|Hgt]; [now apply Hrun|].
    rewrite <- (Hrun k0 (Nat.le_refl _)). symmetry. apply more_any with fuel; [lia|reflexivity|].
    intros w0. apply call_enough. intros f0 s0 inc0 t0 Ha. cbn [srv w] in Ha. cbn [w rx tl deliver].
    specialize (enough Ha). destruct t; cbn [fst deliver app length]; lia. }
  assert (Htx : exists y, tx w' = [y]).
  { destruct (call_answered Hfuel) as [(f0 & _ & ->)|[(Hn & _)|(f0 & n0 & e0 & _ & -> & _)]]; cbn [tx w app]; eauto.
    cbn [cl w] in Hn. rewrite Hreq in Hn. discriminate Hn. }
  destruct Htx as (y & Htx). clear Hrun. unfold w in Hfuel. rewrite H2 in Hfuel.
  assert (Hone : forall p c0 s0 b0 t0 z, run (net i) p (mk_world c0 s0 b0 t0 ([] ++ [z])) = Done a w' ->
    tx w' = [z] /\ srv w' = s0 /\ forall x, settle (pbind p (fun r => interp E fuel (k r))) c0 b0 t0 x = settle (interp E fuel (k a)) (next_client c) [] (tl w') x).
  { intros p c0 s0 b0 t0 z Hp. assert (Hz : tx w' = [z]).
    { destruct (@grows _ (net i) _ _ _ _ _ Hp) as (l & Hg). cbn [tx app] in Hg. rewrite Htx in Hg. injection Hg as -> Hl. exact Htx. }
    split; [exact Hz|]. split; [exact (@run_quiet _ (net i) _ _ _ _ _ Hp Hz)|]. intros x.
    pose proof (@run_settle A _ (net i) _ _ (fun r => interp E fuel (k r)) _ _ _ x Hp Hz) as K. cbn [cl rx tl] in K. rewrite K, Hcl, Hrx. reflexivity. }
  exists a, o', (tl w'). split; [exact Hcalm'|].
  destruct (net i n f) as [n' inc t1|n' m e inc t1] eqn:Hr; cbn [after_it written] in *;
    destruct (Hone _ _ _ _ _ _ Hfuel) as (_ & <- & Hset); (split; [exact Hon'|]; split; [exact Hgoes|]; intros x; unfold settled; cbn [p_prog p_cl p_rx p_tl p_tx];
    rewrite Hset; apply settle_alike, tree_refl).
Qed.

Variable g0 : nat -> flow * cifs * bool.
Variable st0 : St.
Hypothesis sens : sensible_off E B g0 st0.

Lemma goings_silent (g h : nat -> flow * cifs * bool) st l st1 i x x' o : goings B g st l h st1 -> h i = (x, o) -> advances (B i) x st1 false x' st1 ->
  goings B g st l (upd h i (x', o)) st1.
Proof. intros H1 Hi H2. apply (go_alone _ _ _ _ o) in H2. rewrite <- Hi in H2. pose proof (gs_step _ _ _ _ _ _ i _ _ _ H1 H2) as H. cbn in H. rewrite app_nil_r in H. exact H. Qed.
(** client [i] does what it can do alone *)
Lemma goings_stays i : forall f c o l h st, goings B g0 st0 l h st -> h i = (f, c, o) -> typed_client c ->
  exists h' f' c', goings B g0 st0 l h' st /\ h' i = (f', c', o) /\ stays f' /\ typed_client c' /\ (forall t, coarse_at t (f', c') = coarse_at t (f, c))
  /\ forall j, j <> i -> h' j = h j.
Proof.
  induction f as [a| | |R q k IH|k IH|u k IH|m u k IH]; intros c o l h st H Hi Ht.
  - exists h, (FRet a), c. repeat split; auto; apply Ht.
  - exists h, FPanic, c. repeat split; auto; apply Ht.
  - exists h, FFuel, c. repeat split; auto; apply Ht.
  - exists h, (FCall q k), c. repeat split; auto; apply Ht.
  - assert (S1 : goings B g0 st0 l (upd h i (k c, c, o)) st) by (eapply goings_silent; [exact H|exact Hi|constructor]).
    destruct (IH c c o l _ st S1 (upd_same h i _) Ht) as (h' & f' & c' & H1 & H2 & H3 & H4 & H5 & H6).
    exists h', f', c'. split; [exact H1|]. split; [exact H2|]. split; [exact H3|]. split; [exact H4|]. split; [exact H5|].
    intros j Hj. rewrite (H6 j Hj). now apply upd_other.
  - assert (Hu : u16 u) by (pose proof (sens H i) as Hc; rewrite Hi in Hc; exact Hc).
    assert (S1 : goings B g0 st0 l (upd h i (k, set_uid u c, o)) st) by (eapply goings_silent; [exact H|exact Hi|constructor]).
    destruct (IH _ o l _ st S1 (upd_same h i _) (uid_typed Ht Hu)) as (h' & f' & c' & H1 & H2 & H3 & H4 & H5 & H6).
    exists h', f', c'. split; [exact H1|]. split; [exact H2|]. split; [exact H3|]. split; [exact H4|]. split; [exact H5|].
    intros j Hj. rewrite (H6 j Hj). now apply upd_other.
  - assert (S1 : goings B g0 st0 l (upd h i (k, set_options m u c, o)) st) by (eapply goings_silent; [exact H|exact Hi|constructor]).
    destruct (IH _ o l _ st S1 (upd_same h i _) Ht) as (h' & f' & c' & H1 & H2 & H3 & H4 & H5 & H6).
    exists h', f', c'. split; [exact H1|]. split; [exact H2|]. split; [exact H3|]. split; [exact H4|]. split; [exact H5|].
    intros j Hj. rewrite (H6 j Hj). now apply upd_other.
Qed.

Lemma simulates g n l g' n' : steps net g n l g' n' -> abs (inner n) = st0 -> (forall i, follow (g i) (g0 i) /\ online up n i (snd (g0 i))) ->
  exists h, goings B g0 st0 l h (abs (inner n')) /\ forall i, follow (g' i) (h i) /\ online up n' i (snd (h i)).
Proof.
  induction 1 as [g n|g n l g' n' i b p n'' _ IH Hm]; intros Hs Hg.
  - exists g0. rewrite Hs. split; [constructor|exact Hg].
  - destruct (IH Hs Hg) as (h & Hser & Hf). clear IH. destruct b.
    + destruct (moves_writes Hm) as (f & k & Hp & Hset & Hn & Hq).
      destruct (h i) as [[fi ci] o] eqn:Hi. pose proof (Hf i) as [(t & Hcalm & Hal & Hti) Hon]. rewrite Hi in Hcalm, Hal, Hti, Hon. cbn [fst snd] in Hcalm, Hal, Hti, Hon.
      destruct (goings_stays _ Hser Hi Hti) as (h1 & f1 & c1 & Hser1 & Hi1 & Hst & Ht1 & Hco & Hoth).
      rewrite <- Hco, Hset in Hal. pose proof Hal as (Htree & Hcl & Hrx & Htl). rewrite Hp in Htree.
      destruct f1 as [a| | |R q kk|kk|u kk|m u kk]; try contradiction; try (inversion Htree; fail).
      pose proof (sens Hser1 i) as Hcan. rewrite Hi1 in Hcan. cbn [fst] in Hcan.
      destruct (any_call i o t n' Hcalm Hon Hcan Ht1) as (f2 & k2 & c2 & Hc & a & o' & t' & Hcalm' & Hon' & Hgo & Hrest).
      rewrite Hc in Htree, Hcl, Hrx, Htl. cbn [p_prog p_cl p_rx p_tl] in Htree, Hcl, Hrx, Htl.
      inversion Htree as [| | | | | |x y z Hk E1 E2]. subst x f2 z y. subst n''.
      exists (upd h1 i (kk a, next_client c1, o')). split.
      * eapply (@gs_step _ _ _ _ _ _ _ _ i true); [exact Hser1|]. rewrite Hi1. exact Hgo.
      * intros j. destruct (Nat.eq_dec j i) as [->|Hj].
        -- rewrite !upd_same. split; [|exact Hon']. exists t'. cbn [fst snd]. split; [exact Hcalm'|]. split; [|apply next_typed; exact Ht1].
           rewrite Hq, Hcl, Hrx, Htl. eapply alike_trans; [|exact (Hrest [])].
           unfold settled, written. destruct (net i n' f); cbn [p_prog p_cl p_rx p_tl p_tx]; apply settle_alike; apply Hk.
        -- rewrite !upd_other by exact Hj. rewrite (Hoth j Hj). destruct (Hf j) as [Hf1 Hf2]. split; [exact Hf1|].
           pose proof (proj2 Hnet i j n' f (fun e => Hj (eq_sym e))) as Hsep. unfold online in *. destruct (snd (h j)); tauto.
    + destruct (moves_silent Hm) as [Hset ->]. exists h. rewrite app_nil_r. split; [exact Hser|]. intros j.
      destruct (Nat.eq_dec j i) as [->|Hj].
      * rewrite upd_same. unfold follow. rewrite Hset. apply Hf.
      * rewrite upd_other by exact Hj. apply Hf.
Qed.
Lemma starts_follow p x : starts E fuel p x -> typed_client (snd x) -> follow p (x, true).
Proof.
  intros (H1 & H2 & H3 & H4) Ht. exists Open. cbn [fst snd calm]. split; [reflexivity|]. split; [|exact Ht].
  unfold settled, coarse_at. rewrite H2, H3, H4. now apply settle_alike.
Qed.

(** before a call there is its request *)
Lemma call_writes_next (n : Sn) i R (q : call R) k c o t : calm o t -> online up n i o -> can_call E (FCall q k, c) -> typed_client c ->
  exists f kk, p_prog (coarse_at t (FCall q k, c)) = Write f kk.
Proof.
  intros H1 H2 H3 H4. destruct (@any_call i R q k c o t n H1 H2 H3 H4) as (f & kk & c1 & H & _). exists f, kk. rewrite H. reflexivity.
Qed.
Lemma stays_finish i (n : Sn) p f c o : follow p (f, c, o) -> online up n i o -> stays f -> can_call E (f, c) -> finished p (f, c).
Proof.
  intros (t & Hcalm & (H1 & H2 & _) & Ht) Hon Hst Hc. cbn [fst snd] in *. unfold finished, settled in *.
  assert (G : ended p = true -> match f with FCall _ _ => False | _ => True end).
  { intros He. destruct f as [a| | |R q k|k|u k|m u k]; auto.
    destruct (@call_writes_next n i R q k c o t Hcalm Hon Hc Ht) as (f2 & k2 & Hco). rewrite Hco in H1. unfold ended in He.
    destruct p as [pp pc px pt py]; cbn [p_prog p_cl p_rx p_tl p_tx] in *.
    destruct pp; try discriminate He; cbn [settle p_prog] in H1; inversion H1. }
  unfold ended in G. destruct p as [pp pc px pt py]; cbn [p_prog p_cl p_rx p_tl p_tx] in *.
  destruct pp; auto; specialize (G eq_refl); destruct f; cbn in Hst; try contradiction; cbn [settle p_prog p_cl coarse_at fst snd interp] in H1, H2;
    inversion H1; congruence.
Qed.
Lemma finishes m (n : Sn) : forall (p : nat -> proc A) l h, goings B g0 st0 l h (abs (inner n)) -> (forall i, follow (p i) (h i) /\ online up n i (snd (h i))) ->
  exists h', goings B g0 st0 l h' (abs (inner n)) /\ (forall i, follow (p i) (h' i) /\ online up n i (snd (h' i)))
  /\ (forall i, (i < m)%nat -> finished (p i) (fst (h' i))).
Proof.
  intros p l h Hser Hf. induction m as [|m (h1 & Hser1 & Hf1 & Hn)].
  - exists h. split; [exact Hser|]. split; [exact Hf|]. intros i Hi. lia.
  - destruct (h1 m) as [[f c] o] eqn:Hi. pose proof (Hf1 m) as [(t & Hcalm & Hal & Ht) Hon]. rewrite Hi in Hcalm, Hal, Ht, Hon. cbn [fst snd] in *.
    destruct (goings_stays _ Hser1 Hi Ht) as (h2 & f2 & c2 & Hser2 & Hi2 & Hst & Ht2 & Hco & Hoth).
    rewrite <- Hco in Hal.
    assert (Hfm : follow (p m) (f2, c2, o)) by (exists t; cbn [fst snd]; auto).
    exists h2. split; [exact Hser2|]. split.
    + intros i. destruct (Nat.eq_dec i m) as [->|Hj]; [rewrite Hi2; split; [exact Hfm|exact Hon]|rewrite (Hoth i Hj); apply Hf1].
    + intros i Hlt. destruct (Nat.eq_dec i m) as [->|Hj].
      * rewrite Hi2. cbn [fst]. apply (@stays_finish m n _ _ _ o Hfm Hon Hst). pose proof (sens Hser2 m) as Hc. now rewrite Hi2 in Hc.
      * rewrite (Hoth i Hj). apply Hn. lia.
Qed.
Lemma progresses n p i l h : goings B g0 st0 l h (abs (inner n)) -> follow p (h i) -> online up n i (snd (h i)) -> ended p = false ->
  exists b q n', moves (net i) p n b q n'.
Proof.
  intros Hser Hf Hon He. destruct (h i) as [[f c] o] eqn:Hi. destruct Hf as (t & Hcalm & Hal & Ht). cbn [fst snd] in *.
  destruct (goings_stays _ Hser Hi Ht) as (h2 & f2 & c2 & Hser2 & Hi2 & Hst & Ht2 & Hco & _). rewrite <- Hco in Hal.
  pose proof (sens Hser2 i) as Hc. rewrite Hi2 in Hc. cbn [fst] in Hc.
  assert (Hw : match p_prog (coarse_at t (f2, c2)) with Read _ _ => False | _ => True end).
  { destruct f2; cbn in Hst; try contradiction; try exact I.
    destruct (@call_writes_next n i _ c0 k c2 o t Hcalm Hon Hc Ht2) as (f3 & k3 & Hco3).
    rewrite Hco3. exact I. }
  destruct Hal as (Htree & _). unfold ended, settled in *. destruct p as [pp pc px pt py]; cbn [p_prog p_cl p_rx p_tl p_tx] in *.
  destruct pp as [a| | |k|c0 k|m k|b k]; try discriminate He.
  - do 3 eexists. apply m_get.
  - do 3 eexists. apply m_put.
  - cbn [settle] in Htree. destruct (N.leb_spec m (len px)) as [Hn|Hn].
    + do 3 eexists. apply m_read. exact Hn.
    + destruct pt.
      * exfalso. cbn [p_prog] in Htree. destruct (p_prog (coarse_at t (f2, c2))); try contradiction; inversion Htree.
      * do 3 eexists. apply m_eof. exact Hn.
      * do 3 eexists. apply m_broken. exact Hn.
  - destruct (net i n b) as [s' inc t1|s' x e inc t1] eqn:Hr; do 3 eexists; [eapply m_write|eapply m_refuse]; exact Hr.
Qed.
End Pool.
