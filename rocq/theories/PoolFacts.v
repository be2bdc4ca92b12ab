(** * PoolFacts: several clients at one server *)
From Verif Require Import Base Text Win Errors Common Reply Ntlm Prog Client Spec SpecReply SpecMsg Api SpecCall BaseFacts
  RunFacts MsgFacts SizeFacts ReqFacts CallFacts FindFacts Flow FlowFacts SpecRemote RemoteFacts SpecPool.
Open Scope N_scope.
Set Implicit Arguments.

(** ** trees *)
Lemma tree_refl C A (p : prog C A) : same_tree p p.
Proof. induction p; constructor; auto. Qed.
Lemma tree_sym C A (p q : prog C A) : same_tree p q -> same_tree q p.
Proof. induction 1; constructor; auto. Qed.
Lemma tree_trans C A (p q : prog C A) : same_tree p q -> forall r, same_tree q r -> same_tree p r.
Proof.
  induction 1 as [a| | |k k' _ IH|c k k' _ IH|n k k' _ IH|b k k' _ IH]; intros r Hr; inversion Hr; subst; constructor; auto.
Qed.
Lemma tree_bind C A B (p q : prog C A) (f g : A -> prog C B) : same_tree p q -> (forall a, same_tree (f a) (g a)) ->
  same_tree (pbind p f) (pbind q g).
Proof. intros H Hf. induction H; cbn [pbind]; auto; constructor; auto. Qed.
Lemma tree_mbind A B (p q : M A) (f g : A -> M B) : same_tree p q -> (forall a, same_tree (f a) (g a)) ->
  same_tree (mbind p f) (mbind q g).
Proof. intros H Hf. apply tree_bind; [exact H|]. intros [a|e]; [apply Hf|constructor]. Qed.
Lemma tree_assoc C A B X (p : prog C A) (f : A -> prog C B) (g : B -> prog C X) :
  same_tree (pbind (pbind p f) g) (pbind p (fun a => pbind (f a) g)).
Proof. induction p; cbn [pbind]; try (constructor; auto); apply tree_refl. Qed.
Section Trees.
Variable E : env.
Variable fuel : nat.
Lemma tree_fbind A B (p : flow A) (k : A -> flow B) :
  same_tree (interp E fuel (fbind p k)) (mbind (interp E fuel p) (fun a => interp E fuel (k a))).
Proof.
  induction p as [[a|e]| | |R c f IH|f IH|u p IH|m u p IH]; cbn [fbind interp]; try apply tree_refl.
  - unfold mbind. eapply tree_trans; [|apply tree_sym, tree_assoc]. apply tree_bind; [apply tree_refl|]. exact IH.
  - constructor. exact IH.
  - constructor. intros c. constructor. exact IH.
  - constructor. intros c. constructor. exact IH.
Qed.
Lemma tree_ret C A (p : prog C A) : same_tree (pbind p (fun a => Ret a)) p.
Proof. induction p; cbn [pbind]; constructor; auto. Qed.
Lemma tree_fcall R (c : call R) : same_tree (interp E fuel (fcall c)) (exec E fuel c).
Proof. apply tree_ret. Qed.
Lemma tree_call_then R B (c : call R) (k : R -> flow B) (p : M R) (g : R -> M B) : p = exec E fuel c ->
  (forall r, same_tree (interp E fuel (k r)) (g r)) -> same_tree (interp E fuel (fbind (fcall c) k)) (mbind p g).
Proof.
  intros -> H. eapply tree_trans; [apply tree_fbind|]. apply tree_mbind; [apply tree_fcall|exact H].
Qed.
Lemma tree_reads n h : forall data, same_tree (interp E fuel (download_reads n h data)) (download_loop E n fuel h data).
Proof.
  induction n as [|n IH]; intros data; cbn [download_reads download_loop]; [apply tree_refl|].
  destruct (len data <? h_size h); [|apply tree_refl]. apply tree_call_then; [reflexivity|]. intros chunk. apply IH.
Qed.
Lemma tree_nexts n s sid : forall res, same_tree (interp E fuel (list_nexts n s sid res)) (list_loop E n fuel s sid res).
Proof.
  induction n as [|n IH]; intros res; cbn [list_nexts list_loop]; [apply tree_refl|].
  destruct (last (map Some res) None); [|apply tree_refl].
  apply tree_call_then; [reflexivity|]. intros r. cbv zeta. destruct (fn_end r); [apply tree_refl|apply IH].
Qed.
Lemma tree_download s path : same_tree (download E fuel s path) (interp E fuel (download_flow fuel s path)).
Proof.
  apply tree_sym. unfold download_flow, download. apply tree_call_then; [reflexivity|]. intros h.
  eapply tree_trans; [apply tree_fbind|]. apply tree_mbind; [apply tree_reads|]. intros data.
  apply tree_call_then; [reflexivity|]. intros _. apply tree_refl.
Qed.
Lemma tree_list s pattern : same_tree (list_dir E fuel s pattern) (interp E fuel (list_flow fuel s pattern)).
Proof.
  apply tree_sym. unfold list_flow, list_dir. apply tree_call_then; [reflexivity|]. intros r.
  destruct (ff_end r); [apply tree_refl|apply tree_nexts].
Qed.
End Trees.

(** ** the silent steps of a client, up to its next write *)
Section Settle.
Variable A : Type.
Fixpoint settle (p : prog cifs (ans A)) (c : cifs) (b : bytes) (t : tail) (x : list bytes) : proc A :=
  match p with
  | Get k => settle (k c) c b t x
  | Put c' k => settle k c' b t x
  | Read n k =>
      if n <=? len b then settle (k (Got (take n b))) c (drop n b) t x
      else match t with
           | Open => mk_proc p c b t x
           | Closed => settle (k RdEof) c [] t x
           | Broken e => settle (k (RdErr e)) c [] t x
           end
  | _ => mk_proc p c b t x
  end.
Definition settled (p : proc A) : proc A := settle (p_prog p) (p_cl p) (p_rx p) (p_tl p) (p_tx p).
(** equal up to the writing of the program *)
Definition alike (p q : proc A) : Prop :=
  same_tree (p_prog p) (p_prog q) /\ p_cl p = p_cl q /\ p_rx p = p_rx q /\ p_tl p = p_tl q.
Lemma alike_trans p q r : alike p q -> alike q r -> alike p r.
Proof. intros (H1 & H2 & H3 & H4) (G1 & G2 & G3 & G4). split; [eapply tree_trans; eassumption|]. repeat split; congruence. Qed.
Lemma alike_refl p : alike p p.
Proof. split; [apply tree_refl|]. repeat split. Qed.
Lemma settle_alike p q : same_tree p q -> forall c b t x y, alike (settle p c b t x) (settle q c b t y).
Proof.
  induction 1 as [a| | |k k' H IH|c0 k k' H IH|n k k' H IH|f k k' H IH]; intros c b t x y; cbn [settle]; auto;
    try (split; [constructor; auto|]; repeat split; fail).
  destruct (n <=? len b); [apply IH|]. destruct t; [|apply IH|apply IH]. split; [constructor; exact H|]. repeat split.
Qed.
Lemma moves_silent Sv (react : Sv -> bytes -> reaction Sv) p s q s' : moves react p s false q s' -> settled q = settled p /\ s' = s.
Proof.
  intros H. remember false as w eqn:Ew. destruct H; try discriminate Ew; unfold settled; cbn [p_prog p_cl p_rx p_tl p_tx settle]; auto.
  - destruct (N.leb_spec n (len b)); [auto|lia].
  - destruct (N.leb_spec n (len b)); [lia|auto].
  - destruct (N.leb_spec n (len b)); [lia|auto].
Qed.
Lemma moves_write Sv (react : Sv -> bytes -> reaction Sv) p s q s' : moves react p s true q s' ->
  exists f k, p_prog p = Write f k /\ settled p = p
  /\ ((exists inc t, react s f = Accept s' inc t /\ q = mk_proc (k None) (p_cl p) (fst (deliver (p_tl p) (p_rx p) inc t)) (snd (deliver (p_tl p) (p_rx p) inc t)) (p_tx p ++ [f]))
      \/ exists n e inc t, react s f = Refuse s' n e inc t).
Proof.
  intros H. remember true as w eqn:Ew. destruct H; try discriminate Ew; exists f, k; (split; [reflexivity|]; split; [reflexivity|]).
  - left. exists inc, t1. auto.
  - right. exists n, e, inc, t1. auto.
Qed.

(** ** a call, seen from the client *)
Lemma grows Sv (react : Sv -> bytes -> reaction Sv) X (p : prog cifs X) : forall w a w', run react p w = Done a w' -> exists l, tx w' = tx w ++ l.
Proof.
  induction p as [a0| | |k IH|c0 k IH|n k IH|f k IH]; intros w a w' H; cbn [run] in H; try discriminate H.
  - injection H as <- <-. exists []. now rewrite app_nil_r.
  - exact (IH _ _ _ _ H).
  - exact (IH _ _ _ H).
  - destruct (n <=? len (rx w)); [exact (IH _ _ _ _ H)|]. destruct (tl w); [discriminate H|exact (IH _ _ _ _ H)|exact (IH _ _ _ _ H)].
  - destruct (react (srv w) f) as [s inc t|s n e inc t]; destruct (deliver (tl w) (rx w) inc t) as [b t'];
      apply IH in H; destruct H as [l H]; cbn [tx] in H; rewrite <- app_assoc in H; eauto.
Qed.
(** a program that writes nothing *)
Lemma run_settle Sv (react : Sv -> bytes -> reaction Sv) X (p : prog cifs X) (F : X -> prog cifs (ans A)) : forall w a w' x,
  run react p w = Done a w' -> tx w' = tx w ->
  settle (pbind p F) (cl w) (rx w) (tl w) x = settle (F a) (cl w') (rx w') (tl w') x.
Proof.
  induction p as [a0| | |k IH|c0 k IH|n k IH|f k IH]; intros w a w' x H Hx; cbn [run] in H; cbn [pbind settle]; try discriminate H.
  - injection H as <- <-. reflexivity.
  - exact (IH _ _ _ _ _ H Hx).
  - exact (IH _ _ _ _ H Hx).
  - destruct (n <=? len (rx w)); [exact (IH _ _ _ _ _ H Hx)|]. destruct (tl w) eqn:Et; [discriminate H| |];
      exact (IH _ (mk_world (cl w) (srv w) [] (tl w) (tx w)) _ _ _ ltac:(rewrite Et; exact H) Hx) || idtac.
    + pose proof (IH _ _ _ _ x H Hx) as K. cbn [cl rx tl] in K. exact K.
    + pose proof (IH _ _ _ _ x H Hx) as K. cbn [cl rx tl] in K. exact K.
  - exfalso. destruct (react (srv w) f) as [s inc t|s n e inc t]; destruct (deliver (tl w) (rx w) inc t) as [b t'];
      apply grows in H; destruct H as [l H]; cbn [tx] in H; rewrite H, <- app_assoc in Hx;
      apply (f_equal (@length _)) in Hx; rewrite !app_length in Hx; cbn [length] in Hx; lia.
Qed.
(** up to its request *)
Lemma request_settle X (p : prog cifs X) (F : X -> prog cifs (ans A)) f : forall c b t x, request p c = Some f ->
  exists k c', settle (pbind p F) c b t x = mk_proc (Write f (fun r => pbind (k r) F)) c' b t x
  /\ forall Sv (react : Sv -> bytes -> reaction Sv) s y s' inc t', react s f = Accept s' inc t' ->
     run react p (mk_world c s b t y) = run react (k None) (mk_world c' s' (fst (deliver t b inc t')) (snd (deliver t b inc t')) (y ++ [f])).
Proof.
  induction p as [a0| | |k IH|c0 k IH|n k IH|f0 k IH]; intros c b t x H; cbn [request] in H; try discriminate H; cbn [pbind settle run].
  - exact (IH _ _ _ _ _ H).
  - exact (IH _ _ _ _ H).
  - apply some_inj in H. subst f0. exists k, c. split; [reflexivity|]. intros Sv react s y s' inc t' Hr. cbn [srv cl rx tl tx]. rewrite Hr.
    destruct (deliver t b inc t'). reflexivity.
Qed.
End Settle.

(** ** the simulation *)
Section Pool.
Variables Sv St A : Type.
Variable react : nat -> Sv -> bytes -> reaction Sv.
Variable B : nat -> service St.
Variable abs : Sv -> St.
Hypothesis conf : forall i, conforming (react i) (B i) abs.
Variable E : env.
Variable fuel : nat.
Hypothesis enough : ample react fuel.
Notation flow := (flow A).

Definition coarse (x : flow * cifs) : proc A := settle (interp E fuel (fst x)) (snd x) [] Open [].
(** the flow waits for nothing that the client can do alone *)
Definition stays (f : flow) : Prop := match f with FState _ | FUid _ _ | FOptions _ _ _ => False | _ => True end.
Definition safe (x : flow * cifs) : Prop := can_call E x /\ typed_client (snd x).

Lemma serial_silent (g h : nat -> flow * cifs) st l st1 i p : serial B g st l h st1 -> advances (B i) (h i) st1 false p st1 ->
  serial B g st l (upd h i p) st1.
Proof. intros H1 H2. pose proof (se_step i H1 H2) as H. cbn in H. rewrite app_nil_r in H. exact H. Qed.
Lemma upd_same X (g : nat -> X) i x : upd g i x i = x.
Proof. unfold upd. now rewrite Nat.eqb_refl. Qed.
Lemma upd_other X (g : nat -> X) i j x : j <> i -> upd g i x j = g j.
Proof. intros H. unfold upd. now destruct (Nat.eqb_spec j i). Qed.
Lemma typed_uid c u : typed_client c -> u16 u -> typed_client (set_uid u c).
Proof. intros [H1 H2] H. split; [exact H|exact H2]. Qed.
Lemma typed_next c : typed_client c -> typed_client (next_client c).
Proof. intros [H1 H2]. split; [exact H1|]. unfold next_client, u16. cbn. apply N.mod_lt. lia. Qed.

Variable g0 : nat -> flow * cifs.
Variable st0 : St.
Hypothesis sens : sensible E B g0 st0.

(** client [i] does what it can do alone *)
Lemma serial_stays i : forall f c l h st, serial B g0 st0 l h st -> h i = (f, c) -> typed_client c ->
  exists h' f' c', serial B g0 st0 l h' st /\ h' i = (f', c') /\ stays f' /\ typed_client c' /\ coarse (f', c') = coarse (f, c)
  /\ forall j, j <> i -> h' j = h j.
Proof.
  induction f as [a| | |R q k IH|k IH|u k IH|m u k IH]; intros c l h st H Hi Ht.
  - exists h, (FRet a), c. repeat split; auto; apply Ht.
  - exists h, FPanic, c. repeat split; auto; apply Ht.
  - exists h, FFuel, c. repeat split; auto; apply Ht.
  - exists h, (FCall q k), c. repeat split; auto; apply Ht.
  - assert (S1 : serial B g0 st0 l (upd h i (k c, c)) st) by (apply serial_silent; [exact H|]; rewrite Hi; constructor).
    destruct (IH c c l _ st S1 (upd_same h i _) Ht) as (h' & f' & c' & H1 & H2 & H3 & H4 & H5 & H6).
    exists h', f', c'. split; [exact H1|]. split; [exact H2|]. split; [exact H3|]. split; [exact H4|]. split; [exact H5|].
    intros j Hj. rewrite (H6 j Hj). now apply upd_other.
  - assert (Hu : u16 u) by (pose proof (sens H i) as Hc; rewrite Hi in Hc; exact Hc).
    assert (S1 : serial B g0 st0 l (upd h i (k, set_uid u c)) st) by (apply serial_silent; [exact H|]; rewrite Hi; constructor).
    destruct (IH _ l _ st S1 (upd_same h i _) (typed_uid Ht Hu)) as (h' & f' & c' & H1 & H2 & H3 & H4 & H5 & H6).
    exists h', f', c'. split; [exact H1|]. split; [exact H2|]. split; [exact H3|]. split; [exact H4|]. split; [exact H5|].
    intros j Hj. rewrite (H6 j Hj). now apply upd_other.
  - assert (S1 : serial B g0 st0 l (upd h i (k, set_options m u c)) st) by (apply serial_silent; [exact H|]; rewrite Hi; constructor).
    destruct (IH _ l _ st S1 (upd_same h i _) Ht) as (h' & f' & c' & H1 & H2 & H3 & H4 & H5 & H6).
    exists h', f', c'. split; [exact H1|]. split; [exact H2|]. split; [exact H3|]. split; [exact H4|]. split; [exact H5|].
    intros j Hj. rewrite (H6 j Hj). now apply upd_other.
Qed.

(** a call *)
Lemma coarse_call i R (q : call R) k c s : can_call E (FCall q k, c) -> typed_client c ->
  exists f kk c' s' inc, coarse (FCall q k, c) = mk_proc (Write f kk) c' [] Open []
  /\ react i s f = Accept s' inc Open /\ abs s' = snd (B i (uid c) (op_of q) (abs s))
  /\ forall x, alike (settle (kk None) c' inc Open x) (coarse (k (returned (fst (B i (uid c) (op_of q) (abs s)))), next_client c)).
Proof.
  intros (Hq & Hun & Hfit & Hm) Ht. cbn [snd] in Hfit, Hm.
  destruct (@remote_call_at _ _ (react i) (B i) abs (conf i) E R q (mk_world c s [] Open []) Ht (conj eq_refl eq_refl) Hq Hun Hfit)
    as (f & s' & inc & w' & Hreq & Hr & Hrun & [Hrx Htl] & Hcl & _ & Habs & Htx).
  { intros [Ho Hf]. specialize (Hm Ho). cbn in Hf. lia. }
  cbn [cl srv tx] in Hreq, Hr, Hrun, Hcl, Habs, Htx.
  destruct (request_settle (exec E fuel q) (fun r => interp E fuel (k r)) c [] Open [] (Hreq fuel)) as (kk & c' & H1 & H2).
  exists f, (fun r => pbind (kk r) (fun r0 => interp E fuel (k r0))), c', s', inc.
  split; [exact H1|]. split; [exact Hr|]. split; [exact Habs|]. intros x.
  specialize (Hrun fuel (enough Hr)). rewrite (H2 _ (react i) s [] _ _ _ Hr) in Hrun. cbn [deliver app fst snd] in Hrun.
  pose proof (@run_settle A _ (react i) _ (kk None) (fun r => interp E fuel (k r)) _ _ _ x Hrun) as H. cbn [cl rx tl tx] in H.
  rewrite H by exact Htx. rewrite Hcl, Hrx, Htl. apply settle_alike, tree_refl.
Qed.

Definition follows (p : proc A) (x : flow * cifs) : Prop := alike (settled p) (coarse x) /\ typed_client (snd x).

Lemma simulate g s l g' s' : steps react g s l g' s' -> abs s = st0 -> (forall i, follows (g i) (g0 i)) ->
  exists h, serial B g0 st0 l h (abs s') /\ forall i, follows (g' i) (h i).
Proof.
  induction 1 as [g s|g s l g' s' i b p s'' _ IH Hm]; intros Hs Hg.
  - exists g0. rewrite Hs. split; [constructor|exact Hg].
  - destruct (IH Hs Hg) as (h & Hser & Hf). clear IH. destruct b.
    + destruct (moves_write Hm) as (f & k & Hp & Hset & Hw). rename Hm into _Hm.
      destruct (h i) as [fi ci] eqn:Hi. pose proof (Hf i) as [Hal Hti]. rewrite Hi in Hal, Hti. cbn [snd] in Hti.
      destruct (serial_stays _ Hser Hi Hti) as (h1 & f1 & c1 & Hser1 & Hi1 & Hst & Ht1 & Hco & Hoth).
      rewrite <- Hco, Hset in Hal. pose proof Hal as (Htree & Hcl & Hrx & Htl). rewrite Hp in Htree.
      destruct f1 as [a| | |R q kk|kk|u kk|m u kk]; try contradiction; try (inversion Htree; fail).
      pose proof (sens Hser1 i) as Hcan. rewrite Hi1 in Hcan.
      destruct (coarse_call i s' Hcan Ht1) as (f2 & k2 & c2 & s2 & inc & Hc & Hr & Habs & Hrest).
      rewrite Hc in Htree, Hcl, Hrx, Htl. cbn [p_prog p_cl p_rx p_tl] in Htree, Hcl, Hrx, Htl.
      inversion Htree as [| | | | | |x y z Hk E1 E2]. subst x f2 z y.
      destruct Hw as [(inc' & t & Hr' & ->)|(n & e & inc' & t & Hr')]; rewrite Hr in Hr'; [|discriminate Hr'].
      injection Hr' as <- <- <-.
      exists (upd h1 i (kk (returned (fst (B i (uid c1) (op_of q) (abs s')))), next_client c1)). split.
      * rewrite Habs. eapply (@se_step _ _ _ _ _ _ _ _ i true); [exact Hser1|]. rewrite Hi1. constructor. apply surjective_pairing.
      * intros j. destruct (Nat.eq_dec j i) as [->|Hj].
        -- rewrite !upd_same. split; [|apply typed_next; exact Ht1]. rewrite Hcl, Hrx, Htl. unfold settled.
           cbn [p_prog p_cl p_rx p_tl p_tx deliver app fst snd].
           eapply alike_trans; [|exact (Hrest [])]. apply settle_alike. apply Hk.
        -- rewrite !upd_other by exact Hj. rewrite (Hoth j Hj). apply Hf.
    + destruct (moves_silent Hm) as [Hset ->]. exists h. rewrite app_nil_r. split; [exact Hser|]. intros j.
      destruct (Nat.eq_dec j i) as [->|Hj].
      * rewrite upd_same. unfold follows. rewrite Hset. apply Hf.
      * rewrite upd_other by exact Hj. apply Hf.
Qed.
Lemma starts_follows p x : starts E fuel p x -> typed_client (snd x) -> follows p x.
Proof.
  intros (H1 & H2 & H3 & H4) Ht. split; [|exact Ht]. unfold settled, coarse. rewrite H2, H3, H4. now apply settle_alike.
Qed.

Lemma stays_finished p f c (s : Sv) : follows p (f, c) -> stays f -> can_call E (f, c) -> finished p (f, c).
Proof.
  intros [(H1 & H2 & _) Ht] Hst Hc. cbn [snd] in Ht. unfold finished, settled in *.
  assert (G : ended p = true -> match f with FCall _ _ => False | _ => True end).
  { intros He. destruct f as [a| | |R q k|k|u k|m u k]; auto. 
    destruct (coarse_call 0%nat s Hc Ht) as (f2 & k2 & c2 & s2 & inc & Hco & _). rewrite Hco in H1. unfold ended in He.
    destruct p as [pp pc px pt py]; cbn [p_prog p_cl p_rx p_tl p_tx] in *.
    destruct pp; try discriminate He; cbn [settle p_prog] in H1; inversion H1. }
  unfold ended in G. destruct p as [pp pc px pt py]; cbn [p_prog p_cl p_rx p_tl p_tx] in *.
  destruct pp; auto; specialize (G eq_refl); destruct f; cbn in Hst; try contradiction; cbn [settle p_prog p_cl coarse fst snd interp] in H1, H2;
    inversion H1; congruence.
Qed.
Lemma finish n (s : Sv) : forall (p : nat -> proc A) l h, serial B g0 st0 l h (abs s) -> (forall i, follows (p i) (h i)) ->
  exists h', serial B g0 st0 l h' (abs s) /\ (forall i, follows (p i) (h' i)) /\ (forall i, (i < n)%nat -> finished (p i) (h' i)).
Proof.
  intros p l h Hser Hf. induction n as [|n (h1 & Hser1 & Hf1 & Hn)].
  - exists h. split; [exact Hser|]. split; [exact Hf|]. intros i Hi. lia.
  - destruct (h1 n) as [f c] eqn:Hi. pose proof (Hf1 n) as [Hal Ht]. rewrite Hi in Hal, Ht. cbn [snd] in Ht.
    destruct (serial_stays _ Hser1 Hi Ht) as (h2 & f2 & c2 & Hser2 & Hi2 & Hst & Ht2 & Hco & Hoth).
    rewrite <- Hco in Hal.
    exists h2. split; [exact Hser2|]. split.
    + intros i. destruct (Nat.eq_dec i n) as [->|Hj]; [rewrite Hi2; split; [exact Hal|exact Ht2]|rewrite (Hoth i Hj); apply Hf1].
    + intros i Hlt. destruct (Nat.eq_dec i n) as [->|Hj].
      * rewrite Hi2. apply (fun a b d => @stays_finished _ _ _ s a b d); [split; [exact Hal|exact Ht2]|exact Hst|]. pose proof (sens Hser2 n) as Hc. now rewrite Hi2 in Hc.
      * rewrite (Hoth i Hj). apply Hn. lia.
Qed.
Lemma progress s p i l h : serial B g0 st0 l h (abs s) -> follows p (h i) -> ended p = false ->
  exists b q s', moves (react i) p s b q s'.
Proof.
  intros Hser Hf He. destruct (h i) as [f c] eqn:Hi. destruct Hf as [Hal Ht]. cbn [snd] in Ht.
  destruct (serial_stays _ Hser Hi Ht) as (h2 & f2 & c2 & Hser2 & Hi2 & Hst & Ht2 & Hco & _). rewrite <- Hco in Hal.
  pose proof (sens Hser2 i) as Hc. rewrite Hi2 in Hc.
  assert (Hw : match p_prog (coarse (f2, c2)) with Read _ _ => False | _ => True end).
  { destruct f2; cbn in Hst; try contradiction; try exact I. destruct (coarse_call i s Hc Ht2) as (f3 & k3 & c3 & s3 & inc & Hco3 & _).
    rewrite Hco3. exact I. }
  destruct Hal as (Htree & _). unfold ended, settled in *. destruct p as [pp pc px pt py]; cbn [p_prog p_cl p_rx p_tl p_tx] in *.
  destruct pp as [a| | |k|c0 k|n k|b k]; try discriminate He.
  - do 3 eexists. apply m_get.
  - do 3 eexists. apply m_put.
  - cbn [settle] in Htree. destruct (N.leb_spec n (len px)) as [Hn|Hn].
    + do 3 eexists. apply m_read. exact Hn.
    + destruct pt.
      * exfalso. cbn [p_prog] in Htree. destruct (p_prog (coarse (f2, c2))); try contradiction; inversion Htree.
      * do 3 eexists. apply m_eof. exact Hn.
      * do 3 eexists. apply m_broken. exact Hn.
  - destruct (react i s b) as [s' inc t|s' n e inc t] eqn:Hr; do 3 eexists; [eapply m_write|eapply m_refuse]; exact Hr.
Qed.
End Pool.

(** ** executions are finite *)
(** what is left of a program after one of its steps *)
Definition child {C A} (q p : prog C A) : Prop :=
  match p with
  | Get k => exists c, q = k c
  | Put _ k => q = k
  | Read _ k => exists r, q = k r
  | Write _ k => exists r, q = k r
  | _ => False
  end.
Lemma moves_child Sv A (react : Sv -> bytes -> reaction Sv) (p : proc A) s b q s' : moves react p s b q s' -> child (p_prog q) (p_prog p).
Proof. intros []; cbn [p_prog child]; eauto. Qed.
Section Halts.
Variables Sv A : Type.
Variable react : nat -> Sv -> bytes -> reaction Sv.
Lemma halts_all n : forall (g : nat -> proc A) s, halts react n g s.
Proof.
  induction n as [|n IHn]; [intros g s; constructor; intros; lia|].
  assert (H : forall pr (g1 : nat -> proc A) s, halts react n g1 s -> forall g, (forall i, (i < n)%nat -> g i = g1 i) -> p_prog (g n) = pr -> halts react (S n) g s).
  { assert (Hc : forall pr, (forall q, child q pr -> forall (g1 : nat -> proc A) s, halts react n g1 s -> forall g, (forall i, (i < n)%nat -> g i = g1 i) -> p_prog (g n) = q -> halts react (S n) g s) ->
       forall (g1 : nat -> proc A) s, halts react n g1 s -> forall g, (forall i, (i < n)%nat -> g i = g1 i) -> p_prog (g n) = pr -> halts react (S n) g s).
    { intros pr IHp g1 s Hh. induction Hh as [g1 s _ IHh]. intros g Hg Hp. constructor. intros i b p s' Hi Hm.
      destruct (Nat.eq_dec i n) as [->|Hn].
      - apply (IHp (p_prog p)) with (g1 := g).
        + rewrite <- Hp. exact (moves_child Hm).
        + apply IHn.
        + intros j Hj. apply upd_other. lia.
        + now rewrite upd_same.
      - assert (Hin : (i < n)%nat) by lia. rewrite (Hg i Hin) in Hm. apply (IHh i b p s' Hin Hm).
        + intros j Hj. unfold upd. destruct (Nat.eqb j i); [reflexivity|now apply Hg].
        + rewrite upd_other by lia. exact Hp. }
    intros pr. induction pr as [a| | |k IH|c k IH|m k IH|f k IH]; apply Hc; cbn [child]; try contradiction.
    - intros q [c ->]. apply IH.
    - intros q ->. apply IH.
    - intros q [r ->]. apply IH.
    - intros q [r ->]. apply IH. }
  intros g s. exact (H _ g s (IHn g s) g (fun _ _ => eq_refl) eq_refl).
Qed.
End Halts.
