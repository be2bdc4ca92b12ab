(** * SegFacts: segmentation of the stream and partial writes are invisible. *)
From Verif Require Import Base BaseFacts Prog RunFacts.
Open Scope N_scope.

Section Seg.
Variables C S : Type.
Variable bstep : S -> byte -> (S * list bytes * tail) + (S * N).

(** the peer of [bstep] seen as a peer that gets whole buffers: [n] bytes taken so
    far, [inc] sent and [t] the tail so far *)
Fixpoint react_from (s : S) (n : N) (inc : bytes) (t : tail) (b : bytes) : reaction S :=
  match b with
  | [] => Accept s inc t
  | x :: r =>
    match bstep s x with
    | inl (s', segs, t') =>
      match t with
      | Open => react_from s' (1 + n) (inc ++ concat segs) t' r
      | _ => react_from s' (1 + n) inc t r
      end
    | inr (s', e) => Refuse s' n e inc t
    end
  end.
Definition react_of (s : S) (b : bytes) : reaction S := react_from s 0 [] Open b.

Definition flat (w : sworld C S) (w' : world C S) : Prop :=
  cl w' = scl w /\ srv w' = ssrv w /\ rx w' = concat (rxs w) /\ tl w' = stl w
  /\ concat (tx w') = concat (stx w).

Lemma read_loop_spec segs : forall count buffer,
  match read_loop count buffer segs with
  | inl (b, r) => count <= len (concat segs)
                  /\ b = buffer ++ take count (concat segs)
                  /\ concat r = drop count (concat segs)
  | inr _ => len (concat segs) < count
  end.
Proof.
  induction segs as [|g r IH]; intros count buffer; cbn [read_loop concat].
  - destruct (N.eqb_spec count 0) as [->|Hc].
    + rewrite take_0, app_nil_r, drop_0. repeat split; cbn; lia.
    + cbn; lia.
  - destruct (N.eqb_spec count 0) as [->|Hc].
    + rewrite take_0, app_nil_r, drop_0. repeat split; cbn; lia.
    + rewrite len_app, take_app, drop_app.
      destruct (N.leb_spec (len g) count) as [Hg|Hg].
      * specialize (IH (count - len g) (buffer ++ g)).
        destruct (read_loop (count - len g) (buffer ++ g) r) as [[b r']|b].
        -- destruct IH as (H1 & H2 & H3). rewrite (take_all count g), (drop_all count g) by lia.
           split; [lia|]. split; [now rewrite H2, app_assoc|exact H3].
        -- lia.
      * replace (count - len g) with 0 by lia. rewrite take_0, drop_0, app_nil_r.
        repeat split; lia.
Qed.

(** feeding [b] byte by byte agrees with [react_from], the part written included *)
Lemma feed_react b : forall (w : sworld C S) (s : S) n inc t (w0 : sworld C S),
  ssrv w = s ->
  (stl w0 = Open -> concat (rxs w) = concat (rxs w0) ++ inc /\ stl w = t) ->
  (stl w0 <> Open -> concat (rxs w) = concat (rxs w0) /\ stl w = stl w0) ->
  forall w' e', feed bstep w b = (w', e') ->
  exists k, k <= len b /\ concat (stx w') = concat (stx w) ++ take k b
  /\ scl w' = scl w
  /\ match react_from s n inc t b with
     | Accept s' inc' t' => e' = None /\ k = len b /\ ssrv w' = s'
         /\ (concat (rxs w'), stl w') = deliver (stl w0) (concat (rxs w0)) inc' t'
     | Refuse s' m e inc' t' => e' = Some e /\ m = n + k /\ k < len b /\ ssrv w' = s'
         /\ (concat (rxs w'), stl w') = deliver (stl w0) (concat (rxs w0)) inc' t'
     end.
Proof.
  induction b as [|x r IH]; intros w s n inc t w0 Hs Ho Hc w' e' H; cbn [feed react_from] in *.
  - injection H as <- <-. exists 0. rewrite take_0, app_nil_r. repeat split; try easy.
    unfold deliver. destruct (stl w0) eqn:E.
    + destruct (Ho eq_refl) as [-> ->]. reflexivity.
    + destruct (Hc ltac:(easy)) as [-> ->]. reflexivity.
    + destruct (Hc ltac:(easy)) as [-> ->]. reflexivity.
  - rewrite Hs in H. destruct (bstep s x) as [[[s1 segs] t1]|[s1 e1]].
    + match type of H with (let '(_, _) := ?X in _) = _ => destruct X as [segs' t2] eqn:E2 end.
      assert (G : forall incn tn, react_from s n inc t (x :: r) = react_from s n inc t (x :: r) ->
        (stl w0 = Open -> concat segs' = concat (rxs w0) ++ incn /\ t2 = tn) ->
        (stl w0 <> Open -> concat segs' = concat (rxs w0) /\ t2 = stl w0) ->
        exists k, k <= len (x :: r) /\ concat (stx w') = concat (stx w) ++ take k (x :: r)
          /\ scl w' = scl w /\
          match react_from s1 (1 + n) incn tn r with
          | Accept s' inc' t' => e' = None /\ k = len (x :: r) /\ ssrv w' = s'
              /\ (concat (rxs w'), stl w') = deliver (stl w0) (concat (rxs w0)) inc' t'
          | Refuse s' m e inc' t' => e' = Some e /\ m = n + k /\ k < len (x :: r) /\ ssrv w' = s'
              /\ (concat (rxs w'), stl w') = deliver (stl w0) (concat (rxs w0)) inc' t'
          end).
      { intros incn tn _ Ho' Hc'.
        destruct (IH (mk_sworld (scl w) s1 segs' t2 (stx w ++ [[x]])) s1 (1 + n) incn tn w0
                     eq_refl Ho' Hc' w' e' H) as (k & K1 & K2 & K3 & K4).
        exists (1 + k). rewrite take_cons, len_cons. cbn [stx scl] in *.
        split; [lia|]. split.
        { rewrite K2, concat_app. cbn [concat]. rewrite <- !app_assoc. reflexivity. }
        split; [exact K3|].
        destruct (react_from s1 (1 + n) incn tn r).
        - destruct K4 as (? & ? & ? & ?). repeat split; try easy; lia.
        - destruct K4 as (? & ? & ? & ? & ?). repeat split; try easy; lia. }
      destruct (stl w0) eqn:E0.
      * destruct (Ho eq_refl) as [Hrx Htl].
        destruct t eqn:Et.
        -- rewrite Htl in E2. injection E2 as <- <-.
           apply G; [easy| |easy]. intros _. rewrite concat_app, Hrx, <- app_assoc. easy.
        -- rewrite Htl in E2. injection E2 as <- <-. apply G; [easy| |easy]. easy.
        -- rewrite Htl in E2. injection E2 as <- <-. apply G; [easy| |easy]. easy.
      * destruct (Hc ltac:(easy)) as [Hrx Htl].
        rewrite Htl in E2. injection E2 as <- <-.
        destruct t; apply G; easy.
      * destruct (Hc ltac:(easy)) as [Hrx Htl].
        rewrite Htl in E2. injection E2 as <- <-.
        destruct t; apply G; easy.
    + injection H as <- <-. exists 0. rewrite take_0, app_nil_r, len_cons. cbn [stx scl ssrv rxs stl].
      repeat split; try easy; try lia.
      unfold deliver. destruct (stl w0) eqn:E.
      * destruct (Ho eq_refl) as [-> ->]. reflexivity.
      * destruct (Hc ltac:(easy)) as [-> ->]. reflexivity.
      * destruct (Hc ltac:(easy)) as [-> ->]. reflexivity.
Qed.

Lemma feed_app a : forall (w : sworld C S) b,
  feed bstep w (a ++ b) =
  match feed bstep w a with (w', None) => feed bstep w' b | x => x end.
Proof.
  induction a as [|x r IH]; intros w b; cbn [feed app]; [reflexivity|].
  destruct (bstep (ssrv w) x) as [[[s segs] t]|[s e]]; [|reflexivity].
  destruct (stl w); apply IH.
Qed.

Variable wsize : S -> bytes -> nat.

(** partial writes amount to one write of everything *)
Lemma write_loop_feed : forall fuel b (w : sworld C S), (length b <= fuel)%nat ->
  write_loop bstep wsize fuel w b = feed bstep w b.
Proof.
  induction fuel as [|fuel IH]; intros b w Hf; cbn [write_loop].
  - destruct b; [reflexivity|cbn in Hf; lia].
  - destruct b as [|x r]; [reflexivity|].
    set (n := Nat.max 1 (Nat.min (wsize (ssrv w) (x :: r)) (length (x :: r)))).
    replace (feed bstep w (x :: r)) with (feed bstep w (firstn n (x :: r) ++ skipn n (x :: r))) by now rewrite firstn_skipn.
    rewrite feed_app.
    destruct (feed bstep w (firstn n (x :: r))) as [w' [e|]]; [reflexivity|].
    apply IH. rewrite skipn_length. cbn [length] in *. lia.
Qed.

Definition flat_outcome {A} (o : soutcome C S A) (o' : outcome C S A) : Prop :=
  match o, o' with
  | SDone a w, Done a' w' => a = a' /\ flat w w'
  | SBlocked w, Blocked w' => flat w w'
  | SCrashed w, Crashed w' => flat w w'
  | SStarved w, Starved w' => flat w w'
  | _, _ => False
  end.

Lemma srun_run {A} (p : prog C A) : forall (w : sworld C S) w', flat w w' ->
  flat_outcome (srun bstep wsize p w) (run react_of p w').
Proof.
  induction p as [a| | |k IH|c k IH|n k IH|b k IH]; intros w w' Hw; cbn [srun run].
  - now split.
  - exact Hw.
  - exact Hw.
  - destruct Hw as (Hc & Hr). rewrite Hc. apply IH. now split.
  - apply IH. destruct Hw as (H1 & H2 & H3 & H4 & H5). now repeat split.
  - destruct Hw as (H1 & H2 & H3 & H4 & H5).
    pose proof (read_loop_spec (rxs w) n []) as HL.
    destruct (read_loop n [] (rxs w)) as [[b r]|b].
    + destruct HL as (L1 & L2 & L3). cbn [app] in L2. subst b.
      rewrite H3. destruct (N.leb_spec n (len (concat (rxs w)))); [|lia].
      apply IH. repeat split; cbn; congruence.
    + rewrite H3. destruct (N.leb_spec n (len (concat (rxs w)))); [lia|].
      rewrite H4. destruct (stl w) eqn:Ht.
      * repeat split; cbn; congruence.
      * apply IH. repeat split; cbn; congruence.
      * apply IH. repeat split; cbn; congruence.
  - rewrite write_loop_feed by lia.
    destruct (feed bstep w b) as [w1 e1] eqn:Hf.
    destruct Hw as (H1 & H2 & H3 & H4 & H5).
    destruct (@feed_react b w (ssrv w) 0 [] Open (mk_sworld (scl w) (ssrv w) (rxs w) (stl w) (stx w))
               eq_refl) with (w' := w1) (e' := e1) as (kk & K1 & K2 & K3 & K4).
    { cbn. intros. now rewrite app_nil_r. }
    { cbn. easy. }
    { exact Hf. }
    cbn [rxs stl] in K4. unfold react_of. rewrite H2, H3, H4.
    destruct (react_from (ssrv w) 0 [] Open b) as [s inc t|s m e inc t].
    + destruct K4 as (-> & Hk & Hs & Hd). rewrite <- Hd. apply IH.
      repeat split; cbn; try congruence.
      rewrite concat_app, H5, K2. cbn [concat]. rewrite app_nil_r, Hk, take_all by lia. reflexivity.
    + destruct K4 as (-> & Hk & Hk2 & Hs & Hd). rewrite <- Hd. apply IH.
      repeat split; cbn; try congruence.
      rewrite concat_app, H5, K2. cbn [concat]. rewrite app_nil_r. f_equal. f_equal. lia.
Qed.
End Seg.

Arguments react_from {S} bstep s n inc t b.
Arguments react_of {S} bstep s b.
Arguments flat {C S} w w'.

(** two peers that differ only in how they segment what they send *)
Definition same_peer {S} (b1 b2 : S -> byte -> (S * list bytes * tail) + (S * N)) : Prop :=
  forall s x,
  match b1 s x, b2 s x with
  | inl (s1, g1, t1), inl (s2, g2, t2) => s1 = s2 /\ concat g1 = concat g2 /\ t1 = t2
  | inr (s1, e1), inr (s2, e2) => s1 = s2 /\ e1 = e2
  | _, _ => False
  end.

Lemma react_from_same {S} (b1 b2 : S -> byte -> (S * list bytes * tail) + (S * N)) :
  same_peer b1 b2 -> forall b s n inc t,
  react_from b1 s n inc t b = react_from b2 s n inc t b.
Proof.
  intros H b; induction b as [|x r IH]; intros s n inc t; cbn [react_from]; [reflexivity|].
  specialize (H s x).
  destruct (b1 s x) as [[[s1 g1] t1]|[s1 e1]], (b2 s x) as [[[s2 g2] t2]|[s2 e2]]; try easy.
  - destruct H as (-> & Hg & ->). rewrite Hg. destruct t; apply IH.
  - now destruct H as [-> ->].
Qed.

Lemma run_ext {C S A} (r1 r2 : S -> bytes -> reaction S) (p : prog C A) :
  (forall s b, r1 s b = r2 s b) -> forall w, run r1 p w = run r2 p w.
Proof.
  intros H; induction p as [a| | |k IH|c k IH|n k IH|b k IH]; intros w; cbn [run]; auto.
  - destruct (n <=? len (rx w)); auto. destruct (tl w); auto.
  - rewrite H. destruct (r2 (srv w) b); destruct (deliver (tl w) (rx w) inc t); auto.
Qed.

Definition same_stream {C S} (w1 w2 : sworld C S) : Prop :=
  scl w1 = scl w2 /\ ssrv w1 = ssrv w2 /\ concat (rxs w1) = concat (rxs w2)
  /\ stl w1 = stl w2 /\ concat (stx w1) = concat (stx w2).

Definition same_result {C S A} (o1 o2 : soutcome C S A) : Prop :=
  match o1, o2 with
  | SDone a1 w1, SDone a2 w2 => a1 = a2 /\ same_stream w1 w2
  | SBlocked w1, SBlocked w2 => same_stream w1 w2
  | SCrashed w1, SCrashed w2 => same_stream w1 w2
  | SStarved w1, SStarved w2 => same_stream w1 w2
  | _, _ => False
  end.

Lemma segmentation {C S A} b1 b2 ws1 ws2 (p : prog C A) (w1 w2 : sworld C S) :
  same_peer b1 b2 -> same_stream w1 w2 ->
  same_result (srun b1 ws1 p w1) (srun b2 ws2 p w2).
Proof.
  intros Hp (H1 & H2 & H3 & H4 & H5).
  set (w := mk_world (scl w1) (ssrv w1) (concat (rxs w1)) (stl w1) (stx w1)).
  assert (F1 : flat w1 w) by now repeat split.
  assert (F2 : flat w2 w) by now repeat split.
  pose proof (@srun_run _ _ b1 ws1 _ p _ _ F1) as G1. pose proof (@srun_run _ _ b2 ws2 _ p _ _ F2) as G2.
  rewrite (run_ext (react_of b1) (react_of b2)) in G1
    by (intros; apply react_from_same; exact Hp).
  unfold flat_outcome in *.
  destruct (srun b1 ws1 p w1), (run (react_of b2) p w) as [a' w'|w'|w'|w'], (srun b2 ws2 p w2); try easy;
    cbn [same_result];
    repeat match goal with H : _ /\ _ |- _ => destruct H | H : flat _ _ |- _ => unfold flat in H end;
    repeat split; congruence.
Qed.
