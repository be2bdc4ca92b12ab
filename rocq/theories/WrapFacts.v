(** * WrapFacts: long histories (C08) *)
From Verif Require Import Base Text Utils Win Errors Info Common Msg Reply Ntlm Prog Client Spec SpecReply SpecMsg
  Api SpecCall Flow Sample BaseFacts TextFacts RunFacts SpecFacts InfoFacts ClientFacts MsgFacts CallFacts SizeFacts ReqFacts FlowFacts.
Open Scope N_scope.
Set Implicit Arguments.
Unset Strict Implicit.

(** ** consequences of ascending *)
Lemma ascending_in a l b x : ascending a l b -> In x l -> a <= x < b.
Proof.
  revert a. induction l as [|y l IH]; intros a; cbn [ascending In]; [easy|]. intros [H1 H2] [->|H].
  - split; [exact H1|]. clear IH. revert x H1 H2. induction l as [|z l IH]; intros x H1; cbn [ascending]; [lia|].
    intros [H2 H3]. assert (z < b); [|lia]. apply IH with (x := z); [lia|exact H3].
  - specialize (IH _ H2 H). lia.
Qed.
Lemma ascending_NoDup a l b : ascending a l b -> NoDup l.
Proof.
  revert a. induction l as [|y l IH]; intros a; cbn [ascending]; [constructor|]. intros [H1 H2].
  constructor; [|eapply IH; exact H2]. intros H. apply (ascending_in H2) in H. lia.
Qed.
(** so many as there are: no gaps *)
Lemma ascending_full l : forall a b, ascending a l b -> len l = b - a -> a <= b ->
  forall m, consecutive ((m + a) mod 65536) (map (fun j => (m + j) mod 65536) l).
Proof.
  assert (Hlen : forall l a b, ascending a l b -> len l <= b - a).
  { induction l0 as [|y l0 IH]; intros a b; cbn [ascending]; [change (len (@nil N)) with 0; lia|].
    intros [H1 H2]. pose proof (ascending_in (x := y) (a := a) (l := y :: l0) (b := b)) as Hy.
    specialize (IH _ _ H2). rewrite len_cons. cbn [ascending In] in Hy. specialize (Hy (conj H1 H2) (or_introl eq_refl)). lia. }
  induction l as [|y l IH]; intros a b H Hl Hab m; cbn [map consecutive]; [exact I|]. cbn [ascending] in H. destruct H as [H1 H2].
  rewrite len_cons in Hl. pose proof (Hlen _ _ _ H2).
  assert (y < b) by (apply (@ascending_in a (y :: l) b y); [split; assumption|now left]). assert (y = a) by lia. subst y. split; [reflexivity|].
  replace (((m + a) mod 65536 + 1) mod 65536) with ((m + (a + 1)) mod 65536) by lia.
  eapply IH; [exact H2|lia|lia].
Qed.

Section Ids.
Variable E : env.
(** the ids of all frames *)
Definition ids_of (l : list bytes) (is : list N) : Prop := Forall2 part_with_id l is.

Lemma written_some_ids st k l st' : written E st k l st' -> mid st < 65536 ->
  exists is, ids_of l is
    /\ (k <= 65536 -> NoDup is)
    /\ (mid st + k <= 65536 -> ascending (mid st) is (mid st + k))
    /\ (k = len l -> consecutive (mid st) is).
Proof.
  intros Hw Hm. pose proof (written_ids Hw Hm) as (H1 & H2 & js & H3 & H4).
  exists (map (fun j => (mid st + j) mod 65536) js). split; [|split; [|split]].
  - clear -H4. induction H4; constructor; auto.
  - intros Hk. pose proof (ascending_NoDup H3) as Hn.
    assert (Hin : forall x, In x js -> x < k) by (intros x Hx; apply (ascending_in H3) in Hx; lia).
    clear -Hk Hn Hin. induction Hn as [|x js Hx Hn IH]; cbn [map]; constructor.
    + intros Hi. apply in_map_iff in Hi. destruct Hi as (y & Hy & Hi). assert (y < k) by (apply Hin; now right).
      assert (x < k) by (apply Hin; now left). assert (x = y) by lia. congruence.
    + apply IH. intros y Hy. apply Hin. now right.
  - intros Hk. clear -Hk H3 Hm.
    assert (G : forall js a, ascending a js k -> ascending (mid st + a) (map (fun j => (mid st + j) mod 65536) js) (mid st + k)).
    { induction js0 as [|x js0 IH]; intros a; cbn [ascending map]; [lia|]. intros [H1 H2].
      assert (x < k) by (apply (@ascending_in a (x :: js0) k x); [split; assumption|now left]).
      rewrite N.mod_small by lia. split; [lia|]. replace (mid st + x + 1) with (mid st + (x + 1)) by lia. now apply IH. }
    specialize (G js 0 H3). now rewrite N.add_0_r in G.
  - intros Hk. replace (mid st) with ((mid st + 0) mod 65536) at 1 by lia.
    eapply ascending_full; [exact H3| |lia]. clear -H4 Hk. rewrite N.sub_0_r, Hk. clear Hk.
    induction H4; [reflexivity|]. rewrite !len_cons. lia.
Qed.
End Ids.

(** ** a program that closes a handle [n] times, whatever the answers *)
Fixpoint closes (n : nat) : flow unit :=
  match n with
  | O => FRet (Good tt)
  | S n => FCall (Close handle0) (fun _ => closes n)
  end.
Lemma closes_user n : user (closes n).
Proof. induction n; cbn; constructor; auto. Qed.
(** a peer that takes everything and has closed its direction *)
Definition silent (s : unit) (_ : bytes) : reaction unit := Accept tt [] Open.
Definition deaf (m : N) (l : list bytes) : world cifs unit := mk_world (mk_cifs default_auth 4356 true 7 m) tt [] Closed l.

Lemma close_deaf E fuel m l : ~ mid_full E (cl (deaf m l)) -> (1 <= fuel)%nat -> m < 65536 ->
  exists f a, frame_id f = Some m /\ run silent (exec E fuel (Close handle0)) (deaf m l)
    = Done a (deaf ((m + 1) mod 65536) (l ++ [f])).
Proof.
  intros Hn Hf Hm. destruct (proj2 (request_iff E fuel (Close handle0) (cl (deaf m l)))) as [f Hr]; [now split|].
  assert (Ha : asked silent (deaf m l) f (deaf ((m + 1) mod 65536) (l ++ [f]))).
  { exists tt, [], Open. repeat split. }
  pose proof (request_id (ex_intro _ fuel Hr : is_request E (cl (deaf m l)) (Close handle0) f)) as [Hi _].
  cbn [cl deaf mid] in Hi. rewrite N.mod_small in Hi by lia.
  rewrite (call_asked (react := silent) Hr Ha). exists f.
  destruct fuel as [|g]; [lia|]. eexists. split; [exact Hi|].
  cbn [after]. rewrite (@run_recv _ silent _ r_close m _ (S g) (ScShort [])).
  - cbn [received]. unfold short_outcome. reflexivity.
  - cbn. constructor. reflexivity.
  - cbn. lia.
Qed.
Lemma closes_run E fuel n : forall m l, (1 <= fuel)%nat -> m < 65536 -> (overflow_checks E = true -> m + N.of_nat n <= 65535) ->
  exists fs, run silent (interp E fuel (closes n)) (deaf m l) = Done (Good tt) (deaf ((m + N.of_nat n) mod 65536) (l ++ fs))
   /\ length fs = n /\ forall i f, nth_error fs i = Some f -> frame_id f = Some ((m + N.of_nat i) mod 65536).
Proof.
  induction n as [|n IH]; intros m l Hf Hm Ho.
  - exists []. rewrite app_nil_r. replace ((m + N.of_nat 0) mod 65536) with m by lia. split; [reflexivity|].
    split; [reflexivity|]. intros [|i] f; discriminate.
  - assert (Hn : ~ mid_full E (cl (deaf m l))) by (unfold mid_full; cbn [cl deaf mid]; intros [H1 H2]; specialize (Ho H1); lia).
    destruct (close_deaf Hn Hf Hm) as (f & a & Hi & Hr). cbn [closes interp]. rewrite run_bind, Hr. cbn [obind].
    destruct (IH ((m + 1) mod 65536) (l ++ [f]) Hf) as (fs & H1 & H2 & H3); [lia|intros H; specialize (Ho H); lia|].
    exists (f :: fs). rewrite H1, <- app_assoc. split; [f_equal; f_equal; lia|]. split; [cbn; now rewrite H2|].
    intros [|i] g; cbn [nth_error].
    + intros [= <-]. rewrite Hi. f_equal. lia.
    + intros H. rewrite (H3 _ _ H). f_equal. lia.
Qed.
Lemma closes_crash E fuel n : overflow_checks E = true -> (1 <= fuel)%nat -> forall m l, m < 65536 -> 65535 < m + N.of_nat n ->
  exists w, run silent (interp E fuel (closes n)) (deaf m l) = Crashed w.
Proof.
  intros Ho Hf. induction n as [|n IH]; intros m l Hm Hn; [lia|]. cbn [closes interp]. rewrite run_bind.
  destruct (N.eq_dec m 65535) as [->|Hm'].
  - rewrite call_mid_full by (split; [exact Ho|cbn; lia]). cbn. eauto.
  - assert (Hx : ~ mid_full E (cl (deaf m l))) by (unfold mid_full; cbn [cl deaf mid]; lia).
    destruct (close_deaf Hx Hf Hm) as (f & a & Hi & Hr). rewrite Hr. cbn [obind]. apply IH; lia.
Qed.

(** ** the counterexamples *)
Lemma some_nat (k : N) : exists n, N.of_nat n = k.
Proof. exists (N.to_nat k). apply N2Nat.id. Qed.
Lemma wraps : exists (p : flow unit) fuel w' i j f g, user p
  /\ run silent (interp (env0 false) fuel p) (deaf 0 []) = Done (Good tt) w'
  /\ (i < j)%nat /\ nth_error (tx w') i = Some f /\ nth_error (tx w') j = Some g /\ frame_id f = frame_id g.
Proof.
  destruct (some_nat 65537) as [n Hn]. destruct (some_nat 65536) as [k Hk].
  destruct (@closes_run (env0 false) 1 n 0 []) as (fs & H1 & H2 & H3); [lia|lia|discriminate|].
  destruct (nth_error fs 0) as [f|] eqn:Hf; [|apply nth_error_None in Hf; lia].
  destruct (nth_error fs k) as [g|] eqn:Hg; [|apply nth_error_None in Hg; lia].
  exists (closes n), 1%nat. eexists. exists 0%nat, k, f, g.
  split; [apply closes_user|]. split; [exact H1|]. split; [lia|]. split; [exact Hf|]. split; [exact Hg|].
  rewrite (H3 _ _ Hf), (H3 _ _ Hg), Hk. reflexivity.
Qed.
Lemma overflows : exists (p : flow unit) fuel w', user p
  /\ run silent (interp (env0 true) fuel p) (deaf 0 []) = Crashed w'.
Proof.
  destruct (some_nat 65536) as [n Hn].
  destruct (@closes_crash (env0 true) 1 n) with (m := 0) (l := @nil bytes) as [w Hw]; [reflexivity|lia|lia|lia|].
  exists (closes n), 1%nat, w. split; [apply closes_user|exact Hw].
Qed.
(** a path that does not fit, then a close: the first request has the second id *)
Lemma utf16_len_repeat n : utf16_len (repeat 97 n) = N.of_nat n.
Proof. induction n; cbn [repeat utf16_len]; [reflexivity|]. rewrite IHn. change (97 <? 0x10000) with true. cbv iota. lia. Qed.
Lemma long_path : exists s, str s /\ utf16_len s = 40000.
Proof.
  destruct (some_nat 40000) as [n Hn]. exists (repeat 97 n). rewrite utf16_len_repeat, Hn. split; [|reflexivity].
  clear Hn. induction n; constructor; auto. left. reflexivity.
Qed.
Lemma gap : exists (p : flow unit) fuel w' f, user p
  /\ run silent (interp (env0 true) fuel p) (deaf 0 []) = Done (Good tt) w'
  /\ tx w' = [f] /\ frame_id f = Some 1.
Proof.
  destruct long_path as (long & _ & Hl).
  exists (FCall (OpenFile share0 long) (fun _ => closes 1)), 1%nat.
  assert (Hn : forall m l, m < 65535 -> ~ mid_full (env0 true) (cl (deaf m l))) by (intros m l H [_ H']; cbn in H'; lia).
  pose proof (@call_refused _ silent (env0 true) 1 _ (OpenFile share0 long) (deaf 0 [])) as He.
  specialize (He ltac:(cbn [fits_request]; lia) (fun H => H) ltac:(apply Hn; lia)).
  destruct (@closes_run (env0 true) 1 1 1 []) as (fs & H1 & H2 & H3); [lia|lia|intros _; lia|].
  destruct fs as [|f [|g r]]; try discriminate H2.
  eexists. exists f. split; [constructor; intros _; apply closes_user|]. split.
  - cbn [interp]. rewrite run_bind, He. cbn [obind]. exact H1.
  - split; [reflexivity|]. rewrite (H3 0%nat f eq_refl). reflexivity.
Qed.
