(** * DrainFacts: exactly when a download ends (C29). *)
From Verif Require Import Base Text Utils Win Errors Info Common Msg Reply Ntlm Prog Client Spec SpecReply SpecCrash
  Api SpecCall Sample BaseFacts RunFacts SpecFacts InfoFacts ClientFacts MsgFacts ReplyFacts CollectFacts CallFacts FindFacts
  AnswerFacts LoopFacts EndFacts ListFacts.
Open Scope N_scope.
Set Implicit Arguments.
Unset Strict Implicit.

(** the number of empty chunks *)
Fixpoint empties (l : list bytes) : nat :=
  match l with [] => 0%nat | [] :: r => S (empties r) | _ :: r => empties r end.

Section Server.
Variable Sv : Type.
Variable react : Sv -> bytes -> reaction Sv.
Notation world := (world cifs Sv).
Notation run := (run react).
Variable E : env.
Notation ends := (ends react).
Notation returns := (returns react).
Notation chunks := (chunks react E).

(** in this world the server answers no more than [n] reads of the download with no bytes at all *)
Definition empties_bounded (s : share) (path : text) (w : world) (n : nat) : Prop :=
  forall h w1 l w2, returns (fun f => exec E f (OpenFile s path)) w h w1 -> chunks h [] w1 l w2 -> (empties l <= n)%nat.

Lemma loop_step f g h data w : len data < h_size h ->
  run (download_loop E (S f) g h data) w
  = gbind (run (exec E g (ReadAt h (len data))) w) (fun c w1 => run (download_loop E f g h (data ++ c)) w1).
Proof.
  intros H. cbn [download_loop]. destruct (N.ltb_spec (len data) (h_size h)); [|lia]. rewrite run_mbind. reflexivity.
Qed.
Lemma loop_stop f g h data w : h_size h <= len data -> run (download_loop E (S f) g h data) w = Done (Good data) w.
Proof. intros H. cbn [download_loop]. destruct (N.ltb_spec (len data) (h_size h)); [lia|reflexivity]. Qed.
Lemma loop_drains h n : forall m k data w, (m + k <= n)%nat -> (forall l w2, chunks h data w l w2 -> (empties l <= k)%nat) ->
  h_size h <= len data + N.of_nat m ->
  exists f0 o, (forall w', o <> Starved w') /\ forall f g, (f0 <= f)%nat -> (f0 <= g)%nat -> run (download_loop E f g h data) w = o.
Proof.
  induction n as [|n IH]; intros m k data w Hn He Hm.
  - exists 1%nat, (Done (Good data) w). split; [easy|]. intros [|f] g Hf Hg; [lia|]. apply loop_stop. lia.
  - destruct (N.ltb_spec (len data) (h_size h)) as [Hlt|Hge].
    2:{ exists 1%nat, (Done (Good data) w). split; [easy|]. intros [|f] g Hf Hg; [lia|]. now apply loop_stop. }
    destruct (call_ends react E (ReadAt h (len data)) w) as (f0 & o & Ho & H).
    destruct o as [[c|e] w1|w1|w1|w1]; [|exists (S f0), (Done (Bad e) w1)|exists (S f0), (Blocked w1)|exists (S f0), (Crashed w1)|now destruct (Ho w1)];
      try (split; [easy|]; intros [|f] g Hf Hg; [lia|]; rewrite loop_step, H by (lia || exact Hlt); reflexivity).
    assert (Hret : returns (fun f => exec E f (ReadAt h (len data))) w c w1) by (now exists f0).
    assert (Hrest : exists f1 o1, (forall w', o1 <> Starved w') /\ forall f g, (f1 <= f)%nat -> (f1 <= g)%nat -> run (download_loop E f g h (data ++ c)) w1 = o1).
    { destruct c as [|x c].
      - destruct k as [|k].
        + exfalso. assert (Hc : chunks h data w [[]] w1) by (eapply ch_more; [exact Hlt|exact Hret|constructor]). apply He in Hc. cbn in Hc. lia.
        + apply (IH m k); [lia| |rewrite app_nil_r; exact Hm].
          intros l w2 Hl. assert (Hc : chunks h data w ([] :: l) w2) by (eapply ch_more; eauto). apply He in Hc. cbn in Hc. lia.
      - destruct m as [|m]; [lia|]. apply (IH m k); [lia| |rewrite len_app, len_cons; lia].
        intros l w2 Hl. assert (Hc : chunks h data w ((x :: c) :: l) w2) by (eapply ch_more; eauto). apply He in Hc. exact Hc. }
    destruct Hrest as (f1 & o1 & Ho1 & H1). exists (S (f0 + f1)), o1. split; [exact Ho1|]. intros [|f] g Hf Hg; [lia|].
    rewrite loop_step, H, gbind_good by (lia || exact Hlt). apply H1; lia.
Qed.
Lemma chunks_starve h data w l w2 : chunks h data w l w2 -> forall f, (f <= length l)%nat ->
  exists g0 w', forall g, (g0 <= g)%nat -> run (download_loop E f g h data) w = Starved w'.
Proof.
  induction 1 as [data w|data w c w1 l w2 Hlt [g1 Hr] Hp IH]; intros f Hf.
  - cbn in Hf. destruct f; [|lia]. exists 0%nat, w. reflexivity.
  - destruct f as [|f]; [exists 0%nat, w; reflexivity|]. cbn in Hf. destruct (IH f ltac:(lia)) as (g0 & w' & Hg).
    exists (g0 + g1)%nat, w'. intros g Hge. rewrite loop_step, Hr, gbind_good by (lia || exact Hlt). apply Hg. lia.
Qed.
Lemma empties_length l : (empties l <= length l)%nat.
Proof. clear. induction l as [|[|x c] l IH]; cbn [empties length]; lia. Qed.
Lemma download_loop_mono f h : forall g g' data, (g <= g')%nat -> ple (download_loop E f g h data) (download_loop E f g' h data).
Proof.
  induction f as [|f IH]; intros g g' data Hg; cbn [download_loop]; [constructor|]. apply ple_if; [|apply ple_refl].
  apply ple_mbind; [exact (@call_mono E _ (ReadAt h (len data)) _ _ Hg)|]. intros c. now apply IH.
Qed.
Theorem download_ends_iff s path w : ends (fun f => download E f s path) w <-> exists n, empties_bounded s path w n.
Proof.
  split.
  - intros (f0 & o & Ho & H). exists f0. intros h w1 l w2 [f1 Hr] Hp.
    destruct (Nat.le_gt_cases (empties l) f0) as [Hle|Hgt]; [exact Hle|]. exfalso. pose proof (empties_length l).
    destruct (chunks_starve Hp (f := f0)) as (g0 & w' & Hg); [lia|].
    set (G := (f0 + f1 + g0)%nat).
    assert (Hf : ple (download E f0 s path) (do! h := exec E G (OpenFile s path) in do! d := download_loop E f0 G h [] in do! _ := exec E G (Close h) in ret d)).
    { unfold download. apply ple_mbind; [exact (@call_mono E _ (OpenFile s path) f0 G ltac:(lia))|]. intros h'.
      apply ple_mbind; [apply download_loop_mono; lia|]. intros d.
      apply ple_mbind; [exact (@call_mono E _ (Close h') f0 G ltac:(lia))|]. intros u. apply ple_refl. }
    apply (@ple_run _ _ _ react _ _ w) in Hf.
    + rewrite (H f0 (Nat.le_refl _)), run_mbind, Hr, gbind_good, run_mbind, Hg in Hf by lia. now destruct (Ho w').
    + intros w'' Hs. rewrite (H f0 (Nat.le_refl _)) in Hs. now destruct (Ho w'').
  - intros [n Hb]. apply (@ends_bind _ react _ _ (fun f => exec E f (OpenFile s path))
      (fun f file => do! data := download_loop E f f file [] in do! _ := close E f file in ret data)); [apply call_ends|].
    intros h w1 Hw. apply (@ends_bind _ react _ _ (fun f => download_loop E f f h []) (fun f data => do! _ := close E f h in ret data)).
    + destruct (@loop_drains h (N.to_nat (h_size h) + n) (N.to_nat (h_size h)) n [] w1) as (f0 & o & Ho & H); [lia|intros l w2; now apply Hb|lia|].
      exists f0, o. split; [exact Ho|]. intros. apply H; lia.
    + intros data w2 _. apply (@ends_bind _ react _ _ (fun f => exec E f (Close h)) (fun _ _ => ret data)); [apply call_ends|].
      intros. apply ends_const. easy.
Qed.
Lemma empties_count l : count_occ (list_eq_dec Byte.byte_eq_dec) l [] = empties l.
Proof. clear. induction l as [|[|x c] l IH]; cbn [empties count_occ]; [reflexivity| |]; destruct list_eq_dec as [H|H]; congruence. Qed.
Theorem download_ends_count s path w : ends (fun f => download E f s path) w
  <-> exists n, forall h w1 l w2, returns (fun f => exec E f (OpenFile s path)) w h w1 -> chunks h [] w1 l w2 ->
        (count_occ (list_eq_dec Byte.byte_eq_dec) l [] <= n)%nat.
Proof.
  rewrite download_ends_iff. unfold empties_bounded. split; intros [n H]; exists n; intros h w1 l w2 Hr Hc; specialize (H _ _ _ _ Hr Hc);
    rewrite empties_count in *; exact H.
Qed.
End Server.
