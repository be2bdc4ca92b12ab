(** * RemoteFacts: client programs on a conforming server. *)
From Coq Require Import Lia.
From Verif Require Import Base BaseFacts Text Win Errors Common Reply Ntlm Prog Client Spec SpecReply SpecMsg Api SpecCall
  RunFacts MsgFacts SizeFacts ReqFacts CallFacts FindFacts Flow FlowFacts SpecRemote.
Set Implicit Arguments.
Unset Strict Implicit.
Open Scope N_scope.

Section Remote.
Variables Sv St : Type.
Variable react : Sv -> bytes -> reaction Sv.
Variable B : service St.
Variable abs : Sv -> St.
Hypothesis conf : conforming react B abs.
Variable E : env.
Notation world := (world cifs Sv).
Notation run := (run react).

Lemma single_dec R (c : call R) : single_reply c \/ ~ single_reply c.
Proof. destruct c; cbn; tauto. Qed.

Lemma remote_call_at R (c : call R) (w : world) : typed_client (cl w) -> idle w ->
  typed c -> unambiguous c -> fits_request (use_unicode (cl w)) c -> ~ mid_full E (cl w) ->
  exists f s' inc w', (forall fuel, request (exec E fuel c) (cl w) = Some f) /\ react (srv w) f = Accept s' inc Open
    /\ (forall fuel, (length inc < fuel)%nat -> run (exec E fuel c) w
        = Done (returned (fst (B (uid (cl w)) (op_of c) (abs (srv w))))) w')
    /\ idle w' /\ cl w' = next_client (cl w) /\ srv w' = s' /\ abs s' = snd (B (uid (cl w)) (op_of c) (abs (srv w)))
    /\ tx w' = tx w ++ [f].
Proof.
  intros Ht [Hrx Htl] Hc Hun Hfit Hmid.
  destruct (proj2 (request_iff E 0 c (cl w)) (conj Hfit Hmid)) as [f Hf].
  destruct (request_asks Ht Hc Hf) as (p & words & data & -> & Hlp & Hp & Hh & Hq).
  destruct (conf (srv w) Hc Hun Hlp Hp Hh Hq) as (s' & inc & Hr & Habs & Ha).
  set (w1 := mk_world (next_client (cl w)) s' inc Open (tx w ++ [session_message p])).
  assert (Hask : asked react w (session_message p) w1).
  { exists s', inc, Open. split; [exact Hr|]. split; [reflexivity|]. split; [reflexivity|]. split; [reflexivity|].
    unfold w1. cbn. rewrite Hrx, Htl. reflexivity. }
  exists (session_message p), s', inc, (leaving w1 []). split; [intros fuel; rewrite <- (request_fuel E 0 fuel); exact Hf|].
  split; [exact Hr|]. split; [|split; [split; reflexivity|]; split; [reflexivity|]; split; [reflexivity|]; split; [exact Habs|reflexivity]].
  intros fuel Hfuel. rewrite (request_fuel E 0 fuel) in Hf.
  assert (Hl : (length (rx w1) < fuel)%nat) by exact Hfuel.
  destruct (fst (B (uid (cl w)) (op_of c) (abs (srv w)))) as [v|st]; cbn [returned].
  - destruct Ha as [Ha1 Ha2]. destruct (single_dec c) as [Hs|Hs].
    + destruct (Ha1 Hs) as (q & st & H1 & H2 & H3 & H4).
      exact (single_complete Hs Hl Hf Hask H1 H2 H3 H4).
    + destruct (Ha2 Hs) as (fs & a & b & H1 & H2 & H3 & H4).
      exact (find_complete Hs Hl Hf Hask H1 H2 H3 H4).
  - destruct Ha as (q & H1 & H2 & H3). destruct (single_dec c) as [Hs|Hs].
    + exact (single_server_error Hs Hl Hf Hask H1 H2 H3).
    + assert (Ho : opcode c = 0x32) by (destruct c; cbn in Hs; [tauto..|reflexivity|reflexivity|tauto|tauto|tauto]).
      rewrite Ho in H2. apply (@find_server_error _ react E _ _ c w _ w1 [] 0 0 (rx w1) q st [] Hs Hl Hf Hask); auto.
      * apply no_fragment.
      * split; [constructor|]. split; [constructor|]. split; [constructor|]. intros fs1 fs2 H. 
        symmetry in H. apply app_eq_nil in H as [-> _]. intros X. now destruct X.
      * intros ->. apply H3. left. reflexivity.
Qed.

Lemma remote_call R (c : call R) (w : world) : typed_client (cl w) -> idle w ->
  typed c -> unambiguous c -> fits_request (use_unicode (cl w)) c -> ~ mid_full E (cl w) ->
  exists n w' f, (forall fuel, (n <= fuel)%nat -> run (exec E fuel c) w
      = Done (returned (fst (B (uid (cl w)) (op_of c) (abs (srv w))))) w')
    /\ idle w' /\ cl w' = next_client (cl w) /\ abs (srv w') = snd (B (uid (cl w)) (op_of c) (abs (srv w)))
    /\ tx w' = tx w ++ [f].
Proof.
  intros Ht Hi Hc Hun Hfit Hmid.
  destruct (remote_call_at Ht Hi Hc Hun Hfit Hmid) as (f & s' & inc & w' & _ & _ & Hrun & Hi' & Hcl & Hs & Habs & Htx).
  exists (S (length inc)), w', f. split; [exact Hrun|]. split; [exact Hi'|]. split; [exact Hcl|]. split; [now rewrite Hs|exact Htx].
Qed.

Theorem remote_local A (f : flow A) c st n a c' st' : local B f c st n a c' st' ->
  forall w : world, cl w = c -> abs (srv w) = st -> typed_client c -> idle w -> room E c n ->
  exists k w' fs, (forall fuel, (k <= fuel)%nat -> run (interp E fuel f) w = Done a w')
    /\ idle w' /\ cl w' = c' /\ abs (srv w') = st' /\ tx w' = tx w ++ fs /\ length fs = n.
Proof.
  induction 1 as [a c st|R q k c st r st1 n a c' st' Hq Hun Hfit HB _ IH|k c st n a c' st' _ IH|u k c st n a c' st' Hu _ IH|m u k c st n a c' st' _ IH];
    intros w Hcl Habs Ht Hi Hroom.
  - exists 0%nat, w, []. split; [reflexivity|]. split; [exact Hi|]. split; [exact Hcl|]. split; [exact Habs|].
    split; [now rewrite app_nil_r|reflexivity].
  - subst c st. assert (Hmid : ~ mid_full E (cl w)).
    { intros [Ho Hm]. specialize (Hroom Ho). lia. }
    destruct (remote_call Ht Hi Hq Hun Hfit Hmid) as (k1 & w1 & g & Hrun & Hi1 & Hcl1 & Habs1 & Htx1).
    rewrite HB in Hrun, Habs1. cbn [fst snd] in Hrun, Habs1.
    destruct (IH w1 Hcl1 Habs1) as (k2 & w2 & fs & Hrun2 & Hi2 & Hcl2 & Habs2 & Htx2 & Hlen).
    + destruct Ht as [Ht1 Ht2]. split; [exact Ht1|]. unfold next_client, u16. cbn. apply N.mod_lt. lia.
    + exact Hi1.
    + intros Ho. specialize (Hroom Ho). unfold next_client. cbn [mid].
      pose proof (N.mod_le (mid (cl w) + 1) 65536 ltac:(lia)). lia.
    + exists (Nat.max k1 k2), w2, (g :: fs). split.
      { intros fuel Hf. cbn [interp]. rewrite run_bind, (Hrun fuel) by lia. cbn [obind]. apply Hrun2. lia. }
      split; [exact Hi2|]. split; [exact Hcl2|]. split; [exact Habs2|].
      split; [rewrite Htx2, Htx1, <- app_assoc; reflexivity|]. cbn. now rewrite Hlen.
  - subst c. destruct (IH w eq_refl Habs Ht Hi Hroom) as (k2 & w2 & fs & H). exists k2, w2, fs. exact H.
  - subst c. set (w1 := mk_world (set_uid u (cl w)) (srv w) (rx w) (tl w) (tx w)).
    destruct (IH w1 eq_refl Habs) as (k2 & w2 & fs & H); [split; [exact Hu|apply Ht]|exact Hi|exact Hroom|].
    exists k2, w2, fs. exact H.
  - subst c. set (w1 := mk_world (set_options m u (cl w)) (srv w) (rx w) (tl w) (tx w)).
    destruct (IH w1 eq_refl Habs) as (k2 & w2 & fs & H); [exact Ht|exact Hi|exact Hroom|].
    exists k2, w2, fs. exact H.
Qed.
End Remote.
