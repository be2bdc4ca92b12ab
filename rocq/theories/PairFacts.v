(** * PairFacts: two servers for one service *)
From Verif Require Import Base Text Win Errors Common Reply Ntlm Prog Client Spec SpecReply SpecMsg Api SpecCall BaseFacts
  RunFacts MsgFacts SizeFacts ReqFacts CallFacts FindFacts Flow FlowFacts SpecRemote RemoteFacts.
Open Scope N_scope.
Set Implicit Arguments.

Section Twins.
Variables Sv1 Sv2 St : Type.
Variable react1 : Sv1 -> bytes -> reaction Sv1.
Variable react2 : Sv2 -> bytes -> reaction Sv2.
Variable B : service St.
Variable abs1 : Sv1 -> St.
Variable abs2 : Sv2 -> St.
Hypothesis conf1 : conforming react1 B abs1.
Hypothesis conf2 : conforming react2 B abs2.
Variable E : env.

Theorem twins A (f : flow A) c st n a c' st' : local B f c st n a c' st' ->
  forall (w1 : world cifs Sv1) (w2 : world cifs Sv2), cl w1 = c -> cl w2 = c -> abs1 (srv w1) = st -> abs2 (srv w2) = st ->
  typed_client c -> idle w1 -> idle w2 -> room E c n ->
  exists k v1 v2 fs, (forall fuel, (k <= fuel)%nat -> run react1 (interp E fuel f) w1 = Done a v1 /\ run react2 (interp E fuel f) w2 = Done a v2)
    /\ tx v1 = tx w1 ++ fs /\ tx v2 = tx w2 ++ fs /\ length fs = n
    /\ idle v1 /\ idle v2 /\ cl v1 = c' /\ cl v2 = c' /\ abs1 (srv v1) = st' /\ abs2 (srv v2) = st'.
Proof.
  induction 1 as [a c st|R q k c st r st1 n a c' st' Hq Hun Hfit HB _ IH|k c st n a c' st' _ IH|u k c st n a c' st' Hu _ IH|m u k c st n a c' st' _ IH];
    intros w1 w2 Hcl1 Hcl2 Hab1 Hab2 Ht Hi1 Hi2 Hroom.
  - exists 0%nat, w1, w2, []. rewrite !app_nil_r. repeat split; auto; try apply Hi1; apply Hi2.
  - assert (Hmid : ~ mid_full E c) by (intros [Ho Hm]; specialize (Hroom Ho); lia).
    destruct (@remote_call_at _ _ react1 B abs1 conf1 E R q w1) as (f1 & s1 & inc1 & u1 & Hr1 & _ & Hrun1 & Hj1 & Hc1 & Hs1 & Ha1 & Hx1);
      [now rewrite Hcl1|exact Hi1|exact Hq|exact Hun|now rewrite Hcl1|now rewrite Hcl1|].
    destruct (@remote_call_at _ _ react2 B abs2 conf2 E R q w2) as (f2 & s2 & inc2 & u2 & Hr2 & _ & Hrun2 & Hj2 & Hc2 & Hs2 & Ha2 & Hx2);
      [now rewrite Hcl2|exact Hi2|exact Hq|exact Hun|now rewrite Hcl2|now rewrite Hcl2|].
    assert (Hff : f1 = f2) by (specialize (Hr1 0%nat); specialize (Hr2 0%nat); rewrite Hcl1 in Hr1; rewrite Hcl2 in Hr2; congruence). subst f2.
    rewrite Hcl1, Hab1, HB in Hrun1, Ha1. rewrite Hcl2, Hab2, HB in Hrun2, Ha2. cbn [fst snd] in *. rewrite Hcl1 in Hc1. rewrite Hcl2 in Hc2. rewrite <- Hs1 in Ha1. rewrite <- Hs2 in Ha2.
    destruct (IH u1 u2 Hc1 Hc2 Ha1 Ha2) as (k2 & v1 & v2 & fs & Hrun & Y1 & Y2 & Hl & Hrest).
    + destruct Ht as [Ht1 Ht2]. split; [exact Ht1|]. unfold next_client, u16. cbn. apply N.mod_lt. lia.
    + exact Hj1.
    + exact Hj2.
    + intros Ho. specialize (Hroom Ho). unfold next_client. cbn [mid].
      pose proof (N.mod_le (mid c + 1) 65536 ltac:(lia)). lia.
    + exists (S (length inc1 + length inc2 + k2)), v1, v2, (f1 :: fs). split.
      { intros fuel Hf. cbn [interp]. rewrite !run_bind, (Hrun1 fuel), (Hrun2 fuel) by lia. cbn [obind]. apply Hrun. lia. }
      split; [rewrite Y1, Hx1, <- app_assoc; reflexivity|]. split; [rewrite Y2, Hx2, <- app_assoc; reflexivity|].
      split; [cbn; now rewrite Hl|exact Hrest].
  - subst c. destruct (IH w1 w2 eq_refl Hcl2 Hab1 Hab2 Ht Hi1 Hi2 Hroom) as (k2 & v1 & v2 & fs & H & Hr).
    exists k2, v1, v2, fs. split; [|exact Hr]. intros fuel Hf. destruct (H fuel Hf) as [G1 G2]. cbn [interp run]. rewrite Hcl2. auto.
  - destruct (IH (mk_world (set_uid u c) (srv w1) (rx w1) (tl w1) (tx w1)) (mk_world (set_uid u c) (srv w2) (rx w2) (tl w2) (tx w2)) eq_refl eq_refl Hab1 Hab2)
      as (k2 & v1 & v2 & fs & H); [split; [exact Hu|apply Ht]|exact Hi1|exact Hi2|exact Hroom|].
    exists k2, v1, v2, fs. cbn [interp run]. rewrite Hcl1, Hcl2. exact H.
  - destruct (IH (mk_world (set_options m u c) (srv w1) (rx w1) (tl w1) (tx w1)) (mk_world (set_options m u c) (srv w2) (rx w2) (tl w2) (tx w2)) eq_refl eq_refl Hab1 Hab2)
      as (k2 & v1 & v2 & fs & H); [exact Ht|exact Hi1|exact Hi2|exact Hroom|].
    exists k2, v1, v2, fs. cbn [interp run]. rewrite Hcl1, Hcl2. exact H.
Qed.
End Twins.
