(** * WeakFacts: which login the client uses, and what NTLMv1 gives away *)
From Verif Require Import Base Text Win Errors Info Common Reply Ntlm Prog Client Spec SpecReply SpecCrash SpecNtlm SpecMsg
  Api SpecCall Flow BaseFacts TextFacts RunFacts ClientFacts MsgFacts CallFacts EndFacts NtlmFacts FlowFacts SpecLogin OpenFacts
  SpecAccount Gate AccountFacts GateFacts SpecWeak.
Open Scope N_scope.
Set Implicit Arguments.

Section Weak.
Variable Sv : Type.
Variable react : Sv -> bytes -> reaction Sv.
Variable E : env.
Notation world := (world cifs Sv).
Notation run := (run react).

Lemma call_strong fuel a t m (w : world) : strong_message E a t m ->
  sends (strong_frame E a t) w (run (exec E fuel (SetupBlob m)) w).
Proof.
  intros Hc. destruct (@call_once Sv react E fuel _ (SetupBlob m) w) as (l & Hl & Hw). exists l. split; [exact Hl|].
  destruct Hw as [f H|f n H|H _|H]; constructor; try constructor; exists (cl w), m, f; split; auto; split; eauto; now exists fuel.
Qed.
Lemma negotiated_run p s (w w1 : world) : exchange react E Negotiate w p 0 s w1 ->
  exists k, forall fuel, (k <= fuel)%nat -> run (exec E fuel Negotiate) w = Done (Good s) w1.
Proof. intros H. exact (exchange_returns (c := Negotiate) I H). Qed.

Lemma strong_login t p s (w w1 : world) : typed_auth (auth_of (cl w)) -> clock E t -> exchange react E Negotiate w p 0 s w1 ->
  N.testbit (s_capabilities s) 31 = true ->
  exists k, forall fuel, (k <= fuel)%nat -> exists l, tx (final (run (setup_connection E fuel) w)) = tx w1 ++ l
    /\ Forall (strong_frame E (auth_of (cl w)) t) l.
Proof.
  intros Ta Ht H1 Hb. destruct (negotiated_run H1) as (k & Hk). exists k. intros fuel Hf.
  change (sends (strong_frame E (auth_of (cl w)) t) w1 (run (setup_connection E fuel) w)).
  rewrite setup_run, (Hk _ Hf). cbn [gbind obind]. cbv zeta. rewrite Hb. pose proof (exchange_client H1) as Hc.
  cbn [adopt set_options cl auth_of].
  assert (Ha : auth_of (cl w1) = auth_of (cl w)) by now rewrite Hc. rewrite Ha. set (a := auth_of (cl w)) in *.
  apply sends_adopt with (g := set_options (s_max_buffer_size s) (N.testbit (s_capabilities s) 2)).
  set (w2 := adopt _ w1).
  unfold v2_run. apply sends_gbind; [apply sends_lifted|]. intros m1 v Hm. apply lifted_done in Hm. destruct Hm as [Hm ->].
  apply sends_gbind. { apply call_strong. left. destruct Ta as (Tu & Tw & Td & Tp). now apply init_good. }
  intros r w3 _. apply sends_adopt with (g := set_uid (ss_uid r)).
  apply sends_gbind; [apply sends_lifted|]. intros ch v Hch. apply lifted_done in Hch. destruct Hch as [Hch ->].
  apply sends_gbind; [apply sends_lifted|]. intros m3 v Hm3. apply lifted_done in Hm3. destruct Hm3 as [Hm3 ->].
  apply sends_gbind.
  { apply call_strong. right. apply (authenticate_iff (t := t) ch m3 Ta Ht) in Hm3.
    destruct Hm3 as (nt & Hn & Hm3). exists ch, nt. auto. }
  intros r3 w4 _. now apply sends_nothing.
Qed.
Lemma weak_login p s (w w1 : world) : typed_auth (auth_of (cl w)) -> exchange react E Negotiate w p 0 s w1 ->
  N.testbit (s_capabilities s) 31 = false -> len (s_challenge s) = 8 ->
  exists nt k, v1_response E (a_password (auth_of (cl w))) (s_challenge s) nt
  /\ forall fuel, (k <= fuel)%nat ->
     tx (final (run (setup_connection E fuel) w)) =
     tx (final (run (exec E fuel (SetupAuth (a_user (auth_of (cl w))) (a_domain (auth_of (cl w))) nt))
       (adopt (set_options (s_max_buffer_size s) (N.testbit (s_capabilities s) 2)) w1))).
Proof.
  intros Ta H1 Hb Hl. destruct (negotiated_run H1) as (k & Hk). pose proof (exchange_client H1) as Hc.
  assert (Ha : auth_of (cl w1) = auth_of (cl w)) by now rewrite Hc.
  destruct Ta as (Tu & Tw & Td & Tp). destruct (v1_exists E (s_challenge s) Tp) as (nt & Hn).
  exists nt, k. split; [exact Hn|]. intros fuel Hf. rewrite setup_run, (Hk _ Hf). cbn [gbind obind]. cbv zeta. rewrite Hb.
  cbn [adopt set_options cl auth_of]. rewrite Ha. set (w2 := adopt _ w1). unfold v1_run.
  apply v1_good in Hn; auto. rewrite Hn. cbn [lifted gbind obind]. rewrite final_gbind.
  destruct (run (exec E fuel (SetupAuth _ _ nt)) w2) as [[r|e] v|v|v|v]; reflexivity.
Qed.
Lemma weak_sent p s nt f w3 (w w1 : world) : typed_auth (auth_of (cl w)) -> exchange react E Negotiate w p 0 s w1 ->
  N.testbit (s_capabilities s) 31 = false -> len (s_challenge s) = 8 ->
  v1_response E (a_password (auth_of (cl w))) (s_challenge s) nt ->
  is_request E (set_options (s_max_buffer_size s) (N.testbit (s_capabilities s) 2) (cl w1))
    (SetupAuth (a_user (auth_of (cl w))) (a_domain (auth_of (cl w))) nt) f ->
  asked react (adopt (set_options (s_max_buffer_size s) (N.testbit (s_capabilities s) 2)) w1) f w3 ->
  exists k, forall fuel, (k <= fuel)%nat -> tx (final (run (setup_connection E fuel) w)) = tx w1 ++ [f].
Proof.
  intros Ta H1 Hb Hl Hn (f0 & Hf) Ha. destruct (weak_login Ta H1 Hb Hl) as (nt' & k & Hn' & Hk).
  assert (nt' = nt) as ->.
  { destruct Ta as (Tu & Tw & Td & Tp). apply v1_good in Hn; auto. apply v1_good in Hn'; auto. congruence. }
  exists k. intros fuel Hfu. rewrite (Hk _ Hfu). rewrite (request_fuel E f0 fuel) in Hf.
  set (c := SetupAuth _ _ nt) in *. set (w2 := adopt _ w1) in *.
  rewrite (@call_asked Sv react E fuel _ c w2 f w3 Hf Ha).
  destruct (@run_quiet Sv react _ _ (quiet_after fuel c (mid (cl w2))) w3) as (_ & _ & _ & H4). rewrite H4.
  destruct Ha as (s0 & inc & tt & _ & _ & _ & Hx & _). exact Hx.
Qed.
End Weak.

(** ** what NTLMv1 gives away *)
Lemma v1_parts E ch : exists first third : bytes -> bytes, (forall k, len (first k) = 8) /\ (forall k, len (third k) = 8)
  /\ forall password nt, v1_response E password ch nt ->
     exists a b c, nt_hash E password (a ++ b ++ c) /\ len a = 7 /\ len b = 7 /\ len c = 2
     /\ nt = first a ++ first b ++ third c.
Proof.
  exists (fun k => des E (key_of k) ch), (fun k => des E (key_of (k ++ zeros 5)) ch).
  split; [intros k; unfold len; now rewrite des_len|]. split; [intros k; unfold len; now rewrite des_len|].
  intros password nt (pw & h & a & b & c & k1 & k2 & k3 & Hp & Hh & Hs & D1 & D2 & D3 & ->).
  assert (La : len a = 7) by apply D1. assert (Lb : len b = 7) by apply D2.
  assert (Lc : len (c ++ zeros 5) = 7) by apply D3.
  exists a, b, c. split; [exists pw; split; [exact Hp|congruence]|]. split; [exact La|]. split; [exact Lb|].
  split; [rewrite len_app, len_zeros in Lc; lia|].
  rewrite (des_key_fun D1 (key_right La)), (des_key_fun D2 (key_right Lb)), (des_key_fun D3 (key_right Lc)). reflexivity.
Qed.
Definition every_byte : bytes := map (fun n => n2b (N.of_nat n)) (seq 0 256).
Lemma every_byte_all x : In x every_byte.
Proof.
  unfold every_byte. apply in_map_iff. exists (N.to_nat (b2n x)). rewrite N2Nat.id. split; [apply n2b_b2n|].
  apply in_seq. pose proof (b2n_lt x). lia.
Qed.
Lemma v1_sixteen E ch : exists l : list bytes, len l = 65536 /\ forall password nt, v1_response E password ch nt -> In (drop 16 nt) l.
Proof.
  destruct (v1_parts E ch) as (first & third & L1 & L3 & H).
  exists (map (fun xy => third [fst xy; snd xy]) (list_prod every_byte every_byte)). split.
  - unfold len. rewrite map_length, prod_length. unfold every_byte. rewrite map_length, seq_length. reflexivity.
  - intros password nt Hn. destruct (H _ _ Hn) as (a & b & c & _ & _ & _ & Lc & ->).
    rewrite app_assoc, (drop_exact' 16) by (rewrite len_app, !L1; reflexivity).
    destruct c as [|x [|y [|z c]]]; try (exfalso; unfold len in Lc; cbn [length] in Lc; lia).
    apply in_map_iff. exists (x, y). split; [reflexivity|]. apply in_prod; apply every_byte_all.
Qed.
