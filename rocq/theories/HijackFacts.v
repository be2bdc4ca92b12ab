(** * HijackFacts: a connection that is taken over (C112) *)
From Coq Require Import Lia.
From Verif Require Import Base BaseFacts Text Win Errors Common Reply Ntlm Prog Client Spec SpecReply SpecMsg Api SpecCall SizeFacts ShareFacts Flow FlowFacts
  SpecRemote RemoteFacts FileFacts RunFacts SpecLost CutoffFacts SpecHijack.
Open Scope N_scope.
Set Implicit Arguments.

(** the two services as one *)
Definition switched {St Su} (B : service St) (C : service Su) : service (nat * St * Su) := fun R who o n =>
  match n with
  | (S k, s, t) => let (r, s') := B R who o s in (r, (k, s', t))
  | (O, s, t) => let (r, t') := C R who o t in (r, (O, s, t'))
  end.
Section Two.
Variables Sv Sw St Su : Type.
Variable react : Sv -> bytes -> reaction Sv.
Variable other : Sw -> bytes -> reaction Sw.
Variable B : service St.
Variable C : service Su.
Variable abs : Sv -> St.
Variable abt : Sw -> Su.
Hypothesis conf : conforming react B abs.
Hypothesis conf' : conforming other C abt.

Definition both (n : nat * Sv * Sw) : nat * St * Su := (fst (fst n), abs (the_server n), abt (the_other n)).
Lemma takeover_conforming : conforming (takeover react other) (switched B C) both.
Proof.
  intros [[[|k] s] t] R c u who id p words data H1 H2 H3 H4 H5 H6.
  - destruct (@conf' t R c u who id p words data H1 H2 H3 H4 H5 H6) as (t' & inc & Hr & Ha & Han).
    exists (0%nat, s, t'), inc. cbn [takeover]. rewrite Hr. split; [reflexivity|]. unfold both, the_server, the_other. cbn [fst snd switched].
    destruct (C who (op_of c) (abt t)) as [r t1] eqn:HC. cbn [fst snd] in *. rewrite Ha. split; [reflexivity|exact Han].
  - destruct (@conf s R c u who id p words data H1 H2 H3 H4 H5 H6) as (s' & inc & Hr & Ha & Han).
    exists (k, s', t), inc. cbn [takeover]. rewrite Hr. split; [reflexivity|]. unfold both, the_server, the_other. cbn [fst snd switched].
    destruct (B who (op_of c) (abs s)) as [r s1] eqn:HB. cbn [fst snd] in *. rewrite Ha. split; [reflexivity|exact Han].
Qed.
Lemma switched_before A (f : flow A) c st n a c' st' : local B f c st n a c' st' -> forall k t,
  local (switched B C) f c ((n + k)%nat, st, t) n a c' (k, st', t).
Proof.
  induction 1 as [a c st|R q f c st r st1 n a c' st' Hq Hun Hfit HB _ IH|f c st n a c' st' _ IH|u f c st n a c' st' Hu _ IH|m u f c st n a c' st' _ IH];
    intros k t; try (constructor; auto; fail).
  apply l_call with (r := r) (st1 := ((n + k)%nat, st1, t)); auto. cbn [Nat.add switched]. now rewrite HB.
Qed.
Lemma switched_after A (f : flow A) c st n a c' st' : local C f c st n a c' st' -> forall s,
  local (switched B C) f c (O, s, st) n a c' (O, s, st').
Proof.
  induction 1 as [a c st|R q f c st r st1 n a c' st' Hq Hun Hfit HB _ IH|f c st n a c' st' _ IH|u f c st n a c' st' Hu _ IH|m u f c st n a c' st' _ IH];
    intros s; try (constructor; auto; fail).
  apply l_call with (r := r) (st1 := (O, s, st1)); auto. cbn [switched]. now rewrite HB.
Qed.
Lemma local_typed St1 (B1 : service St1) A (f : flow A) c st n a c' st' : local B1 f c st n a c' st' -> typed_client c -> typed_client c'.
Proof.
  induction 1 as [a c st|R q f c st r st1 n a c' st' Hq Hun Hfit HB _ IH|f c st n a c' st' _ IH|u f c st n a c' st' Hu _ IH|m u f c st n a c' st' _ IH];
    intros Ht; auto; apply IH; destruct Ht as [H1 H2]; split; auto.
  unfold next_client, u16. cbn. apply N.mod_lt. lia.
Qed.
Lemma local_room E St1 (B1 : service St1) A (f : flow A) c st n a c' st' : local B1 f c st n a c' st' ->
  forall m, room E c (n + m) -> room E c' m.
Proof.
  induction 1 as [a c st|R q f c st r st1 n a c' st' Hq Hun Hfit HB _ IH|f c st n a c' st' _ IH|u f c st n a c' st' Hu _ IH|mm u f c st n a c' st' _ IH];
    intros m Hr; auto. apply IH. apply room_after. exact Hr.
Qed.
(** the server's state is not touched once the connection is taken over *)
Lemma after_untouched s n A (p : prog cifs A) w : the_server (srv w) = s -> fst (fst (srv w)) = O -> n = O ->
  the_server (srv (world_of (run (takeover react other) p w))) = s.
Proof.
  intros H1 H2 _. pose proof (@run_peer _ (takeover react other) (fun x => the_server x = s /\ fst (fst x) = O)) as K.
  refine (proj1 (K _ A p w (conj H1 H2))). intros [[k s0] t] b (K1 & K2). cbn [fst] in K2. subst k. cbn [takeover]. destruct (other t b); auto.
Qed.

Variable E : env.
Theorem taken_over A X (f : flow A) (g : flow X) w n m a b c1 c2 s t st1 t1 :
  typed_client (cl w) -> idle w -> srv w = (n, s, t) -> room E (cl w) (n + m) ->
  local B f (cl w) (abs s) n a c1 st1 -> local C g c1 (abt t) m b c2 t1 ->
  exists k w1 w2, (forall fuel, (k <= fuel)%nat -> run (takeover react other) (interp E fuel f) w = Done a w1 /\ run (takeover react other) (interp E fuel g) w1 = Done b w2)
  /\ idle w2 /\ cl w2 = c2 /\ abt (the_other (srv w2)) = t1
  /\ abs (the_server (srv w1)) = st1 /\ the_server (srv w2) = the_server (srv w1).
Proof.
  intros Ht Hi Hs Hr HL HM.
  destruct (remote_local takeover_conforming (E := E) (switched_before HL 0%nat (abt t)) (w := w) eq_refl) as (k1 & w1 & fs1 & Hrun1 & Hi1 & Hc1 & Ha1 & _).
  { rewrite Hs. unfold both, the_server, the_other. cbn [fst snd]. now rewrite Nat.add_0_r. }
  { exact Ht. }
  { exact Hi. }
  { intros Ho. specialize (Hr Ho). lia. }
  assert (Hk : fst (fst (srv w1)) = O) by (now injection Ha1 as H1 _ _).
  assert (Hst : abs (the_server (srv w1)) = st1) by (now injection Ha1 as _ H1 _).
  assert (Hot : abt (the_other (srv w1)) = abt t) by (now injection Ha1 as _ _ H1).
  destruct (remote_local takeover_conforming (E := E) (switched_after HM st1) (w := w1) Hc1 Ha1) as (k2 & w2 & fs2 & Hrun2 & Hi2 & Hc2 & Ha2 & _).
  { exact (local_typed HL Ht). }
  { exact Hi1. }
  { exact (local_room HL _ Hr). }
  exists (Nat.max k1 k2), w1, w2. split; [intros fuel Hf; split; [apply Hrun1|apply Hrun2]; lia|].
  split; [exact Hi2|]. split; [exact Hc2|]. split; [now injection Ha2 as _ _ H1|]. split; [exact Hst|].
  pose proof (@after_untouched (the_server (srv w1)) 0 _ (interp E k2 g) w1 eq_refl Hk eq_refl) as K. rewrite Hrun2 in K by lia. exact K.
Qed.
End Two.

(** ** the login itself cannot prevent it *)
From Verif Require Import SpecLogin SpecNtlm SpecAccount AccountFacts Gate GateFacts.
Section Login.
Variables Sv Sw St Su : Type.
Variable react : Sv -> bytes -> reaction Sv.
Variable other : Sw -> bytes -> reaction Sw.
Variable E : env.
Variable known : accounts.
Variable setup : server_setup.
Variable nonce : N -> bytes.
Variable info : bytes.
Variable B : service St.
Variable abs : Sv -> gated St.
Notation G := (gate St E known setup nonce info B).
Hypothesis conf : conforming react G abs.
Variable C : service Su.
Variable abt : Sw -> Su.
Hypothesis conf' : conforming other C abt.
(** the number of requests of a login *)
Definition login_steps : nat := if N.testbit (s_capabilities setup) 31 then 3%nat else 2%nat.
Lemma gate_local_login c st t : typed_auth (auth_of c) -> registered E known (auth_of c) ->
  ~ In 0 (a_user (auth_of c)) -> ~ In 0 (a_domain (auth_of c)) -> clock E t ->
  len (s_challenge setup) = 8 -> (forall n, len (nonce n) = 8) -> len info < 60000 ->
  fits_v1 (N.testbit (s_capabilities setup) 2) (auth_of c) -> fits_v2 (len info) (auth_of c) -> g_next st < 65536 ->
  exists c1 st1, local G (setup_flow E) c st login_steps (Good tt) c1 st1
  /\ In (uid c1) (g_entered st1) /\ g_behind st1 = g_behind st.
Proof.
  intros Ha Hreg Hnu Hnd Htime Hch Hno Hinfo Hf1 Hf2 Hnx.
  assert (HB : G server_setup (uid c) ONegotiate st = (inl setup, st)) by reflexivity.
  assert (Hi2 : len info < 65536) by lia. unfold login_steps.
  destruct (N.testbit (s_capabilities setup) 31) eqn:Hc.
  - destruct (local_login_v2 (E := E) (known := known) Ha Htime HB Hc (gate_v2 E known setup B Hnx Hno Hi2) Hf2)
      as (r & c1 & st1 & m1 & r1 & st2 & ch & HL & _ & _ & _ & [(_ & -> & Hin & Hb)|(Hn & _)]).
    + exists c1, st1. auto.
    + destruct Hn. destruct (v2_exists E t (ch_challenge ch) (ch_info ch) Ha) as (nt & Hnt). exists nt. split; [exact Hnt|].
      exact (registered_v2 Hreg Hnt).
  - destruct (local_login_v1 (E := E) (known := known) Ha Hnu Hnd HB Hc Hch (gate_v1 E known setup nonce info B Hnx) Hf1)
      as (r & c1 & st1 & HL & [(_ & -> & Hin & Hb)|(Hn & _)]).
    + exists c1, st1. auto.
    + destruct Hn. destruct (v1_exists E (s_challenge setup) (proj2 (proj2 (proj2 Ha)))) as (nt & Hnt). exists nt. split; [exact Hnt|].
      exact (registered_v1 Hreg Hnt).
Qed.
Theorem login_taken_over w s t time : typed_client (cl w) -> idle w -> srv w = (login_steps, s, t) ->
  typed_auth (auth_of (cl w)) -> registered E known (auth_of (cl w)) ->
  ~ In 0 (a_user (auth_of (cl w))) -> ~ In 0 (a_domain (auth_of (cl w))) -> clock E time ->
  len (s_challenge setup) = 8 -> (forall n, len (nonce n) = 8) -> len info < 60000 ->
  fits_v1 (N.testbit (s_capabilities setup) 2) (auth_of (cl w)) -> fits_v2 (len info) (auth_of (cl w)) -> g_next (abs s) < 65536 ->
  exists c1, forall X (g : flow X) m b c2 t1, local C g c1 (abt t) m b c2 t1 -> room E (cl w) (login_steps + m) ->
  exists k w1 w2, (forall fuel, (k <= fuel)%nat -> run (takeover react other) (setup_connection E fuel) w = Done (Good tt) w1
      /\ run (takeover react other) (interp E fuel g) w1 = Done b w2)
  /\ cl w1 = c1 /\ In (uid c1) (g_entered (abs (the_server (srv w1)))) /\ g_behind (abs (the_server (srv w1))) = g_behind (abs s)
  /\ abt (the_other (srv w2)) = t1 /\ the_server (srv w2) = the_server (srv w1).
Proof.
  intros Ht Hi Hs Ha Hreg Hnu Hnd Htime Hch Hno Hinfo Hf1 Hf2 Hnx.
  destruct (@gate_local_login (cl w) (abs s) time Ha Hreg Hnu Hnd Htime Hch Hno Hinfo Hf1 Hf2 Hnx) as (c1 & st1 & HL & Hin & Hb).
  exists c1. intros X g m b c2 t1 HM Hroom.
  destruct (@taken_over _ _ _ _ react other G C abs abt conf conf' E _ _ _ g w login_steps m (Good tt) b c1 c2 s t st1 t1 Ht Hi Hs Hroom HL HM)
    as (k & w1 & w2 & Hrun & Hi2 & Hc2 & Ht1 & Hst & Hsame).
  exists k, w1, w2. split; [intros fuel Hf; destruct (Hrun fuel Hf) as (R1 & R2); split; [rewrite setup_same; exact R1|exact R2]|].
  assert (Hc1 : cl w1 = c1).
  { destruct (remote_local (takeover_conforming conf conf') (E := E) (switched_before C HL 0%nat (abt t)) (w := w) eq_refl) as (k1 & v1 & fs1 & Hr1 & _ & Hc1 & _).
    - rewrite Hs. unfold both, the_server, the_other. cbn [fst snd]. now rewrite Nat.add_0_r.
    - exact Ht.
    - exact Hi.
    - intros Ho. specialize (Hroom Ho). lia.
    - destruct (Hrun (Nat.max k k1) ltac:(lia)) as (R1 & _). rewrite (Hr1 (Nat.max k k1)) in R1 by lia. injection R1 as <-. exact Hc1. }
  rewrite Hst. auto 6.
Qed.
End Login.
