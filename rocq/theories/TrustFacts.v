(** * TrustFacts: what is not checked or respected (C77-C79) *)
From Verif Require Import Base Text Win Errors Common Reply Ntlm Prog Client Spec SpecReply SpecNtlm SpecMsg Api SpecCall BaseFacts
  RunFacts MsgFacts ReqFacts SizeFacts Flow FlowFacts SpecLogin SpecRemote RemoteFacts RefServer RefFacts SpecAccount AccountFacts Gate GateFacts
  SessionFacts SpecTrust WireFacts.
Open Scope N_scope.
Set Implicit Arguments.

Lemma middle_proper St (B : service St) shown : proper B -> proper_server shown -> proper (middle shown B).
Proof.
  intros HB Hs R who o st. destruct o; cbn [middle fst]; try (split; [reflexivity|split; discriminate]).
  - exact Hs.
  - exact (HB _ who (OSetupAuth user domain secret) st).
  - exact (HB _ who (OSetupBlob blob) st).
Qed.
Section Middle.
Variables Sv St : Type.
Variable react : Sv -> bytes -> reaction Sv.
Variable E : env.
Variable known : accounts.
Variables setup shown : server_setup.
Variable nonce : N -> bytes.
Variable info : bytes.
Variable B : service St.
Variable abs : Sv -> gated St.
Notation G := (gate St E known setup nonce info B).
Hypothesis conf : conforming react (middle shown G) abs.
Theorem middle_open w t : typed_client (cl w) -> idle w -> typed_auth (auth_of (cl w)) -> registered E known (auth_of (cl w)) ->
  ~ In 0 (a_user (auth_of (cl w))) -> ~ In 0 (a_domain (auth_of (cl w))) -> clock E t ->
  len (s_challenge setup) = 8 -> s_challenge shown = s_challenge setup -> (forall n, len (nonce n) = 8) -> len info < 60000 ->
  fits_v1 (N.testbit (s_capabilities shown) 2) (auth_of (cl w)) -> fits_v2 (len info) (auth_of (cl w)) ->
  room E (cl w) 3 -> g_next (abs (srv w)) < 65536 ->
  exists k w', (forall fuel, (k <= fuel)%nat -> run react (setup_connection E fuel) w = Done (Good tt) w')
  /\ idle w' /\ In (uid (cl w')) (g_entered (abs (srv w'))) /\ g_behind (abs (srv w')) = g_behind (abs (srv w)).
Proof.
  intros Ht Hi Ha Hreg Hnu Hnd Htime Hch Hsame Hno Hinfo Hf1 Hf2 Hroom Hnx.
  assert (HB : middle shown G _ (uid (cl w)) ONegotiate (abs (srv w)) = (inl shown, abs (srv w))) by reflexivity.
  assert (Hi2 : len info < 65536) by lia.
  destruct (N.testbit (s_capabilities shown) 31) eqn:Hc.
  - destruct (remote_login_v2 conf (known := known) Ht Hi Ha Htime HB Hc (gate_v2 E known setup B Hnx Hno Hi2) Hf2 Hroom)
      as (r & k & w' & m1 & r1 & st2 & ch & Hrun & Hi' & _ & _ & _ & [(_ & -> & Hin & Hb)|(Hn & _)]).
    + exists k, w'. auto.
    + destruct Hn. destruct (v2_exists E t (ch_challenge ch) (ch_info ch) Ha) as (nt & Hnt). exists nt. split; [exact Hnt|].
      exact (registered_v2 Hreg Hnt).
  - assert (Hck : checks_v1 E known (middle shown G) (s_challenge shown) (abs (srv w)) (fun u st' => is_in u st' /\ g_behind st' = g_behind (abs (srv w)))).
    { rewrite Hsame. exact (gate_v1 E known setup nonce info B Hnx). }
    rewrite <- Hsame in Hch.
    destruct (remote_login_v1 conf (E := E) (known := known) Ht Hi Ha Hnu Hnd HB Hc Hch Hck Hf1)
      as (r & k & w' & Hrun & Hi' & [(_ & -> & Hin & Hb)|(Hn & _)]).
    + intros Ho. specialize (Hroom Ho). lia.
    + exists k, w'. auto.
    + destruct Hn. destruct (v1_exists E (s_challenge shown) (proj2 (proj2 (proj2 Ha)))) as (nt & Hnt). exists nt. split; [exact Hnt|].
      exact (registered_v1 Hreg Hnt).
Qed.
End Middle.

(** ** requests and what the server announced *)
Lemma announced_unused Sv (react : Sv -> bytes -> reaction Sv) Sv' (react' : Sv' -> bytes -> reaction Sv') E t t' w w1 s user last v v1 s' last' :
  login react E t w s user last w1 -> login react' E t' v s' user last' v1 ->
  N.testbit (s_capabilities s) 2 = N.testbit (s_capabilities s') 2 -> mid (cl w1) = mid (cl v1) ->
  forall n R (c : call R), request (exec E n c) (cl w1) = request (exec E n c) (cl v1).
Proof.
  intros H1 H2 Hu Hm n R c. apply login_state in H1, H2. destruct H1 as (A1 & A2 & _), H2 as (B1 & B2 & _).
  apply op_request; congruence.
Qed.
Lemma unsigned E fuel R (c : call R) st f : typed_client st -> typed c -> request (exec E fuel c) st = Some f ->
  exists p, f = session_message p /\ ~ signed p.
Proof.
  intros Hs Hc Hr. destruct (request_asks Hs Hc Hr) as (p & _ & _ & Hf & _ & _ & Hh & _). exists p. split; [exact Hf|].
  destruct Hh as [_ _ _ _ _ F _ S _ _ _ _]. intros [H|(x & Hx & Hb)]; [exact (H S)|]. rewrite F in Hx. apply some_inj in Hx. subst x.
  destruct (use_unicode st); discriminate Hb.
Qed.
(** ** the memory for a request *)
Lemma user_reserved Sv (react : Sv -> bytes -> reaction Sv) E fuel A (p : flow A) : user p -> forall w : world cifs Sv, typed_client (cl w) ->
  reserved (cl (final (run react (interp E fuel p) w))) = reserved (cl w).
Proof.
  intros H. induction H as [a| | |R c k _ IH]; intros w T; cbn [interp run final]; auto.
  rewrite run_bind, final_lift. destruct (@call_once _ react E fuel R c w) as (l & _ & Hw).
  assert (G : reserved (cl (final (run react (exec E fuel c) w))) = reserved (cl w) /\ typed_client (cl (final (run react (exec E fuel c) w)))).
  { destruct Hw; auto; (split; [reflexivity|]; split; [apply T|apply next_u16]). }
  destruct (run react (exec E fuel c) w) as [a v|v|v|v]; cbn [final] in G; try apply G.
  destruct G as (G1 & G3). rewrite <- G1. exact (IH a v G3).
Qed.
Lemma login_reserved Sv (react : Sv -> bytes -> reaction Sv) E t w s user last w' : login react E t w s user last w' ->
  forall fuel A (p : flow A), Flow.user p -> reserved (cl (final (run react (interp E fuel p) w'))) = s_max_buffer_size s.
Proof.
  intros H fuel A p Hp. apply login_state in H. destruct H as (_ & _ & Hm & _ & Ht & _). rewrite (user_reserved react E fuel Hp w' Ht). exact Hm.
Qed.
