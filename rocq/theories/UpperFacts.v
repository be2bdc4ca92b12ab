(** * UpperFacts: logins at servers with a case table of their own (C90) *)
From Coq Require Import Lia.
From Verif Require Import Base BaseFacts Text TextFacts Utils Win Errors Common Reply Ntlm Prog Client Spec SpecFacts SpecReply SpecNtlm SpecMsg
  Api SpecCall RunFacts MsgFacts NtlmFacts Flow FlowFacts SpecLogin OpenFacts SpecRemote RemoteFacts RefServer RefFacts FileService FileFacts
  SpecAccount SpecUpper AccountFacts Gate GateFacts.
Set Implicit Arguments.
Unset Strict Implicit.
Open Scope N_scope.

Section Hashes.
Variables S E : env.
Hypothesis same : same_hashes S E.
Lemma proves_v1_same h ch nt : proves_v1 E h ch nt <-> proves_v1 S h ch nt.
Proof.
  destruct same as (_ & _ & Hd). split; intros (a & b & c & k1 & k2 & k3 & H1 & H2 & H3 & H4 & H5); exists a, b, c, k1, k2, k3; repeat (split; [assumption|]);
    rewrite H5, !Hd; reflexivity.
Qed.
Lemma nt_hash_same p h : nt_hash E p h <-> nt_hash S p h.
Proof. destruct same as (Hm & _). split; intros (pw & H & ->); exists pw; (split; [exact H|now rewrite Hm]). Qed.
Lemma genuine_v1_same known u d ch nt : genuine_v1 E known u d ch nt <-> genuine_v1 S known u d ch nt.
Proof. split; intros (h & H & K); exists h; (split; [exact H|now apply proves_v1_same]). Qed.
Lemma checks_v1_same St known (B : service St) ch st entered : checks_v1 S known B ch st entered -> checks_v1 E known B ch st entered.
Proof.
  intros H who u d nt. destruct (H who u d nt) as [H1 H2]. split; intros K; [apply H1|apply H2]; rewrite <- genuine_v1_same; exact K.
Qed.
Lemma registered_same known a : registered E known a <-> registered S known a.
Proof. split; intros (h & H & K); exists h; (split; [exact H|now apply nt_hash_same]). Qed.
Lemma admitted_same known a t ch info : registered S known a -> typed_auth a -> upper S (a_user a) = upper E (a_user a) ->
  admitted_at S E known a t ch info.
Proof.
  intros Hr Ha Hu. destruct (v2_exists E t ch info Ha) as (nt & Hnt). exists nt. split; [exact Hnt|].
  apply registered_same in Hr. destruct (registered_v2 Hr Hnt) as (h & Hk & name & tag & rest & H1 & H2 & H3 & H4).
  exists h. split; [exact Hk|]. exists name, tag, rest. rewrite Hu. repeat (split; [assumption|]). destruct same as (_ & Hm & _). now rewrite !Hm.
Qed.
(** otherwise the MACs of two names have to agree *)
Lemma admitted_names known a t ch info h : known (a_user a) (a_domain a) = Some h -> nt_hash E (a_password a) h ->
  admitted_at S E known a t ch info ->
  exists mine yours, utf16le_of (upper E (a_user a) ++ a_domain a) mine /\ utf16le_of (upper S (a_user a) ++ a_domain a) yours
  /\ hmac E (hmac E h mine) (ch ++ v2_blob t (rnd E) info) = hmac E (hmac E h yours) (ch ++ v2_blob t (rnd E) info).
Proof.
  intros Hk Hh (nt & (pw & name & tag & H1 & H2 & H3 & H4) & x & Hx & n2 & tag2 & rest & G1 & G2 & G3 & G4).
  rewrite Hk in Hx. injection Hx as <-. exists name, n2. split; [exact H2|]. split; [exact G1|].
  assert (Ht : len tag = 16) by (rewrite H3; unfold len; now rewrite hmac_len).
  rewrite H4 in G2. apply app_same in G2; [|lia]. destruct G2 as [<- <-]. destruct same as (_ & Hm & _). rewrite !Hm in G4.
  rewrite (nt_hash_fun Hh (ex_intro _ pw (conj H1 eq_refl))) in *. congruence.
Qed.
End Hashes.

Section Open.
Variables Sv St : Type.
Variable react : Sv -> bytes -> reaction Sv.
Variables S E : env.
Hypothesis same : same_hashes S E.
Variable known : accounts.
Variable setup : server_setup.
Variable nonce : N -> bytes.
Variable info : bytes.
Variable B : service St.
Variable abs : Sv -> gated St.
Hypothesis conf : conforming react (gate St S known setup nonce info B) abs.
Theorem gate_open_at w t : typed_client (cl w) -> idle w -> typed_auth (auth_of (cl w)) -> registered S known (auth_of (cl w)) ->
  ~ In 0 (a_user (auth_of (cl w))) -> ~ In 0 (a_domain (auth_of (cl w))) -> clock E t ->
  len (s_challenge setup) = 8 -> (forall n, len (nonce n) = 8) -> len info < 60000 ->
  fits_v1 (N.testbit (s_capabilities setup) 2) (auth_of (cl w)) -> fits_v2 (len info) (auth_of (cl w)) ->
  room E (cl w) 3 -> g_next (abs (srv w)) < 65536 ->
  (N.testbit (s_capabilities setup) 31 = true -> upper S (a_user (auth_of (cl w))) = upper E (a_user (auth_of (cl w)))) ->
  exists k w', (forall fuel, (k <= fuel)%nat -> run react (setup_connection E fuel) w = Done (Good tt) w')
  /\ idle w' /\ In (uid (cl w')) (g_entered (abs (srv w'))) /\ g_behind (abs (srv w')) = g_behind (abs (srv w)).
Proof.
  intros Ht Hi Ha Hreg Hnu Hnd Htime Hch Hno Hinfo Hf1 Hf2 Hroom Hnx Hup.
  assert (HB : gate St S known setup nonce info B server_setup (uid (cl w)) ONegotiate (abs (srv w)) = (inl setup, abs (srv w))) by reflexivity.
  assert (Hi2 : len info < 65536) by lia.
  destruct (N.testbit (s_capabilities setup) 31) eqn:Hc.
  - destruct (remote_login_at conf (known := known) Ht Hi Ha Htime HB Hc (gate_v2 S known setup B Hnx Hno Hi2) Hf2 Hroom)
      as (r & k & w' & m1 & r1 & st2 & ch & Hrun & Hi' & _ & _ & _ & [(_ & -> & Hin & Hb)|(Hn & _)]).
    + exists k, w'. auto.
    + destruct Hn. exact (admitted_same same t (ch_challenge ch) (ch_info ch) Hreg Ha (Hup eq_refl)).
  - destruct (remote_login_v1 conf (E := E) (known := known) Ht Hi Ha Hnu Hnd HB Hc Hch (checks_v1_same same (gate_v1 S known setup nonce info B Hnx)) Hf1)
      as (r & k & w' & Hrun & Hi' & [(_ & -> & Hin & Hb)|(Hn & _)]).
    + intros Ho. specialize (Hroom Ho). lia.
    + exists k, w'. auto.
    + destruct Hn. destruct (v1_exists E (s_challenge setup) (proj2 (proj2 (proj2 Ha)))) as (nt & Hnt). exists nt. split; [exact Hnt|].
      exact (registered_v1 (proj2 (registered_same same known _) Hreg) Hnt).
Qed.
Theorem gate_refuses w t h : typed_client (cl w) -> idle w -> typed_auth (auth_of (cl w)) ->
  known (a_user (auth_of (cl w))) (a_domain (auth_of (cl w))) = Some h -> nt_hash E (a_password (auth_of (cl w))) h -> clock E t ->
  (forall n, len (nonce n) = 8) -> len info < 60000 -> fits_v2 (len info) (auth_of (cl w)) ->
  room E (cl w) 3 -> g_next (abs (srv w)) < 65536 -> N.testbit (s_capabilities setup) 31 = true ->
  (forall x mine yours, utf16le_of (upper E (a_user (auth_of (cl w))) ++ a_domain (auth_of (cl w))) mine ->
     utf16le_of (upper S (a_user (auth_of (cl w))) ++ a_domain (auth_of (cl w))) yours -> hmac E (hmac E h mine) x <> hmac E (hmac E h yours) x) ->
  exists k w', (forall fuel, (k <= fuel)%nat -> run react (setup_connection E fuel) w = Done (Bad (ServerError (Known LOGIN_FAILURE))) w') /\ idle w'.
Proof.
  intros Ht Hi Ha Hk Hh Htime Hno Hinfo Hf2 Hroom Hnx Hc Hmac.
  assert (HB : gate St S known setup nonce info B server_setup (uid (cl w)) ONegotiate (abs (srv w)) = (inl setup, abs (srv w))) by reflexivity.
  assert (Hi2 : len info < 65536) by lia.
  destruct (remote_login_at conf (known := known) Ht Hi Ha Htime HB Hc (gate_v2 S known setup B Hnx Hno Hi2) Hf2 Hroom)
      as (r & k & w' & m1 & r1 & st2 & ch & Hrun & Hi' & _ & _ & _ & [(Hn & _)|(_ & ->)]).
  - exfalso. destruct (admitted_names same Hk Hh Hn) as (mine & yours & H1 & H2 & H3). exact (Hmac _ _ _ H1 H2 H3).
  - exists k, w'. auto.
Qed.
End Open.
