(** * SpecGuard: whole sessions at a server that checks passwords empty a mailbox (C132).  Not part of the model. *)
From Verif Require Import Base Text Win Errors Common Reply Ntlm Prog Client Spec SpecReply SpecNtlm SpecMsg Api SpecCall SpecLogin SpecAccount Flow SpecRemote Gate
  SpecTree SpecRemoval SpecMove SpecMail SpecPost SpecVisit.
Open Scope N_scope.

(** a server that can be logged in to: NTLMv1 or, with extended security, NTLMv2 *)
Definition guarding (setup : server_setup) (nonce : N -> bytes) (info : bytes) : Prop :=
  len (s_challenge setup) = 8 /\ (forall n, len (nonce n) = 8) /\ len info < 60000.
(** who has an account there, and names that fit into the requests *)
Definition may_enter (E : env) (known : accounts) (setup : server_setup) (info : bytes) (path : text) (a : auth) : Prop :=
  typed_auth a /\ registered E known a /\ ~ In 0 (a_user a) /\ ~ In 0 (a_domain a)
  /\ fits_v1 (N.testbit (s_capabilities setup) 2) a /\ fits_v2 (len info) a
  /\ is_str path /\ (forall u, fits_request u (Mount path)).
(** a new connection to such a server; behind the login the mailbox can be listed and fetched with at most [m] calls *)
Definition at_gate {Sn} (E : env) (up : Sn -> Prop) (known : accounts) (setup : server_setup) (info : bytes) (path : text)
  (view : Sn -> gated (dirs * list (tree -> tree))) (ns : list text) (m : nat) (w : world cifs Sn) : Prop :=
  typed_client (cl w) /\ idle w /\ up (srv w) /\ may_enter E known setup info path (auth_of (cl w)) /\ (exists t, clock E t)
  /\ room E (cl w) (4 + m) /\ g_next (view (srv w)) < 65536
  /\ fresh (ds_open (fst (g_behind (view (srv w))))) < 65536 /\ movable ns (ds_root (fst (g_behind (view (srv w))))) m
  /\ Forall (decent ns m) (snd (g_behind (view (srv w)))).
