(** * SpecUpper: servers with a case table of their own (C90).

    NTLMv2 binds a login to the user name in capitals ([MS-NLMP] 3.3.2: Uppercase).  Client and
    server compute the capitals each for itself: the client by std's to_uppercase, Windows by
    a table that maps single UTF-16 units. *)
From Verif Require Import Base Text Win Errors Common Reply Ntlm Prog Client Spec SpecReply SpecNtlm SpecMsg Api SpecCall
  Flow SpecLogin SpecRemote SpecAccount.
Open Scope N_scope.

(** the server [S] computes with the same hash functions as the client [E] *)
Definition same_hashes (S E : env) : Prop :=
  (forall b, md4 S b = md4 E b) /\ (forall k b, hmac S k b = hmac E k b) /\ (forall k b, des S k b = des E k b).
(** what the client [E] answers is genuine for the server [S] *)
Definition admitted_at (S E : env) (known : accounts) (a : auth) (time : N) (challenge info : bytes) : Prop :=
  exists nt, v2_response E (a_password a) (a_user a) (a_domain a) time challenge info nt
  /\ genuine_v2 S known (a_user a) (a_domain a) challenge nt.
(** capitals by a table: one character for one character *)
Definition by_table (U : N -> N) (S : env) : Prop := forall s, upper S s = map U s.
