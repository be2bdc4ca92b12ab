(** * SpecWeak: logins with NTLMv2 only; what an NTLMv1 response gives away *)
From Verif Require Import Base Text Win Errors Common Reply Ntlm Prog Client Spec SpecReply SpecCrash SpecNtlm SpecMsg
  Api SpecCall Flow SpecLogin SpecAccount.
Open Scope N_scope.

(** a message of a login with NTLMv2: the first one, without secrets, or the last one *)
Definition strong_message (E : env) (a : auth) (time : N) (m : bytes) : Prop :=
  negotiate_message (a_domain a) (a_workstation a) m
  \/ exists ch nt, v2_response E (a_password a) (a_user a) (a_domain a) time (ch_challenge ch) (ch_info ch) nt
     /\ authenticate_message (N.testbit (ch_flags ch) 0) (a_domain a) (a_user a) (a_workstation a) nt m.
(** [f]: (the beginning of) a request with such a message *)
Definition strong_frame (E : env) (a : auth) (time : N) (f : bytes) : Prop :=
  exists st m g, strong_message E a time m /\ is_request E st (SetupBlob m) g /\ (f = g \/ exists n, f = take n g).
(** ... with an NTLMv1 response to the challenge [ch] *)
Definition weak_frame (E : env) (a : auth) (ch f : bytes) : Prop :=
  exists st nt, v1_response E (a_password a) ch nt /\ is_request E st (SetupAuth (a_user a) (a_domain a) nt) f.
