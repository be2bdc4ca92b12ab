(** * SpecAccount: services that check NTLM logins, MS-NLMP 3.3 from the server's side. *)
From Verif Require Import Base Text Win Errors Common Reply Ntlm Prog Client Spec SpecReply SpecNtlm SpecMsg Api SpecCall
  Flow SpecLogin SpecRemote.
Open Scope N_scope.

(** the NT hash of a password *)
Definition nt_hash (E : env) (password : text) (h : bytes) : Prop := exists pw, utf16le_of password pw /\ h = md4 E pw.
(** the NT hashes by user and domain; there are no passwords on the server *)
Definition accounts := text -> text -> option bytes.
(** [nt] proves knowledge of the hash [h], NTLMv1: the challenge encrypted with the three
    parts of the hash *)
Definition proves_v1 (E : env) (h challenge nt : bytes) : Prop :=
  exists a b c k1 k2 k3, h = a ++ b ++ c
  /\ des_key a k1 /\ des_key b k2 /\ des_key (c ++ zeros 5) k3
  /\ nt = des E k1 challenge ++ des E k2 challenge ++ des E k3 challenge.
(** NTLMv2: the first 16 bytes are a MAC of the challenge and the rest *)
Definition proves_v2 (E : env) (h : bytes) (user domain : text) (challenge nt : bytes) : Prop :=
  exists name tag rest, utf16le_of (upper E user ++ domain) name
  /\ nt = tag ++ rest /\ len tag = 16 /\ tag = hmac E (hmac E h name) (challenge ++ rest).
(** there is such an account, and the proof is right *)
Definition genuine_v1 (E : env) (known : accounts) (user domain : text) (challenge nt : bytes) : Prop :=
  exists h, known user domain = Some h /\ proves_v1 E h challenge nt.
Definition genuine_v2 (E : env) (known : accounts) (user domain : text) (challenge nt : bytes) : Prop :=
  exists h, known user domain = Some h /\ proves_v2 E h user domain challenge nt.

(** In state [st] the service accepts exactly the genuine answers to [challenge];
    [entered u st']: in state [st'] the session [u] is logged in. *)
Definition checks_v1 {St} (E : env) (known : accounts) (B : service St) (challenge : bytes) (st : St)
  (entered : N -> St -> Prop) : Prop :=
  forall who user domain nt,
  (genuine_v1 E known user domain challenge nt ->
   exists r st', B session_setup who (OSetupAuth user domain nt) st = (inl r, st') /\ u16 (ss_uid r) /\ entered (ss_uid r) st')
  /\ (~ genuine_v1 E known user domain challenge nt ->
      exists st', B session_setup who (OSetupAuth user domain nt) st = (inr 0xc000006d, st')).
(** The same in two steps, with a challenge made for this login, and target information of at
    most [most] bytes. *)
Definition checks_v2 {St} (E : env) (known : accounts) (B : service St) (most : N) (st : St)
  (entered : N -> St -> Prop) : Prop :=
  forall who domain workstation m1, negotiate_message domain workstation m1 ->
  exists r st1 ch, B session_setup who (OSetupBlob m1) st = (inl r, st1)
  /\ u16 (ss_uid r) /\ challenge_of (ss_blob r) ch /\ len (ch_info ch) <= most
  /\ forall user domain workstation nt m3,
     authenticate_message (N.testbit (ch_flags ch) 0) domain user workstation nt m3 ->
     (genuine_v2 E known user domain (ch_challenge ch) nt ->
      exists r3 st3, B session_setup (ss_uid r) (OSetupBlob m3) st1 = (inl r3, st3) /\ entered (ss_uid r) st3)
     /\ (~ genuine_v2 E known user domain (ch_challenge ch) nt ->
         exists st3, B session_setup (ss_uid r) (OSetupBlob m3) st1 = (inr 0xc000006d, st3)).

(** What the client with credentials [a] answers is genuine: for some response, which is unique *)
Definition admitted_v1 (E : env) (known : accounts) (a : auth) (challenge : bytes) : Prop :=
  exists nt, v1_response E (a_password a) challenge nt /\ genuine_v1 E known (a_user a) (a_domain a) challenge nt.
Definition admitted_v2 (E : env) (known : accounts) (a : auth) (time : N) (challenge info : bytes) : Prop :=
  exists nt, v2_response E (a_password a) (a_user a) (a_domain a) time challenge info nt
  /\ genuine_v2 E known (a_user a) (a_domain a) challenge nt.
(** the account of [a], with its password *)
Definition registered (E : env) (known : accounts) (a : auth) : Prop :=
  exists h, known (a_user a) (a_domain a) = Some h /\ nt_hash E (a_password a) h.

(** the larger one of the two encodings *)
Definition text_size (s : text) : N := N.max (2 * utf16_len s) (utf8_len s).
(** the credentials fit into the messages *)
Definition fits_v1 (unicode : bool) (a : auth) : Prop :=
  fits_request unicode (SetupAuth (a_user a) (a_domain a) (zeros 24)).
Definition fits_v2 (most : N) (a : auth) : Prop :=
  130 + most + text_size (a_user a) + text_size (a_domain a) + text_size (a_workstation a) < 65536.
(** the login is over: with success, and then the session is logged in; or it was refused *)
Definition decided {St} (ok : Prop) (entered : N -> St -> Prop) (r : ans unit) (user : N) (st : St) : Prop :=
  (ok /\ r = Good tt /\ entered user st) \/ (~ ok /\ r = Bad (ServerError (Known LOGIN_FAILURE))).
