(** * SpecVisit: a mailbox emptied by whole sessions: login, mounting the share, fetching; over connections
    that break, while others put files there (C130).  Not part of the model. *)
From Verif Require Import Base Text Win Errors Common Reply Ntlm Prog Client Spec SpecReply SpecMsg Api SpecCall SpecLogin SpecAccount Flow SpecRemote
  SpecTree SpecRemoval SpecMove SpecMail SpecPost.
Open Scope N_scope.

(** The program, on a new connection.  Returns the files it has fetched, also when it fails. *)
Definition visit (E : env) (fuel : nat) (path pre : text) : prog cifs (list (text * bytes) * ans unit) :=
  pbind (setup_connection E fuel) (fun x =>
  match x with
  | Bad e => Ret ([], Bad e)
  | Good _ =>
    pbind (mount E fuel path) (fun y =>
    match y with
    | Bad e => Ret ([], Bad e)
    | Good s => empty_box E fuel s pre
    end)
  end).
Definition visits {Sn} (net : Sn -> bytes -> reaction Sn) (E : env) (path : text) (ns : list text)
  (w : world cifs Sn) (x : list (text * bytes) * ans unit) (w' : world cifs Sn) : Prop :=
  exists k, forall fuel, (k <= fuel)%nat -> run net (visit E fuel path (path_of ns)) w = Done x w'.

(** a server that takes a user name and a password (without extended security) *)
Definition takes_logins (setup : server_setup) : Prop := N.testbit (s_capabilities setup) 31 = false /\ len (s_challenge setup) = 8.
(** names the login and the path of the share can be sent with *)
Definition can_enter (setup : server_setup) (path : text) (a : auth) : Prop :=
  typed_auth a /\ ~ In 0 (a_user a) /\ ~ In 0 (a_domain a) /\ fits_v1 (N.testbit (s_capabilities setup) 2) a
  /\ is_str path /\ fits_request (N.testbit (s_capabilities setup) 2) (Mount path).
(** a new connection to a server whose mailbox can be listed and fetched with at most [m] calls; nothing
    is known of a user id or of a share *)
Definition at_door {Sn} (E : env) (up : Sn -> Prop) (setup : server_setup) (path : text) (view : Sn -> dirs * list (tree -> tree))
  (ns : list text) (m : nat) (w : world cifs Sn) : Prop :=
  typed_client (cl w) /\ idle w /\ up (srv w) /\ can_enter setup path (auth_of (cl w)) /\ room E (cl w) (3 + m)
  /\ fresh (ds_open (fst (view (srv w)))) < 65536 /\ movable ns (ds_root (fst (view (srv w)))) m
  /\ Forall (decent ns m) (snd (view (srv w))).
(** the server after a request that changes nothing by itself *)
Definition after (st : dirs * list (tree -> tree)) : dirs * list (tree -> tree) := (stirred st, List.tl (snd st)).
(** Several sessions, each on a connection of its own: [seen] is what was on the server at the beginning
    of each of them, [got] all that was fetched, [l] the answers; from [R] to [R']. *)
Inductive sessions {Sn} (net : Sn -> bytes -> reaction Sn) (E : env) (view : Sn -> dirs) (fit : world cifs Sn -> Prop) (path : text) (ns : list text)
  : list tree -> list (text * bytes) -> list (ans unit) -> tree -> tree -> Prop :=
| se_none R : sessions net E view fit path ns [] [] [] R R
| se_others seen got l R R1 R' : keeps ns R R1 -> sessions net E view fit path ns seen got l R1 R' ->
    sessions net E view fit path ns seen got l R R'
| se_run w new a w' seen got l R' : fit w -> visits net E path ns w (new, a) w' ->
    sessions net E view fit path ns seen got l (ds_root (view (srv w'))) R' ->
    sessions net E view fit path ns (ds_root (view (srv w)) :: seen) (new ++ got) (a :: l) (ds_root (view (srv w))) R'.
