(** * SpecRemoval: removing a directory tree over connections that break (C123). *)
From Verif Require Import Base Text Win Errors Common Reply Ntlm Prog Client Spec SpecReply SpecMsg Api SpecCall Flow SpecRemote SpecTree.
Open Scope N_scope.

(** from [R] to [R'] nothing has changed but that files and directories in the directory [ns]
    may be gone *)
Definition partly_removed (ns : list text) (R R' : tree) : Prop :=
  (forall p, below ns p = false -> file_of R' p = file_of R p /\ (dir_at R' p = None <-> dir_at R p = None))
  /\ (forall p, below ns p = true ->
       (file_of R' p = None \/ file_of R' p = file_of R p) /\ (dir_at R' p = None \/ dir_at R p <> None)).
(** the directory [ns] is there and can be walked through; removing all in it takes at most [m] calls *)
Definition removable (ns : list text) (R : tree) (m : nat) : Prop :=
  exists t, dir_at R ns = Some t /\ listable t /\ ordinary_tree (path_of ns) t /\ (1 + clear_calls t <= m)%nat.

(** a connection in order, with room for [m] calls *)
Definition usable {Sn} (E : env) (up : Sn -> Prop) (tid : N) (m : nat) (w : world cifs Sn) (s : share) : Prop :=
  typed_client (cl w) /\ idle w /\ up (srv w) /\ u16 (sh_tid s) /\ sh_tid s = tid /\ room E (cl w) m.
(** with enough fuel (and depth) the program ends with [a] *)
Definition clears {Sn} (net : Sn -> bytes -> reaction Sn) (E : env) (s : share) (ns : list text) (w : world cifs Sn) (a : ans unit)
  (w' : world cifs Sn) : Prop :=
  exists k, forall fuel n, (k <= fuel)%nat -> (k <= n)%nat -> run net (clear_tree E fuel n s (path_of ns)) w = Done a w'.
(** the program run several times, each time on a connection of its own to the server, until it
    ends with success; [view] shows what is on the server *)
Inductive attempts {Sn} (net : Sn -> bytes -> reaction Sn) (E : env) (view : Sn -> dirs) (ready : world cifs Sn -> share -> Prop)
  (ns : list text) : list (ans unit) -> dirs -> dirs -> Prop :=
| at_none st : attempts net E view ready ns [] st st
| at_more w s a w' l st' : ready w s -> clears net E s ns w a w' ->
    attempts net E view ready ns l (view (srv w')) st' -> attempts net E view ready ns (a :: l) (view (srv w)) st'.
