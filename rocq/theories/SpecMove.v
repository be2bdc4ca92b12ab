(** * SpecMove: fetching a directory tree away from the server: it is copied, and only when the copy
    is complete it is removed; over connections that break (C127).  Not part of the model. *)
From Verif Require Import Base Text Win Errors Common Reply Ntlm Prog Client Spec SpecReply SpecMsg Api SpecCall Flow SpecRemote SpecTree SpecRemoval.
Open Scope N_scope.

(** [have] is the copy of an earlier attempt.  Returns the copy, if there is one, and whether all was removed. *)
Definition move_tree (E : env) (fuel n : nat) (s : share) (pre : text) (have : option tree) : prog cifs (option tree * ans unit) :=
  pbind (match have with Some t => Ret (Good t) | None => copy_tree E fuel n s pre end) (fun r =>
  match r with
  | Good t => pbind (clear_tree E fuel n s pre) (fun c => Ret (Some t, c))
  | Bad e => Ret (None, Bad e)
  end).
(** with enough fuel (and depth) the program ends with [x] *)
Definition fetches_away {Sn} (net : Sn -> bytes -> reaction Sn) (E : env) (s : share) (ns : list text) (have : option tree)
  (w : world cifs Sn) (x : option tree * ans unit) (w' : world cifs Sn) : Prop :=
  exists k, forall fuel n, (k <= fuel)%nat -> (k <= n)%nat -> run net (move_tree E fuel n s (path_of ns) have) w = Done x w'.
(** the directory [ns] can be walked through; copying and removing all in it takes at most [m] calls *)
Definition movable (ns : list text) (R : tree) (m : nat) : Prop :=
  exists t, dir_at R ns = Some t /\ listable t /\ ordinary_tree (path_of ns) t /\ (2 + copy_calls t + clear_calls t <= m)%nat.
(** a connection in order, with room for [m] calls, to a server that can open a file *)
Definition ready {Sn} (E : env) (up : Sn -> Prop) (tid : N) (view : Sn -> dirs) (m : nat) (w : world cifs Sn) (s : share) : Prop :=
  usable E up tid m w s /\ fresh (ds_open (view (srv w))) < 65536.
(** Nothing is lost: [R] was on the server, [R'] is, and [have] is the copy.  Without a copy all is as
    it was; a copy is all that was in the directory; outside of the directory nothing has changed, and
    in it nothing but that something may be gone. *)
Definition nothing_lost (ns : list text) (R : tree) (have : option tree) (R' : tree) : Prop :=
  match have with None => R' = R | Some t => dir_at R ns = Some t end /\ partly_removed ns R R'.
(** The program run several times, each time on a connection of its own and with the copy the last
    run has left; the files that are open on the server may change in between. *)
Inductive trips {Sn} (net : Sn -> bytes -> reaction Sn) (E : env) (view : Sn -> dirs) (fit : world cifs Sn -> share -> Prop) (ns : list text)
  : list (ans unit) -> option tree -> tree -> option tree -> tree -> Prop :=
| tr_none have R : trips net E view fit ns [] have R have R
| tr_more w s have a have1 w' l have' R' : fit w s -> fetches_away net E s ns have w (have1, a) w' ->
    trips net E view fit ns l have1 (ds_root (view (srv w'))) have' R' ->
    trips net E view fit ns (a :: l) have (ds_root (view (srv w))) have' R'.
