(** * SpecRepeat: a deletion that is repeated on other connections (C114). *)
From Verif Require Import Base Text Win Errors Common Reply Ntlm Prog Client Spec SpecReply SpecMsg Api SpecCall Flow SpecRemote SpecWild.
Open Scope N_scope.

(** Deletions of [path] on the share [tid], one after the other, each on a connection of its own
    to the server; [l] are their results; [st] and [st'] is the server, as shown by [view],
    before the first and after the last of them. *)
Inductive deletions {Sn St} (net : Sn -> bytes -> reaction Sn) (E : env) (view : Sn -> St) (ready : world cifs Sn -> share -> Prop)
  (tid : N) (path : text) : list (ans unit) -> St -> St -> Prop :=
| del_none st : deletions net E view ready tid path [] st st
| del_more w s fuel a w' l st' : ready w s -> sh_tid s = tid -> run net (delete E fuel s path) w = Done a w' ->
    deletions net E view ready tid path l (view (srv w')) st' -> deletions net E view ready tid path (a :: l) (view (srv w)) st'.

(** the service does not refuse to delete what is there *)
Definition willing {St} (B : service St) (has : St -> N -> text -> Prop) : Prop :=
  forall who tid path name st, terminated path name -> (exists q, has st tid q /\ denotes name q) ->
  exists st', B unit who (ODelete tid path) st = (inl tt, st').
(** A connection that is there and idle, to which the request for the deletion fits. *)
Definition in_order {Sn} (E : env) (up : Sn -> Prop) (path : text) (w : world cifs Sn) (s : share) : Prop :=
  typed_client (cl w) /\ idle w /\ up (srv w) /\ u16 (sh_tid s) /\ fits_request (use_unicode (cl w)) (Delete s path) /\ room E (cl w) 1.
