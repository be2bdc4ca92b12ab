(** * SpecDoor: a server that is reached over port 139 only (C113). *)
From Verif Require Import Base Text Win Errors Common Reply Ntlm Prog Client Spec SpecReply SpecNtlm Api SpecCall SpecLogin.
Open Scope N_scope.

(** The server [react] behind port 139: it waits for the session request of the workstation [name]
    and accepts it ([inl], before); then it is the server itself ([inr]). *)
Definition session_door {Sv} (door : Sv + Sv -> bytes -> reaction (Sv + Sv)) (react : Sv -> bytes -> reaction Sv) (name : text) : Prop :=
  (forall s f, session_request smb_server name f -> door (inl s) f = Accept (inr s) positive_response Open)
  /\ (forall s f, door (inr s) f =
       match react s f with
       | Accept s' inc t => Accept (inr s') inc t
       | Refuse s' n e inc t => Refuse (inr s') n e inc t
       end).

(** the same world behind the door; [f], the session request, was written before *)
Definition behind {Sv} (f : bytes) (w : world cifs Sv) : world cifs (Sv + Sv) :=
  mk_world (cl w) (inr (srv w)) (rx w) (tl w) (f :: tx w).
Definition outcome_behind {Sv A} (f : bytes) (o : outcome cifs Sv A) : outcome cifs (Sv + Sv) A :=
  match o with
  | Done a w => Done a (behind f w)
  | Crashed w => Crashed (behind f w)
  | Blocked w => Blocked (behind f w)
  | Starved w => Starved (behind f w)
  end.
