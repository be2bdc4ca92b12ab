(** * SpecAtomic: several clients at any server over bounded buffers (C120) *)
From Verif Require Import Base Text Win Errors Common Reply Ntlm Prog Client Spec SpecReply SpecMsg Api SpecCall Flow SpecRemote SpecPool SpecPipe SpecCrowd SpecSpace.
Open Scope N_scope.

(** client [p] before its first step, at a server that has [p_rx p] to say to it *)
Definition seated {Sv A} (s : Sv) (p : proc A) : line Sv A := afresh (p_prog p) (p_cl p) s (p_rx p).
(** nothing is on the way to the server, and the client is not writing *)
Definition nothing_up {Sv A} (y : line Sv A) : Prop :=
  y_in y = [] /\ y_up y = [] /\ match y_prog y with Write f _ => y_sent y = 0 | _ => True end.
(** the client and what it has not read yet, as in SpecPool *)
Definition abreast_of {Sv A} (y : line Sv A) (p : proc A) : Prop :=
  p_prog p = y_prog y /\ p_cl p = y_cl y /\ p_tl p = Open /\ p_rx p = y_got y ++ y_down y ++ y_out y.
