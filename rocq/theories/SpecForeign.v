(** * SpecForeign: replies that name someone else (C94) *)
From Verif Require Import Base Text Win Errors Common Reply Ntlm Prog Client Spec Api SpecCall.
Open Scope N_scope.

(** the calls whose result contains the tree or the user named in the reply's header *)
Definition returns_tree {R} (c : call R) : bool :=
  match c with MountPassword _ _ | Mount _ | OpenFile _ _ | OpenDir _ _ => true | _ => false end.
Definition returns_user {R} (c : call R) : bool := match c with SetupAuth _ _ _ | SetupBlob _ => true | _ => false end.

(** two messages that agree but for the fields of the header from offset 12 to 29: process id
    (12, 26), signature (14), reserved (22), tree (24) and user (28); in the tree or user only
    if the call does not return it *)
Definition same_but_sender {R} (c : call R) (p p' : bytes) : Prop :=
  len p = len p' /\ take 12 p = take 12 p' /\ drop 30 p = drop 30 p'
  /\ (returns_tree c = true -> u16_at p 24 = u16_at p' 24) /\ (returns_user c = true -> u16_at p 28 = u16_at p' 28).
(** streams with such messages *)
Inductive readdressed {R} (c : call R) : bytes -> bytes -> Prop :=
| re_rest b : readdressed c b b
| re_other ty p b b' : len p <= NB_MAX -> readdressed c b b' -> readdressed c (nb_frame ty p ++ b) (nb_frame ty p ++ b')
| re_message p p' b b' : len p <= NB_MAX -> same_but_sender c p p' -> readdressed c b b' ->
    readdressed c (session_message p ++ b) (session_message p' ++ b').

(** the same end; up to such messages the same stream left *)
Definition same_but_senders {X} (k : call X) {S1 S2 A} (o1 : outcome cifs S1 A) (o2 : outcome cifs S2 A) : Prop :=
  match o1, o2 with
  | Done a1 w1, Done a2 w2 => a1 = a2 /\ cl w1 = cl w2 /\ tl w1 = tl w2 /\ readdressed k (rx w1) (rx w2)
  | Blocked w1, Blocked w2 => cl w1 = cl w2
  | Crashed w1, Crashed w2 => cl w1 = cl w2
  | _, _ => False
  end.

(** a server that sends back what it receives *)
Definition mirror_server (_ : unit) (f : bytes) : reaction unit := Accept tt f Open.
