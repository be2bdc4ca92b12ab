(** * SpecWild: what a server deletes (C89).

    [MS-CIFS] 2.2.4.7: SMB_COM_DELETE names its files by a zero-terminated string whose last
    component may contain wildcards.  Simplified: no short names, no folding of cases. *)
From Verif Require Import Base Text Win Errors Common Reply Ntlm Prog Client Spec SpecReply Api Flow SpecRemote.
Open Scope N_scope.

(** '*' (42) stands for any text, '?' (63) for one character *)
Inductive matches : text -> text -> Prop :=
| match_end : matches [] []
| match_same c p n : c <> 42 -> c <> 63 -> matches p n -> matches (c :: p) (c :: n)
| match_one c p n : matches p n -> matches (63 :: p) (c :: n)
| match_none p n : matches p n -> matches (42 :: p) n
| match_more c p n : matches (42 :: p) n -> matches (42 :: p) (c :: n).
(** a path up to its last component *)
Definition directory (d : text) : Prop := d = [] \/ exists e, d = e ++ [92].
Definition component (n : text) : Prop := ~ In 92 n.
(** the files that a path stands for *)
Definition denotes (path file : text) : Prop :=
  exists dir p n, path = dir ++ p /\ file = dir ++ n /\ directory dir /\ component p /\ component n /\ matches p n.
(** the string that ends at the first NUL *)
Inductive terminated : text -> text -> Prop :=
| terminated_end s : ~ In 0 s -> terminated s s
| terminated_nul s r : ~ In 0 s -> terminated (s ++ 0 :: r) s.

(** A service deletes the files that the path stands for; [has] are the files it has.  If it
    refuses it may have deleted some of them. *)
Definition deletes_files {St} (B : service St) (has : St -> N -> text -> Prop) : Prop :=
  forall who tid path name st, terminated path name ->
  match B unit who (ODelete tid path) st with
  | (inl _, st') => (exists q, has st tid q /\ denotes name q)
      /\ forall t q, has st' t q <-> has st t q /\ ~ (t = tid /\ denotes name q)
  | (inr _, st') => forall t q, (has st' t q -> has st t q) /\ (has st t q -> has st' t q \/ (t = tid /\ denotes name q))
  end.

(** the last component without wildcards *)
Definition no_wildcard (path : text) : Prop :=
  exists dir p, path = dir ++ p /\ directory dir /\ component p /\ ~ In 42 p /\ ~ In 63 p.
