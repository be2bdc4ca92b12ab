(** * SpecRemovers: several clients removing directory trees at the same time (C124). *)
From Verif Require Import Base Text Win Errors Common Reply Ntlm Prog Client Spec SpecReply SpecMsg Api SpecCall Flow SpecRemote SpecTree SpecPool.
Open Scope N_scope.

(** in every directory every name occurs once *)
Fixpoint names_once (t : tree) : Prop :=
  match t with
  | Nothing => True
  | AFile n _ r => ~ In n (entry_names r) /\ names_once r
  | ADir n sub r => ~ In n (entry_names r) /\ names_once sub /\ names_once r
  end.
(** directories in directories in ... *)
Fixpoint depth (t : tree) : nat :=
  match t with
  | Nothing => 0
  | AFile _ _ r => depth r
  | ADir _ sub r => Nat.max (S (depth sub)) (depth r)
  end.
(** there is nothing in the directory [ns] *)
Definition gone (ns : list text) (R : tree) : Prop := forall p, below ns p = true -> file_of R p = None /\ dir_at R p = None.
(** from [R] to [R'] nothing has changed outside of the directories [ns i], [i < n], and nothing
    has changed in them but that files and directories may be gone *)
Definition only_removed (n : nat) (ns : nat -> list text) (R R' : tree) : Prop :=
  (forall p, (forall i, (i < n)%nat -> below (ns i) p = false) -> file_of R' p = file_of R p /\ (dir_at R' p = None <-> dir_at R p = None))
  /\ forall p, (file_of R' p = None \/ file_of R' p = file_of R p) /\ (dir_at R' p = None \/ dir_at R p <> None).
(** neither directory is in the other *)
Definition apart (a b : list text) : Prop := a <> b /\ below a b = false /\ below b a = false.
(** a client about to remove all in the directory [ns] (paths are followed to the depth [n]) *)
Definition remover (E : env) (fuel n : nat) (tid : N) (R : tree) (p : proc unit) (s : share) (ns : list text) : Prop :=
  p_prog p = clear_tree E fuel n s (path_of ns) /\ p_rx p = [] /\ p_tl p = Open /\ typed_client (p_cl p)
  /\ u16 (sh_tid s) /\ sh_tid s = tid /\ Forall a_name ns /\ short (path_of ns ++ [42])
  /\ exists t, dir_at R ns = Some t /\ listable t /\ ordinary_tree (path_of ns) t /\ (depth t < n)%nat /\ room E (p_cl p) (1 + clear_calls t).
