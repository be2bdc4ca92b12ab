(** * SpecBusy: clients copying directory trees while others remove them (C125). *)
From Verif Require Import Base Text Win Errors Common Reply Ntlm Prog Client Spec SpecReply SpecMsg Api SpecCall Flow SpecRemote SpecTree SpecPool SpecRemovers.
Open Scope N_scope.

(** reads needed for the longest file *)
Fixpoint most_reads (t : tree) : nat :=
  match t with
  | Nothing => 0
  | AFile _ d r => Nat.max (pieces (len d) 65534) (most_reads r)
  | ADir _ sub r => Nat.max (most_reads sub) (most_reads r)
  end.
(** what clients do: copy the directory, or remove all in it (the result, then, is of no interest) *)
Inductive job := Copy | Remove.
Definition job_prog (E : env) (fuel n : nat) (j : job) (s : share) (ns : list text) : prog cifs (ans tree) :=
  match j with
  | Copy => copy_tree E fuel n s (path_of ns)
  | Remove => do! _ := clear_tree E fuel n s (path_of ns) in ret Nothing
  end.
Definition job_calls (j : job) (t : tree) : nat := match j with Copy => copy_calls t | Remove => clear_calls t end.
(** a client about to do it *)
Definition worker (E : env) (fuel n : nat) (tid : N) (R : tree) (p : proc tree) (j : job) (s : share) (ns : list text) : Prop :=
  p_prog p = job_prog E fuel n j s ns /\ p_rx p = [] /\ p_tl p = Open /\ typed_client (p_cl p)
  /\ u16 (sh_tid s) /\ sh_tid s = tid /\ Forall a_name ns /\ short (path_of ns ++ [42])
  /\ exists t, dir_at R ns = Some t /\ listable t /\ ordinary_tree (path_of ns) t /\ (depth t < n)%nat /\ (most_reads t < fuel)%nat
     /\ room E (p_cl p) (1 + job_calls j t).
(** [t], as a copy of the directory [ns], has at most what was there when it was [R], and at
    least what is there when it is [R'] *)
Definition copy_between (ns : list text) (R R' t : tree) : Prop := forall p, p <> [] ->
  (file_of t p = None \/ file_of t p = file_of R (ns ++ p)) /\ (dir_at t p = None \/ dir_at R (ns ++ p) <> None)
  /\ (file_of R' (ns ++ p) = None \/ file_of R' (ns ++ p) = file_of t p) /\ (dir_at R' (ns ++ p) = None \/ dir_at t p <> None).
(** files that are open stay open *)
Definition still_open (l l' : list (N * list text)) : Prop := forall f p, open_path l f = Some p -> open_path l' f = Some p.
(** the directories in which something is removed *)
Definition removed_in (n : nat) (jobs : nat -> job) (ns : nat -> list text) (p : list text) : Prop :=
  exists i, (i < n)%nat /\ jobs i = Remove /\ below (ns i) p = true.
