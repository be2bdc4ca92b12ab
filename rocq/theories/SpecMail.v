(** * SpecMail: a directory as a mailbox: every file in it is fetched and, when it is complete, deleted;
    over connections that break, while others put new files there (C128).  Not part of the model. *)
From Verif Require Import Base Text Win Errors Common Reply Ntlm Prog Client Spec SpecReply SpecMsg Api SpecCall Flow SpecRemote SpecTree SpecRemoval SpecMove.
Open Scope N_scope.

(** Returns the files it has fetched, also when it fails.  Directories are left alone. *)
Fixpoint empty_each (E : env) (fuel : nat) (s : share) (pre : text) (l : list dir_info) : prog cifs (list (text * bytes) * ans unit) :=
  match l with
  | [] => Ret ([], Good tt)
  | d :: r =>
    if is_dots (d_filename d) || is_directory d then empty_each E fuel s pre r
    else
      pbind (download E fuel s (pre ++ d_filename d)) (fun x =>
      match x with
      | Bad e => Ret ([], Bad e)
      | Good data =>
        pbind (delete E fuel s (pre ++ d_filename d)) (fun y =>
        match y with
        | Bad e => Ret ([(d_filename d, data)], Bad e)
        | Good _ => pbind (empty_each E fuel s pre r) (fun z => Ret ((d_filename d, data) :: fst z, snd z))
        end)
      end)
  end.
Definition empty_box (E : env) (fuel : nat) (s : share) (pre : text) : prog cifs (list (text * bytes) * ans unit) :=
  pbind (list_dir E fuel s (pre ++ [42])) (fun x =>
  match x with Bad e => Ret ([], Bad e) | Good l => empty_each E fuel s pre l end).
(** with enough fuel the program ends with [x] *)
Definition empties {Sn} (net : Sn -> bytes -> reaction Sn) (E : env) (s : share) (ns : list text)
  (w : world cifs Sn) (x : list (text * bytes) * ans unit) (w' : world cifs Sn) : Prop :=
  exists k, forall fuel, (k <= fuel)%nat -> run net (empty_box E fuel s (path_of ns)) w = Done x w'.

(** [got] has been fetched from the directory [ns] of [R], and [R'] is left: what was fetched was there;
    nothing has changed but that files that were fetched are gone; all that were fetched are gone but,
    perhaps, the last one. *)
Definition fetched (ns : list text) (R : tree) (got : list (text * bytes)) (R' : tree) : Prop :=
  (forall x d, In (x, d) got -> file_of R (ns ++ [x]) = Some d)
  /\ (forall p, file_of R' p = file_of R p \/ (file_of R' p = None /\ exists x d, p = ns ++ [x] /\ In (x, d) got))
  /\ (forall p, dir_at R' p = None <-> dir_at R p = None)
  /\ (exists l o, got = l ++ o /\ (length o <= 1)%nat /\ forall x d, In (x, d) l -> file_of R' (ns ++ [x]) = None).
(** everything was fetched, and no file is left *)
Definition all_fetched (ns : list text) (R : tree) (got : list (text * bytes)) (R' : tree) : Prop :=
  (forall x d, file_of R (ns ++ [x]) = Some d -> In (x, d) got) /\ (forall x, file_of R' (ns ++ [x]) = None).
(** Others may change anything between two runs, but they leave the files alone that are in the mailbox. *)
Definition keeps (ns : list text) (R R' : tree) : Prop := forall x d, file_of R (ns ++ [x]) = Some d -> file_of R' (ns ++ [x]) = Some d.
(** a connection in order to a server whose mailbox can be listed and fetched with at most [m] calls *)
Definition box_ready {Sn} (E : env) (up : Sn -> Prop) (tid : N) (view : Sn -> dirs) (ns : list text) (m : nat) (w : world cifs Sn) (s : share) : Prop :=
  movable ns (ds_root (view (srv w))) m /\ ready E up tid view m w s.
(** Several runs, each on a connection of its own: [seen] is what was on the server at the beginning of
    each of them, [got] all that was fetched, [l] the answers; from [R] to [R']. *)
Inductive rounds {Sn} (net : Sn -> bytes -> reaction Sn) (E : env) (view : Sn -> dirs) (fit : world cifs Sn -> share -> Prop) (ns : list text)
  : list tree -> list (text * bytes) -> list (ans unit) -> tree -> tree -> Prop :=
| ro_none R : rounds net E view fit ns [] [] [] R R
| ro_others seen got l R R1 R' : keeps ns R R1 -> rounds net E view fit ns seen got l R1 R' -> rounds net E view fit ns seen got l R R'
| ro_run w s new a w' seen got l R' : fit w s -> empties net E s ns w (new, a) w' ->
    rounds net E view fit ns seen got l (ds_root (view (srv w'))) R' ->
    rounds net E view fit ns (ds_root (view (srv w)) :: seen) (new ++ got) (a :: l) (ds_root (view (srv w))) R'.
