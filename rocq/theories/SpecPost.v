(** * SpecPost: a mailbox that is emptied while others put files into it (C129).  Not part of the model. *)
From Verif Require Import Base Text Win Errors Common Reply Ntlm Prog Client Spec SpecReply SpecMsg Api SpecCall Flow SpecRemote RefServer FileService SpecTree TreeFacts SpecRemoval SpecMove SpecMail.
Open Scope N_scope.

(** The service with others at work: before each request what is on the server changes as they want.
    Their changes are part of the state: one (any function) for each request to come, then none. *)
Definition stirred (st : dirs * list (tree -> tree)) : dirs :=
  match snd st with [] => fst st | c :: _ => mk_dirs (c (ds_root (fst st))) (ds_open (fst st)) end.
Definition with_others (B : service dirs) : service (dirs * list (tree -> tree)) := fun R who o st =>
  (fst (B R who o (stirred st)), (snd (B R who o (stirred st)), List.tl (snd st))).
(** others leave the files in the mailbox [ns] alone, and do not make it too large (for [m] calls) *)
Definition decent (ns : list text) (m : nat) (c : tree -> tree) : Prop :=
  forall R, movable ns R m -> movable ns (c R) m /\ keeps ns R (c R).
(** a connection in order to such a server *)
Definition post_ready {Sn} (E : env) (up : Sn -> Prop) (tid : N) (view : Sn -> dirs * list (tree -> tree)) (ns : list text) (m : nat)
  (w : world cifs Sn) (s : share) : Prop :=
  box_ready E up tid (fun n => fst (view n)) ns m w s /\ Forall (decent ns m) (snd (view (srv w))).
(** nothing in the mailbox is lost *)
Definition delivered (ns : list text) (R : tree) (got : list (text * bytes)) (R' : tree) : Prop :=
  forall x d, file_of R (ns ++ [x]) = Some d -> In (x, d) got \/ file_of R' (ns ++ [x]) = Some d.
(** an example of such a change: the file [x] is put into the mailbox, if there is no such entry and it does not get too large *)
Definition post (ns : list text) (m : nat) (x : text) (d : bytes) (R : tree) : tree :=
  match dir_at R ns with
  | Some t =>
    if negb (existsb (text_eqb x) (entry_names t)) && (len (write_entries (dir_listing (AFile x d t))) <? 65400)
       && Nat.leb (2 + copy_calls (AFile x d t) + clear_calls (AFile x d t)) m
    then put R ns (AFile x d t) else R
  | None => R
  end.
