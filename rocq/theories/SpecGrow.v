(** * SpecGrow: downloading a file to which others append (C131).  Not part of the model. *)
From Verif Require Import Base Text Win Errors Common Reply Ntlm Prog Client Spec SpecReply SpecMsg Api SpecCall Flow SpecRemote RefServer FileService SpecTree SpecRemoval SpecMove SpecPost.
Open Scope N_scope.

(** one content is a beginning of another *)
Definition extends (d d' : bytes) : Prop := exists e, d' = d ++ e.
(** others do anything, but to the file [p] they only append *)
Definition appending (p : list text) (c : tree -> tree) : Prop :=
  forall R d, file_of R p = Some d -> exists d', file_of (c R) p = Some d' /\ extends d d'.
(** the file [p] is [d], and others only append to it *)
Definition growing (p : list text) (d : bytes) (st : dirs * list (tree -> tree)) : Prop :=
  file_of (ds_root (fst st)) p = Some d /\ Forall (appending p) (snd st).
(** a connection in order to a server where the file of this path is [d0], and [d1] when it is opened *)
Definition grow_ready {Sn} (E : env) (up : Sn -> Prop) (tid : N) (view : Sn -> dirs * list (tree -> tree)) (path : text) (d0 d1 : bytes)
  (w : world cifs Sn) (s : share) : Prop :=
  is_str path /\ short path /\ growing (names_of (backslashes path)) d0 (view (srv w))
  /\ file_of (ds_root (stirred (view (srv w)))) (names_of (backslashes path)) = Some d1 /\ len d1 < 2 ^ 64
  /\ ready E up tid (fun n => fst (view n)) (2 + pieces (len d1) 65534) w s.
(** with enough fuel the download ends with [a] *)
Definition downloads {Sn} (net : Sn -> bytes -> reaction Sn) (E : env) (s : share) (path : text) (w : world cifs Sn) (a : ans bytes) (w' : world cifs Sn) : Prop :=
  exists k, forall fuel, (k <= fuel)%nat -> run net (download E fuel s path) w = Done a w'.
(** The file is downloaded again and again, each time on a connection of its own; in between others append to it, too.
    [l] are the answers; the content is [d] at first and [d'] at last. *)
Inductive polls {Sn} (net : Sn -> bytes -> reaction Sn) (E : env) (view : Sn -> tree) (fit : world cifs Sn -> share -> Prop) (path : text)
  : list (ans bytes) -> bytes -> bytes -> Prop :=
| po_none d : polls net E view fit path [] d d
| po_others l d d1 d' : extends d d1 -> polls net E view fit path l d1 d' -> polls net E view fit path l d d'
| po_run w s a w' l d d1 d' : fit w s -> file_of (view (srv w)) (names_of (backslashes path)) = Some d -> downloads net E s path w a w' ->
    file_of (view (srv w')) (names_of (backslashes path)) = Some d1 -> polls net E view fit path l d1 d' ->
    polls net E view fit path (a :: l) d d'.
(** an example of such a change *)
Fixpoint append_at (t : tree) (p : list text) (e : bytes) : tree :=
  match t with
  | Nothing => Nothing
  | AFile n d r => match p with [x] => if text_eqb n x then AFile n (d ++ e) r else AFile n d (append_at r p e) | _ => AFile n d (append_at r p e) end
  | ADir n sub r =>
    match p with
    | x :: ((_ :: _) as q) => if text_eqb n x then ADir n (append_at sub q e) r else ADir n sub (append_at r p e)
    | _ => ADir n sub (append_at r p e)
    end
  end.
