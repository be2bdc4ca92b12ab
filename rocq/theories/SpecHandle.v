(** * SpecHandle: programs that leave an open file alone (C106) *)
From Verif Require Import Base Text Win Errors Common Reply Ntlm Prog Client Spec Api SpecCall Flow SpecRemote.
Open Scope N_scope.

(** the call closes the file with id [fid], or deletes [path] of the tree [tid] *)
Definition spoils {R} (tid : N) (path : text) (fid : N) (c : call R) : Prop :=
  match c with
  | Close h => h_fid h = fid
  | Delete s p => sh_tid s = tid /\ backslashes p = path
  | _ => False
  end.
(** no call of the program does *)
Fixpoint leaves (tid : N) (path : text) (fid : N) {A} (f : flow A) : Prop :=
  match f with
  | FRet _ | FPanic | FFuel => True
  | FCall c k => ~ spoils tid path fid c /\ forall r, leaves tid path fid (k r)
  | FState k => forall c, leaves tid path fid (k c)
  | FUid _ k => leaves tid path fid k
  | FOptions _ _ k => leaves tid path fid k
  end.

(** the same call, for a handle that agrees in tree and file id *)
Definition same_ids (h h' : handle) : Prop := h_tid h = h_tid h' /\ h_fid h = h_fid h'.
Inductive alike : forall R, call R -> call R -> Prop :=
| alike_close h h' : same_ids h h' -> alike unit (Close h) (Close h')
| alike_read h h' o : same_ids h h' -> alike bytes (ReadAt h o) (ReadAt h' o)
| alike_notify h h' : same_ids h h' -> alike _ (Notify h) (Notify h')
| alike_notify_about h h' m : same_ids h h' -> alike _ (NotifyAbout h m) (NotifyAbout h' m).
