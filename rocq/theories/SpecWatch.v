(** * SpecWatch: a program that watches a directory, and services that tell what changes. *)
From Verif Require Import Base Text Win Errors Common Reply Ntlm Prog Client Api SpecCall Flow SpecRemote SpecTimeout.
Open Scope N_scope.

Definition change : Type := text * notify_action.
(** ask [n] times what has changed; stop at the first error: the changes, and the error *)
Fixpoint follow (E : env) (fuel : nat) (h : handle) (mode : N) (n : nat) : prog cifs (ans (list change * option error)) :=
  match n with
  | O => ret ([], None)
  | S n =>
    pbind (notify_about E fuel h mode) (fun r =>
    match r with
    | Bad e => ret ([], Some e)
    | Good l => do! x := follow E fuel h mode n in ret (l ++ fst x, snd x)
    end)
  end.
(** open the directory, follow its changes, close it *)
Definition watch (E : env) (fuel : nat) (s : share) (path : text) (mode : N) (n : nat) : prog cifs (ans (list change * option error)) :=
  do! h := opendir E fuel s path in
  do! x := follow E fuel h mode n in
  do! _ := close E fuel h in
  ret x.
(** the same as a program of calls *)
Fixpoint follow_flow (h : handle) (mode : N) (n : nat) : flow (list change * option error) :=
  match n with
  | O => FRet (Good ([], None))
  | S n =>
    FCall (NotifyAbout h mode) (fun r =>
    match r with
    | Bad e => FRet (Good ([], Some e))
    | Good l => fbind (follow_flow h mode n) (fun x => FRet (Good (l ++ fst x, snd x)))
    end)
  end.
Definition watch_flow (s : share) (path : text) (mode : N) (n : nat) : flow (list change * option error) :=
  fbind (fcall (OpenDir s path)) (fun h =>
  fbind (follow_flow h mode n) (fun x =>
  fbind (fcall (Close h)) (fun _ => FRet (Good x)))).

(** [inv all rest st]: in the state [st] of the service, [all] is what has happened in the
    directory since it was opened, and [rest] is what has not been told of it.  When asked, more
    ([new]) may have happened; the service tells some of it, from the beginning on, or answers
    with a status (then it need not keep the rest: STATUS_NOTIFY_ENUM_DIR). *)
Definition tells {St} (B : service St) (who : N) (h : handle) (mode : N) (inv : list change -> list change -> St -> Prop)
  (broken : St -> Prop) : Prop :=
  forall all rest st, inv all rest st -> exists new r st',
  B (list change) who (ONotify (h_tid h) (h_fid h) mode) st = (r, st')
  /\ match r with
     | inl l => exists rest', rest ++ new = l ++ rest' /\ inv (all ++ new) rest' st'
     | inr _ => broken st'
     end.
(** the directory at [path] is opened with handle [h], and then the service tells its changes *)
Definition watchable {St} (B : service St) (who tid : N) (path : text) (mode : N) (st : St) (h : handle)
  (inv : list change -> list change -> St -> Prop) (broken : St -> Prop) : Prop :=
  u16 (h_tid h) /\ u16 (h_fid h)
  /\ (exists st1, B handle who (OOpenDir tid path) st = (inl h, st1) /\ inv [] [] st1)
  /\ tells B who h mode inv broken
  /\ forall st', (exists all rest, inv all rest st') \/ broken st' -> exists st2, B unit who (OClose (h_tid h) (h_fid h)) st' = (inl tt, st2).

(** ** watching with timeouts: [n] questions, each of which may be given up; then the directory is closed *)
Fixpoint try_notify (h : handle) (mode : N) (n : nat) (k : list (option (ans (list change))) -> tprog (ans (list (option (ans (list change))))))
  (got : list (option (ans (list change)))) : tprog (ans (list (option (ans (list change))))) :=
  match n with
  | O => k got
  | S n => TTry (NotifyAbout h mode) (fun r => try_notify h mode n k (got ++ [r]))
  end.
Definition patient (s : share) (path : text) (mode : N) (n : nat) : tprog (ans (list (option (ans (list change))))) :=
  TCall (OpenDir s path) (fun r =>
  match r with
  | Bad e => TRet (Bad e)
  | Good h => try_notify h mode n (fun got => TCall (Close h) (fun _ => TRet (Good got))) []
  end).
(** [got] is what the questions brought while [fut] happened, one after the other, before the
    questions that reached the server: only the answers to questions given up are missing *)
Inductive all_but_given_up : list (option (ans (list change))) -> list (list change) -> Prop :=
| ab_end fut : all_but_given_up [] fut
| ab_told got fut : all_but_given_up got (List.tl fut) -> all_but_given_up (Some (Good (hd [] fut)) :: got) fut
| ab_lost got fut : all_but_given_up got (List.tl fut) -> all_but_given_up (None :: got) fut
| ab_unsent got fut : all_but_given_up got fut -> all_but_given_up (None :: got) fut.
