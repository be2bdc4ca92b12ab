(** * SpecShare: servers that enforce share modes (C87).

    openfile asks for a file with read access and shares it for reading only (share access 1,
    C16).  A server that honours this does not let anyone write, replace or delete the file
    until it is closed, by whatever connection or local process. *)
From Verif Require Import Base Text Win Errors Common Reply Ntlm Prog Client Spec SpecReply SpecMsg Api SpecCall Flow SpecRemote SpecPool.
Open Scope N_scope.
Set Implicit Arguments.

(** [o] closes the file [fid] *)
Definition closes_file {R} (o : op R) (fid : N) : Prop :=
  match o with OClose _ f => f = fid | _ => False end.

Section Share.
Variable St : Type.
(** the service on the connection of client [i]; the files; which files are open:
    [holds st i t f tid path]: client [i] has file [path] of tree [tid] open under the ids [t], [f] *)
Variable B : nat -> service St.
Variable content : St -> N -> text -> option bytes.
Variable holds : St -> nat -> N -> N -> N -> text -> Prop.
(** reads give at least [q] bytes or all *)
Variable q : N.
Record share_modes : Prop := mk_share_modes {
  sm_quantum : 1 <= q;
  (* a file that is opened is there, and its size is reported *)
  sm_open : forall i who tid path st h st', B i who (OOpenFile tid path) st = (inl h, st') ->
    u16 (h_tid h) /\ u16 (h_fid h) /\ h_size h < 2 ^ 64
    /\ holds st' i (h_tid h) (h_fid h) tid path
    /\ exists d, content st' tid path = Some d /\ h_size h = len d;
  (* reading it gives what is in it *)
  sm_read : forall i who t f tid path st d o, holds st i t f tid path -> content st tid path = Some d -> o < len d ->
    exists chunk rest, fst (B i who (ORead t f o) st) = inl chunk /\ drop o d = chunk ++ rest /\ (q <= len chunk \/ rest = []);
  sm_close : forall i who t f tid path st, holds st i t f tid path -> fst (B i who (OClose t f) st) = inl tt;
  (* nobody changes it, and only its owner closes it; all else may change at any time *)
  sm_keep : forall i t f tid path st j R who (o : op R), holds st i t f tid path -> (j = i -> ~ closes_file o f) ->
    holds (snd (B j who o st)) i t f tid path /\ content (snd (B j who o st)) tid path = content st tid path
}.
End Share.

(** an execution at whose every moment [P] holds of the service *)
Inductive serial_in {St A} (B : nat -> service St) (P : St -> Prop) : (nat -> flow A * cifs) -> St -> list nat -> (nat -> flow A * cifs) -> St -> Prop :=
| si_none g st : P st -> serial_in B P g st [] g st
| si_step g st l g' st' i b p st'' : serial_in B P g st l g' st' -> advances (B i) (g' i) st' b p st'' -> P st'' ->
    serial_in B P g st (l ++ if b then [i] else []) (upd g' i p) st''.

(** the execution from [f], [st] to [f'], [st']: client [i]'s file is [d] from its first to its last
    request *)
Definition snapshot {St A} (B : nat -> service St) (content : St -> N -> text -> option bytes) (i : nat) (tid : N) (path : text) (d : bytes)
  (f : nat -> flow A * cifs) (st : St) (l : list nat) (f' : nat -> flow A * cifs) (st' : St) : Prop :=
  exists l1 f1 st1 l2 f2 st2 l3, l = (l1 ++ [i]) ++ l2 ++ (i :: l3)
  /\ serial B f st (l1 ++ [i]) f1 st1
  /\ serial_in B (fun s => content s tid path = Some d) f1 st1 l2 f2 st2
  /\ serial B f2 st2 (i :: l3) f' st'.

(** as [sensible], for the clients other than [i] *)
Definition sensible_others {St A} (E : env) (B : nat -> service St) (i : nat) (g : nat -> flow A * cifs) (st : St) : Prop :=
  forall l g' st', serial B g st l g' st' -> forall j, j <> i -> can_call E (g' j).
