(** * Sample: concrete environments, servers and replies, for the non-vacuity
    examples and as witnesses.  Nothing here is part of the model. *)
From Verif Require Import Base Text Win Errors Common Reply Ntlm Prog Client Spec Api.
Open Scope N_scope.

(** crypto that returns constants, fixed time and nonce *)
Definition env0 (checks : bool) : env :=
  mk_env (fun _ => repeat x11 16) (fun _ => eq_refl) (fun _ _ => repeat x22 16) (fun _ _ => eq_refl)
    (fun _ _ => repeat x33 8) (fun _ _ => eq_refl) (fun s => s) (fun _ H => H)
    0%Z (repeat x44 8) eq_refl checks.

(** a server that sends the next prepared answer to every request, then nothing *)
Definition script (s : list bytes) (_ : bytes) : reaction (list bytes) :=
  match s with [] => Accept [] [] Open | r :: s => Accept s r Open end.
Definition client0 : cifs := mk_cifs default_auth 4356 true 7 3.
Definition world0 (answers : list bytes) : world cifs (list bytes) := mk_world client0 answers [] Open [].
(** the same, on a stream the server has already closed *)
Definition closed0 (answers : list bytes) : world cifs (list bytes) := mk_world client0 answers [] Closed [].

(** a reply message *)
Definition header (code status flags2 tid uid mid : N) : bytes :=
  magic ++ le 1 code ++ le 4 status ++ [x98] ++ le 2 flags2 ++ zeros 12 ++ le 2 tid ++ le 2 0xfeff
  ++ le 2 uid ++ le 2 mid.
Definition body (words data : bytes) : bytes :=
  le 1 (len words / 2) ++ words ++ le 2 (len data) ++ data.
Definition message (code status mid : N) (words data : bytes) : bytes :=
  header code status 0xc801 5 7 mid ++ body words data.
Definition share0 : share := mk_share None None [] [] 5.
Definition handle0 : handle := mk_handle 5 9 0 0 0 0 0 0 0 0 100 0 false.

(** compute both sides of a concrete run *)
Ltac runs := vm_compute; reflexivity.
