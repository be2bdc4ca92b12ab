(** * SpecHijack: someone on the way who takes a connection over (C112). *)
From Verif Require Import Base Text Win Errors Common Reply Ntlm Prog Client Spec Api SpecCall Flow SpecRemote.
Open Scope N_scope.

(** Passes the next [k] requests and their answers on between client and server [react], and
    answers all further ones as [other] does: what the client sees if someone who can write on
    the connection comes in after [k] requests.  The server sees nothing of the requests after
    those. *)
Definition takeover {Sv Sw} (react : Sv -> bytes -> reaction Sv) (other : Sw -> bytes -> reaction Sw)
  (n : nat * Sv * Sw) (f : bytes) : reaction (nat * Sv * Sw) :=
  match n with
  | (S k, s, t) =>
    match react s f with
    | Accept s' inc e => Accept (k, s', t) inc e
    | Refuse s' i x inc e => Refuse (k, s', t) i x inc e
    end
  | (O, s, t) =>
    match other t f with
    | Accept t' inc e => Accept (O, s, t') inc e
    | Refuse t' i x inc e => Refuse (O, s, t') i x inc e
    end
  end.
Definition the_server {Sv Sw} (n : nat * Sv * Sw) : Sv := snd (fst n).
Definition the_other {Sv Sw} (n : nat * Sv * Sw) : Sw := snd n.
