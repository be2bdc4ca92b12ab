(** * SpecBuild: the two builds of the crate (C85), and what the environment may influence (C86). *)
From Verif Require Import Base Text Errors Ntlm Prog Client Api Flow.
Open Scope N_scope.

(** the same machine (cryptography, clock, random numbers), the crate compiled with
    (debug) and without (release) overflow checks *)
Definition build (checks : bool) (E : env) : env :=
  mk_env (md4 E) (md4_len E) (hmac E) (hmac_len E) (des E) (des_len E) (upper E) (upper_text E)
    (now E) (rnd E) (rnd_len E) checks.
Definition debug : env -> env := build true.
Definition release : env -> env := build false.

(** a program that makes at most [n] calls, whatever the answers *)
Inductive at_most {A} : nat -> flow A -> Prop :=
| am_ret n a : at_most n (FRet a)
| am_panic n : at_most n FPanic
| am_fuel n : at_most n FFuel
| am_call n R (c : call R) k : (forall r, at_most n (k r)) -> at_most (S n) (FCall c k).
