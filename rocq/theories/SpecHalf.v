(** * SpecHalf: programs that stop at the first error, and what they leave behind when they are
    cut off (C111). *)
From Verif Require Import Base Text Win Errors Common Reply Ntlm Prog Client Spec Api SpecCall Flow SpecRemote.
Open Scope N_scope.

(** The program returns the error of any call at once (in Rust: every call is followed by [?]). *)
Inductive strict {A} : flow A -> Prop :=
| strict_ret a : strict (FRet a)
| strict_panic : strict FPanic
| strict_fuel : strict FFuel
| strict_call R (q : call R) k : (forall e, k (Bad e) = FRet (Bad e)) -> (forall y, strict (k (Good y))) -> strict (FCall q k)
| strict_state k : (forall c, strict (k c)) -> strict (FState k)
| strict_uid u f : strict f -> strict (FUid u f)
| strict_options m u f : strict f -> strict (FOptions m u f).

(** The service, in state [st] when the program begins, is in [st'] after some of the program's
    calls (none, one, ..., or all of them), each answered and carried out once, in their order. *)
Inductive visited {St} (B : service St) {A} : flow A -> cifs -> St -> St -> Prop :=
| v_none f c st : visited B f c st st
| v_call R (q : call R) k c st r st1 st' : B R (uid c) (op_of q) st = (r, st1) ->
    visited B (k (returned r)) (next_client c) st1 st' -> visited B (FCall q k) c st st'
| v_state k c st st' : visited B (k c) c st st' -> visited B (FState k) c st st'
| v_uid u f c st st' : visited B f (set_uid u c) st st' -> visited B (FUid u f) c st st'
| v_options m u f c st st' : visited B f (set_options m u c) st st' -> visited B (FOptions m u f) c st st'.
