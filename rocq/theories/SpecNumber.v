(** * SpecNumber: numbers written in digits (C68) *)
From Verif Require Import Base Text.
Open Scope N_scope.

(** the digits 0-9, a-f *)
Definition digit (base c v : N) : Prop := v < base /\ ((v < 10 /\ c = 48 + v) \/ (10 <= v /\ c = 87 + v)).
Inductive numeral (base : N) : text -> N -> Prop :=
| num_one c v : digit base c v -> numeral base [c] v
| num_more t n c v : numeral base t n -> digit base c v -> numeral base (t ++ [c]) (n * base + v).
