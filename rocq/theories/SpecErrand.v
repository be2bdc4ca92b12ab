(** * SpecErrand: what a program does with a URI other than downloading (C115). *)
From Verif Require Import Base Text Win Errors Common Reply Ntlm Prog Client Uri Api Flow.
Open Scope N_scope.

(** mount, list the path as a pattern, unmount *)
Definition look (E : env) (fuel : nat) (share pattern : text) : prog cifs (ans (list dir_info)) :=
  do! s := mount E fuel share in
  do! l := list_dir E fuel s pattern in
  do! _ := umount E fuel s in
  ret l.
(** mount, delete the path, unmount *)
Definition remove (E : env) (fuel : nat) (share path : text) : prog cifs (ans unit) :=
  do! s := mount E fuel share in
  do! _ := delete E fuel s path in
  do! _ := umount E fuel s in
  ret tt.
