(** * SpecFetch: what a program does with a URI: log in, mount the share, download the file. *)
From Verif Require Import Base Text Win Errors Common Reply Ntlm Prog Client Uri Api Flow.
Open Scope N_scope.

Definition or_else {A} (o : option A) (d : A) : A := match o with Some x => x | None => d end.
(** the credentials; workstation and the domain to use if there is none in the URI are the program's *)
Definition login_of (cfg : config) (workstation domain : text) : auth :=
  mk_auth (or_else (cf_user cfg) []) workstation (or_else (cf_domain cfg) domain) (or_else (cf_password cfg) []).
(** \\host\share *)
Definition unc (host share : text) : text := [92; 92] ++ host ++ [92] ++ share.
(** the program after open *)
Definition fetch (E : env) (fuel : nat) (share path : text) : prog cifs (ans bytes) :=
  do! s := mount E fuel share in
  do! d := download E fuel s path in
  do! _ := umount E fuel s in
  ret d.
(** the same as a program of calls *)
Definition fetch_flow (n : nat) (share path : text) : flow bytes :=
  fbind (fcall (Mount share)) (fun s =>
  fbind (download_flow n s path) (fun d =>
  fbind (fcall (Umount s)) (fun _ => FRet (Good d)))).
