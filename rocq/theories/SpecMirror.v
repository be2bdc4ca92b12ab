(** * SpecMirror: a program that lists a directory and downloads everything in it. *)
From Verif Require Import Base Text Win Errors Common Reply Ntlm Prog Client Api Flow SpecRemote FileService.
Open Scope N_scope.

Fixpoint fetch_each (E : env) (fuel : nat) (s : share) (l : list dir_info) : prog cifs (ans (list (text * bytes))) :=
  match l with
  | [] => ret []
  | d :: r =>
    do! x := download E fuel s (d_filename d) in
    do! xs := fetch_each E fuel s r in
    ret ((d_filename d, x) :: xs)
  end.
Definition mirror (E : env) (fuel : nat) (s : share) : prog cifs (ans (list (text * bytes))) :=
  do! l := list_dir E fuel s [42] in fetch_each E fuel s l.
(** the same as a program of calls *)
Fixpoint each_flow (n : nat) (s : share) (l : list dir_info) : flow (list (text * bytes)) :=
  match l with
  | [] => FRet (Good [])
  | d :: r =>
    fbind (download_flow n s (d_filename d)) (fun x =>
    fbind (each_flow n s r) (fun xs => FRet (Good ((d_filename d, x) :: xs))))
  end.
Definition mirror_flow (n : nat) (s : share) : flow (list (text * bytes)) :=
  fbind (list_flow n s [42]) (each_flow n s).

(** the files of the tree [tid], with names and contents *)
Definition files_in (l : list (N * text * bytes)) (tid : N) : list (text * bytes) :=
  map (fun e => (snd (fst e), snd e)) (filter (fun e => fst (fst e) =? tid) l).
(** names and contents that can be listed and downloaded: the name is text without '/' (which
    cannot occur in names), the length of the contents is a 64 bit number *)
Definition ordinary (f : text * bytes) : Prop := is_str (fst f) /\ ~ In 47 (fst f) /\ len (snd f) < 2 ^ 64.
(** every path occurs once *)
Definition once (l : list (N * text * bytes)) : Prop := NoDup (map fst l).
(** one call to list, and open, close and reads for every file *)
Definition mirror_calls (fs : list (text * bytes)) : nat :=
  1 + list_sum (map (fun f => (2 + pieces (len (snd f)) 65534)%nat) fs).
