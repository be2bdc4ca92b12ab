(** * SpecKept: a program that keeps a copy of a directory by watching it. *)
From Verif Require Import Base Text Win Errors Common Reply Ntlm Prog Client Api SpecCall Flow SpecRemote FileService SpecWatch SpecMsg.
Open Scope N_scope.

(** ** the names of a directory while it changes *)
Definition comes (a : notify_action) : bool := match a with ADDED | RENAMED_NEW => true | _ => false end.
Definition goes (a : notify_action) : bool := match a with REMOVED | RENAMED_OLD => true | _ => false end.
Definition after_change (names : list text) (c : change) : list text :=
  if comes (snd c) then fst c :: names
  else if goes (snd c) then filter (fun x => negb (text_eqb x (fst c))) names
  else names.
Definition after (l : list change) (names : list text) : list text := fold_left after_change l names.
(** the name has come or gone *)
Definition moved (x : text) (l : list change) : Prop := exists a, In (x, a) l /\ (comes a = true \/ goes a = true).
Definition same_names (a b : list text) : Prop := forall x, In x a <-> In x b.

(** ** the program: open the directory, list it, ask [n] times what has changed, close it *)
Definition keep (E : env) (fuel : nat) (s : share) (path pattern : text) (mode : N) (n : nat) : prog cifs (ans (list text * option error)) :=
  do! h := opendir E fuel s path in
  do! l := list_dir E fuel s pattern in
  do! x := follow E fuel h mode n in
  do! _ := close E fuel h in
  ret (after (fst x) (map d_filename l), snd x).
(** the same as a program of calls *)
Definition keep_flow (k : nat) (s : share) (path pattern : text) (mode : N) (n : nat) : flow (list text * option error) :=
  fbind (fcall (OpenDir s path)) (fun h =>
  fbind (list_flow k s pattern) (fun l =>
  fbind (follow_flow h mode n) (fun x =>
  fbind (fcall (Close h)) (fun _ => FRet (Good (after (fst x) (map d_filename l), snd x)))))).

(** ** services *)
(** the search [sid] goes on after the entry [d] with the batches [l], to the last one; every
    batch but the last has an entry.  [m] is the number of batches.  (The client cannot read
    entries in these batches, C26; so behind its back a server can only say that the search is
    over, with an empty last batch.) *)
Inductive further {St} (B : service St) (who : N) (unicode : bool) (s : share) (sid : N) : dir_info -> St -> nat -> list dir_info -> St -> Prop :=
| fu_last d st l st1 : is_str (d_filename d) -> fits_request unicode (FindNext s sid (d_filename d)) ->
    B found_next who (OFindNext (sh_tid s) sid (d_filename d)) st = (inl (mk_found_next true l), st1) ->
    further B who unicode s sid d st 1 l st1
| fu_more d st l d1 st1 m more st2 : is_str (d_filename d) -> fits_request unicode (FindNext s sid (d_filename d)) ->
    B found_next who (OFindNext (sh_tid s) sid (d_filename d)) st = (inl (mk_found_next false (l ++ [d1])), st1) ->
    further B who unicode s sid d1 st1 m more st2 ->
    further B who unicode s sid d st (S m) ((l ++ [d1]) ++ more) st2.
(** the whole search *)
Inductive searched {St} (B : service St) (who : N) (unicode : bool) (s : share) (pattern : text) : St -> nat -> list dir_info -> St -> Prop :=
| se_one st sid l st1 :
    B found who (OFindFirst (sh_tid s) (backslashes pattern)) st = (inl (mk_found sid true l), st1) ->
    searched B who unicode s pattern st 1 l st1
| se_more st sid l d st1 m more st2 : u16 sid ->
    B found who (OFindFirst (sh_tid s) (backslashes pattern)) st = (inl (mk_found sid false (l ++ [d])), st1) ->
    further B who unicode s sid d st1 m more st2 ->
    searched B who unicode s pattern st (S m) ((l ++ [d]) ++ more) st2.
(** the directory is opened with handle [h], has the names [names] then, and its changes are told
    (as in SpecWatch).  A search may take long, while [new] changes happen; it finds every name
    that is there all the time, and none that is absent all the time, but names that come or go
    since the directory was opened may or may not be found *)
Definition keepable {St} (B : service St) (who : N) (unicode : bool) (s : share) (path pattern : text) (mode : N) (st : St) (h : handle)
  (names : list text) (calls : nat) (inv : list change -> list change -> St -> Prop) (broken : St -> Prop) : Prop :=
  watchable B who (sh_tid s) (backslashes path) mode st h inv broken
  /\ forall all rest st, inv all rest st -> exists new m l st',
     searched B who unicode s pattern st m l st' /\ (m <= calls)%nat /\ inv (all ++ new) (rest ++ new) st'
     /\ forall x, ~ moved x (all ++ new) -> (In x (map d_filename l) <-> In x names).
