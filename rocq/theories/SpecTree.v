(** * SpecTree: a service with directories, and programs that walk through them.  Not part of
    the model. *)
From Verif Require Import Base Text Win Errors Common Reply Ntlm Prog Client Spec SpecReply Api Flow SpecRemote RefServer FileService.
Open Scope N_scope.

(** what is in a directory: files and directories *)
Inductive tree :=
| Nothing
| AFile (name : text) (data : bytes) (rest : tree)
| ADir (name : text) (sub rest : tree).

(** ** paths: the names on the way *)
(** the file at [path] *)
Fixpoint file_of (t : tree) (path : list text) : option bytes :=
  match t with
  | Nothing => None
  | AFile n d r => match path with [x] => if text_eqb n x then Some d else file_of r path | _ => file_of r path end
  | ADir n sub r =>
      match path with x :: (_ :: _) as p => if text_eqb n x then file_of sub p else file_of r path | _ => file_of r path end
  end.
(** the directory at [path] *)
Fixpoint dir_at (t : tree) (path : list text) : option tree :=
  match path with
  | [] => Some t
  | x :: p =>
    match t with
    | Nothing => None
    | AFile _ _ r => dir_at r path
    | ADir n sub r => if text_eqb n x then dir_at sub p else dir_at r path
    end
  end.
(** without the file, or the empty directory, at [path] *)
Fixpoint unlink (t : tree) (path : list text) : tree :=
  match t with
  | Nothing => Nothing
  | AFile n d r => match path with [x] => if text_eqb n x then r else AFile n d (unlink r path) | _ => AFile n d (unlink r path) end
  | ADir n sub r =>
      match path with
      | [] => t
      | [x] => ADir n sub (unlink r path)
      | x :: p => if text_eqb n x then ADir n (unlink sub p) r else ADir n sub (unlink r path)
      end
  end.
Fixpoint remove_dir (t : tree) (path : list text) : tree :=
  match t with
  | Nothing => Nothing
  | AFile n d r => AFile n d (remove_dir r path)
  | ADir n sub r =>
      match path with
      | [] => t
      | [x] => if text_eqb n x then r else ADir n sub (remove_dir r path)
      | x :: p => if text_eqb n x then ADir n (remove_dir sub p) r else ADir n sub (remove_dir r path)
      end
  end.
(** a path as it is sent, cut at every backslash *)
Fixpoint names_of (p : text) : list text :=
  match p with
  | [] => [[]]
  | c :: r =>
    if c =? 92 then [] :: names_of r
    else match names_of r with x :: l => (c :: x) :: l | [] => [[c]] end
  end.

(** ** the service *)
Record dirs := mk_dirs { ds_root : tree; ds_open : list (N * list text) }.
Fixpoint open_path (l : list (N * list text)) (fid : N) : option (list text) :=
  match l with
  | [] => None
  | (f, p) :: r => if f =? fid then Some p else open_path r fid
  end.
Definition without_fid (l : list (N * list text)) (fid : N) : list (N * list text) := filter (fun e => negb (fst e =? fid)) l.
(** a file id that is not in use *)
Definition fresh (l : list (N * list text)) : N := fold_right (fun e m => N.max (fst e + 1) m) 1 l.
(** every directory is listed with itself and its parent *)
Definition DOT : text := [46].
Definition DOTDOT : text := [46; 46].
Definition ATTR_DIRECTORY : N := 0x10.
Definition ATTR_NORMAL : N := 0x80.
Fixpoint infos (t : tree) : list dir_info :=
  match t with
  | Nothing => []
  | AFile n d r => mk_dir 0 0 0 0 n (len d) ATTR_NORMAL :: infos r
  | ADir n _ r => mk_dir 0 0 0 0 n 0 ATTR_DIRECTORY :: infos r
  end.
Definition dir_listing (t : tree) : list dir_info :=
  mk_dir 0 0 0 0 DOT 0 ATTR_DIRECTORY :: mk_dir 0 0 0 0 DOTDOT 0 ATTR_DIRECTORY :: infos t.
(** names and sizes the protocol can express *)
Definition info_fits (d : dir_info) : bool := is_text (d_filename d) && (d_filesize d <? 2 ^ 64).
Definition ST_NOT_EMPTY : N := 0xc0000101.

Section Service.
(** the tree id and the user id that have access, and the negotiated parameters *)
Variable the_tid : N.
Variable setup : server_setup.
Definition dir_service : service dirs := fun R who o s =>
  match o in op R return (R + N) * dirs with
  | OMount _ _ => (inl (mk_share None None [65; 58] [78; 84; 70; 83] the_tid), s)
  | OUmount _ => (inl tt, s)
  | OOpenFile tid path =>
      match file_of (ds_root s) (names_of path) with
      | Some d =>
        if (tid =? the_tid) && (fresh (ds_open s) <? 65536) && (len d <? 2 ^ 64)
        then (inl (the_handle tid (fresh (ds_open s)) (len d)), mk_dirs (ds_root s) ((fresh (ds_open s), names_of path) :: ds_open s))
        else (inr ST_TOO_MANY, s)
      | None => (inr ST_NOT_FOUND, s)
      end
  | OOpenDir _ _ => (inr ST_NOT_SUPPORTED, s)
  | OClose tid fid =>
      match open_path (ds_open s) fid with
      | Some _ => (inl tt, mk_dirs (ds_root s) (without_fid (ds_open s) fid))
      | None => (inr ST_NO_HANDLE, s)
      end
  | ORead tid fid offset =>
      match open_path (ds_open s) fid with
      | Some p =>
        match file_of (ds_root s) p with
        | Some d => (inl (take 65534 (drop offset d)), s)
        | None => (inr ST_NO_HANDLE, s)
        end
      | None => (inr ST_NO_HANDLE, s)
      end
  | ODelete tid path =>
      match file_of (ds_root s) (names_of path) with
      | Some _ => if tid =? the_tid then (inl tt, mk_dirs (unlink (ds_root s) (names_of path)) (ds_open s)) else (inr ST_NOT_FOUND, s)
      | None => (inr ST_NOT_FOUND, s)
      end
  | ORmdir tid path =>
      match dir_at (ds_root s) (names_of path) with
      | Some Nothing => if tid =? the_tid then (inl tt, mk_dirs (remove_dir (ds_root s) (names_of path)) (ds_open s)) else (inr ST_NOT_FOUND, s)
      | Some _ => (inr ST_NOT_EMPTY, s)
      | None => (inr ST_NOT_FOUND, s)
      end
  | ONotify _ _ _ => (inr ST_NOT_SUPPORTED, s)
  | OFindFirst tid pattern =>
      (* the whole directory, or an error *)
      match dir_at (ds_root s) (removelast (names_of pattern)) with
      | Some t =>
        if (tid =? the_tid) && text_eqb (last (names_of pattern) []) [42] && forallb info_fits (dir_listing t)
           && (len (write_entries (dir_listing t)) <? 65400)
        then (inl (mk_found 1 true (dir_listing t)), s)
        else (inr ST_NOT_FOUND, s)
      | None => (inr ST_NOT_FOUND, s)
      end
  | OFindNext _ _ _ => (inl (mk_found_next true []), s)
  | ONegotiate => (inl setup, s)
  | OSetupAuth _ _ _ => (inl (mk_session false 1 []), s)
  | OSetupBlob _ => (inr ST_NOT_SUPPORTED, s)
  end.
End Service.

(** ** programs.  Users write '/' between names.  [n] bounds the depth. *)
Definition is_dots (name : text) : bool := text_eqb name DOT || text_eqb name DOTDOT.
Definition is_directory (d : dir_info) : bool := N.testbit (d_attributes d) 4.
(** copying: everything in the directory whose path is [pre] (empty or ending in '/') *)
Fixpoint copy_each (E : env) (fuel : nat) (s : share) (pre : text) (go : text -> prog cifs (ans tree)) (l : list dir_info)
  : prog cifs (ans tree) :=
  match l with
  | [] => ret Nothing
  | d :: r =>
    if is_dots (d_filename d) then copy_each E fuel s pre go r
    else if is_directory d then
      do! sub := go (pre ++ d_filename d ++ [47]) in
      do! rest := copy_each E fuel s pre go r in
      ret (ADir (d_filename d) sub rest)
    else
      do! data := download E fuel s (pre ++ d_filename d) in
      do! rest := copy_each E fuel s pre go r in
      ret (AFile (d_filename d) data rest)
  end.
Fixpoint copy_tree (E : env) (fuel n : nat) (s : share) (pre : text) : prog cifs (ans tree) :=
  match n with
  | O => OutOfFuel
  | S n => do! l := list_dir E fuel s (pre ++ [42]) in copy_each E fuel s pre (copy_tree E fuel n s) l
  end.
(** removing everything in the directory *)
Fixpoint clear_each (E : env) (fuel : nat) (s : share) (pre : text) (go : text -> prog cifs (ans unit)) (l : list dir_info)
  : prog cifs (ans unit) :=
  match l with
  | [] => ret tt
  | d :: r =>
    if is_dots (d_filename d) then clear_each E fuel s pre go r
    else if is_directory d then
      do! _ := go (pre ++ d_filename d ++ [47]) in
      do! _ := rmdir E fuel s (pre ++ d_filename d) in
      clear_each E fuel s pre go r
    else
      do! _ := delete E fuel s (pre ++ d_filename d) in
      clear_each E fuel s pre go r
  end.
Fixpoint clear_tree (E : env) (fuel n : nat) (s : share) (pre : text) : prog cifs (ans unit) :=
  match n with
  | O => OutOfFuel
  | S n => do! l := list_dir E fuel s (pre ++ [42]) in clear_each E fuel s pre (clear_tree E fuel n s) l
  end.
(** the same as programs of calls *)
Fixpoint copy_each_flow (fuel : nat) (s : share) (pre : text) (go : text -> flow tree) (l : list dir_info) : flow tree :=
  match l with
  | [] => FRet (Good Nothing)
  | d :: r =>
    if is_dots (d_filename d) then copy_each_flow fuel s pre go r
    else if is_directory d then
      fbind (go (pre ++ d_filename d ++ [47])) (fun sub =>
      fbind (copy_each_flow fuel s pre go r) (fun rest => FRet (Good (ADir (d_filename d) sub rest))))
    else
      fbind (download_flow fuel s (pre ++ d_filename d)) (fun data =>
      fbind (copy_each_flow fuel s pre go r) (fun rest => FRet (Good (AFile (d_filename d) data rest))))
  end.
Fixpoint copy_flow (fuel n : nat) (s : share) (pre : text) : flow tree :=
  match n with
  | O => FFuel
  | S n => fbind (list_flow fuel s (pre ++ [42])) (copy_each_flow fuel s pre (copy_flow fuel n s))
  end.
Fixpoint clear_each_flow (s : share) (pre : text) (go : text -> flow unit) (l : list dir_info) : flow unit :=
  match l with
  | [] => FRet (Good tt)
  | d :: r =>
    if is_dots (d_filename d) then clear_each_flow s pre go r
    else if is_directory d then
      fbind (go (pre ++ d_filename d ++ [47])) (fun _ =>
      fbind (fcall (Rmdir s (pre ++ d_filename d))) (fun _ => clear_each_flow s pre go r))
    else
      fbind (fcall (Delete s (pre ++ d_filename d))) (fun _ => clear_each_flow s pre go r)
  end.
Fixpoint clear_flow (fuel n : nat) (s : share) (pre : text) : flow unit :=
  match n with
  | O => FFuel
  | S n => fbind (list_flow fuel s (pre ++ [42])) (clear_each_flow s pre (clear_flow fuel n s))
  end.

(** ** trees as they can be *)
(** a name: text, neither empty nor "." nor "..", without '/' and '\' *)
Definition a_name (n : text) : Prop := is_str n /\ n <> [] /\ n <> DOT /\ n <> DOTDOT /\ ~ In 47 n /\ ~ In 92 n.
Fixpoint entry_names (t : tree) : list text :=
  match t with Nothing => [] | AFile n _ r => n :: entry_names r | ADir n _ r => n :: entry_names r end.
(** the path fits into a request *)
Definition short (path : text) : Prop := utf16_len path <= 32600.
(** the directory can be listed in one reply *)
Definition listable (t : tree) : Prop := len (write_entries (dir_listing t)) < 65400.
(** everything below the directory [pre]: names occur once in a directory, lengths are 64 bit
    numbers, paths are short enough, directories can be listed *)
Fixpoint ordinary_tree (pre : text) (t : tree) : Prop :=
  match t with
  | Nothing => True
  | AFile n d r => a_name n /\ ~ In n (entry_names r) /\ short (pre ++ n) /\ len d < 2 ^ 64 /\ ordinary_tree pre r
  | ADir n sub r =>
      a_name n /\ ~ In n (entry_names r) /\ short (pre ++ n ++ [47; 42]) /\ listable sub
      /\ ordinary_tree (pre ++ n ++ [47]) sub /\ ordinary_tree pre r
  end.
(** a path as users write it: every name followed by '/' *)
Definition path_of (ns : list text) : text := concat (map (fun n => n ++ [47]) ns).
(** calls: for every file open, close and the reads; for every directory the list *)
Fixpoint copy_calls (t : tree) : nat :=
  match t with
  | Nothing => 0
  | AFile _ d r => 2 + pieces (len d) 65534 + copy_calls r
  | ADir _ sub r => 1 + copy_calls sub + copy_calls r
  end.
(** for every file delete, for every directory list and rmdir *)
Fixpoint clear_calls (t : tree) : nat :=
  match t with
  | Nothing => 0
  | AFile _ _ r => 1 + clear_calls r
  | ADir _ sub r => 2 + clear_calls sub + clear_calls r
  end.
(** [p] is a path of something in the directory [ns] *)
Fixpoint below (ns p : list text) : bool :=
  match ns, p with
  | [], [] => false
  | [], _ => true
  | x :: ns, y :: p => text_eqb x y && below ns p
  | _, [] => false
  end.
