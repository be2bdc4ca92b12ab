(** * FileService: a service with files, for the end-to-end properties.  Not part of the
    model. *)
From Verif Require Import Base Text Win Errors Common Reply Ntlm Prog Client Spec SpecReply Api Flow SpecRemote RefServer.
Open Scope N_scope.

Definition text_eqb (a b : text) : bool := if list_eq_dec N.eq_dec a b then true else false.

(** files of a tree by path; open files by file id; the next file id *)
Record files := mk_files {
  fs_files : list (N * text * bytes);
  fs_open : list (N * (N * text));
  fs_next : N
}.
(** the first entry counts *)
Fixpoint contents (l : list (N * text * bytes)) (tid : N) (path : text) : option bytes :=
  match l with
  | [] => None
  | (t, p, d) :: r => if (t =? tid) && text_eqb p path then Some d else contents r tid path
  end.
Definition without (l : list (N * text * bytes)) (tid : N) (path : text) : list (N * text * bytes) :=
  filter (fun e => negb ((fst (fst e) =? tid) && text_eqb (snd (fst e)) path)) l.
Fixpoint opened (l : list (N * (N * text))) (fid : N) : option (N * text) :=
  match l with
  | [] => None
  | (f, e) :: r => if f =? fid then Some e else opened r fid
  end.
Definition closed (l : list (N * (N * text))) (fid : N) : list (N * (N * text)) :=
  filter (fun e => negb (fst e =? fid)) l.
(** names and sizes the protocol can express *)
Definition expressible (name : text) (d : bytes) : bool := is_text name && (len d <? 2 ^ 64).
Definition entry_of (e : N * text * bytes) : dir_info := mk_dir 0 0 0 0 (snd (fst e)) (len (snd e)) 0x80.
Definition listing (s : files) (tid : N) (pattern : text) : list dir_info :=
  map entry_of (filter (fun e => (fst (fst e) =? tid) && (text_eqb pattern [42] || text_eqb (snd (fst e)) pattern)
                               && expressible (snd (fst e)) (snd e)) (fs_files s)).

Definition ST_NOT_FOUND : N := 0xc0000034.
Definition ST_TOO_MANY : N := 0xc000011f.
Definition ST_NO_HANDLE : N := 0xc0000008.
Definition ST_NOT_SUPPORTED : N := 0xc00000bb.
Definition ST_LOGIN : N := 0xc000006d.
Definition ST_TOO_LARGE : N := 0xc0000023.

Section Service.
(** the trees by share name, the negotiated parameters, which logins are accepted *)
Variable tree : text -> text -> option N.
Variable setup : server_setup.
Variable accepts : text -> text -> bytes -> option N.

Definition the_handle (tid fid size : N) : handle := mk_handle tid fid 0 1 0 0 0 0 0x80 size size 0 false.
Definition file_service : service files := fun R who o s =>
  match o in op R return (R + N) * files with
  | OMount path password =>
      (match tree path password with
       | Some tid => inl (mk_share None None [65; 58] [78; 84; 70; 83] tid) | None => inr ST_NOT_FOUND end, s)
  | OUmount _ => (inl tt, s)
  | OOpenFile tid path =>
      match contents (fs_files s) tid path with
      | None => (inr ST_NOT_FOUND, s)
      | Some d =>
        if (fs_next s <? 65536) && (tid <? 65536) && (len d <? 2 ^ 64) then
          (inl (the_handle tid (fs_next s) (len d)),
           mk_files (fs_files s) ((fs_next s, (tid, path)) :: fs_open s) (fs_next s + 1))
        else (inr ST_TOO_MANY, s)
      end
  | OOpenDir _ _ => (inr ST_NOT_SUPPORTED, s)
  | OClose tid fid =>
      match opened (fs_open s) fid with
      | Some _ => (inl tt, mk_files (fs_files s) (closed (fs_open s) fid) (fs_next s))
      | None => (inr ST_NO_HANDLE, s)
      end
  | ORead tid fid offset =>
      match opened (fs_open s) fid with
      | Some (t, path) =>
        match contents (fs_files s) t path with
        | Some d => (inl (take 65534 (drop offset d)), s)
        | None => (inr ST_NO_HANDLE, s)
        end
      | None => (inr ST_NO_HANDLE, s)
      end
  | ODelete tid path =>
      match contents (fs_files s) tid path with
      | Some _ => (inl tt, mk_files (without (fs_files s) tid path) (fs_open s) (fs_next s))
      | None => (inr ST_NOT_FOUND, s)
      end
  | ORmdir _ _ => (inr ST_NOT_SUPPORTED, s)
  | ONotify _ _ _ => (inr ST_NOT_SUPPORTED, s)
  | OFindFirst tid pattern =>
      let l := listing s tid pattern in
      (if (len (write_entries l) <? 65400) then inl (mk_found 1 true l) else inr ST_TOO_LARGE, s)
  | OFindNext _ _ _ => (inl (mk_found_next true []), s)
  | ONegotiate => (inl setup, s)
  | OSetupAuth u d secret =>
      (match accepts u d secret with Some uid => inl (mk_session false uid []) | None => inr ST_LOGIN end, s)
  | OSetupBlob _ => (inr ST_NOT_SUPPORTED, s)
  end.
End Service.

(** the open files have different ids, below the next one *)
Definition sound_files (s : files) : Prop := Forall (fun e => fst e < fs_next s) (fs_open s).
