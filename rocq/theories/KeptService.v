(** * KeptService: a service with one directory that is listed and watched while others are at
    work in it.  Not part of the model. *)
From Verif Require Import Base Text Win Errors Common Reply Ntlm Prog Client Spec SpecReply Api Flow SpecRemote RefServer FileService SpecWatch JournalService SpecKept.
Open Scope N_scope.

(** before each answer to a search or a question for changes, the next of [k_future] happen *)
Record shared := mk_shared {
  k_names : list text;
  k_future : list (list change);
  k_pending : list change;     (* since the directory was opened, and not told *)
  k_open : bool
}.
Definition happen (s : shared) : shared :=
  mk_shared (after (hd [] (k_future s)) (k_names s)) (List.tl (k_future s)) (k_pending s ++ hd [] (k_future s)) (k_open s).
Definition name_entry (x : text) : dir_info := mk_dir 0 0 0 0 x 0 0x80.
(** names that can be listed in one batch, and be sent back to go on with the search *)
Definition listable (names : list text) : bool :=
  forallb (fun x => is_text x && (utf16_len x <=? 1000)) names && (len (write_entries (map name_entry names)) <? 65400).
Section Service.
Variable setup : server_setup.
(** the search is over only when the client has asked once more *)
Definition kept_service : service shared := fun R who o s =>
  match o in op R return (R + N) * shared with
  | OMount path password => (inl (mk_share None None [65; 58] [78; 84; 70; 83] 5), s)
  | OUmount _ => (inl tt, s)
  | OOpenFile tid path => (inr ST_NOT_FOUND, s)
  | OOpenDir tid path =>
      if k_open s then (inr ST_TOO_MANY, s) else (inl dir_handle, mk_shared (k_names s) (k_future s) [] true)
  | OClose tid fid => if k_open s then (inl tt, mk_shared (k_names s) (k_future s) [] false) else (inr ST_NO_HANDLE, s)
  | ORead tid fid offset => (inr ST_NO_HANDLE, s)
  | ODelete tid path => (inr ST_NOT_FOUND, s)
  | ORmdir _ _ => (inr ST_NOT_SUPPORTED, s)
  | ONotify _ _ _ =>
      if k_open s then
        let s1 := happen s in
        (if tellable (k_pending s1) then inl (k_pending s1) else inr ST_ENUM_DIR, mk_shared (k_names s1) (k_future s1) [] true)
      else (inr ST_NO_HANDLE, s)
  | OFindFirst tid pattern =>
      let s1 := happen s in
      (if listable (k_names s1) then inl (mk_found 1 (len (k_names s1) =? 0) (map name_entry (k_names s1))) else inr ST_TOO_LARGE, s1)
  | OFindNext _ _ _ => (inl (mk_found_next true []), happen s)
  | ONegotiate => (inl setup, s)
  | OSetupAuth u d secret => (inr ST_LOGIN, s)
  | OSetupBlob _ => (inr ST_NOT_SUPPORTED, s)
  end.
End Service.
