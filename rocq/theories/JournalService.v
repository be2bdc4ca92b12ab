(** * JournalService: a service with one directory, in which others are at work.  Not part of
    the model. *)
From Verif Require Import Base Text Win Errors Common Reply Ntlm Prog Client Spec SpecReply Api Flow SpecRemote RefServer FileService SpecWatch.
Open Scope N_scope.

(** before it answers the question for changes, the next of [j_future] happen.  More than 1000
    bytes of them are not told, but reported as lost *)
Record journal := mk_journal {
  j_future : list (list change);
  j_all : list change;      (* since the directory was opened *)
  j_open : bool
}.

(** the size of what has happened, as the protocol writes it, see MS-FSCC 2.4.42 *)
Definition size_of_changes (l : list change) : N := len (write_changes l).
(** names and sizes that can be told: what the request of the client leaves room for *)
Definition tellable (l : list change) : bool := forallb (fun c => is_text (fst c)) l && (size_of_changes l <=? 1000).
Definition ST_ENUM_DIR : N := 0x0000010c.
Definition dir_handle : handle := mk_handle 5 9 0 1 0 0 0 0 0x10 0 0 0 true.
Section Service.
Variable setup : server_setup.
Definition journal_service : service journal := fun R who o s =>
  match o in op R return (R + N) * journal with
  | OMount path password => (inl (mk_share None None [65; 58] [78; 84; 70; 83] 5), s)
  | OUmount _ => (inl tt, s)
  | OOpenFile tid path => (inr ST_NOT_FOUND, s)
  | OOpenDir tid path => if j_open s then (inr ST_TOO_MANY, s) else (inl dir_handle, mk_journal (j_future s) [] true)
  | OClose tid fid => if j_open s then (inl tt, mk_journal (j_future s) (j_all s) false) else (inr ST_NO_HANDLE, s)
  | ORead tid fid offset => (inr ST_NO_HANDLE, s)
  | ODelete tid path => (inr ST_NOT_FOUND, s)
  | ORmdir _ _ => (inr ST_NOT_SUPPORTED, s)
  | ONotify _ _ _ =>
      if j_open s then
        let new := hd [] (j_future s) in
        (if tellable new then inl new else inr ST_ENUM_DIR, mk_journal (List.tl (j_future s)) (j_all s ++ new) true)
      else (inr ST_NO_HANDLE, s)
  | OFindFirst tid pattern => (inr ST_NOT_FOUND, s)
  | OFindNext _ _ _ => (inl (mk_found_next true []), s)
  | ONegotiate => (inl setup, s)
  | OSetupAuth u d secret => (inr ST_LOGIN, s)
  | OSetupBlob _ => (inr ST_NOT_SUPPORTED, s)
  end.
End Service.
