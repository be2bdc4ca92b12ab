(** * Property C115: from a URI to anything. *)
From Coq Require Import String.
From Verif Require Import Base Text Win Errors Common Reply Ntlm Prog Client Uri Spec SpecReply SpecNtlm SpecMsg Api SpecCall
  MsgFacts Flow SpecLogin SpecRemote RefServer FileService SpecAccount Gate Sample SpecUri SpecFetch SpecErrand Crypto Tests FetchFacts ErrandFacts P_Remote P_Session P_Uri P_Fetch.
Open Scope N_scope.
Open Scope list_scope.

(** C115: [u] is any URI (except those of C47_misread), of moderate length; at the port there is
    a server with any service behind a login, which knows the account.  Then resolving the URI and
    opening the connection with its credentials succeeds, touches nothing behind the login, and
    every program of calls then does what it would do with the service itself. *)
Theorem C115_program : forall Sv St (react : Sv -> bytes -> reaction Sv) E known setup nonce info (B : service St) abs,
  conforming react (gate St E known setup nonce info B) abs ->
  len (s_challenge setup) = 8 -> (forall n, len (nonce n) = 8) -> len info <= 30000 ->
  forall net word digit u ws dom t s0 p,
  valid word digit_char u -> given (u_port u) (fun p => value 0 p < 65536) -> ~ ambiguous word digit u ->
  is_str (written u) -> is_str ws -> is_str dom -> ~ In 0 dom -> len (written u) + len ws + len dom <= 8000 -> clock E t ->
  p = match u_port u with Some q => value 0 q | None => 445 end -> net p = Connected (mk_stream s0 [] Open) ->
  registered E known (mk_auth (or_else (u_user u) []) ws (or_else (u_domain u) dom) (or_else (u_password u) [])) ->
  g_next (abs s0) < 65536 ->
  exists cfg w1 k1, resolve_smb_uri word digit (written u) = Ok cfg /\ config_of u cfg
  /\ (forall fuel, (k1 <= fuel)%nat -> open E Sv net react fuel (cf_port cfg) (Some (login_of cfg ws dom)) = ([p], OnStream (Done (Good tt) w1)))
  /\ mid (cl w1) <= 3 /\ g_behind (abs (srv w1)) = g_behind (abs s0)
  /\ forall A (f : flow A) n a c' st', local B f (cl w1) (g_behind (abs s0)) n a c' st' -> works f -> room E (cl w1) n ->
     exists k2 w2, (forall fuel, (k2 <= fuel)%nat -> run react (interp E fuel f) w1 = Done a w2) /\ idle w2 /\ g_behind (abs (srv w2)) = st'.
Proof. exact uri_program. Qed.
Print Assumptions C115_program.

(** Listing what the URI names: exactly the matching files (as in C63_list), nothing changes. *)
Theorem C115_list : forall tree fsetup accepts Sv (react : Sv -> bytes -> reaction Sv) E known setup nonce info abs,
  conforming react (gate files E known setup nonce info (file_service tree fsetup accepts)) abs ->
  len (s_challenge setup) = 8 -> (forall n, len (nonce n) = 8) -> len info <= 30000 ->
  forall net word digit u path ws dom t s0 p,
  valid word digit_char u -> given (u_port u) (fun p => value 0 p < 65536) -> ~ ambiguous word digit u -> u_path u = Some path ->
  is_str (written u) -> is_str ws -> is_str dom -> ~ In 0 dom -> len (written u) + len ws + len dom <= 8000 -> clock E t ->
  p = match u_port u with Some q => value 0 q | None => 445 end -> net p = Connected (mk_stream s0 [] Open) ->
  registered E known (mk_auth (or_else (u_user u) []) ws (or_else (u_domain u) dom) (or_else (u_password u) [])) ->
  g_next (abs s0) < 65536 ->
  forall tid, tree (unc (u_host u) (u_share u)) [] = Some tid -> u16 tid ->
  len (write_entries (listing (g_behind (abs s0)) tid (backslashes path))) < 65400 ->
  exists cfg w1 w2 k, resolve_smb_uri word digit (written u) = Ok cfg /\ cf_path cfg = Some path
  /\ (forall fuel, (k <= fuel)%nat ->
     open E Sv net react fuel (cf_port cfg) (Some (login_of cfg ws dom)) = ([p], OnStream (Done (Good tt) w1))
     /\ run react (look E fuel (unc (cf_hostname cfg) (cf_share cfg)) path) w1 = Done (Good (listing (g_behind (abs s0)) tid (backslashes path))) w2)
  /\ g_behind (abs (srv w2)) = g_behind (abs s0).
Proof. exact uri_look. Qed.
Print Assumptions C115_list.

(** Deleting what the URI names: this file is gone, and no other. *)
Theorem C115_delete : forall tree fsetup accepts Sv (react : Sv -> bytes -> reaction Sv) E known setup nonce info abs,
  conforming react (gate files E known setup nonce info (file_service tree fsetup accepts)) abs ->
  len (s_challenge setup) = 8 -> (forall n, len (nonce n) = 8) -> len info <= 30000 ->
  forall net word digit u path ws dom t s0 p,
  valid word digit_char u -> given (u_port u) (fun p => value 0 p < 65536) -> ~ ambiguous word digit u -> u_path u = Some path ->
  is_str (written u) -> is_str ws -> is_str dom -> ~ In 0 dom -> len (written u) + len ws + len dom <= 8000 -> clock E t ->
  p = match u_port u with Some q => value 0 q | None => 445 end -> net p = Connected (mk_stream s0 [] Open) ->
  registered E known (mk_auth (or_else (u_user u) []) ws (or_else (u_domain u) dom) (or_else (u_password u) [])) ->
  g_next (abs s0) < 65536 ->
  forall tid d, tree (unc (u_host u) (u_share u)) [] = Some tid -> u16 tid -> contents (fs_files (g_behind (abs s0))) tid (backslashes path) = Some d ->
  exists cfg w1 w2 k, resolve_smb_uri word digit (written u) = Ok cfg /\ cf_path cfg = Some path
  /\ (forall fuel, (k <= fuel)%nat ->
     open E Sv net react fuel (cf_port cfg) (Some (login_of cfg ws dom)) = ([p], OnStream (Done (Good tt) w1))
     /\ run react (remove E fuel (unc (cf_hostname cfg) (cf_share cfg)) path) w1 = Done (Good tt) w2)
  /\ forall tid' q, contents (fs_files (g_behind (abs (srv w2)))) tid' q
     = if (tid =? tid') && text_eqb (backslashes path) q then None else contents (fs_files (g_behind (abs s0))) tid' q.
Proof. exact uri_remove. Qed.
Print Assumptions C115_delete.

(** A share that the server does not have: its answer is reported, nothing changes. *)
Theorem C115_unshared : forall tree fsetup accepts Sv (react : Sv -> bytes -> reaction Sv) E known setup nonce info abs,
  conforming react (gate files E known setup nonce info (file_service tree fsetup accepts)) abs ->
  len (s_challenge setup) = 8 -> (forall n, len (nonce n) = 8) -> len info <= 30000 ->
  forall net word digit u path ws dom t s0 p,
  valid word digit_char u -> given (u_port u) (fun p => value 0 p < 65536) -> ~ ambiguous word digit u -> u_path u = Some path ->
  is_str (written u) -> is_str ws -> is_str dom -> ~ In 0 dom -> len (written u) + len ws + len dom <= 8000 -> clock E t ->
  p = match u_port u with Some q => value 0 q | None => 445 end -> net p = Connected (mk_stream s0 [] Open) ->
  registered E known (mk_auth (or_else (u_user u) []) ws (or_else (u_domain u) dom) (or_else (u_password u) [])) ->
  g_next (abs s0) < 65536 -> tree (unc (u_host u) (u_share u)) [] = None ->
  exists cfg w1 w2 k, resolve_smb_uri word digit (written u) = Ok cfg /\ cf_path cfg = Some path
  /\ (forall fuel, (k <= fuel)%nat ->
     open E Sv net react fuel (cf_port cfg) (Some (login_of cfg ws dom)) = ([p], OnStream (Done (Good tt) w1))
     /\ run react (fetch E fuel (unc (cf_hostname cfg) (cf_share cfg)) path) w1 = Done (Bad (ServerError (Known NAME_NOT_FOUND))) w2)
  /\ g_behind (abs (srv w2)) = g_behind (abs s0).
Proof. exact uri_unshared. Qed.
Print Assumptions C115_unshared.

(** the hypotheses hold: the server and the URI of C72; a listing of everything; a deletion; a
    share that is not there *)
Definition uri_at (share path : text) : parts := mk_parts (Some (txt "DOMAIN")) (Some (txt "user")) (Some (txt "SecREt01")) (txt "h") None share (Some path).
Ltac uri_side :=
  match goal with
  | |- valid _ _ _ => unfold valid, given, nonempty; cbn; split; [split; [discriminate|chars]|]; split; [split; [discriminate|chars]|]; split; [discriminate|];
      split; [absent|]; split; [exists 104, []; split; [reflexivity|]; split; [unfold word_char; lia|constructor]|];
      split; [exact I|]; split; [discriminate|]; split; [chars|absent]
  | |- given _ _ => exact I
  | |- ~ ambiguous _ _ _ => intros (H & _); discriminate H
  | |- ~ In _ _ => absent
  | |- clock _ _ => repeat split; discriminate
  | |- _ <= _ => vm_compute; discriminate
  | |- _ => reflexivity
  end.
Example C115_list_ex : forall extended word digit, exists cfg w1 w2 k,
  resolve_smb_uri word digit (txt "smb://DOMAIN;user:SecREt01@h/s/*") = Ok cfg /\ cf_path cfg = Some (txt "*")
  /\ (forall fuel, (k <= fuel)%nat ->
     open env1 _ net2 (ref_server (G1 extended)) fuel (cf_port cfg) (Some (login_of cfg (txt "WORKSTATION") (txt "X"))) = ([445], OnStream (Done (Good tt) w1))
     /\ run (ref_server (G1 extended)) (look env1 fuel (unc (cf_hostname cfg) (cf_share cfg)) (txt "*")) w1
        = Done (Good [mk_dir 0 0 0 0 (txt "a") 5 0x80; mk_dir 0 0 0 0 (txt "d\b") 70 0x80]) w2)
  /\ g_behind (srv w2) = files0.
Proof.
  intros extended word digit. change (txt "smb://DOMAIN;user:SecREt01@h/s/*") with (written (uri_at (txt "s") (txt "*"))).
  refine (C115_list _ _ _ _ _ env1 known1 (setup1 extended) _ _ _ (C64_conforming extended) _ _ _ net2 word digit (uri_at (txt "s") (txt "*")) (txt "*")
    (txt "WORKSTATION") (txt "X") (10 * Z.to_N (now env1 / 1000)) (mk_gated [] [] 100 files0) 445
    _ _ _ eq_refl _ _ _ _ _ _ eq_refl eq_refl (proj1 C64_registered_ex) _ 5 _ _ _); uri_side.
Qed.
Example C115_delete_ex : forall extended word digit, exists cfg w1 w2 k,
  resolve_smb_uri word digit (txt "smb://DOMAIN;user:SecREt01@h/s/d/b") = Ok cfg /\ cf_path cfg = Some (txt "d/b")
  /\ (forall fuel, (k <= fuel)%nat ->
     open env1 _ net2 (ref_server (G1 extended)) fuel (cf_port cfg) (Some (login_of cfg (txt "WORKSTATION") (txt "X"))) = ([445], OnStream (Done (Good tt) w1))
     /\ run (ref_server (G1 extended)) (remove env1 fuel (unc (cf_hostname cfg) (cf_share cfg)) (txt "d/b")) w1 = Done (Good tt) w2)
  /\ forall tid q, contents (fs_files (g_behind (srv w2))) tid q = if (5 =? tid) && text_eqb (txt "d\b") q then None else contents (fs_files files0) tid q.
Proof.
  intros extended word digit. change (txt "smb://DOMAIN;user:SecREt01@h/s/d/b") with (written (uri_at (txt "s") (txt "d/b"))).
  refine (C115_delete _ _ _ _ _ env1 known1 (setup1 extended) _ _ _ (C64_conforming extended) _ _ _ net2 word digit (uri_at (txt "s") (txt "d/b")) (txt "d/b")
    (txt "WORKSTATION") (txt "X") (10 * Z.to_N (now env1 / 1000)) (mk_gated [] [] 100 files0) 445
    _ _ _ eq_refl _ _ _ _ _ _ eq_refl eq_refl (proj1 C64_registered_ex) _ 5 _ _ _ eq_refl); uri_side.
Qed.
Example C115_unshared_ex : forall extended word digit, exists cfg w1 w2 k,
  resolve_smb_uri word digit (txt "smb://DOMAIN;user:SecREt01@h/t/d/b") = Ok cfg /\ cf_path cfg = Some (txt "d/b")
  /\ (forall fuel, (k <= fuel)%nat ->
     open env1 _ net2 (ref_server (G1 extended)) fuel (cf_port cfg) (Some (login_of cfg (txt "WORKSTATION") (txt "X"))) = ([445], OnStream (Done (Good tt) w1))
     /\ run (ref_server (G1 extended)) (fetch env1 fuel (unc (cf_hostname cfg) (cf_share cfg)) (txt "d/b")) w1 = Done (Bad (ServerError (Known NAME_NOT_FOUND))) w2)
  /\ g_behind (srv w2) = files0.
Proof.
  intros extended word digit. change (txt "smb://DOMAIN;user:SecREt01@h/t/d/b") with (written (uri_at (txt "t") (txt "d/b"))).
  refine (C115_unshared _ _ _ _ _ env1 known1 (setup1 extended) _ _ _ (C64_conforming extended) _ _ _ net2 word digit (uri_at (txt "t") (txt "d/b")) (txt "d/b")
    (txt "WORKSTATION") (txt "X") (10 * Z.to_N (now env1 / 1000)) (mk_gated [] [] 100 files0) 445
    _ _ _ eq_refl _ _ _ _ _ _ eq_refl eq_refl (proj1 C64_registered_ex) _ _); uri_side.
Qed.
