(** * Property C72: from a URI to the file. *)
From Coq Require Import String.
From Verif Require Import Base Text Win Errors Common Reply Ntlm Prog Client Uri Spec SpecReply SpecNtlm SpecMsg Api SpecCall
  MsgFacts Flow SpecLogin SpecRemote RefServer FileService SpecAccount Gate Sample SpecUri SpecFetch Crypto Tests FetchFacts P_Remote P_Session P_Uri.
Open Scope N_scope.
Open Scope list_scope.

(** C72: [u] is any URI with a path (except those of C47_misread), of moderate length; at the port
    there is a server with files behind a login, which knows the account and has the file.  Then
    resolving the URI, opening the connection with its credentials, and mounting, downloading and
    unmounting (SpecFetch.v) gives the contents of the file; no other port is tried; and the
    files and the open files of the server are what they were. *)
Theorem C72_fetch : forall tree fsetup accepts Sv (react : Sv -> bytes -> reaction Sv) E known setup nonce info abs,
  conforming react (gate files E known setup nonce info (file_service tree fsetup accepts)) abs ->
  len (s_challenge setup) = 8 -> (forall n, len (nonce n) = 8) -> len info <= 30000 ->
  forall net word digit u path ws dom t s0 p tid d,
  valid word digit_char u -> given (u_port u) (fun p => value 0 p < 65536) -> ~ ambiguous word digit u -> u_path u = Some path ->
  is_str (written u) -> is_str ws -> is_str dom -> ~ In 0 dom -> len (written u) + len ws + len dom <= 8000 -> clock E t ->
  p = match u_port u with Some q => value 0 q | None => 445 end -> net p = Connected (mk_stream s0 [] Open) ->
  registered E known (mk_auth (or_else (u_user u) []) ws (or_else (u_domain u) dom) (or_else (u_password u) [])) ->
  g_next (abs s0) < 65536 -> sound_files (g_behind (abs s0)) -> fs_next (g_behind (abs s0)) < 65536 ->
  tree (unc (u_host u) (u_share u)) [] = Some tid -> u16 tid ->
  contents (fs_files (g_behind (abs s0))) tid (backslashes path) = Some d -> len d < 2 ^ 64 -> (overflow_checks E = true -> len d <= 65500 * 65534) ->
  exists cfg w1 w2 k, resolve_smb_uri word digit (written u) = Ok cfg /\ cf_path cfg = Some path
  /\ forall fuel, (k <= fuel)%nat ->
     open E Sv net react fuel (cf_port cfg) (Some (login_of cfg ws dom)) = ([p], OnStream (Done (Good tt) w1))
     /\ run react (fetch E fuel (unc (cf_hostname cfg) (cf_share cfg)) path) w1 = Done (Good d) w2
     /\ g_behind (abs (srv w2)) = mk_files (fs_files (g_behind (abs s0))) (fs_open (g_behind (abs s0))) (fs_next (g_behind (abs s0)) + 1).
Proof. exact fetch_file. Qed.
Print Assumptions C72_fetch.

(** the hypotheses hold: the server of C64, a file on it, both versions of NTLM *)
Definition uri2 : parts := mk_parts (Some (txt "DOMAIN")) (Some (txt "user")) (Some (txt "SecREt01")) (txt "h") None (txt "s") (Some (txt "d/b")).
Definition net2 (q : N) : connection (gated files) :=
  if q =? 445 then Connected (mk_stream (mk_gated [] [] 100 files0) [] Open) else ConnectError 111.
Ltac absent := intros H; repeat (destruct H as [H|H]; [discriminate H|]); exact H.
Example C72_example : forall extended word digit, exists cfg w1 w2 k,
  resolve_smb_uri word digit (txt "smb://DOMAIN;user:SecREt01@h/s/d/b") = Ok cfg /\ cf_path cfg = Some (txt "d/b")
  /\ forall fuel, (k <= fuel)%nat ->
     open env1 _ net2 (ref_server (G1 extended)) fuel (cf_port cfg) (Some (login_of cfg (txt "WORKSTATION") (txt "X"))) = ([445], OnStream (Done (Good tt) w1))
     /\ run (ref_server (G1 extended)) (fetch env1 fuel (unc (cf_hostname cfg) (cf_share cfg)) (txt "d/b")) w1 = Done (Good (repeat x2a 70)) w2
     /\ g_behind (srv w2) = mk_files (fs_files files0) [] 2.
Proof.
  intros extended word digit. change (txt "smb://DOMAIN;user:SecREt01@h/s/d/b") with (written uri2).
  refine (C72_fetch _ _ _ _ _ env1 known1 (setup1 extended) _ _ _ (C64_conforming extended) _ _ _ net2 word digit uri2 (txt "d/b")
    (txt "WORKSTATION") (txt "X") (10 * Z.to_N (now env1 / 1000)) (mk_gated [] [] 100 files0) 445 5 _
    _ _ _ eq_refl _ _ _ _ _ _ eq_refl eq_refl (proj1 C64_registered_ex) _ _ _ _ _ eq_refl _ _).
  - reflexivity.
  - reflexivity.
  - vm_compute. discriminate.
  - unfold valid, given, nonempty. cbn. split; [split; [discriminate|chars]|]. split; [split; [discriminate|chars]|]. split; [discriminate|].
    split; [absent|]. split; [exists 104, []; split; [reflexivity|]; split; [unfold word_char; lia|constructor]|].
    split; [exact I|]. split; [discriminate|]. split; [chars|absent].
  - exact I.
  - intros (H & _). discriminate H.
  - reflexivity.
  - reflexivity.
  - reflexivity.
  - absent.
  - vm_compute. discriminate.
  - repeat split. discriminate.
  - reflexivity.
  - constructor.
  - reflexivity.
  - reflexivity.
  - reflexivity.
  - reflexivity.
  - intros _. vm_compute. discriminate.
Qed.
