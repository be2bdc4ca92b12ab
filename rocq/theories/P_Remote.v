(** * Properties C62, C63: client programs on a conforming server do what they would do
    directly on the service behind it. *)
From Verif Require Import Base Text Win Errors Common Reply Ntlm Prog Client Spec SpecReply SpecMsg Api SpecCall
  MsgFacts SizeFacts Flow FlowFacts SpecRemote RemoteFacts RefServer RefFacts FileService FileFacts Sample.
Open Scope N_scope.

(** C62: one call: the answer of the service is the answer of the call, the service makes
    one step, one request is written, nothing is left unread. *)
Theorem C62_call : forall Sv St (react : Sv -> bytes -> reaction Sv) (B : service St) abs E R (c : call R) w,
  conforming react B abs -> typed_client (cl w) -> idle w ->
  typed c -> unambiguous c -> fits_request (use_unicode (cl w)) c -> ~ mid_full E (cl w) ->
  exists n w' f, (forall fuel, (n <= fuel)%nat ->
      run react (exec E fuel c) w = Done (returned (fst (B R (uid (cl w)) (op_of c) (abs (srv w))))) w')
    /\ idle w' /\ cl w' = next_client (cl w) /\ abs (srv w') = snd (B R (uid (cl w)) (op_of c) (abs (srv w)))
    /\ tx w' = tx w ++ [f].
Proof. intros Sv St react B abs E R c w H. exact (@remote_call _ _ react B abs H E R c w). Qed.
Print Assumptions C62_call.

(** any program of calls, also adaptive ones: whatever it does directly on the service it does
    on the server, with as many requests as calls. *)
Theorem C62_program : forall Sv St (react : Sv -> bytes -> reaction Sv) (B : service St) abs E A (f : flow A) c st n a c' st',
  conforming react B abs -> local B f c st n a c' st' ->
  forall w, cl w = c -> abs (srv w) = st -> typed_client c -> idle w -> room E c n ->
  exists k w' fs, (forall fuel, (k <= fuel)%nat -> run react (interp E fuel f) w = Done a w')
    /\ idle w' /\ cl w' = c' /\ abs (srv w') = st' /\ tx w' = tx w ++ fs /\ length fs = n.
Proof. intros Sv St react B abs E A f c st n a c' st' H H0. exact (@remote_local _ _ react B abs H E A f c st n a c' st' H0). Qed.
Print Assumptions C62_program.

(** open, list and download are such programs. *)
Theorem C62_functions : forall Sv (react : Sv -> bytes -> reaction Sv) E fuel w s p,
  run react (setup_connection E fuel) w = run react (interp E fuel (setup_flow E)) w
  /\ run react (list_dir E fuel s p) w = run react (interp E fuel (list_flow fuel s p)) w
  /\ run react (download E fuel s p) w = run react (interp E fuel (download_flow fuel s p)) w.
Proof.
  intros. split; [apply setup_same|]. split; [apply list_same|apply download_same].
Qed.
Print Assumptions C62_functions.

(** there is a conforming server for every service whose answers can be written down. *)
Theorem C62_server : forall St (B : service St), proper B -> conforming (ref_server B) B (fun s => s).
Proof. exact ref_conforming. Qed.
Print Assumptions C62_server.

(** a concrete service: one share with two files, logins with the right secret *)
Definition tree0 (path password : text) : option N := if text_eqb path [92; 92; 104; 92; 115] then Some 5 else None.
Definition setup0 : server_setup := mk_server 0 3 50 1 16644 65536 0 4 0 0 (repeat x31 8).
Definition accepts0 (u d : text) (secret : bytes) : option N := if list_eq_dec Byte.byte_eq_dec secret (repeat x33 24) then Some 7 else None.
Definition FS0 : service files := file_service tree0 setup0 accepts0.
Definition files0 : files := mk_files [(5, [97], [x68; x65; x6c; x6c; x6f]); (5, [100; 92; 98], repeat x2a 70)] [] 1.
Definition remote0 : world cifs files := mk_world client0 files0 [] Open [].
Example FS0_conforming : conforming (ref_server FS0) FS0 (fun s => s).
Proof.
  apply C62_server, files_proper.
  - intros p w tid. unfold tree0. destruct (text_eqb p _); [|discriminate]. intros [= <-]. reflexivity.
  - intros u d x id. unfold accepts0. destruct (list_eq_dec _ _ _); [|discriminate]. intros [= <-]. reflexivity.
  - repeat split.
Qed.
(** mount, look for a file that is not there, read another one *)
Definition tour : flow (share * bytes) :=
  fbind (fcall (Mount [47; 47; 104; 47; 115])) (fun s =>
  FCall (OpenFile s [122]) (fun r =>
  match r with
  | Good _ => FRet (Bad (ServerError (Unknown 1)))
  | Bad _ => fbind (fcall (OpenFile s [100; 47; 98])) (fun h => fbind (fcall (ReadAt h 60)) (fun d => FRet (Good (s, d))))
  end)).
Example C62_program_ex : exists a c' st', local FS0 tour client0 files0 4 a c' st'
  /\ a = Good (mk_share None None [65; 58] [78; 84; 70; 83] 5, repeat x2a 10).
Proof.
  eexists _, _, _. split; [|reflexivity]. unfold tour, fcall. cbn [fbind].
  eapply l_call; [reflexivity|exact I|reflexivity|reflexivity|]. cbn [returned fbind].
  eapply l_call; [split; reflexivity|exact I|reflexivity|reflexivity|]. cbn [returned fbind].
  eapply l_call; [split; reflexivity|exact I|reflexivity|reflexivity|]. cbn [returned fbind].
  eapply l_call; [repeat split; reflexivity|exact I|exact I|reflexivity|]. cbn [returned fbind].
  constructor.
Qed.
Example C62_program_run : exists w', run (ref_server FS0) (interp (env0 true) 1000 tour) remote0
  = Done (Good (mk_share None None [65; 58] [78; 84; 70; 83] 5, repeat x2a 10)) w' /\ length (tx w') = 4%nat.
Proof. eexists. split; [runs|]. runs. Qed.

(** C63: downloading from a service that has the file returns the file, however the service cuts
    it into reads; the service sees open, reads, close. *)
Theorem C63_served : forall Sv St (react : Sv -> bytes -> reaction Sv) (B : service St) abs E w s path d q h over,
  conforming react B abs -> typed_client (cl w) -> idle w ->
  file_at B (uid (cl w)) (sh_tid s) (backslashes path) d q (abs (srv w)) h over ->
  u16 (sh_tid s) -> is_str path -> fits_request (use_unicode (cl w)) (OpenFile s path) -> len d < 2 ^ 64 ->
  room E (cl w) (2 + pieces (len d) q) ->
  exists k w' fs, (forall fuel, (k <= fuel)%nat -> run react (download E fuel s path) w = Done (Good d) w')
    /\ idle w' /\ over (abs (srv w')) /\ tx w' = tx w ++ fs /\ (length fs <= 2 + pieces (len d) q)%nat
    /\ uid (cl w') = uid (cl w) /\ use_unicode (cl w') = use_unicode (cl w).
Proof. intros Sv St react B abs E w s path d q h over H. exact (@remote_download _ _ react B abs H E w s path d q h over). Qed.
Print Assumptions C63_served.

(** the same for the file service: the contents are returned, no file changes, none is left open. *)
Theorem C63_download : forall Sv (react : Sv -> bytes -> reaction Sv) tree setup accepts abs E w s path d,
  conforming react (file_service tree setup accepts) abs -> typed_client (cl w) -> idle w -> sound_files (abs (srv w)) ->
  contents (fs_files (abs (srv w))) (sh_tid s) (backslashes path) = Some d -> fs_next (abs (srv w)) < 65536 ->
  u16 (sh_tid s) -> is_str path -> fits_request (use_unicode (cl w)) (OpenFile s path) -> len d < 2 ^ 64 ->
  room E (cl w) (2 + pieces (len d) 65534) ->
  exists k w', (forall fuel, (k <= fuel)%nat -> run react (download E fuel s path) w = Done (Good d) w') /\ idle w'
    /\ abs (srv w') = mk_files (fs_files (abs (srv w))) (fs_open (abs (srv w))) (fs_next (abs (srv w)) + 1).
Proof. intros Sv react tree setup accepts abs E w s path d H. exact (@files_download tree setup accepts _ react abs H E w s path d). Qed.
Print Assumptions C63_download.

(** what is not there is reported as such. *)
Theorem C63_absent : forall Sv (react : Sv -> bytes -> reaction Sv) tree setup accepts abs E w s path,
  conforming react (file_service tree setup accepts) abs -> typed_client (cl w) -> idle w ->
  contents (fs_files (abs (srv w))) (sh_tid s) (backslashes path) = None ->
  u16 (sh_tid s) -> is_str path -> fits_request (use_unicode (cl w)) (OpenFile s path) -> room E (cl w) 1 ->
  exists k w', (forall fuel, (k <= fuel)%nat -> run react (download E fuel s path) w = Done (Bad (ServerError (Known NAME_NOT_FOUND))) w')
    /\ idle w' /\ abs (srv w') = abs (srv w).
Proof. intros Sv react tree setup accepts abs E w s path H. exact (@files_absent tree setup accepts _ react abs H E w s path). Qed.
Print Assumptions C63_absent.

(** delete removes this file and no other. *)
Theorem C63_delete : forall Sv (react : Sv -> bytes -> reaction Sv) tree setup accepts abs E w s path d,
  conforming react (file_service tree setup accepts) abs -> typed_client (cl w) -> idle w ->
  contents (fs_files (abs (srv w))) (sh_tid s) (backslashes path) = Some d ->
  u16 (sh_tid s) -> is_str path -> fits_request (use_unicode (cl w)) (Delete s path) -> room E (cl w) 1 ->
  exists k w', (forall fuel, (k <= fuel)%nat -> run react (delete E fuel s path) w = Done (Good tt) w')
    /\ idle w' /\ forall tid q, contents (fs_files (abs (srv w'))) tid q
       = if (sh_tid s =? tid) && text_eqb (backslashes path) q then None else contents (fs_files (abs (srv w))) tid q.
Proof. intros Sv react tree setup accepts abs E w s path d H. exact (@files_delete tree setup accepts _ react abs H E w s path d). Qed.
Print Assumptions C63_delete.

(** list returns exactly the matching files, if they fit into one answer (for more see C26). *)
Theorem C63_list : forall Sv (react : Sv -> bytes -> reaction Sv) tree setup accepts abs E w s pattern,
  conforming react (file_service tree setup accepts) abs -> typed_client (cl w) -> idle w ->
  len (write_entries (listing (abs (srv w)) (sh_tid s) (backslashes pattern))) < 65400 ->
  u16 (sh_tid s) -> is_str pattern -> fits_request (use_unicode (cl w)) (FindFirst s pattern) -> room E (cl w) 1 ->
  exists k w', (forall fuel, (k <= fuel)%nat -> run react (list_dir E fuel s pattern) w
      = Done (Good (listing (abs (srv w)) (sh_tid s) (backslashes pattern))) w')
    /\ idle w' /\ abs (srv w') = abs (srv w).
Proof. intros Sv react tree setup accepts abs E w s pattern H. exact (@files_list tree setup accepts _ react abs H E w s pattern). Qed.
Print Assumptions C63_list.

(** examples: the hypotheses hold of [remote0], and the runs *)
Example C63_ex : typed_client (cl remote0) /\ idle remote0 /\ sound_files (srv remote0)
  /\ contents (fs_files (srv remote0)) (sh_tid share0) (backslashes [100; 47; 98]) = Some (repeat x2a 70)
  /\ contents (fs_files (srv remote0)) (sh_tid share0) (backslashes [122]) = None
  /\ fs_next (srv remote0) < 65536 /\ room (env0 true) (cl remote0) (2 + pieces 70 65534)
  /\ fits_request (use_unicode (cl remote0)) (OpenFile share0 [100; 47; 98])
  /\ len (listing (srv remote0) 5 [42]) = 2 /\ len (write_entries (listing (srv remote0) 5 [42])) < 65400.
Proof. vm_compute. repeat split; auto; intros; discriminate. Qed.
Example C63_file : file_at FS0 7 5 (backslashes [100; 47; 98]) (repeat x2a 70) 65534 files0 (the_handle 5 1 70)
  (fun s => s = mk_files (fs_files files0) [] 2).
Proof. apply (@file_there tree0 setup0 accepts0 files0 7 5 [100; 92; 98]); try reflexivity. constructor. Qed.
Example C63_run_download : exists w', run (ref_server FS0) (download (env0 true) 1000 share0 [100; 47; 98]) remote0
  = Done (Good (repeat x2a 70)) w' /\ srv w' = mk_files (fs_files files0) [] 2 /\ length (tx w') = 3%nat.
Proof. eexists. split; [runs|]. split; [runs|]. runs. Qed.
Example C63_run_delete : exists w', run (ref_server FS0) (delete (env0 true) 1000 share0 [97]) remote0 = Done (Good tt) w'
  /\ contents (fs_files (srv w')) 5 [97] = None.
Proof. eexists. split; [runs|]. runs. Qed.
Example C63_run_list : exists w', run (ref_server FS0) (list_dir (env0 true) 1000 share0 [42]) remote0
  = Done (Good [mk_dir 0 0 0 0 [97] 5 0x80; mk_dir 0 0 0 0 [100; 92; 98] 70 0x80]) w'.
Proof. eexists. runs. Qed.
