(** * Property C107: a copy of a directory, kept by watching it. *)
From Verif Require Import Base Text Win Errors Common Reply Ntlm Prog Client Spec SpecReply SpecMsg Api SpecCall
  MsgFacts SizeFacts Flow FlowFacts SpecRemote RemoteFacts RefServer RefFacts FileService FileFacts SpecWatch JournalService WatchFacts
  SpecKept KeptService KeptFacts Sample P_Remote.
Open Scope N_scope.

(** C107: a program opens a directory, lists it, asks [n] times what has changed and applies the
    answers to the names it has listed.  Whatever others do in the meantime, and though changes may
    both be seen in the listing and be told: what it has at the end are the names that were in
    the directory at the last answer; if the service then kept changes [rest] for the next
    question, the names after these.  Or there is an error (changes were lost); then the copy is
    right for the last answer before.  ([st0] is the state after the last good answer, [st1] the one
    before it.) *)
Theorem C107_kept : forall Sv St (react : Sv -> bytes -> reaction Sv) (B : service St) abs E w s path pattern mode n h names calls inv broken,
  conforming react B abs -> typed_client (cl w) -> idle w ->
  keepable B (uid (cl w)) (use_unicode (cl w)) s path pattern mode (abs (srv w)) h names calls inv broken ->
  u16 (sh_tid s) -> is_str path -> is_str pattern -> mode < 2 ^ 32 ->
  fits_request (use_unicode (cl w)) (OpenDir s path) -> fits_request (use_unicode (cl w)) (FindFirst s pattern) -> room E (cl w) (2 + calls + n) ->
  exists k w' copy e st', (forall fuel, (k <= fuel)%nat -> run react (keep E fuel s path pattern mode n) w = Done (Good (copy, e)) w')
    /\ idle w' /\ B unit (uid (cl w)) (OClose (h_tid h) (h_fid h)) st' = (inl tt, abs (srv w'))
    /\ exists all rest st0, inv all rest st0 /\ same_names (after rest copy) (after all names)
       /\ match e with
          | None => st' = st0 /\ (n <> 0%nat -> exists st1 l, B (list change) (uid (cl w)) (ONotify (h_tid h) (h_fid h) mode) st1 = (inl l, st'))
          | Some e => exists code, e = ServerError (status_of_code code)
              /\ B (list change) (uid (cl w)) (ONotify (h_tid h) (h_fid h) mode) st0 = (inr code, st')
          end.
Proof.
  intros Sv St react B abs E w s path pattern mode n h names calls inv broken H.
  exact (@remote_keep _ _ react B abs H E w s path pattern mode n h names calls inv broken).
Qed.
Print Assumptions C107_kept.

(** the same for a service with a directory where any changes [k_future] happen before each
    answer: without error, the copy is the directory *)
Theorem C107_directory : forall Sv (react : Sv -> bytes -> reaction Sv) setup abs E w s path pattern mode n,
  conforming react (kept_service setup) abs -> typed_client (cl w) -> idle w ->
  k_open (abs (srv w)) = false -> always_listable (abs (srv w)) ->
  u16 (sh_tid s) -> is_str path -> is_str pattern -> mode < 2 ^ 32 ->
  fits_request (use_unicode (cl w)) (OpenDir s path) -> fits_request (use_unicode (cl w)) (FindFirst s pattern) -> room E (cl w) (4 + S n) ->
  exists k w' copy e, (forall fuel, (k <= fuel)%nat -> run react (keep E fuel s path pattern mode (S n)) w = Done (Good (copy, e)) w')
    /\ idle w' /\ k_open (abs (srv w')) = false
    /\ match e with
       | None => same_names copy (k_names (abs (srv w')))
       | Some e => e = ServerError (Unknown 0x10c)
       end.
Proof. intros Sv react setup abs E w s path pattern mode n H. exact (@kept_directory setup _ react abs H E w s path pattern mode n). Qed.
Print Assumptions C107_directory.

(** a name that has come and gone while the directory was opened and listed, and names told twice *)
Definition shared0 : shared :=
  mk_shared [[97]; [98]] [[([99], ADDED); ([97], REMOVED)]; [([99], RENAMED_OLD); ([100], RENAMED_NEW)]; [([98], MODIFIED)]; [([97], ADDED)]] [] false.
Definition shared1 : world cifs shared := mk_world client0 shared0 [] Open [].
Example C107_conforming : conforming (ref_server (kept_service setup0)) (kept_service setup0) (fun s => s).
Proof. apply C62_server, kept_proper. repeat split. Qed.
Example C107_ex : typed_client (cl shared1) /\ idle shared1 /\ k_open (srv shared1) = false /\ always_listable (srv shared1)
  /\ u16 (sh_tid share0) /\ is_str [100; 47; 42] /\ fits_request (use_unicode (cl shared1)) (OpenDir share0 [100])
  /\ fits_request (use_unicode (cl shared1)) (FindFirst share0 [100; 47; 42]) /\ room (env0 true) (cl shared1) (4 + 2).
Proof.
  split; [vm_compute; auto|]. split; [split; reflexivity|]. split; [reflexivity|]. split.
  { intros k. change (k_future (srv shared1)) with (k_future shared0). destruct k as [|[|[|[|[|k]]]]]; vm_compute; reflexivity. }
  split; [reflexivity|]. split; [reflexivity|]. split; [vm_compute; reflexivity|]. split; [vm_compute; discriminate|]. intros _. vm_compute. discriminate.
Qed.
Example C107_keepable : keepable (kept_service setup0) 7 true share0 [100] [100; 47; 42] ALL_CHANGES shared0 dir_handle [[97]; [98]] 2
  (kept_inv shared0) (fun st => k_open st = true).
Proof. apply (@kept_keepable setup0 7 true share0 [100] [100; 47; 42] ALL_CHANGES shared0); [reflexivity|apply C107_ex]. Qed.
Example C107_run : exists w', run (ref_server (kept_service setup0)) (keep (env0 true) 1000 share0 [100] [100; 47; 42] ALL_CHANGES 2) shared1
  = Done (Good ([[97]; [100]; [98]], None)) w' /\ length (tx w') = 6%nat /\ k_names (srv w') = [[97]; [100]; [98]].
Proof. eexists. split; [runs|]. split; runs. Qed.
