(** * Property C95: watching a directory. *)
From Verif Require Import Base Text Win Errors Common Reply Ntlm Prog Client Spec SpecReply SpecMsg Api SpecCall
  MsgFacts SizeFacts Flow FlowFacts SpecRemote RemoteFacts RefServer RefFacts FileService FileFacts SpecWatch JournalService WatchFacts Sample P_Remote.
Open Scope N_scope.

(** C95: whoever is at work in the directory: opening it, asking [n] times for changes and
    closing it gives the changes since it was opened, each once and in order, up to the last
    answer ([rest] is what the service has kept for the next question); if the service could not
    tell everything, the changes before and the error.  Nothing is lost without an error. *)
Theorem C95_watch : forall Sv St (react : Sv -> bytes -> reaction Sv) (B : service St) abs E w s path mode n h inv broken,
  conforming react B abs -> typed_client (cl w) -> idle w ->
  watchable B (uid (cl w)) (sh_tid s) (backslashes path) mode (abs (srv w)) h inv broken ->
  u16 (sh_tid s) -> is_str path -> mode < 2 ^ 32 -> fits_request (use_unicode (cl w)) (OpenDir s path) -> room E (cl w) (2 + n) ->
  exists k w' l e fs st', (forall fuel, (k <= fuel)%nat -> run react (watch E fuel s path mode n) w = Done (Good (l, e)) w')
    /\ idle w' /\ tx w' = tx w ++ fs /\ (length fs <= 2 + n)%nat /\ (e = None -> length fs = 2 + n)%nat
    /\ B unit (uid (cl w)) (OClose (h_tid h) (h_fid h)) st' = (inl tt, abs (srv w'))
    /\ match e with
       | None => exists rest, inv (l ++ rest) rest st'
       | Some e => exists code st0 rest, e = ServerError (status_of_code code) /\ inv (l ++ rest) rest st0
           /\ B (list change) (uid (cl w)) (ONotify (h_tid h) (h_fid h) mode) st0 = (inr code, st')
       end.
Proof.
  intros Sv St react B abs E w s path mode n h inv broken H. exact (@remote_watch _ _ react B abs H E w s path mode n h inv broken).
Qed.
Print Assumptions C95_watch.

(** the same for a service before whose answers any changes [j_future] happen: if what happens
    between two questions can be told (the request leaves room for 1000 bytes), everything that has
    happened is returned ... *)
Theorem C95_complete : forall Sv (react : Sv -> bytes -> reaction Sv) setup abs E w s path mode n,
  conforming react (journal_service setup) abs -> typed_client (cl w) -> idle w -> j_open (abs (srv w)) = false ->
  u16 (sh_tid s) -> is_str path -> mode < 2 ^ 32 -> fits_request (use_unicode (cl w)) (OpenDir s path) -> room E (cl w) (2 + n) ->
  Forall (fun l => tellable l = true) (firstn n (j_future (abs (srv w)))) ->
  exists k w', (forall fuel, (k <= fuel)%nat -> run react (watch E fuel s path mode n) w
      = Done (Good (concat (firstn n (j_future (abs (srv w)))), None)) w')
    /\ idle w' /\ j_open (abs (srv w')) = false.
Proof.
  intros Sv react setup abs E w s path mode n H H1 H2 H3 H4 H5 H6 H7 H8 Ht.
  rewrite <- (@told_all n _ Ht). now apply (@journal_watch setup _ react abs H E).
Qed.
Print Assumptions C95_complete.

(** ... and if once too much has happened to be told, what has happened before, and the status. *)
Theorem C95_lost : forall Sv (react : Sv -> bytes -> reaction Sv) setup abs E w s path mode n i,
  conforming react (journal_service setup) abs -> typed_client (cl w) -> idle w -> j_open (abs (srv w)) = false ->
  u16 (sh_tid s) -> is_str path -> mode < 2 ^ 32 -> fits_request (use_unicode (cl w)) (OpenDir s path) -> room E (cl w) (2 + n) ->
  (i < n)%nat -> Forall (fun l => tellable l = true) (firstn i (j_future (abs (srv w)))) -> tellable (nth i (j_future (abs (srv w))) []) = false ->
  exists k w', (forall fuel, (k <= fuel)%nat -> run react (watch E fuel s path mode n) w
      = Done (Good (concat (firstn i (j_future (abs (srv w)))), Some (ServerError (Unknown 0x10c)))) w')
    /\ idle w' /\ j_open (abs (srv w')) = false.
Proof.
  intros Sv react setup abs E w s path mode n i H H1 H2 H3 H4 H5 H6 H7 H8 Hi Ht Hl.
  pose proof (@told_lost n i _ Hi Ht Hl) as K. change (status_of_code ST_ENUM_DIR) with (Unknown 0x10c) in K. rewrite <- K.
  now apply (@journal_watch setup _ react abs H E).
Qed.
Print Assumptions C95_lost.

(** examples: a server, two directories in which others are at work, and the runs *)
Definition journal0 : journal := mk_journal [[([97], ADDED); ([98], MODIFIED)]; [([97], REMOVED)]; []; [([99], ADDED)]] [] false.
Definition journal1 : journal := mk_journal [[([97], ADDED)]; [(repeat 98 600, ADDED)]; [([99], ADDED)]] [] false.
Definition watched0 (j : journal) : world cifs journal := mk_world client0 j [] Open [].
Example C95_conforming : conforming (ref_server (journal_service setup0)) (journal_service setup0) (fun s => s).
Proof. apply C62_server, journal_proper. repeat split. Qed.
Example C95_ex : typed_client (cl (watched0 journal0)) /\ idle (watched0 journal0) /\ j_open (srv (watched0 journal0)) = false
  /\ u16 (sh_tid share0) /\ fits_request (use_unicode (cl (watched0 journal0))) (OpenDir share0 [100; 47; 101])
  /\ room (env0 true) (cl (watched0 journal0)) (2 + 4)
  /\ Forall (fun l => tellable l = true) (firstn 4 (j_future journal0))
  /\ Forall (fun l => tellable l = true) (firstn 1 (j_future journal1)) /\ tellable (nth 1 (j_future journal1) []) = false.
Proof.
  split; [vm_compute; auto|]. split; [split; reflexivity|]. split; [reflexivity|]. split; [reflexivity|]. split; [reflexivity|].
  split; [intros _; vm_compute; discriminate|]. split; [repeat constructor|]. split; [repeat constructor|vm_compute; reflexivity].
Qed.
Example C95_watchable : exists inv broken, watchable (journal_service setup0) 7 5 [100; 92; 101] ALL_CHANGES journal0 dir_handle inv broken.
Proof. eexists _, _. apply journal_watchable. reflexivity. Qed.
Example C95_run_complete : exists w', run (ref_server (journal_service setup0)) (watch (env0 true) 1000 share0 [100; 47; 101] ALL_CHANGES 4) (watched0 journal0)
  = Done (Good ([([97], ADDED); ([98], MODIFIED); ([97], REMOVED); ([99], ADDED)], None)) w' /\ length (tx w') = 6%nat.
Proof. eexists. split; [runs|]. runs. Qed.
Example C95_run_lost : exists w', run (ref_server (journal_service setup0)) (watch (env0 true) 1000 share0 [100; 47; 101] ALL_CHANGES 3) (watched0 journal1)
  = Done (Good ([([97], ADDED)], Some (ServerError (Unknown 0x10c)))) w' /\ length (tx w') = 4%nat.
Proof. eexists. split; [runs|]. runs. Qed.
