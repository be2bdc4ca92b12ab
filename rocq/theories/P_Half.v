(** * C111: what is cut off gives nothing rather than half of it *)
From Coq Require Import Lia.
From Verif Require Import Base BaseFacts Text Win Errors Common Reply Ntlm Prog Client Spec SpecReply SpecNtlm SpecMsg Api SpecCall SizeFacts Flow
  SpecRemote RemoteFacts RefServer RefFacts FileService FileFacts SpecLogin SpecAccount Gate Sample Tests P_Remote P_Session SpecLost SpecCutoff P_Cutoff
  SpecKept KeptService P_Kept SpecFetch SpecHalf HalfFacts.
Open Scope N_scope.
Open Scope list_scope.

(** C111: a program that returns at the first error ([strict]; open, download, list and all that
    is made of calls and [?]) on a connection to a conforming server that may break at any byte of
    any answer or with any request: it comes to its end with what it gives at the service itself,
    having the same effect, or with an error of the network; then the service has carried out
    some of its calls, in order and each once. *)
Theorem C111_program : forall Sn Sv St (net : Sn -> bytes -> reaction Sn) (react : Sv -> bytes -> reaction Sv) inner up (B : service St) abs E
    A (f : flow A) n c st r c' st',
  unreliable net react inner up -> conforming react B abs -> strict f -> local B f c st n r c' st' ->
  forall w, cl w = c -> abs (inner (srv w)) = st -> typed_client c -> idle w -> up (srv w) -> room E c n ->
  exists k a w', (forall fuel, (k <= fuel)%nat -> run net (interp E fuel f) w = Done a w')
  /\ ((a = r /\ cl w' = c' /\ abs (inner (srv w')) = st' /\ (idle w' /\ up (srv w') \/ silent w' /\ ~ up (srv w')))
      \/ ((exists e, a = Bad (ENetBios e)) /\ visited B f c st (abs (inner (srv w'))) /\ ~ up (srv w'))).
Proof.
  intros Sn Sv St net react inner up B abs E A f n c st r c' st' H1 H2 Hs HL w.
  exact (@half_program _ _ _ net react inner up H1 B abs H2 E A f c st n r c' st' HL Hs w).
Qed.
Print Assumptions C111_program.
(** What the functions of the crate do is such a program. *)
Theorem C111_strict : forall E n s path pattern share,
  strict (setup_flow E) /\ strict (download_flow n s path) /\ strict (list_flow n s pattern) /\ strict (fetch_flow n share path).
Proof.
  intros E n s path pattern share. split; [apply strict_setup|]. split; [apply strict_download|]. split; [apply strict_list|apply strict_fetch].
Qed.
Print Assumptions C111_strict.
(** download: the whole file or an error of the network. *)
Theorem C111_download : forall Sn Sv St (net : Sn -> bytes -> reaction Sn) (react : Sv -> bytes -> reaction Sv) inner up (B : service St) abs E w s path d q h over,
  unreliable net react inner up -> conforming react B abs -> typed_client (cl w) -> idle w -> up (srv w) ->
  file_at B (uid (cl w)) (sh_tid s) (backslashes path) d q (abs (inner (srv w))) h over ->
  u16 (sh_tid s) -> is_str path -> fits_request (use_unicode (cl w)) (OpenFile s path) -> len d < 2 ^ 64 ->
  room E (cl w) (2 + pieces (len d) q) ->
  exists k a w', (forall fuel, (k <= fuel)%nat -> run net (download E fuel s path) w = Done a w')
  /\ ((a = Good d /\ over (abs (inner (srv w')))) \/ exists e, a = Bad (ENetBios e)).
Proof.
  intros Sn Sv St net react inner up B abs E w s path d q h over H1 H2.
  exact (@half_download _ _ _ net react inner up H1 B abs H2 E w s path d q h over).
Qed.
Print Assumptions C111_download.
(** list: all entries or an error of the network. *)
Theorem C111_list : forall Sn Sv St (net : Sn -> bytes -> reaction Sn) (react : Sv -> bytes -> reaction Sv) inner up (B : service St) abs E w s pattern m l st',
  unreliable net react inner up -> conforming react B abs -> typed_client (cl w) -> idle w -> up (srv w) ->
  searched B (uid (cl w)) (use_unicode (cl w)) s pattern (abs (inner (srv w))) m l st' ->
  u16 (sh_tid s) -> is_str pattern -> fits_request (use_unicode (cl w)) (FindFirst s pattern) -> room E (cl w) m ->
  exists k a w', (forall fuel, (k <= fuel)%nat -> run net (list_dir E fuel s pattern) w = Done a w')
  /\ ((a = Good l /\ abs (inner (srv w')) = st') \/ exists e, a = Bad (ENetBios e)).
Proof.
  intros Sn Sv St net react inner up B abs E w s pattern m l st' H1 H2.
  exact (@half_list _ _ _ net react inner up H1 B abs H2 E w s pattern m l st').
Qed.
Print Assumptions C111_list.
(** open: the decision of the service about the account (C64) or an error of the network; success
    is reported only if the service has admitted the user. *)
Theorem C111_login_v1 : forall Sn Sv St (net : Sn -> bytes -> reaction Sn) (react : Sv -> bytes -> reaction Sv) inner up (B : service St) abs E known w s st1 entered,
  unreliable net react inner up -> conforming react B abs -> typed_client (cl w) -> idle w -> up (srv w) -> typed_auth (auth_of (cl w)) ->
  ~ In 0 (a_user (auth_of (cl w))) -> ~ In 0 (a_domain (auth_of (cl w))) ->
  B _ (uid (cl w)) ONegotiate (abs (inner (srv w))) = (inl s, st1) -> N.testbit (s_capabilities s) 31 = false -> len (s_challenge s) = 8 ->
  checks_v1 E known B (s_challenge s) st1 entered -> fits_v1 (N.testbit (s_capabilities s) 2) (auth_of (cl w)) ->
  room E (cl w) 2 ->
  exists r k w', (forall fuel, (k <= fuel)%nat -> run net (setup_connection E fuel) w = Done r w')
  /\ (decided (admitted_v1 E known (auth_of (cl w)) (s_challenge s)) entered r (uid (cl w')) (abs (inner (srv w')))
      \/ ((exists e, r = Bad (ENetBios e)) /\ ~ up (srv w'))).
Proof.
  intros Sn Sv St net react inner up B abs E known w s st1 entered H1 H2.
  exact (@half_login_v1 _ _ _ net react inner up H1 B abs H2 E known w s st1 entered).
Qed.
Print Assumptions C111_login_v1.
Theorem C111_login_v2 : forall Sn Sv St (net : Sn -> bytes -> reaction Sn) (react : Sv -> bytes -> reaction Sv) inner up (B : service St) abs E known w s st1 most t entered,
  unreliable net react inner up -> conforming react B abs -> typed_client (cl w) -> idle w -> up (srv w) -> typed_auth (auth_of (cl w)) -> clock E t ->
  B _ (uid (cl w)) ONegotiate (abs (inner (srv w))) = (inl s, st1) -> N.testbit (s_capabilities s) 31 = true ->
  checks_v2 E known B most st1 entered -> fits_v2 most (auth_of (cl w)) -> room E (cl w) 3 ->
  exists r k w' m1 r1 st2 ch, (forall fuel, (k <= fuel)%nat -> run net (setup_connection E fuel) w = Done r w')
  /\ negotiate_message (a_domain (auth_of (cl w))) (a_workstation (auth_of (cl w))) m1
  /\ B _ (uid (cl w)) (OSetupBlob m1) st1 = (inl r1, st2) /\ challenge_of (ss_blob r1) ch
  /\ (decided (admitted_v2 E known (auth_of (cl w)) t (ch_challenge ch) (ch_info ch)) entered r (uid (cl w')) (abs (inner (srv w')))
      \/ ((exists e, r = Bad (ENetBios e)) /\ ~ up (srv w'))).
Proof.
  intros Sn Sv St net react inner up B abs E known w s st1 most t entered H1 H2.
  exact (@half_login_v2 _ _ _ net react inner up H1 B abs H2 E known w s st1 most t entered).
Qed.
Print Assumptions C111_login_v2.

(** the file of 70 bytes: cut off in the answer to the read, with 90 of its bytes there *)
Definition severed (k : nat) (j : N) : world cifs ((nat * N * files) + files) := mk_world client0 (inl (k, j, files0)) [] Open [].
Example C111_example :
  (exists w', run (cable (ref_server FS0)) (download (env0 true) 1000 share0 [100; 47; 98]) (severed 1 90) = Done (Bad (ENetBios UnexpectedEOF)) w'
    /\ fs_open (server_in (srv w')) <> [])
  /\ (exists w', run (cable (ref_server FS0)) (download (env0 true) 1000 share0 [100; 47; 98]) (severed 5 0) = Done (Good (repeat x2a 70)) w').
Proof. split; [eexists; split; [runs|vm_compute; discriminate]|eexists; runs]. Qed.
(** a login cut off in its last answer: the user is admitted, but does not know *)
Definition severed_login (k : nat) (j : N) : world cifs ((nat * N * gated files) + gated files) :=
  mk_world (cl (start1 user1)) (inl (k, j, srv (start1 user1))) [] Open [].
Example C111_login_example : forall extended,
  (exists w', run (cable (ref_server (G1 extended))) (setup_connection env1 60) (severed_login (if extended then 2 else 1) 20) = Done (Bad (ENetBios UnexpectedEOF)) w'
    /\ g_entered (server_in (srv w')) <> [])
  /\ (exists w', run (cable (ref_server (G1 extended))) (setup_connection env1 60) (severed_login 5 0) = Done (Good tt) w').
Proof. intros [|]; (split; [eexists; split; [runs|vm_compute; discriminate]|eexists; runs]). Qed.
(** the hypotheses *)
Example C111_hypotheses : typed_client (cl (severed 1 90)) /\ idle (severed 1 90) /\ plugged (srv (severed 1 90))
  /\ file_at FS0 (uid (cl (severed 1 90))) (sh_tid share0) (backslashes [100; 47; 98]) (repeat x2a 70) 65534 (server_in (srv (severed 1 90))) (the_handle 5 1 70)
       (fun s => s = mk_files (fs_files files0) [] 2)
  /\ room (env0 true) (cl (severed 1 90)) (2 + pieces 70 65534)
  /\ unreliable (cable (ref_server FS0)) (ref_server FS0) server_in plugged /\ conforming (ref_server FS0) FS0 (fun s => s).
Proof.
  split; [split; reflexivity|]. split; [split; reflexivity|]. split; [exact I|]. split; [exact C63_file|]. split; [intros _; vm_compute; discriminate|].
  split; [apply cable_unreliable|exact FS0_conforming].
Qed.
Example C111_login_hypotheses_v2 : exists r k w' m1 r1 st2 ch,
  (forall fuel, (k <= fuel)%nat -> run (cable (ref_server (G1 true))) (setup_connection env1 fuel) (severed_login 2 20) = Done r w')
  /\ negotiate_message (a_domain user1) (a_workstation user1) m1
  /\ G1 true _ 0 (OSetupBlob m1) (srv (start1 user1)) = (inl r1, st2) /\ challenge_of (ss_blob r1) ch
  /\ (decided (admitted_v2 env1 known1 user1 (10 * Z.to_N (now env1 / 1000)) (ch_challenge ch) (ch_info ch))
        (fun u st' => In u (g_entered st') /\ g_behind st' = g_behind (srv (start1 user1))) r (uid (cl w')) (server_in (srv w'))
      \/ ((exists e, r = Bad (ENetBios e)) /\ ~ plugged (srv w'))).
Proof.
  destruct C64_hypotheses as (H1 & H2 & H3 & H4 & H5 & H6 & H7 & H8 & H9 & H10).
  refine (C111_login_v2 _ _ _ (cable (ref_server (G1 true))) (ref_server (G1 true)) server_in plugged (G1 true) (fun s => s) env1 known1
    (severed_login 2 20) (setup1 true) (srv (start1 user1)) 4 (10 * Z.to_N (now env1 / 1000)) _ (cable_unreliable _ _) (C64_conforming true) H1 _ I H3 H6 eq_refl eq_refl
    (GateFacts.gate_v2 env1 known1 (setup1 true) FS0 H10 _ _) H8 H9).
  - split; reflexivity.
  - intros n. reflexivity.
  - reflexivity.
Qed.
Example C111_login_hypotheses_v1 : exists r k w',
  (forall fuel, (k <= fuel)%nat -> run (cable (ref_server (G1 false))) (setup_connection env1 fuel) (severed_login 1 20) = Done r w')
  /\ (decided (admitted_v1 env1 known1 user1 (s_challenge (setup1 false)))
        (fun u st' => In u (g_entered st') /\ g_behind st' = g_behind (srv (start1 user1))) r (uid (cl w')) (server_in (srv w'))
      \/ ((exists e, r = Bad (ENetBios e)) /\ ~ plugged (srv w'))).
Proof.
  destruct C64_hypotheses as (H1 & H2 & H3 & H4 & H5 & H6 & H7 & H8 & H9 & H10).
  refine (C111_login_v1 _ _ _ (cable (ref_server (G1 false))) (ref_server (G1 false)) server_in plugged (G1 false) (fun s => s) env1 known1
    (severed_login 1 20) (setup1 false) (srv (start1 user1)) _ (cable_unreliable _ _) (C64_conforming false) H1 _ I H3 H4 H5 eq_refl eq_refl eq_refl
    (GateFacts.gate_v1 env1 known1 (setup1 false) (fun n => le 8 (n + 77)) [x02; x00; x00; x00] FS0 (st := srv (start1 user1)) H10) H7 _).
  - split; reflexivity.
  - intros _. vm_compute. discriminate.
Qed.
(** a listing of two answers, cut off in the second one *)
Definition severed_list (k : nat) (j : N) : world cifs ((nat * N * shared) + shared) := mk_world client0 (inl (k, j, shared0)) [] Open [].
Example C111_list_example :
  (exists m l st', searched (kept_service setup0) 7 true share0 [100; 47; 42] shared0 m l st' /\ map d_filename l = [[99]; [98]])
  /\ (exists w', run (cable (ref_server (kept_service setup0))) (list_dir (env0 true) 1000 share0 [100; 47; 42]) (severed_list 1 30) = Done (Bad (ENetBios UnexpectedEOF)) w')
  /\ (exists l w', run (cable (ref_server (kept_service setup0))) (list_dir (env0 true) 1000 share0 [100; 47; 42]) (severed_list 5 0) = Done (Good l) w'
      /\ map d_filename l = [[99]; [98]]).
Proof.
  split; [|split; [eexists; runs|eexists _, _; split; runs]].
  eexists 2%nat, (([name_entry [99]] ++ [name_entry [98]]) ++ []), _. split; [|reflexivity].
  eapply se_more with (sid := 1); [reflexivity|vm_compute; reflexivity|]. apply fu_last; [reflexivity|vm_compute; discriminate|vm_compute; reflexivity].
Qed.
