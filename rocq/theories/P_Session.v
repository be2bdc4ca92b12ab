(** * Property C64: logging in end to end. *)
From Coq Require Import String.
From Verif Require Import Base Text Win Errors Common Reply Ntlm Prog Client Spec SpecReply SpecNtlm SpecMsg Api SpecCall
  MsgFacts SizeFacts Flow FlowFacts SpecLogin SpecRemote RemoteFacts RefServer RefFacts FileService FileFacts
  SpecAccount AccountFacts Gate GateFacts Sample SpecUri Crypto Tests P_Remote.
Open Scope N_scope.
Open Scope list_scope.

(** C64: NTLMv1: at a service that knows the NT hashes and checks the responses, open succeeds
    if and only if the response to the service's challenge is genuine; otherwise it returns the
    service's refusal.  It always returns one of the two. *)
Theorem C64_v1 : forall Sv St (react : Sv -> bytes -> reaction Sv) (B : service St) abs E known w s st1 entered,
  conforming react B abs -> typed_client (cl w) -> idle w -> typed_auth (auth_of (cl w)) ->
  ~ In 0 (a_user (auth_of (cl w))) -> ~ In 0 (a_domain (auth_of (cl w))) ->
  B _ (uid (cl w)) ONegotiate (abs (srv w)) = (inl s, st1) -> N.testbit (s_capabilities s) 31 = false -> len (s_challenge s) = 8 ->
  checks_v1 E known B (s_challenge s) st1 entered -> fits_v1 (N.testbit (s_capabilities s) 2) (auth_of (cl w)) ->
  room E (cl w) 2 ->
  exists r k w', (forall fuel, (k <= fuel)%nat -> run react (setup_connection E fuel) w = Done r w') /\ idle w'
  /\ decided (admitted_v1 E known (auth_of (cl w)) (s_challenge s)) entered r (uid (cl w')) (abs (srv w')).
Proof. intros Sv St react B abs E known w s st1 entered H. exact (@remote_login_v1 _ _ react B abs H E known w s st1 entered). Qed.
Print Assumptions C64_v1.
(** NTLMv2, in two steps. *)
Theorem C64_v2 : forall Sv St (react : Sv -> bytes -> reaction Sv) (B : service St) abs E known w s st1 most t entered,
  conforming react B abs -> typed_client (cl w) -> idle w -> typed_auth (auth_of (cl w)) -> clock E t ->
  B _ (uid (cl w)) ONegotiate (abs (srv w)) = (inl s, st1) -> N.testbit (s_capabilities s) 31 = true ->
  checks_v2 E known B most st1 entered -> fits_v2 most (auth_of (cl w)) -> room E (cl w) 3 ->
  exists r k w' m1 r1 st2 ch, (forall fuel, (k <= fuel)%nat -> run react (setup_connection E fuel) w = Done r w') /\ idle w'
  /\ negotiate_message (a_domain (auth_of (cl w))) (a_workstation (auth_of (cl w))) m1
  /\ B _ (uid (cl w)) (OSetupBlob m1) st1 = (inl r1, st2) /\ challenge_of (ss_blob r1) ch
  /\ decided (admitted_v2 E known (auth_of (cl w)) t (ch_challenge ch) (ch_info ch)) entered r (uid (cl w')) (abs (srv w')).
Proof. intros Sv St react B abs E known w s st1 most t entered H. exact (@remote_login_v2 _ _ react B abs H E known w s st1 most t entered). Qed.
Print Assumptions C64_v2.
(** Who has the password of the account is admitted; who has no account is not. *)
Theorem C64_registered : forall E known a t challenge info, registered E known a ->
  ((exists nt, v1_response E (a_password a) challenge nt) -> admitted_v1 E known a challenge)
  /\ ((exists nt, v2_response E (a_password a) (a_user a) (a_domain a) t challenge info nt) -> admitted_v2 E known a t challenge info).
Proof.
  intros E known a t challenge info H. split; intros (nt & Hnt); exists nt; (split; [exact Hnt|]).
  - exact (registered_v1 H Hnt).
  - exact (registered_v2 H Hnt).
Qed.
Print Assumptions C64_registered.
Theorem C64_unknown : forall E known a t challenge info, known (a_user a) (a_domain a) = None ->
  ~ admitted_v1 E known a challenge /\ ~ admitted_v2 E known a t challenge info.
Proof.
  intros E known a t challenge info H. split; intros (nt & _ & h & Hk & _); congruence.
Qed.
Print Assumptions C64_unknown.
(** With another password: admitted only if the responses collide. *)
Theorem C64_collision : forall E known a t challenge info h h', known (a_user a) (a_domain a) = Some h -> nt_hash E (a_password a) h' ->
  (admitted_v1 E known a challenge -> exists nt, proves_v1 E h challenge nt /\ proves_v1 E h' challenge nt)
  /\ (admitted_v2 E known a t challenge info ->
      exists name, utf16le_of (upper E (a_user a) ++ a_domain a) name
      /\ hmac E (hmac E h name) (challenge ++ v2_blob t (rnd E) info) = hmac E (hmac E h' name) (challenge ++ v2_blob t (rnd E) info)).
Proof. exact admitted_collides. Qed.
Print Assumptions C64_collision.

(** The gate is such a service, for both versions, and there are servers for it. *)
Theorem C64_gate : forall St E known setup nonce info (B : service St) st, g_next st < 65536 ->
  let entered := fun u st' => is_in u st' /\ g_behind st' = g_behind st in
  checks_v1 E known (gate St E known setup nonce info B) (s_challenge setup) st entered
  /\ ((forall n, len (nonce n) = 8) -> len info < 65536 ->
      checks_v2 E known (gate St E known setup nonce info B) (len info) st entered).
Proof. intros St E known setup nonce info B st H. split; [exact (@gate_v1 St E known setup nonce info B st H)|exact (@gate_v2 St E known setup nonce info B st H)]. Qed.
Print Assumptions C64_gate.
Theorem C64_server : forall St E known setup nonce info (B : service St), proper_server setup -> (forall n, len (nonce n) = 8) ->
  len info < 65000 -> proper B ->
  conforming (ref_server (gate St E known setup nonce info B)) (gate St E known setup nonce info B) (fun s => s).
Proof. intros St E known setup nonce info B H1 H2 H3 H4. apply ref_conforming, gate_proper; assumption. Qed.
Print Assumptions C64_server.
(** Once logged in, every program does what it would do directly on the service behind the gate,
    under the user id assigned by the server. *)
Theorem C64_session : forall Sv St (react : Sv -> bytes -> reaction Sv) E known setup nonce info (B : service St) abs A (f : flow A) w n a c' st',
  conforming react (gate St E known setup nonce info B) abs -> typed_client (cl w) -> idle w ->
  In (uid (cl w)) (g_entered (abs (srv w))) ->
  local B f (cl w) (g_behind (abs (srv w))) n a c' st' -> works f -> room E (cl w) n ->
  exists k w', (forall fuel, (k <= fuel)%nat -> run react (interp E fuel f) w = Done a w')
  /\ idle w' /\ g_behind (abs (srv w')) = st' /\ In (uid (cl w')) (g_entered (abs (srv w'))).
Proof. exact gate_session. Qed.
Print Assumptions C64_session.
(** So open with the right password succeeds, and is followed by the session. *)
Theorem C64_open : forall Sv St (react : Sv -> bytes -> reaction Sv) E known setup nonce info (B : service St) abs w t,
  conforming react (gate St E known setup nonce info B) abs ->
  typed_client (cl w) -> idle w -> typed_auth (auth_of (cl w)) -> registered E known (auth_of (cl w)) ->
  ~ In 0 (a_user (auth_of (cl w))) -> ~ In 0 (a_domain (auth_of (cl w))) -> clock E t ->
  len (s_challenge setup) = 8 -> (forall n, len (nonce n) = 8) -> len info < 60000 ->
  fits_v1 (N.testbit (s_capabilities setup) 2) (auth_of (cl w)) -> fits_v2 (len info) (auth_of (cl w)) ->
  room E (cl w) 3 -> g_next (abs (srv w)) < 65536 ->
  exists k w', (forall fuel, (k <= fuel)%nat -> run react (setup_connection E fuel) w = Done (Good tt) w')
  /\ idle w' /\ In (uid (cl w')) (g_entered (abs (srv w'))) /\ g_behind (abs (srv w')) = g_behind (abs (srv w)).
Proof. intros Sv St react E known setup nonce info B abs w t H. exact (@gate_open Sv St react E known setup nonce info B abs H w t). Qed.
Print Assumptions C64_open.

(** examples, with the hash functions of the tests: the files of C63 behind a gate *)
Definition known1 : accounts := fun user domain =>
  if text_eqb user (a_user user1) && text_eqb domain (a_domain user1) then Some (hex "cd06ca7c7e10c99b1d33b7485a2ed808") else None.
Definition setup1 (extended : bool) : server_setup :=
  mk_server 0 3 50 1 16644 65536 0 (if extended then 0x80000004 else 4) 0 0 (hex "0123456789abcdef").
Definition G1 (extended : bool) : service (gated files) :=
  gate files env1 known1 (setup1 extended) (fun n => le 8 (n + 77)) [x02; x00; x00; x00] FS0.
Definition start1 (a : auth) : world cifs (gated files) :=
  mk_world (mk_cifs a 4356 true 0 0) (mk_gated [] [] 100 files0) [] Open [].
Definition thief : auth := mk_auth (a_user user1) (a_workstation user1) (a_domain user1) (txt "SecREt02").
Example C64_conforming : forall extended, conforming (ref_server (G1 extended)) (G1 extended) (fun s => s).
Proof.
  intros extended. apply C64_server.
  - destruct extended; repeat split.
  - intros n. reflexivity.
  - reflexivity.
  - apply files_proper.
    + intros p w tid. unfold tree0. destruct (text_eqb p _); [|discriminate]. intros [= <-]. reflexivity.
    + intros u d x id. unfold accepts0. destruct (list_eq_dec _ _ _); [|discriminate]. intros [= <-]. reflexivity.
    + repeat split.
Qed.
Example C64_registered_ex : registered env1 known1 user1 /\ ~ registered env1 known1 thief.
Proof.
  split.
  - exists (hex "cd06ca7c7e10c99b1d33b7485a2ed808"). split; [vm_compute; reflexivity|].
    exists (encode_utf16le (a_password user1)). split; [apply TextFacts.utf16le_encode, TextFacts.is_text_str; reflexivity|].
    vm_compute. reflexivity.
  - intros (h & Hk & pw & Hpw & Hh). apply TextFacts.utf16le_of_encode in Hpw. destruct Hpw as [-> _].
    assert (Hx : known1 (a_user thief) (a_domain thief) <> Some (md4 env1 (encode_utf16le (a_password thief)))) by (vm_compute; discriminate).
    apply Hx. rewrite Hk, Hh. reflexivity.
Qed.
Example C64_hypotheses : let w := start1 user1 in typed_client (cl w) /\ idle w /\ typed_auth (auth_of (cl w))
  /\ ~ In 0 (a_user (auth_of (cl w))) /\ ~ In 0 (a_domain (auth_of (cl w))) /\ clock env1 (10 * Z.to_N (now env1 / 1000))
  /\ fits_v1 true (auth_of (cl w)) /\ fits_v2 4 (auth_of (cl w)) /\ room env1 (cl w) 3 /\ g_next (srv w) < 65536.
Proof.
  cbv zeta. repeat split; try reflexivity; try discriminate; try (intros H; repeat (destruct H as [H|H]; [discriminate H|]); exact H).
Qed.
Definition visit (a : auth) (extended : bool) : outcome cifs (gated files) (ans bytes) :=
  run (ref_server (G1 extended)) (pbind (setup_connection env1 60) (fun r =>
    match r with
    | Good _ => pbind (mount env1 60 [47; 47; 104; 47; 115]) (fun r =>
        match r with Good s => download env1 60 s [97] | Bad e => Ret (Bad e) end)
    | Bad e => Ret (Bad e)
    end)) (start1 a).
Definition result {S V A} (o : outcome S V A) : option A := match o with Done a _ => Some a | _ => None end.
Example C64_run_v2 : result (visit user1 true) = Some (Good [x68; x65; x6c; x6c; x6f]).
Proof. runs. Qed.
Example C64_run_v1 : result (visit user1 false) = Some (Good [x68; x65; x6c; x6c; x6f]).
Proof. runs. Qed.
Example C64_run_thief_v2 : result (visit thief true) = Some (Bad (ServerError (Known LOGIN_FAILURE))).
Proof. runs. Qed.
Example C64_run_thief_v1 : result (visit thief false) = Some (Bad (ServerError (Known LOGIN_FAILURE))).
Proof. runs. Qed.
