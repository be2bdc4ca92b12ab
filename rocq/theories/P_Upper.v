(** * Property C90: the capitals of a user name. *)
From Coq Require Import String Lia.
From Verif Require Import Base BaseFacts Text TextFacts Win Errors Common Reply Ntlm Prog Client Spec SpecReply SpecNtlm SpecMsg Api SpecCall
  MsgFacts SizeFacts Flow FlowFacts SpecLogin SpecRemote RemoteFacts RefServer RefFacts FileService FileFacts
  SpecAccount SpecUpper AccountFacts Gate GateFacts UpperFacts Sample SpecUri Crypto Tests P_Remote P_Session.
Open Scope N_scope.
Open Scope list_scope.

(** C90, as far as it holds: with an account and its password open succeeds, if client and server
    form the same capitals of the user name; with NTLMv1, whatever they form.
    Missing: that the capitals agree (C90_refuted). *)
Theorem C90_partial : forall Sv St (react : Sv -> bytes -> reaction Sv) S E known setup nonce info (B : service St) abs w t,
  same_hashes S E -> conforming react (gate St S known setup nonce info B) abs ->
  typed_client (cl w) -> idle w -> typed_auth (auth_of (cl w)) -> registered S known (auth_of (cl w)) ->
  ~ In 0 (a_user (auth_of (cl w))) -> ~ In 0 (a_domain (auth_of (cl w))) -> clock E t ->
  len (s_challenge setup) = 8 -> (forall n, len (nonce n) = 8) -> len info < 60000 ->
  fits_v1 (N.testbit (s_capabilities setup) 2) (auth_of (cl w)) -> fits_v2 (len info) (auth_of (cl w)) ->
  room E (cl w) 3 -> g_next (abs (srv w)) < 65536 ->
  (N.testbit (s_capabilities setup) 31 = true -> upper S (a_user (auth_of (cl w))) = upper E (a_user (auth_of (cl w)))) ->
  exists k w', (forall fuel, (k <= fuel)%nat -> run react (setup_connection E fuel) w = Done (Good tt) w')
  /\ idle w' /\ In (uid (cl w')) (g_entered (abs (srv w'))) /\ g_behind (abs (srv w')) = g_behind (abs (srv w)).
Proof.
  intros Sv St react S E known setup nonce info B abs w t Hs Hc.
  exact (@gate_open_at Sv St react S E Hs known setup nonce info B abs Hc w t).
Qed.
Print Assumptions C90_partial.
(** Where the capitals differ, a server of NTLMv2 refuses the login, unless the MACs of the two
    names collide. *)
Theorem C90_differ : forall Sv St (react : Sv -> bytes -> reaction Sv) S E known setup nonce info (B : service St) abs w t h,
  same_hashes S E -> conforming react (gate St S known setup nonce info B) abs ->
  typed_client (cl w) -> idle w -> typed_auth (auth_of (cl w)) ->
  known (a_user (auth_of (cl w))) (a_domain (auth_of (cl w))) = Some h -> nt_hash E (a_password (auth_of (cl w))) h -> clock E t ->
  (forall n, len (nonce n) = 8) -> len info < 60000 -> fits_v2 (len info) (auth_of (cl w)) ->
  room E (cl w) 3 -> g_next (abs (srv w)) < 65536 -> N.testbit (s_capabilities setup) 31 = true ->
  (forall x mine yours, utf16le_of (upper E (a_user (auth_of (cl w))) ++ a_domain (auth_of (cl w))) mine ->
     utf16le_of (upper S (a_user (auth_of (cl w))) ++ a_domain (auth_of (cl w))) yours -> hmac E (hmac E h mine) x <> hmac E (hmac E h yours) x) ->
  exists k w', (forall fuel, (k <= fuel)%nat -> run react (setup_connection E fuel) w = Done (Bad (ServerError (Known LOGIN_FAILURE))) w') /\ idle w'.
Proof.
  intros Sv St react S E known setup nonce info B abs w t h Hs Hc.
  exact (@gate_refuses Sv St react S E Hs known setup nonce info B abs Hc w t h).
Qed.
Print Assumptions C90_differ.

(** The capitals of std's str::to_uppercase, for ASCII and the sharp s, whose capital is SS. *)
Definition upper_std (s : text) : text :=
  flat_map (fun c => if c =? 223 then [83; 83] else if (97 <=? c) && (c <=? 122) then [c - 32] else [c]) s.
Lemma upper_std_text s : is_text s = true -> is_text (upper_std s) = true.
Proof.
  unfold is_text, upper_std. rewrite !forallb_forall. intros H x Hx. apply in_flat_map in Hx as (y & Hy & Hx).
  specialize (H y Hy). destruct (y =? 223).
  - destruct Hx as [<-|[<-|[]]]; reflexivity.
  - destruct ((97 <=? y) && (y <=? 122)) eqn:K; destruct Hx as [<-|[]]; [|exact H]. unfold scalar in *. lia.
Qed.
(** the client; the server is [env1], whose table has capitals for the letters of ASCII only *)
Definition std1 : env :=
  mk_env md4_hash (fun b => output_len _) hmac_md5 (fun k b => output_len _) des_encrypt des_encrypt_len
    upper_std upper_std_text 12700317600000000000%Z (hex "ffffff0011223344") eq_refl true.
Definition strauss : auth := mk_auth [115; 116; 114; 97; 117; 223] (a_workstation user1) (a_domain user1) (txt "SecREt01").
Definition known2 : accounts := fun user domain =>
  if text_eqb domain (a_domain user1) && (text_eqb user (a_user user1) || text_eqb user (a_user strauss))
  then Some (hex "cd06ca7c7e10c99b1d33b7485a2ed808") else None.
Definition G2 (extended : bool) : service (gated files) :=
  gate files env1 known2 (setup1 extended) (fun n => le 8 (n + 77)) [x02; x00; x00; x00] FS0.
Definition enter (a : auth) (extended : bool) : option (ans unit) :=
  match run (ref_server (G2 extended)) (setup_connection std1 60) (start1 a) with Done r _ => Some r | _ => None end.

Lemma hashes1 : same_hashes env1 std1.
Proof. unfold same_hashes, env1, std1. cbn [md4 hmac des]. split; [|split]; intros; reflexivity. Qed.
Lemma known2_nt a : a_password a = a_password user1 -> known2 (a_user a) (a_domain a) = Some (hex "cd06ca7c7e10c99b1d33b7485a2ed808") ->
  registered env1 known2 a.
Proof.
  intros Hp Hk. exists (hex "cd06ca7c7e10c99b1d33b7485a2ed808"). split; [exact Hk|]. rewrite Hp.
  exists (encode_utf16le (a_password user1)). split; [apply utf16le_encode, is_text_str; reflexivity|].
  vm_compute. reflexivity.
Qed.
Lemma G2_conforming extended : conforming (ref_server (G2 extended)) (G2 extended) (fun s => s).
Proof.
  apply C64_server.
  - destruct extended; repeat split.
  - intros n. reflexivity.
  - reflexivity.
  - apply files_proper.
    + intros p w tid. unfold tree0. destruct (text_eqb p _); [|discriminate]. intros [= <-]. reflexivity.
    + intros u d x id. unfold accepts0. destruct (list_eq_dec _ _ _); [|discriminate]. intros [= <-]. reflexivity.
    + repeat split.
Qed.

(** In general it does not hold: at a server that forms capitals by a table, with the same hash
    functions, a user with an account and its password is refused. *)
Theorem C90_refuted : exists (U : N -> N) S E known setup nonce info (w : world cifs (gated files)),
  let G := gate files S known setup nonce info FS0 in
  by_table U S /\ same_hashes S E /\ conforming (ref_server G) G (fun s => s)
  /\ typed_client (cl w) /\ idle w /\ typed_auth (auth_of (cl w)) /\ registered S known (auth_of (cl w))
  /\ room E (cl w) 3 /\ fits_v2 (len info) (auth_of (cl w)) /\ g_next (srv w) < 65536
  /\ exists w', run (ref_server G) (setup_connection E 60) w = Done (Bad (ServerError (Known LOGIN_FAILURE))) w'.
Proof.
  exists (fun c => if (97 <=? c) && (c <=? 122) then c - 32 else c), env1, std1, known2, (setup1 true), (fun n => le 8 (n + 77)),
    [x02; x00; x00; x00], (start1 strauss).
  cbv zeta. split; [intros s; reflexivity|]. split; [exact hashes1|]. split; [exact (G2_conforming true)|].
  split; [repeat split|]. split; [repeat split|]. split; [repeat split|].
  split; [apply known2_nt; [reflexivity|vm_compute; reflexivity]|].
  split; [intros _; vm_compute; discriminate|]. split; [repeat split; vm_compute; discriminate || reflexivity|]. split; [reflexivity|].
  assert (H : enter strauss true = Some (Bad (ServerError (Known LOGIN_FAILURE)))) by runs.
  unfold enter, G2 in H.
  destruct (run _ _ _) as [r w'| | |]; try discriminate H. injection H as ->. exists w'. reflexivity.
Qed.
Print Assumptions C90_refuted.

(** examples: another user gets in, and this one with NTLMv1 *)
Example C90_run_user : enter user1 true = Some (Good tt). Proof. runs. Qed.
Example C90_run_v1 : enter strauss false = Some (Good tt). Proof. runs. Qed.
Example C90_capitals : upper std1 (a_user strauss) = txt "STRAUSS" /\ upper env1 (a_user strauss) = txt "STRAU" ++ [223]
  /\ upper std1 (a_user user1) = upper env1 (a_user user1).
Proof. repeat split. Qed.
Example C90_hypotheses : same_hashes env1 std1 /\ conforming (ref_server (G2 true)) (G2 true) (fun s => s)
  /\ registered env1 known2 user1 /\ registered env1 known2 strauss
  /\ (let w := start1 strauss in typed_client (cl w) /\ idle w /\ typed_auth (auth_of (cl w))
      /\ ~ In 0 (a_user (auth_of (cl w))) /\ ~ In 0 (a_domain (auth_of (cl w))) /\ clock std1 (10 * Z.to_N (now std1 / 1000))
      /\ fits_v1 true (auth_of (cl w)) /\ fits_v2 4 (auth_of (cl w)) /\ room std1 (cl w) 3 /\ g_next (srv w) < 65536).
Proof.
  split; [exact hashes1|]. split; [exact (G2_conforming true)|].
  split; [apply known2_nt; [reflexivity|vm_compute; reflexivity]|]. split; [apply known2_nt; [reflexivity|vm_compute; reflexivity]|].
  cbv zeta. repeat split; try reflexivity; try discriminate; try (intros H; repeat (destruct H as [H|H]; [discriminate H|]); exact H).
Qed.
