(** * C112: whose answers one gets after a login *)
From Coq Require Import Lia.
From Verif Require Import Base BaseFacts Text Win Errors Common Reply Ntlm Prog Client Spec SpecReply SpecNtlm SpecMsg Api SpecCall SizeFacts Flow FlowFacts
  SpecRemote RemoteFacts RefServer RefFacts FileService FileFacts SpecLogin SpecAccount Gate Sample Tests P_Remote P_Session SpecFetch SpecHijack HijackFacts.
Open Scope N_scope.
Open Scope list_scope.

(** C112: Someone who can write on the connection and comes in after any number of requests: what
    the client has asked the server before it gets from the server; from then on every program
    gets what the intruder's service gives, and the server sees nothing of it.  This holds for all
    servers, all intruders and all programs: the client has no means to notice. *)
Theorem C112_taken_over : forall Sv Sw St Su (react : Sv -> bytes -> reaction Sv) (other : Sw -> bytes -> reaction Sw) (B : service St) (C : service Su) abs abt E
    A X (f : flow A) (g : flow X) w n m a b c1 c2 s t st1 t1,
  conforming react B abs -> conforming other C abt -> typed_client (cl w) -> idle w -> srv w = (n, s, t) -> room E (cl w) (n + m) ->
  local B f (cl w) (abs s) n a c1 st1 -> local C g c1 (abt t) m b c2 t1 ->
  exists k w1 w2, (forall fuel, (k <= fuel)%nat -> run (takeover react other) (interp E fuel f) w = Done a w1
      /\ run (takeover react other) (interp E fuel g) w1 = Done b w2)
  /\ idle w2 /\ cl w2 = c2 /\ abt (the_other (srv w2)) = t1
  /\ abs (the_server (srv w1)) = st1 /\ the_server (srv w2) = the_server (srv w1).
Proof.
  intros Sv Sw St Su react other B C abs abt E A X f g w n m a b c1 c2 s t st1 t1 H1 H2.
  exact (@taken_over _ _ _ _ react other B C abs abt H1 H2 E A X f g w n m a b c1 c2 s t st1 t1).
Qed.
Print Assumptions C112_taken_over.
(** In particular after a login with either version of NTLM, made with the server itself, which
    has admitted the user: open succeeds, and all that follows is the intruder's. *)
Theorem C112_login : forall Sv Sw St Su (react : Sv -> bytes -> reaction Sv) (other : Sw -> bytes -> reaction Sw) E known setup nonce info (B : service St) abs (C : service Su) abt w s t time,
  conforming react (gate St E known setup nonce info B) abs -> conforming other C abt ->
  typed_client (cl w) -> idle w -> srv w = (if N.testbit (s_capabilities setup) 31 then 3%nat else 2%nat, s, t) ->
  typed_auth (auth_of (cl w)) -> registered E known (auth_of (cl w)) ->
  ~ In 0 (a_user (auth_of (cl w))) -> ~ In 0 (a_domain (auth_of (cl w))) -> clock E time ->
  len (s_challenge setup) = 8 -> (forall n, len (nonce n) = 8) -> len info < 60000 ->
  fits_v1 (N.testbit (s_capabilities setup) 2) (auth_of (cl w)) -> fits_v2 (len info) (auth_of (cl w)) -> g_next (abs s) < 65536 ->
  exists c1, forall X (g : flow X) m b c2 t1, local C g c1 (abt t) m b c2 t1 ->
    room E (cl w) ((if N.testbit (s_capabilities setup) 31 then 3 else 2) + m) ->
  exists k w1 w2, (forall fuel, (k <= fuel)%nat -> run (takeover react other) (setup_connection E fuel) w = Done (Good tt) w1
      /\ run (takeover react other) (interp E fuel g) w1 = Done b w2)
  /\ cl w1 = c1 /\ In (uid c1) (g_entered (abs (the_server (srv w1)))) /\ g_behind (abs (the_server (srv w1))) = g_behind (abs s)
  /\ abt (the_other (srv w2)) = t1 /\ the_server (srv w2) = the_server (srv w1).
Proof.
  intros Sv Sw St Su react other E known setup nonce info B abs C abt w s t time H1 H2.
  exact (@login_taken_over _ _ _ _ react other E known setup nonce info B abs H1 C abt H2 w s t time).
Qed.
Print Assumptions C112_login.
(** What holds: if nobody comes in, what follows a login is answered by the service that has
    accepted it. *)
Theorem C112_partial : forall Sv St (react : Sv -> bytes -> reaction Sv) (B : service St) abs E A (f : flow A) w n m a c1 c2 st1 st2,
  conforming react B abs -> typed_client (cl w) -> idle w -> room E (cl w) (n + m) ->
  local B (setup_flow E) (cl w) (abs (srv w)) n (Good tt) c1 st1 -> local B f c1 st1 m a c2 st2 ->
  exists k w1 w2, (forall fuel, (k <= fuel)%nat -> run react (setup_connection E fuel) w = Done (Good tt) w1
      /\ run react (interp E fuel f) w1 = Done a w2)
  /\ idle w2 /\ abs (srv w1) = st1 /\ abs (srv w2) = st2.
Proof.
  intros Sv St react B abs E A f w n m a c1 c2 st1 st2 conf Ht Hi Hr HL HM.
  destruct (remote_local conf (E := E) HL eq_refl eq_refl Ht Hi) as (k1 & w1 & fs1 & Hrun1 & Hi1 & Hc1 & Ha1 & _).
  { intros Ho. specialize (Hr Ho). lia. }
  destruct (remote_local conf (E := E) HM Hc1 Ha1 (local_typed HL Ht) Hi1 (local_room HL m Hr)) as (k2 & w2 & fs2 & Hrun2 & Hi2 & Hc2 & Ha2 & _).
  exists (Nat.max k1 k2), w1, w2. split; [intros fuel Hf; split; [rewrite setup_same; apply Hrun1|apply Hrun2]; lia|]. auto.
Qed.
Print Assumptions C112_partial.

(** The claim itself is false: a login with NTLMv2, accepted by the server; the file that is
    downloaded then is not the server's, and the server is not asked for it. *)
Definition intruder : files := mk_files [((5, [97]), [x65; x76; x69; x6c])] [] 1.
Definition intercepted : world cifs (nat * gated files * files) :=
  mk_world (cl (start1 user1)) (3%nat, srv (start1 user1), intruder) [] Open [].
Theorem C112_refuted : exists w1 w2,
  run (takeover (ref_server (G1 true)) (ref_server FS0)) (setup_connection env1 60) intercepted = Done (Good tt) w1
  /\ In (uid (cl w1)) (g_entered (the_server (srv w1)))
  /\ run (takeover (ref_server (G1 true)) (ref_server FS0)) (fetch env1 60 [47; 47; 104; 47; 115] [97]) w1 = Done (Good [x65; x76; x69; x6c]) w2
  /\ contents (fs_files (g_behind (the_server (srv w2)))) 5 [97] = Some [x68; x65; x6c; x6c; x6f]
  /\ fs_open (g_behind (the_server (srv w2))) = [] /\ fs_next (g_behind (the_server (srv w2))) = fs_next files0.
Proof.
  eexists _, _. split; [runs|]. split; [vm_compute; auto|]. split; [runs|]. split; [runs|]. split; runs.
Qed.
Print Assumptions C112_refuted.

(** the hypotheses *)
Example C112_hypotheses : exists c1, forall X (g : flow X) m b c2 t1, local FS0 g c1 intruder m b c2 t1 -> room env1 (cl intercepted) (3 + m) ->
  exists k w1 w2, (forall fuel, (k <= fuel)%nat -> run (takeover (ref_server (G1 true)) (ref_server FS0)) (setup_connection env1 fuel) intercepted = Done (Good tt) w1
      /\ run (takeover (ref_server (G1 true)) (ref_server FS0)) (interp env1 fuel g) w1 = Done b w2)
  /\ cl w1 = c1 /\ In (uid c1) (g_entered (the_server (srv w1))) /\ g_behind (the_server (srv w1)) = g_behind (srv (start1 user1))
  /\ the_other (srv w2) = t1 /\ the_server (srv w2) = the_server (srv w1).
Proof.
  destruct C64_hypotheses as (H1 & H2 & H3 & H4 & H5 & H6 & H7 & H8 & H9 & H10).
  refine (C112_login _ _ _ _ (ref_server (G1 true)) (ref_server FS0) env1 known1 (setup1 true) (fun n => le 8 (n + 77)) [x02; x00; x00; x00] FS0 (fun s => s) FS0 (fun s => s)
    intercepted (srv (start1 user1)) intruder (10 * Z.to_N (now env1 / 1000)) (C64_conforming true) FS0_conforming H1 _ eq_refl H3 (proj1 C64_registered_ex) H4 H5 H6 eq_refl _ _ H7 H8 H10).
  - split; reflexivity.
  - intros n. reflexivity.
  - reflexivity.
Qed.
Example C112_program_there : forall c, uid c = 100 -> use_unicode c = true ->
  exists c2, local FS0 (fcall (OpenFile (mk_share None None [65; 58] [78; 84; 70; 83] 5) [97])) c intruder 1 (Good (the_handle 5 1 4)) c2
    (mk_files (fs_files intruder) [(1, (5, [97]))] 2).
Proof.
  intros c Hu Hc. eexists. apply (@l_call _ FS0 _ _ (OpenFile (mk_share None None [65; 58] [78; 84; 70; 83] 5) [97]) FRet c intruder (inl (the_handle 5 1 4))
    (mk_files (fs_files intruder) [(1, (5, [97]))] 2)); [split; reflexivity|exact I|vm_compute; reflexivity|vm_compute; reflexivity|constructor].
Qed.
