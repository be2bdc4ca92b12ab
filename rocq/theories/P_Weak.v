(** * The weaker login: C102 *)
From Verif Require Import Base Text Win Errors Info Common Reply Ntlm Prog Client Spec SpecReply SpecCrash SpecNtlm SpecMsg
  Api SpecCall Flow Sample RunFacts NtlmFacts SpecLogin SpecAccount OpenFacts TwinFacts P_Ntlm P_Open SpecWeak WeakFacts.
Open Scope N_scope.

(** C102: the response to a challenge should never be the weak one, NTLMv1.  It is not if the
    server announces extended security: all that is sent after the negotiation is the two
    requests of NTLMv2.  (Missing: there is no such protection otherwise.) *)
Theorem C102_partial : forall Sv (react : Sv -> bytes -> reaction Sv) E t p s (w w1 : world cifs Sv),
  typed_auth (auth_of (cl w)) -> clock E t -> exchange react E Negotiate w p 0 s w1 -> N.testbit (s_capabilities s) 31 = true ->
  exists k, forall fuel, (k <= fuel)%nat -> exists l, tx (final (run react (setup_connection E fuel) w)) = tx w1 ++ l
    /\ Forall (strong_frame E (auth_of (cl w)) t) l.
Proof. exact strong_login. Qed.
Print Assumptions C102_partial.
(** Otherwise the client does what the server wants: it sends the NTLMv1 response, in the same
    way as every session setup request. *)
Theorem C102_obeys : forall Sv (react : Sv -> bytes -> reaction Sv) E p s (w w1 : world cifs Sv),
  typed_auth (auth_of (cl w)) -> exchange react E Negotiate w p 0 s w1 ->
  N.testbit (s_capabilities s) 31 = false -> len (s_challenge s) = 8 ->
  exists nt k, v1_response E (a_password (auth_of (cl w))) (s_challenge s) nt
  /\ forall fuel, (k <= fuel)%nat ->
     tx (final (run react (setup_connection E fuel) w)) =
     tx (final (run react (exec E fuel (SetupAuth (a_user (auth_of (cl w))) (a_domain (auth_of (cl w))) nt))
       (adopt (set_options (s_max_buffer_size s) (N.testbit (s_capabilities s) 2)) w1))).
Proof. exact weak_login. Qed.
Print Assumptions C102_obeys.
(** If the request can be made and the stream takes it, this is what was sent. *)
Theorem C102_sent : forall Sv (react : Sv -> bytes -> reaction Sv) E p s nt f w3 (w w1 : world cifs Sv),
  typed_auth (auth_of (cl w)) -> exchange react E Negotiate w p 0 s w1 ->
  N.testbit (s_capabilities s) 31 = false -> len (s_challenge s) = 8 ->
  v1_response E (a_password (auth_of (cl w))) (s_challenge s) nt ->
  is_request E (set_options (s_max_buffer_size s) (N.testbit (s_capabilities s) 2) (cl w1))
    (SetupAuth (a_user (auth_of (cl w))) (a_domain (auth_of (cl w))) nt) f ->
  asked react (adopt (set_options (s_max_buffer_size s) (N.testbit (s_capabilities s) 2)) w1) f w3 ->
  exists k, forall fuel, (k <= fuel)%nat -> tx (final (run react (setup_connection E fuel) w)) = tx w1 ++ [f].
Proof. exact weak_sent. Qed.
Print Assumptions C102_sent.
(** the negotiations of two servers, with and without extended security *)
Definition before (caps : N) : world cifs (list bytes) :=
  mk_world (mk_cifs alice 65536 true 0 0) [negotiated caps; set_up 0 1 []] [] Open [].
Example C102_exchange : forall extended, exists p s w1,
  exchange script (env0 true) Negotiate (before (if extended : bool then 0x80000004 else 4)) p 0 s w1
  /\ N.testbit (s_capabilities s) 31 = extended /\ len (s_challenge s) = 8.
Proof.
  assert (K : forall caps s w1, run script (exec (env0 true) 60 Negotiate) (before caps) = Done (Good s) w1 ->
    exists p, exchange script (env0 true) Negotiate (before caps) p 0 s w1).
  { intros caps s w1 H. apply exchange_good in H; [|exact I]. destruct H as (p & st & H).
    destruct H as (f & v & H1 & H2 & H3 & H4 & [->|[Hx _]] & H5); [|discriminate Hx]. exists p, f, v.
    repeat (split; [assumption|]). split; [now left|assumption]. }
  intros extended. destruct extended.
  - edestruct (K 0x80000004) as (p & Hp); [vm_compute; reflexivity|]. exists p. eexists. eexists. split; [exact Hp|].
    split; reflexivity.
  - edestruct (K 4) as (p & Hp); [vm_compute; reflexivity|]. exists p. eexists. eexists. split; [exact Hp|].
    split; reflexivity.
Qed.
(** One bit of the reply to the negotiation decides, and nothing protects it: whoever can change
    that bit on the way gets the NTLMv1 response to the server's challenge. *)
Theorem C102_refuted : exists before after w' w'' n f,
  negotiated 0x80000004 = before ++ [x80] ++ after
  /\ open (env0 true) _ (at_port 445 [before ++ [x80] ++ after; set_up 0xc0000016 1 challenge0; set_up 0 2 []]) script 400 None (Some alice)
     = ([445], OnStream (Done (Good tt) w')) /\ len (tx w') = 3
  /\ open (env0 true) _ (at_port 445 [before ++ [x00] ++ after; set_up 0 1 []]) script 400 None (Some alice)
     = ([445], OnStream (Done (Good tt) w''))
  /\ tx w'' = [n; f] /\ weak_frame (env0 true) alice [x01; x02; x03; x04; x05; x06; x07; x08] f.
Proof.
  exists (take 59 (negotiated 0x80000004)), (drop 60 (negotiated 0x80000004)). eexists. eexists. eexists. eexists.
  split; [vm_compute; reflexivity|]. split; [runs|]. split; [vm_compute; reflexivity|]. split; [runs|].
  split; [cbn [tx]; reflexivity|].
  exists (mk_cifs alice 65536 true 0 1). eexists. split.
  - apply v1_good with (a := alice); [reflexivity|reflexivity|]. vm_compute. reflexivity.
  - exists 1%nat. vm_compute. reflexivity.
Qed.
Print Assumptions C102_refuted.

(** What that gives away: the parts of the hash (7, 7 and 2 bytes) can be looked for one by one,
    with functions that depend on the challenge only, which the server chooses: *)
Theorem C102_parts : forall E challenge, exists first third : bytes -> bytes,
  (forall k, len (first k) = 8) /\ (forall k, len (third k) = 8)
  /\ forall password nt, v1_response E password challenge nt ->
     exists a b c, nt_hash E password (a ++ b ++ c) /\ len a = 7 /\ len b = 7 /\ len c = 2
     /\ nt = first a ++ first b ++ third c.
Proof. exact v1_parts. Qed.
Print Assumptions C102_parts.
(** ... and the last 8 bytes have 65536 values, for all passwords together. *)
Theorem C102_last : forall E challenge, exists l : list bytes, len l = 65536
  /\ forall password nt, v1_response E password challenge nt -> In (drop 16 nt) l.
Proof. exact v1_sixteen. Qed.
Print Assumptions C102_last.
Example C102_example : exists nt, v1_response (env0 true) (a_password alice) [x01; x02; x03; x04; x05; x06; x07; x08] nt /\ len nt = 24.
Proof.
  eexists. split; [apply v1_good with (a := alice); [reflexivity|reflexivity|vm_compute; reflexivity]|reflexivity].
Qed.
