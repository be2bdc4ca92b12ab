(** * Connections that break: C109 (any program), C110 (a download that is continued) *)
From Coq Require Import Lia.
From Verif Require Import Base BaseFacts Text Win Errors Common Reply Ntlm Prog Client Spec SpecReply SpecMsg Api SpecCall SizeFacts Flow
  SpecRemote RemoteFacts RefServer RefFacts FileService FileFacts Sample P_Remote SpecCutoff CutoffFacts ResumeFacts.
Open Scope N_scope.

(** C109: a program of calls to a conforming server, on a connection that may break at any
    byte of any answer or with any request: the calls are answered as by the service itself, up
    to some point; the call at which the connection breaks reports an error of the network, the
    service has carried it out or not; the calls after it fail and the service does not see them. *)
Theorem C109_program : forall Sn Sv St (net : Sn -> bytes -> reaction Sn) (react : Sv -> bytes -> reaction Sv) inner up (B : service St) abs E
    A (f : flow A) n c st,
  unreliable net react inner up -> conforming react B abs -> sendable B n f c st ->
  forall w, cl w = c -> abs (inner (srv w)) = st -> typed_client c -> idle w -> up (srv w) -> room E c n ->
  exists k a w', (forall fuel, (k <= fuel)%nat -> run net (interp E fuel f) w = Done a w') /\ cut_off B f c st a (abs (inner (srv w'))).
Proof.
  intros Sn Sv St net react inner up B abs E A f n c st H1 H2 H3. exact (@cutoff_program _ _ _ net react inner up H1 B abs H2 E A f n c st H3).
Qed.
Print Assumptions C109_program.
(** one call: the answer of the service, or an error of the network; never another answer. *)
Theorem C109_call : forall Sn Sv St (net : Sn -> bytes -> reaction Sn) (react : Sv -> bytes -> reaction Sv) inner up (B : service St) abs E R (c : call R) w,
  unreliable net react inner up -> conforming react B abs -> typed_client (cl w) -> idle w -> up (srv w) ->
  typed c -> unambiguous c -> fits_request (use_unicode (cl w)) c -> ~ mid_full E (cl w) ->
  exists n a w', (forall fuel, (n <= fuel)%nat -> run net (exec E fuel c) w = Done a w')
  /\ (a = returned (fst (B R (uid (cl w)) (op_of c) (abs (inner (srv w))))) \/ exists e, a = Bad (ENetBios e))
  /\ (abs (inner (srv w')) = snd (B R (uid (cl w)) (op_of c) (abs (inner (srv w)))) \/ abs (inner (srv w')) = abs (inner (srv w))).
Proof.
  intros Sn Sv St net react inner up B abs E R c w H1 H2 Htc Hi Hu Hty Hun Hfit Hm.
  destruct (@cutoff_call _ _ _ net react inner up H1 B abs H2 E R c w Htc Hi Hu Hty Hun Hfit Hm)
    as (n & a & w' & Hr & _ & [(Ha & Hs & _)|[(Ha & Hs & _)|(Ha & Hs & _)]]); exists n, a, w'; (split; [exact Hr|]).
  - auto.
  - auto.
  - split; [auto|]. destruct Hs; auto.
Qed.
Print Assumptions C109_call.

(** C110: a download that keeps what it has read when the connection breaks keeps a beginning of
    the file, at least what it had before, and reports no success but with the whole file. *)
Theorem C110_kept : forall Sn Sv St (net : Sn -> bytes -> reaction Sn) (react : Sv -> bytes -> reaction Sv) inner up (B : service St) abs E
    w s path d q h over n have,
  unreliable net react inner up -> conforming react B abs -> typed_client (cl w) -> idle w -> up (srv w) ->
  file_at B (uid (cl w)) (sh_tid s) (backslashes path) d q (abs (inner (srv w))) h over ->
  u16 (sh_tid s) -> is_str path -> fits_request (use_unicode (cl w)) (OpenFile s path) -> len d < 2 ^ 64 ->
  room E (cl w) (2 + pieces (len d - len have) q) -> beginning have d -> (length d - length have < n)%nat ->
  exists k x e w', (forall fuel, (k <= fuel)%nat -> run net (interp E fuel (fetch n s path have)) w = Done (Good (x, e)) w')
    /\ beginning have x /\ beginning x d /\ (e = None -> x = d).
Proof.
  intros Sn Sv St net react inner up B abs E w s path d q h over n have H1 H2. exact (@net_fetch _ _ _ net react inner up H1 B abs H2 E w s path d q h over n have).
Qed.
Print Assumptions C110_kept.
(** On a connection that holds it gives exactly the file, and reads no more than what is missing. *)
Theorem C110_resumed : forall Sv St (react : Sv -> bytes -> reaction Sv) (B : service St) abs E w s path d q h over n have,
  conforming react B abs -> typed_client (cl w) -> idle w ->
  file_at B (uid (cl w)) (sh_tid s) (backslashes path) d q (abs (srv w)) h over ->
  u16 (sh_tid s) -> is_str path -> fits_request (use_unicode (cl w)) (OpenFile s path) -> len d < 2 ^ 64 ->
  room E (cl w) (2 + pieces (len d - len have) q) -> beginning have d -> (length d - length have < n)%nat ->
  exists k w' fs, (forall fuel, (k <= fuel)%nat -> run react (interp E fuel (fetch n s path have)) w = Done (Good (d, None)) w')
    /\ idle w' /\ over (abs (srv w')) /\ tx w' = tx w ++ fs /\ (length fs <= 2 + pieces (len d - len have) q)%nat.
Proof. intros Sv St react B abs E w s path d q h over n have H. exact (@direct_fetch _ _ react B abs H E w s path d q h over n have). Qed.
Print Assumptions C110_resumed.
(** Any number of attempts, each on a connection of its own (to servers of the same kind with
    the same file), each starting with what the one before has left: what is there is a
    beginning of the file after each of them. *)
Inductive attempts {Sn} (net : Sn -> bytes -> reaction Sn) (E : env) (fair : world cifs Sn -> share -> text -> Prop) : bytes -> bytes -> Prop :=
| attempts_none have : attempts net E fair have have
| attempts_more have w s path n fuel x e w' y : fair w s path ->
    run net (interp E fuel (fetch n s path have)) w = Done (Good (x, e)) w' ->
    attempts net E fair x y -> attempts net E fair have y.
Theorem C110_attempts : forall Sn Sv St (net : Sn -> bytes -> reaction Sn) (react : Sv -> bytes -> reaction Sv) inner up (B : service St) abs E d have x,
  unreliable net react inner up -> conforming react B abs -> len d < 2 ^ 64 ->
  attempts net E (fun w s path => typed_client (cl w) /\ idle w /\ up (srv w) /\ u16 (sh_tid s) /\ is_str path
      /\ fits_request (use_unicode (cl w)) (OpenFile s path)
      /\ exists q h over, file_at B (uid (cl w)) (sh_tid s) (backslashes path) d q (abs (inner (srv w))) h over /\ room E (cl w) (2 + pieces (len d) q)) have x ->
  beginning have d -> beginning have x /\ beginning x d.
Proof.
  intros Sn Sv St net react inner up B abs E d have x H1 H2 Hd H.
  induction H as [have|have w s path n fuel x e w' y (Htc & Hi & Hu & Hts & Hp & Hfit & q & h & over & Hf & Hr) Hrun Hy IH]; intros Hb.
  - split; [apply beginning_refl|exact Hb].
  - destruct (@attempt_kept _ _ _ net react inner up H1 B abs H2 E w s path d q h over n have fuel x e w' Htc Hi Hu Hf Hts Hp Hfit Hd Hr Hb Hrun) as (K1 & K2 & _).
    destruct (IH K2) as (K3 & K4). split; [eapply beginning_trans; eauto|exact K4].
Qed.
Print Assumptions C110_attempts.

(** a connection that breaks in the answer to the request after the first [k], after [j] bytes of it *)
Definition cable {Sv} (react : Sv -> bytes -> reaction Sv) (n : (nat * N * Sv) + Sv) (f : bytes) : reaction ((nat * N * Sv) + Sv) :=
  match n with
  | inl (S k, j, s) =>
    match react s f with
    | Accept s' inc Open => Accept (inl (k, j, s')) inc Open
    | Accept s' inc t => Accept (inr s') inc t
    | Refuse s' x e inc t => Refuse (inr s') x e inc t
    end
  | inl (O, j, s) =>
    match react s f with
    | Accept s' inc t => Accept (inr s') (take j inc) Closed
    | Refuse s' x e inc t => Refuse (inr s') x e inc Closed
    end
  | inr s => Refuse (inr s) 0 32 [] Closed
  end.
Definition server_in {Sv} (n : (nat * N * Sv) + Sv) : Sv := match n with inl (_, _, s) => s | inr s => s end.
Definition plugged {Sv} (n : (nat * N * Sv) + Sv) : Prop := match n with inl _ => True | inr _ => False end.
Example cable_unreliable : forall Sv (react : Sv -> bytes -> reaction Sv), unreliable (cable react) react server_in plugged.
Proof.
  intros Sv react. split.
  - intros [[[[|k] j] s0]|s0] f s inc Hu Hr; [| |now destruct Hu]; cbn [cable server_in] in *; rewrite Hr.
    + right. left. exists (inr s), (take j inc), (drop j inc), Closed. split; [reflexivity|]. split; [symmetry; apply take_drop|].
      split; [discriminate|]. split; [reflexivity|]. intros [].
    + left. exists (inl (k, j, s)). split; [reflexivity|]. split; [reflexivity|exact I].
  - intros [[[k j] s0]|s0] f Hu; [destruct Hu; exact I|]. cbn. split; [reflexivity|intros []].
Qed.
(** the file of 70 bytes of which 10 are there: the connection breaks 50 bytes after the
    beginning of the answer to the read; it is fetched on another one *)
Definition broken0 : world cifs ((nat * N * files) + files) := mk_world client0 (inl (1%nat, 50, files0)) [] Open [].
Example C110_example :
  (exists w', run (cable (ref_server FS0)) (interp (env0 true) 1000 (fetch 100 share0 [100; 47; 98] (repeat x2a 10))) broken0
    = Done (Good (repeat x2a 10, Some (ENetBios UnexpectedEOF))) w')
  /\ (exists w', run (ref_server FS0) (interp (env0 true) 1000 (fetch 100 share0 [100; 47; 98] (repeat x2a 10))) remote0
    = Done (Good (repeat x2a 70, None)) w' /\ length (tx w') = 3%nat).
Proof. split; [eexists; runs|]. eexists. split; [runs|]. runs. Qed.
(** the hypotheses *)
Example C110_hypotheses : typed_client (cl broken0) /\ idle broken0 /\ plugged (srv broken0)
  /\ file_at FS0 (uid (cl broken0)) (sh_tid share0) (backslashes [100; 47; 98]) (repeat x2a 70) 65534 (server_in (srv broken0)) (the_handle 5 1 70)
       (fun s => s = mk_files (fs_files files0) [] 2)
  /\ room (env0 true) (cl broken0) (2 + pieces (70 - 10) 65534) /\ beginning (repeat x2a 10) (repeat x2a 70).
Proof.
  split; [split; reflexivity|]. split; [split; reflexivity|]. split; [exact I|]. split; [exact C63_file|]. split; [intros _; vm_compute; discriminate|].
  exists (repeat x2a 60). reflexivity.
Qed.
Example C109_example : sendable FS0 (2 + pieces (70 - 10) 65534) (fetch 100 share0 [100; 47; 98] (repeat x2a 10)) client0 files0
  /\ exists k a w', (forall fuel, (k <= fuel)%nat -> run (cable (ref_server FS0)) (interp (env0 true) fuel (fetch 100 share0 [100; 47; 98] (repeat x2a 10))) broken0 = Done a w')
       /\ cut_off FS0 (fetch 100 share0 [100; 47; 98] (repeat x2a 10)) client0 files0 a (server_in (srv w')).
Proof.
  destruct C110_hypotheses as (H1 & H2 & H3 & H4 & H5 & H6).
  assert (Hs : sendable FS0 (2 + pieces (70 - 10) 65534) (fetch 100 share0 [100; 47; 98] (repeat x2a 10)) client0 files0).
  { change (70 - 10) with (len (repeat x2a 70) - len (repeat x2a 10)).
    eapply (@fetch_sendable _ FS0 7 share0 [100; 47; 98] (repeat x2a 70)); [exact H4|reflexivity|reflexivity|reflexivity|reflexivity|reflexivity|exact H6|cbn [repeat length]; lia]. }
  split; [exact Hs|].
  exact (C109_program _ _ _ (cable (ref_server FS0)) (ref_server FS0) server_in plugged FS0 (fun s => s) (env0 true) _ _ _ client0 files0
    (cable_unreliable _ _) FS0_conforming Hs broken0 eq_refl eq_refl H1 H2 H3 H5).
Qed.
(** two attempts, the second one on a connection that breaks only when the file is closed *)
Definition broken1 : world cifs ((nat * N * files) + files) := mk_world client0 (inl (2%nat, 0, files0)) [] Open [].
Example C110_attempts_example : attempts (cable (ref_server FS0)) (env0 true) (fun w s path => plugged (srv w)) (repeat x2a 10) (repeat x2a 70).
Proof.
  eapply attempts_more with (w := broken0) (s := share0) (path := [100; 47; 98]) (n := 100%nat) (fuel := 1000%nat); [exact I|runs|].
  eapply attempts_more with (w := broken1) (s := share0) (path := [100; 47; 98]) (n := 100%nat) (fuel := 1000%nat); [exact I|runs|].
  apply attempts_none.
Qed.
