(** * Properties C96, C97: calls that are given up (timeouts). *)
From Verif Require Import Base Text Win Errors Common Reply Ntlm Prog Client Spec SpecReply SpecMsg Api SpecCall
  Flow SpecRemote RefServer RefFacts FileService SpecDrop SpecTimeout TimeoutFacts SpecWatch JournalService WatchFacts Sample P_Remote P_Watch.
Open Scope N_scope.

(** C96: on a conforming server that sends replies only to the requests it has got, a program that
    gives up some of its calls - before the request is written, or between two messages while it waits
    - does what it would do directly on the service, where a call given up has either been carried
    out once or not at all.  Late replies are mistaken for nothing. *)
Theorem C96_at_most_once : forall Sv St (react : Sv -> bytes -> reaction Sv) (B : service St) abs E A (p : tprog A) w n a w',
  conforming react B abs -> prompt react -> typed_client (cl w) -> idle w ->
  sensible B (uid (cl w)) (use_unicode (cl w)) p (abs (srv w)) -> mid (cl w) + N.of_nat n <= 65535 ->
  times react E p w n a w' -> tlocal B (uid (cl w)) p (abs (srv w)) a (abs (srv w')).
Proof. intros Sv St react B abs E A p w n a w' H H0. exact (@at_most_once _ _ react B abs H H0 E A p w n a w'). Qed.
Print Assumptions C96_at_most_once.

(** Afterwards the connection works: the next call returns, with the service's answer to it. *)
Theorem C96_goes_on : forall Sv St (react : Sv -> bytes -> reaction Sv) (B : service St) abs E A (p : tprog A) w n a w' R (c : call R),
  conforming react B abs -> prompt react -> typed_client (cl w) -> idle w ->
  sensible B (uid (cl w)) (use_unicode (cl w)) p (abs (srv w)) -> mid (cl w) + N.of_nat n < 65535 ->
  times react E p w n a w' -> typed c -> unambiguous c -> fits_request (use_unicode (cl w)) c ->
  exists k w2, (forall fuel, (k <= fuel)%nat -> run react (exec E fuel c) w'
      = Done (returned (fst (B R (uid (cl w)) (op_of c) (abs (srv w'))))) w2) /\ idle w2.
Proof. intros Sv St react B abs E A p w n a w' R c H H0. exact (@goes_on _ _ react B abs H H0 E A p w n a w' R c). Qed.
Print Assumptions C96_goes_on.

(** So does every program of calls after it: it does what it does locally. *)
Theorem C96_program : forall Sv St (react : Sv -> bytes -> reaction Sv) (B : service St) abs E A (p : tprog A) w n a w' X (f : flow X) m b c' st',
  conforming react B abs -> prompt react -> typed_client (cl w) -> idle w ->
  sensible B (uid (cl w)) (use_unicode (cl w)) p (abs (srv w)) -> mid (cl w) + N.of_nat (n + m) <= 65535 ->
  times react E p w n a w' -> local B f (cl w') (abs (srv w')) m b c' st' ->
  exists k w2, (forall fuel, (k <= fuel)%nat -> run react (interp E fuel f) w' = Done b w2) /\ cl w2 = c' /\ abs (srv w2) = st'.
Proof. intros Sv St react B abs E A p w n a w' X f m b c' st' H H0. exact (@goes_on_program _ _ react B abs H H0 E A p w n a w' X f m b c' st'). Qed.
Print Assumptions C96_program.

(** Every call can be given up in both ways. *)
Theorem C96_both : forall Sv (react : Sv -> bytes -> reaction Sv) E fuel R (c : call R) w f, request (exec E fuel c) (cl w) = Some f ->
  given_up react E c w (mk_world (next_client (cl w)) (srv w) (rx w) (tl w) (tx w))
  /\ forall s inc, tl w = Open -> 0 < len f -> react (srv w) f = Accept s inc Open ->
     given_up react E c w (mk_world (next_client (cl w)) s (rx w ++ inc) Open (tx w ++ [f])).
Proof. exact gives_up. Qed.
Print Assumptions C96_both.
(** There is such a server for every service whose answers can be written down. *)
Theorem C96_server : forall St (B : service St), proper B -> prompt (ref_server B).
Proof. exact ref_prompt. Qed.
Print Assumptions C96_server.

(** example: a file is deleted, and the answer not waited for; then it is opened *)
Definition hasty : tprog (option (ans unit) * ans handle) :=
  TTry (Delete share0 [97]) (fun r => TCall (OpenFile share0 [97]) (fun h => TRet (r, h))).
Example C96_sensible : sensible FS0 7 true hasty files0.
Proof. vm_compute. repeat split. Qed.
Example C96_example : exists w', times (ref_server FS0) (env0 true) hasty remote0 2 (None, Bad (ServerError (Known NAME_NOT_FOUND))) w'
  /\ contents (fs_files (srv w')) 5 [97] = None /\ length (tx w') = 2%nat.
Proof.
  destruct (request (exec (env0 true) 1000 (Delete share0 [97])) client0) as [f|] eqn:Hf; [|vm_compute in Hf; discriminate].
  pose proof (proj2 (@gives_up _ (ref_server FS0) (env0 true) 1000 _ (Delete share0 [97]) remote0 f Hf)) as H.
  vm_compute in Hf. injection Hf as <-. eexists. split; [|split].
  - eapply t_given_up; [apply H; [reflexivity|reflexivity|vm_compute; reflexivity]|].
    eapply t_call with (fuel := 1000%nat); [vm_compute; reflexivity|]. apply t_ret.
  - vm_compute. reflexivity.
  - reflexivity.
Qed.
(** what C96 says about it *)
Example C96_local : tlocal FS0 7 hasty files0 (None, Bad (ServerError (Known NAME_NOT_FOUND)))
  (mk_files [(5, [100; 92; 98], repeat x2a 70)] [] 1).
Proof. vm_compute. right. left. split; reflexivity. Qed.

(** C97: a program that watches a directory and gives up waiting from time to time.  (Full
    statement: no change is lost without an error.)  Only the answers to questions that were given
    up are missing, everything else is reported, once and in order. *)
Theorem C97_partial : forall Sv (react : Sv -> bytes -> reaction Sv) setup abs E w s path mode n m a w',
  conforming react (journal_service setup) abs -> prompt react -> typed_client (cl w) -> idle w -> j_open (abs (srv w)) = false ->
  u16 (sh_tid s) -> is_str path -> mode < 2 ^ 32 -> fits_request (use_unicode (cl w)) (OpenDir s path) ->
  Forall (fun l => tellable l = true) (j_future (abs (srv w))) -> mid (cl w) + N.of_nat m <= 65535 ->
  times react E (patient s path mode n) w m a w' ->
  exists got, a = Good got /\ length got = n /\ all_but_given_up got (j_future (abs (srv w))) /\ j_open (abs (srv w')) = false.
Proof.
  intros Sv react setup abs E w s path mode n m a w' H H0 H1 H2 H3 H4 H5 H6 H7 H8 H9 H10.
  eapply journal_patient; [exact H3|exact H8|]. eapply C96_at_most_once; [exact H|exact H0|exact H1|exact H2| |exact H9|exact H10].
  now apply patient_sensible.
Qed.
Print Assumptions C97_partial.

(** The full statement is false: here the first question is given up, the second is answered; the
    changes told in the answer to the first (which comes late, and is skipped) are lost, although the
    server could tell everything. *)
Theorem C97_refuted : exists w',
  conforming (ref_server (journal_service setup0)) (journal_service setup0) (fun s => s) /\ prompt (ref_server (journal_service setup0))
  /\ Forall (fun l => tellable l = true) (j_future (srv (watched0 journal0)))
  /\ times (ref_server (journal_service setup0)) (env0 true) (patient share0 [100; 47; 101] ALL_CHANGES 2) (watched0 journal0) 4
    (Good [None; Some (Good [([97], REMOVED)])]) w'
  /\ j_all (srv w') = [([97], ADDED); ([98], MODIFIED); ([97], REMOVED)].
Proof.
  pose (w1 := match run (ref_server (journal_service setup0)) (exec (env0 true) 1000 (OpenDir share0 [100; 47; 101])) (watched0 journal0) with
              | Done _ w => w | _ => watched0 journal0 end).
  destruct (request (exec (env0 true) 1000 (NotifyAbout dir_handle ALL_CHANGES)) (cl w1)) as [f|] eqn:Hf; [|vm_compute in Hf; discriminate].
  pose proof (proj2 (@gives_up _ (ref_server (journal_service setup0)) (env0 true) 1000 _ (NotifyAbout dir_handle ALL_CHANGES) w1 f Hf)) as H.
  vm_compute in Hf. injection Hf as <-. eexists.
  split; [exact C95_conforming|]. split; [apply C96_server, journal_proper; repeat split|]. split; [repeat constructor|]. split.
  - eapply t_call with (fuel := 1000%nat) (w1 := w1); [vm_compute; reflexivity|]. cbn [try_notify].
    eapply t_given_up; [apply H; [reflexivity|reflexivity|vm_compute; reflexivity]|].
    eapply t_done with (fuel := 1000%nat); [vm_compute; reflexivity|].
    eapply t_call with (fuel := 1000%nat); [vm_compute; reflexivity|]. apply t_ret.
  - vm_compute. reflexivity.
Qed.
Print Assumptions C97_refuted.
