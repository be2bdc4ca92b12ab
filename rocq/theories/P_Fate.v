(** * What becomes of a call, in every case: C101 *)
From Coq Require Import Lia.
From Verif Require Import Base BaseFacts Text Win Errors Info Common Reply Ntlm Prog Client Spec SpecReply SpecCrash SpecNtlm SpecMsg
  Api SpecCall Flow Sample Witness SpecFault SpecBlame SpecLogin CallFacts FlowFacts P_Download P_Limits SpecWhy SpecFate FateFacts.
Open Scope N_scope.

(** C101: [fate] (SpecFate.v) is what a call does: with a bound large enough (a bound that is
    too small is no outcome of the code), for all servers and all worlds. *)
Theorem C101_call : forall Sv (react : Sv -> bytes -> reaction Sv) E R (c : call R) w o, (forall w', o <> Starved w') ->
  ((exists fuel, run react (exec E fuel c) w = o) <-> fate react E c w o).
Proof. exact call_fate. Qed.
Print Assumptions C101_call.
(** One of the four cases holds, *)
Theorem C101_cases : forall Sv (react : Sv -> bytes -> reaction Sv) E R (c : call R) w,
  (exists v w', answers react E c w v w') \/ (exists e w', fails react E c w e w')
  \/ (exists w', panics react E c w w') \/ (exists w', stalls react E c w w').
Proof. exact four_fates. Qed.
Print Assumptions C101_cases.
(** and only one, in one way. *)
Theorem C101_one : forall Sv (react : Sv -> bytes -> reaction Sv) E R (c : call R) w o o',
  fate react E c w o -> fate react E c w o' -> o = o'.
Proof. exact fate_one. Qed.
Print Assumptions C101_one.
(** In particular a call waits exactly as long as its reply is not complete and the stream is
    open. *)
Theorem C101_waits : forall Sv (react : Sv -> bytes -> reaction Sv) E R (c : call R) w w',
  (exists fuel, run react (exec E fuel c) w = Blocked w') <-> stalls react E c w w'.
Proof. intros. rewrite stalls_iff. apply call_fate. discriminate. Qed.
Print Assumptions C101_waits.
(** Sequences of calls: any program of the user, whatever it makes of answers and errors. *)
Theorem C101_program : forall Sv (react : Sv -> bytes -> reaction Sv) E A (f : flow A) w o, (forall w', o <> Starved w') ->
  ((exists fuel, run react (interp E fuel f) w = o) <-> flow_fate react E f w o).
Proof. exact flow_fate_iff. Qed.
Print Assumptions C101_program.
(** download and list: which call was the last, and what of it is the result. *)
Theorem C101_download : forall Sv (react : Sv -> bytes -> reaction Sv) E s path w o, (forall w', o <> Starved w') ->
  ((exists fuel, run react (download E fuel s path) w = o) <-> download_fate react E s path w o).
Proof. exact download_fate_iff. Qed.
Print Assumptions C101_download.
Theorem C101_list : forall Sv (react : Sv -> bytes -> reaction Sv) E s pattern w o, (forall w', o <> Starved w') ->
  ((exists fuel, run react (list_dir E fuel s pattern) w = o) <-> list_fate react E s pattern w o).
Proof. exact list_fate_iff. Qed.
Print Assumptions C101_list.
(** Otherwise they call for ever. *)
Theorem C101_download_never : forall Sv (react : Sv -> bytes -> reaction Sv) E s path w,
  (forall o, ~ download_fate react E s path w o) <-> reads_for_ever react E s path w.
Proof. exact download_no_fate. Qed.
Print Assumptions C101_download_never.
Theorem C101_list_never : forall Sv (react : Sv -> bytes -> reaction Sv) E s pattern w,
  (forall o, ~ list_fate react E s pattern w o) <-> finds_for_ever react E s pattern w.
Proof. exact list_no_fate. Qed.
Print Assumptions C101_list_never.

(** the four: a close that is answered; refused by the server; after the last id; with half of
    the reply there *)
Example C101_example :
  (exists w', answers script (env0 true) (Close handle0) (world0 [closed_reply 3]) tt w')
  /\ (exists w', fails script (env0 true) (Close handle0) (world0 [session_message (message 0x04 0xc0000008 3 [] [])])
       (ServerError (status_of_code 0xc0000008)) w')
  /\ (exists w', panics script (env0 true) (Close handle0) (mk_world (mk_cifs default_auth 4356 true 7 65535) [closed_reply 65535] [] Open []) w')
  /\ (exists w', stalls script (env0 true) (Close handle0) (world0 [take 20 (closed_reply 3)]) w').
Proof.
  split; [eexists; apply answers_iff, C101_call; [discriminate|exists 1000%nat; runs]|].
  split; [eexists; apply fails_iff, C101_call; [discriminate|exists 1000%nat; runs]|].
  split; [eexists; apply panics_iff, C101_call; [discriminate|exists 1000%nat; runs]|].
  eexists; apply stalls_iff, C101_call; [discriminate|exists 1000%nat; runs].
Qed.
(** a download of which everything was read, but the close failed: an error, no data; and one
    that waits for the second read *)
Example C101_download_example :
  (exists w', download_fate script (env0 true) share0 [97] (world0 [opened_reply 3 2; read_reply 4 [x68; x65]; session_message (message 0x04 0xc0000022 5 [] [])])
    (Done (Bad (ServerError (Known ACCESS_DENIED))) w'))
  /\ (exists w', download_fate script (env0 true) share0 [97] (world0 [opened_reply 3 5; read_reply 4 [x68; x65]]) (Blocked w')).
Proof.
  split; (eexists; apply C101_download; [discriminate|exists 1000%nat; runs]).
Qed.
Example C101_list_example : exists w' l, list_fate script (env0 true) share0 [42] (world0 two_batches) (Done (Good l) w') /\ length l = 4%nat.
Proof. do 2 eexists. split; [apply C101_list; [discriminate|exists 1000%nat; runs]|reflexivity]. Qed.
(** both go on for ever with the servers of C29 and C65 *)
Example C101_never_example :
  (exists Sv (react : Sv -> bytes -> reaction Sv) w s path, reads_for_ever react (env0 false) s path w)
  /\ (exists Sv (react : Sv -> bytes -> reaction Sv) w s pattern, finds_for_ever react (env0 false) s pattern w).
Proof.
  split.
  - destruct C29_refuted as (Sv & react & w & s & path & H). exists Sv, react, w, s, path. apply download_starves. intros fuel.
    destruct (H (200 + fuel)%nat ltac:(lia)) as (w1 & H1 & _).
    destruct (run react (download (env0 false) fuel s path) w) as [a w'|w'|w'|w'] eqn:Hr; [exfalso..|eauto];
      (apply (@download_stays _ _ _ _ _ _ _ fuel (200 + fuel)) in Hr; [rewrite H1 in Hr; discriminate Hr|discriminate|lia]).
  - destruct C65_refuted as (Sv & react & w & s & path & H). exists Sv, react, w, s, path. apply list_starves. intros fuel.
    destruct (H (300 + fuel)%nat ltac:(lia)) as (w1 & H1 & _).
    destruct (run react (list_dir (env0 false) fuel s path) w) as [a w'|w'|w'|w'] eqn:Hr; [exfalso..|eauto];
      (apply (@list_stays _ _ _ _ _ _ _ fuel (300 + fuel)) in Hr; [rewrite H1 in Hr; discriminate Hr|discriminate|lia]).
Qed.
