(** * Properties C85 and C86: debug and release builds; what depends on clock, random numbers and
    cryptography *)
From Verif Require Import Base Text Win Errors Common Reply Ntlm Prog Client Spec SpecReply SpecNtlm Api SpecCall Flow FlowFacts
  Sample Witness SpecBuild BuildFacts.
Open Scope N_scope.

(** C85: a call in a debug build does what it does in a release build, with every server, as long
    as the message number is not the last one. *)
Theorem C85_call : forall Sv (react : Sv -> bytes -> reaction Sv) E fuel R (c : call R) w, mid (cl w) < 65535 ->
  run react (exec (debug E) fuel c) w = run react (exec (release E) fuel c) w.
Proof. intros Sv react. exact (@builds_call Sv react). Qed.
Print Assumptions C85_call.
Definition at_mid (m : N) (answers : list bytes) : world cifs (list bytes) :=
  mk_world (mk_cifs default_auth 4356 true 7 m) answers [] Open [].
Example C85_call_ex : mid (cl (at_mid 65534 [])) < 65535
  /\ exists w', run script (exec (debug (env0 true)) 200 (Close handle0)) (at_mid 65534 [session_message (message 0x04 0 65534 [] [])])
     = Done (Good tt) w' /\ mid (cl w') = 65535.
Proof. split; [reflexivity|]. eexists. split; runs. Qed.

(** Every program does the same in both builds, or the debug build panics with the message
    numbers used up. *)
Theorem C85_program : forall Sv (react : Sv -> bytes -> reaction Sv) E fuel A (f : flow A) w,
  run react (interp (debug E) fuel f) w = run react (interp (release E) fuel f) w
  \/ exists w', run react (interp (debug E) fuel f) w = Crashed w' /\ 65535 <= mid (cl w').
Proof. intros Sv react. exact (@builds_program Sv react). Qed.
Print Assumptions C85_program.
Theorem C85_functions : forall Sv (react : Sv -> bytes -> reaction Sv) E fuel w,
  (forall s path, run react (download (debug E) fuel s path) w = run react (download (release E) fuel s path) w
    \/ exists w', run react (download (debug E) fuel s path) w = Crashed w' /\ 65535 <= mid (cl w'))
  /\ (forall s pattern, run react (list_dir (debug E) fuel s pattern) w = run react (list_dir (release E) fuel s pattern) w
    \/ exists w', run react (list_dir (debug E) fuel s pattern) w = Crashed w' /\ 65535 <= mid (cl w')).
Proof. exact builds_functions. Qed.
Print Assumptions C85_functions.
(** In particular if it makes few enough calls. *)
Theorem C85_bounded : forall Sv (react : Sv -> bytes -> reaction Sv) E fuel A n (f : flow A), at_most n f ->
  forall w, mid (cl w) + N.of_nat n <= 65535 ->
  run react (interp (debug E) fuel f) w = run react (interp (release E) fuel f) w.
Proof. intros Sv react. exact (@builds_at_most Sv react). Qed.
Print Assumptions C85_bounded.
Example C85_bounded_ex : at_most 2 (FCall (Close handle0) (fun r => match r with
    | Good _ => FCall (OpenFile share0 [97]) (fun _ => FRet (Good tt)) | Bad e => FRet (Bad e) end))
  /\ mid (cl (world0 [])) + N.of_nat 2 <= 65535.
Proof. split; [|vm_compute; discriminate]. constructor. intros [u|e]; repeat constructor. Qed.

(** open does the same in both builds (while times fit their 64 bits). *)
Theorem C85_open : forall Sv (react : Sv -> bytes -> reaction Sv) E t net fuel port a, clock E t ->
  open (debug E) Sv net react fuel port a = open (release E) Sv net react fuel port a.
Proof. intros Sv react. exact (@builds_open Sv react). Qed.
Print Assumptions C85_open.
Example C85_open_ex : clock (env0 true) 0.
Proof. repeat split. vm_compute. discriminate. Qed.

(** With the last message number the debug build panics, whatever the call, and the release build
    goes on. *)
Theorem C85_last : forall Sv (react : Sv -> bytes -> reaction Sv) E fuel R (c : call R) w, mid (cl w) = 65535 ->
  run react (exec (debug E) fuel c) w = Crashed w.
Proof. intros Sv react. exact (@debug_full Sv react). Qed.
Print Assumptions C85_last.
Theorem C85_refuted : exists E fuel (c : call unit) w w', mid (cl w) = 65535
  /\ run script (exec (debug E) fuel c) w = Crashed w /\ run script (exec (release E) fuel c) w = Done (Good tt) w'.
Proof.
  exists (env0 true), 200%nat, (Close handle0), (at_mid 65535 [session_message (message 0x04 0 65535 [] [])]).
  eexists. split; [reflexivity|]. split; runs.
Qed.
Print Assumptions C85_refuted.

(** C86: after open nothing depends on the clock, the random numbers, the cryptographic functions
    or the case tables: in two environments that differ in all of these (same build) every
    program does the same, with every server. *)
Theorem C86_program : forall E1 E2 fuel A (f : flow A), overflow_checks E1 = overflow_checks E2 ->
  same_prog (interp E1 fuel f) (interp E2 fuel f).
Proof. intros E1 E2 fuel A f H Sv react w. exact (other_env react fuel f w H). Qed.
Print Assumptions C86_program.
Theorem C86_download : forall E1 E2 fuel s path, overflow_checks E1 = overflow_checks E2 ->
  same_prog (download E1 fuel s path) (download E2 fuel s path).
Proof. exact download_env. Qed.
Print Assumptions C86_download.
Theorem C86_list : forall E1 E2 fuel s pattern, overflow_checks E1 = overflow_checks E2 ->
  same_prog (list_dir E1 fuel s pattern) (list_dir E2 fuel s pattern).
Proof. exact list_env. Qed.
Print Assumptions C86_list.
(** another time, another nonce, other hash functions *)
Definition env1 : env :=
  mk_env (fun b => firstn 16 (b ++ repeat x00 16)) (fun b => firstn_ext b 16) (fun _ _ => repeat x23 16) (fun _ _ => eq_refl)
    (fun _ _ => repeat x34 8) (fun _ _ => eq_refl) (fun s => s) (fun _ H => H)
    1000000000%Z (repeat x45 8) eq_refl true.
Example C86_ex : overflow_checks env1 = overflow_checks (env0 true) /\ now env1 <> now (env0 true) /\ rnd env1 <> rnd (env0 true).
Proof. split; [reflexivity|]. split; discriminate. Qed.
