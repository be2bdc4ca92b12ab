(** * Passwords of shares: C105 *)
From Verif Require Import Base Text Win Errors Info Common Reply Ntlm Prog Client Spec SpecReply SpecMsg Api SpecCall Flow Sample
  RunFacts SpecClear ClearFacts P_Ntlm P_Open.
Open Scope N_scope.

(** C105: the password given with a mount cannot be read by whoever sees the connection.  (Missing:
    this is so only if there is none: then the request is that of mount without password.) *)
Theorem C105_partial : forall E fuel path, exec E fuel (MountPassword path []) = exec E fuel (Mount path).
Proof. exact mount_empty. Qed.
Print Assumptions C105_partial.
(** Otherwise it can be read in every such request, whatever the server has announced, ... *)
Theorem C105_shows : forall E fuel st path password f, typed_client st -> typed (MountPassword path password) -> password <> [] ->
  request (exec E fuel (MountPassword path password)) st = Some f -> shows_password f password.
Proof. exact mount_shows. Qed.
Print Assumptions C105_shows.
(** ... and without a doubt. *)
Theorem C105_one : forall f a b, shows_password f a -> shows_password f b -> a = b.
Proof. exact shows_one. Qed.
Print Assumptions C105_one.
Example C105_example : typed_client client0 /\ typed (MountPassword [92; 97] [115; 228]) /\
  exists f, request (exec (env0 true) 5 (MountPassword [92; 97] [115; 228])) client0 = Some f /\ bytes_at f 47 3 = Some [x73; xc3; xa4].
Proof. split; [split; vm_compute; reflexivity|]. split; [split; vm_compute; reflexivity|]. eexists. split; runs. Qed.

(** a server that wants users to log in and passwords encrypted (security mode 3) *)
Definition shared : bytes := session_message (message 0x75 0 3 ([xff; x00; x00; x00] ++ le 2 0) [x41; x3a; x00; x4e; x00; x00; x00]).
Theorem C105_refuted : exists w' s w'' fs f,
  open (env0 true) _ (at_port 445 (server_v2 0 ++ [shared])) script 400 None (Some alice) = ([445], OnStream (Done (Good tt) w'))
  /\ u8_at (negotiated 0x80000004) 39 = Some 3
  /\ run script (exec (env0 true) 400 (MountPassword [92; 92; 104; 92; 115] [115; 51; 99])) w' = Done (Good s) w''
  /\ tx w'' = fs ++ [f] /\ shows_password f [115; 51; 99].
Proof.
  eexists. eexists. eexists. eexists (_ :: _ :: _ :: []). eexists. split; [runs|]. split; [runs|]. split; [runs|].
  split; [cbn [tx app]; reflexivity|]. split; [runs|]. exists 3, [x73; x33; x63]. split; [runs|]. split; [runs|].
  apply TextFacts.utf8_decode_iff. runs.
Qed.
Print Assumptions C105_refuted.
