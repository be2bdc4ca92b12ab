(** * Property C73: different operations are different on the wire. *)
From Verif Require Import Base Text Win Errors Common Reply Ntlm Prog Client Spec SpecReply SpecMsg Api SpecCall
  MsgFacts SizeFacts Flow SpecRemote WireFacts Sample.
Open Scope N_scope.

(** C73: two calls, made by any two clients in any states, that send the same bytes ask for the
    same operation on the same ids, under the same user id and message number, in the same
    character set. *)
Theorem C73_unambiguous : forall E fuel R (c : call R) st E' fuel' R' (c' : call R') st' f,
  typed_client st -> typed_client st' -> typed c -> typed c' -> unambiguous c -> unambiguous c' ->
  request (exec E fuel c) st = Some f -> request (exec E' fuel' c') st' = Some f ->
  existT op R (op_of c) = existT op R' (op_of c') /\ uid st = uid st' /\ mid st = mid st' /\ use_unicode st = use_unicode st'.
Proof. exact request_op. Qed.
Print Assumptions C73_unambiguous.
(** And nothing else gets onto the wire: operation, user id, message number and character set
    determine the bytes; not the password or workstation of the client, not the remaining fields
    of share or handle. *)
Theorem C73_determined : forall E fuel R (c : call R) st E' fuel' R' (c' : call R') st',
  existT op R (op_of c) = existT op R' (op_of c') ->
  overflow_checks E = overflow_checks E' -> uid st = uid st' -> mid st = mid st' -> use_unicode st = use_unicode st' ->
  request (exec E fuel c) st = request (exec E' fuel' c') st'.
Proof. exact op_request. Qed.
Print Assumptions C73_determined.

(** examples: a request and the facts about it; two calls with the same bytes; two calls
    that differ in one argument *)
Definition sent {R} (c : call R) : option bytes := request (exec (env0 true) 0 c) client0.
Example C73_ex : typed_client client0 /\ typed (MountPassword [92; 92; 104; 92; 115] [0]) /\ typed (Mount [47; 47; 104; 47; 115])
  /\ unambiguous (Mount [47; 47; 104; 47; 115]) /\ (exists f, sent (Mount [47; 47; 104; 47; 115]) = Some f)
  /\ sent (MountPassword [92; 92; 104; 92; 115] [0]) = sent (Mount [47; 47; 104; 47; 115])
  /\ op_of (MountPassword [92; 92; 104; 92; 115] [0]) = op_of (Mount [47; 47; 104; 47; 115]).
Proof.
  split; [vm_compute; auto|]. split; [split; reflexivity|]. split; [reflexivity|]. split; [exact I|].
  split; [eexists; vm_compute; reflexivity|]. split; vm_compute; reflexivity.
Qed.
Example C73_differ : sent (OpenFile share0 [97]) <> sent (OpenDir share0 [97]) /\ sent (Delete share0 [97]) <> sent (Rmdir share0 [97])
  /\ sent (Delete share0 [97]) <> sent (Delete share0 [98]) /\ sent (ReadAt handle0 0) <> sent (ReadAt handle0 1).
Proof. vm_compute. repeat split; discriminate. Qed.
(** The hypothesis on user and domain is needed: user "a" NUL "b" in no domain is sent as user
    "a" in domain "b" with an extra NUL, which is where the native OS is expected. *)
Example C73_nul : SetupAuth [97; 0; 98] [] [x01] <> SetupAuth [97] [98; 0] [x01]
  /\ sent (SetupAuth [97; 0; 98] [] [x01]) = sent (SetupAuth [97] [98; 0] [x01])
  /\ exists f, sent (SetupAuth [97; 0; 98] [] [x01]) = Some f.
Proof. split; [discriminate|]. split; [vm_compute; reflexivity|]. eexists. vm_compute. reflexivity. Qed.
