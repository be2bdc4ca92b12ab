(** * Property C91: the lengths of the messages give nothing away about the password. *)
From Coq Require Import String.
From Verif Require Import Base Text Win Errors Common Reply Ntlm Prog Client Spec SpecReply SpecNtlm Api Flow Sample SpecLogin
  SpecUri SpecLengths LengthsFacts Crypto Tests P_Open.
Open Scope N_scope.
Open Scope list_scope.

(** C91: two clients with the same names but any passwords, random numbers and hash functions:
    at a peer that reacts to lengths only, open tries the same ports, sends as many messages of
    the same lengths, and has the same result. *)
Theorem C91_open : forall Sv (react : Sv -> bytes -> reaction Sv) E F (net : N -> connection Sv) fuel port a b, counting react ->
  same_clock E F -> same_name a b ->
  match open E Sv net react fuel port (Some a), open F Sv net react fuel port (Some b) with
  | (p, NoConnection e), (q, NoConnection e') => p = q /\ e = e'
  | (p, OnStream o), (q, OnStream o') => p = q /\ same_look o o'
  | _, _ => False
  end.
Proof. intros Sv react E F net fuel port a b H. exact (@open_look Sv react H E F net fuel port a b). Qed.
Print Assumptions C91_open.
(** ... and so has everything the user does afterwards. *)
Theorem C91_later : forall Sv (react : Sv -> bytes -> reaction Sv) E F fuel A (p : flow A) w v, counting react -> same_clock E F ->
  user p -> lookalikes w v -> same_look (run react (interp E fuel p) w) (run react (interp F fuel p) v).
Proof. intros Sv react E F fuel A p w v H. exact (@later_look Sv react H E F fuel A p w v). Qed.
Print Assumptions C91_later.

(** examples: logins with the hash functions of the tests, and with other passwords and random
    numbers; the lengths are the same, the messages are not *)
Definition env1' : env :=
  mk_env md4_hash (fun b => output_len _) hmac_md5 (fun k b => output_len _) des_encrypt des_encrypt_len
    upper_ascii upper_ascii_text 12700317600000000000%Z (hex "0102030405060708") eq_refl true.
Definition user1' : auth := mk_auth (a_user user1) (a_workstation user1) (a_domain user1) (txt "a much longer password").
Definition sent (o : list N * opened (list bytes)) : list bytes :=
  match snd o with OnStream (Done _ w) => tx w | _ => [] end.
Example C91_hypotheses : counting script /\ same_clock env1 env1' /\ same_name user1 user1'.
Proof. split; [intros s b b' _; reflexivity|]. repeat split. Qed.
Example C91_run_v2 :
  let l := sent (open env1 _ (at_port 445 (server_v2 0)) script 400 None (Some user1)) in
  let r := sent (open env1' _ (at_port 445 (server_v2 0)) script 400 None (Some user1')) in
  map len l = map len r /\ length l = 3%nat /\ l <> r.
Proof. cbv zeta. split; [vm_compute; reflexivity|]. split; [vm_compute; reflexivity|]. vm_compute. discriminate. Qed.
Example C91_run_v1 :
  let l := sent (open env1 _ (at_port 445 server_v1) script 400 None (Some user1)) in
  let r := sent (open env1' _ (at_port 445 server_v1) script 400 None (Some user1')) in
  map len l = map len r /\ length l = 2%nat /\ l <> r.
Proof. cbv zeta. split; [vm_compute; reflexivity|]. split; [vm_compute; reflexivity|]. vm_compute. discriminate. Qed.
