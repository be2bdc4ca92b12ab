(** * SpecTrust: a server in the middle.  It passes logins on to another service, and
    nothing else; what it shows at negotiation it chooses itself. *)
From Verif Require Import Base Text Win Errors Common Reply Ntlm Prog Client Spec SpecReply SpecMsg Api SpecCall Flow SpecRemote.
Open Scope N_scope.

Definition middle {St} (shown : server_setup) (B : service St) : service St := fun R who o st =>
  match o in op R return (R + N) * St with
  | ONegotiate => (inl shown, st)
  | OSetupAuth user domain secret => B _ who (OSetupAuth user domain secret) st
  | OSetupBlob blob => B _ who (OSetupBlob blob) st
  | _ => (inr 0xc0000022, st) (* access denied *)
  end.
(** announcements of a server: bits of its capabilities (MS-CIFS 2.2.4.52.2) and security mode *)
Definition has_nt_commands (s : server_setup) : bool := N.testbit (s_capabilities s) 4.
Definition requires_signatures (s : server_setup) : bool := N.testbit (s_security_mode s) 3.
(** the signature field of a message, and the flag saying that there is one *)
Definition signed (p : bytes) : Prop :=
  bytes_at p 14 8 <> Some (zeros 8) \/ exists flags2, u16_at p 10 = Some flags2 /\ N.testbit flags2 2 = true.
