(** * SpecLengths: what can be seen without looking into the messages (C91).

    Who sees only how many messages go by, in which direction and how long they are (the
    traffic through an encrypted tunnel, the lines written by tracing). *)
From Verif Require Import Base Text Win Errors Common Reply Ntlm Prog Client Spec.
Open Scope N_scope.

(** a peer that reacts to the lengths only *)
Definition counting {Sv} (react : Sv -> bytes -> reaction Sv) : Prop :=
  forall s b b', len b = len b' -> react s b = react s b'.
(** credentials equal but for the password *)
Definition same_name (a b : auth) : Prop :=
  a_user a = a_user b /\ a_workstation a = a_workstation b /\ a_domain a = a_domain b.
(** machines with the same clock and build; hash functions and random numbers may differ *)
Definition same_clock (E F : env) : Prop := now E = now F /\ overflow_checks E = overflow_checks F.
Definition lookalike (c d : cifs) : Prop :=
  same_name (auth_of c) (auth_of d) /\ max_smb_size c = max_smb_size d /\ use_unicode c = use_unicode d
  /\ uid c = uid d /\ mid c = mid d.
(** the same but for what is in the messages sent *)
Definition lookalikes {Sv} (w v : world cifs Sv) : Prop :=
  lookalike (cl w) (cl v) /\ srv w = srv v /\ rx w = rx v /\ tl w = tl v /\ map len (tx w) = map len (tx v).
Definition same_look {Sv A} (o q : outcome cifs Sv A) : Prop :=
  match o, q with
  | Done a w, Done b v => a = b /\ lookalikes w v
  | Blocked w, Blocked v | Crashed w, Crashed v | Starved w, Starved v => lookalikes w v
  | _, _ => False
  end.
