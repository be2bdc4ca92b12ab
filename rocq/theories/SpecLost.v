(** * SpecLost: a connection whose stream has ended (C108).

    What was not read yet is still there; nothing is added. *)
From Verif Require Import Base Text Win Errors Common Reply Ntlm Prog Client Spec SpecReply SpecCrash SpecNtlm SpecMsg
  Api SpecCall Flow SpecFault SpecBlame SpecLogin SizeFacts SpecWhy SpecFate.
Open Scope N_scope.

(** the peer has closed the stream, or it is broken *)
Definition lost {Sv} (w : world cifs Sv) : Prop := tl w <> Prog.Open.
(** and what is left to be read is no whole frame *)
Definition silent {Sv} (w : world cifs Sv) : Prop := lost w /\ incomplete (rx w).

Section Server.
Context {Sv : Type}.
Variable react : Sv -> bytes -> reaction Sv.
Notation world := (world cifs Sv).
Variable E : env.

(** a sequence of calls of which [n] are answered, as [flow_fate] *)
Fixpoint carried {A} (f : flow A) (w : world) (n : N) (o : outcome cifs Sv (ans A)) : Prop :=
  match f with
  | FRet a => n = 0 /\ o = Done a w
  | FPanic => n = 0 /\ o = Crashed w
  | FFuel => False
  | FCall c k => (exists v w' m, answers react E c w v w' /\ n = m + 1 /\ carried (k (Good v)) w' m o)
      \/ (exists e w', fails react E c w e w' /\ carried (k (Bad e)) w' n o)
      \/ (exists w', panics react E c w w' /\ n = 0 /\ o = Crashed w') \/ (exists w', stalls react E c w w' /\ n = 0 /\ o = Blocked w')
  | FState k => carried (k (cl w)) w n o
  | FUid u k => carried k (mk_world (set_uid u (cl w)) (srv w) (rx w) (tl w) (tx w)) n o
  | FOptions m u k => carried k (mk_world (set_options m u (cl w)) (srv w) (rx w) (tl w) (tx w)) n o
  end.

(** why a call fails when nothing can arrive any more: the request cannot be built; it cannot
    be written; the stream ends where the reply should be *)
Inductive cause {R} (c : call R) (w : world) : error -> Prop :=
| cause_unfit : ~ fits_request (use_unicode (cl w)) c -> cause c w (ESmb (CreatePacket (refusal c)))
| cause_write f s n e inc t : is_request E (cl w) c f -> react (srv w) f = Refuse s n e inc t ->
    cause c w (ENetBios (IoError (IoOther e)))
| cause_end f s inc t e : is_request E (cl w) c f -> react (srv w) f = Accept s inc t -> cut (rx w) (tl w) e ->
    cause c w (ENetBios e).
End Server.
(** the world of an outcome *)
Definition world_of {Sv A} (o : outcome cifs Sv A) : world cifs Sv :=
  match o with Done _ w | Blocked w | Crashed w | Starved w => w end.
