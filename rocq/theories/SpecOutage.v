(** * SpecOutage: several clients at one server, over connections that may break (C116). *)
From Verif Require Import Base Text Win Errors Common Reply Ntlm Prog Client Spec SpecReply SpecMsg Api SpecCall Flow SpecRemote SpecPool SpecCutoff.
Open Scope N_scope.

(** the network after a request *)
Definition after_it {Sn} (r : reaction Sn) : Sn := match r with Accept n _ _ | Refuse n _ _ _ _ => n end.
(** client [i] has its own connection, [up i] says that it is there: what is written on one
    connection does not break another one *)
Definition separate {Sn} (net : nat -> Sn -> bytes -> reaction Sn) (up : nat -> Sn -> Prop) : Prop :=
  forall i j n f, i <> j -> (up j (after_it (net i n f)) <-> up j n).
(** the server [react] behind this network *)
Definition outages {Sn Sv} (net : nat -> Sn -> bytes -> reaction Sn) (react : nat -> Sv -> bytes -> reaction Sv)
  (inner : Sn -> Sv) (up : nat -> Sn -> Prop) : Prop :=
  (forall i, unreliable (net i) (react i) inner (up i)) /\ separate net up.

(** ** coarse: calls, as [advances] (SpecPool), of a client that is online ([true]) or not *)
Inductive goes {St A} (B : service St) : flow A * cifs * bool -> St -> bool -> flow A * cifs * bool -> St -> Prop :=
(** answered by the service; the connection may end right after it *)
| go_call R (q : call R) k c st r st' o : B R (uid c) (op_of q) st = (r, st') ->
    goes B (FCall q k, c, true) st true (k (returned r), next_client c, o) st'
(** the connection breaks: before the service has got the request, or after *)
| go_lost R (q : call R) k c st e : goes B (FCall q k, c, true) st true (k (Bad (ENetBios e)), next_client c, false) st
| go_late R (q : call R) k c st r st' e : B R (uid c) (op_of q) st = (r, st') ->
    goes B (FCall q k, c, true) st true (k (Bad (ENetBios e)), next_client c, false) st'
(** offline: the call fails, the service is not involved *)
| go_off R (q : call R) k c st e : goes B (FCall q k, c, false) st true (k (Bad (ENetBios e)), next_client c, false) st
| go_alone x st x' o : advances B x st false x' st -> goes B (x, o) st false (x', o) st.
(** calls of the clients in any order; [l]: who calls, in this order *)
Inductive goings {St A} (B : nat -> service St) : (nat -> flow A * cifs * bool) -> St -> list nat -> (nat -> flow A * cifs * bool) -> St -> Prop :=
| gs_none g st : goings B g st [] g st
| gs_step g st l g' st' i b p st'' : goings B g st l g' st' -> goes (B i) (g' i) st' b p st'' ->
    goings B g st (l ++ if b then [i] else []) (upd g' i p) st''.
(** at every point of every coarse execution the next call is one the protocol can express *)
Definition sensible_off {St A} (E : env) (B : nat -> service St) (g : nat -> flow A * cifs * bool) (st : St) : Prop :=
  forall l g' st', goings B g st l g' st' -> forall i, can_call E (fst (g' i)).
(** [o] says whether client [i] is online *)
Definition online {Sn} (up : nat -> Sn -> Prop) (n : Sn) (i : nat) (o : bool) : Prop := if o then up i n else ~ up i n.
