(** * What becomes of open, in every case: C103 *)
From Coq Require Import Lia.
From Verif Require Import Base BaseFacts Text Win Errors Info Common Reply Ntlm Prog Client Spec SpecReply SpecCrash SpecNtlm SpecMsg
  Api SpecCall Flow Sample SpecLogin OpenFacts TwinFacts SessionFacts P_Ntlm P_Open SpecWhy WhyFacts SpecFate SpecOpening OpeningFacts.
Open Scope N_scope.

(** C103: open connects to the ports and comes to the end that [open_fate] (SpecOpening.v) says:
    it is logged in, fails with this error, panics, or waits; the stream is then as described. *)
Theorem C103_open : forall Sv (react : Sv -> bytes -> reaction Sv) E net maybe t port r,
  typed_auth (credentials maybe) -> clock E t -> (forall w, snd r <> OnStream (Starved w)) ->
  ((exists fuel, open E Sv net react fuel port maybe = r) <-> open_fate react E net maybe t port r).
Proof. intros Sv react E net maybe t port r. exact (@open_fate_iff Sv react E net maybe t port r). Qed.
Print Assumptions C103_open.
(** It always comes to an end, from some bound on, and to one. *)
Theorem C103_ends : forall Sv (react : Sv -> bytes -> reaction Sv) E net maybe t port, typed_auth (credentials maybe) -> clock E t ->
  exists k r, (forall w, snd r <> OnStream (Starved w)) /\ forall n, (k <= n)%nat -> open E Sv net react n port maybe = r.
Proof. intros Sv react E net maybe t port. exact (@open_settled Sv react E net maybe t port). Qed.
Print Assumptions C103_ends.
Theorem C103_one : forall Sv (react : Sv -> bytes -> reaction Sv) E net maybe t port r r', typed_auth (credentials maybe) -> clock E t ->
  open_fate react E net maybe t port r -> open_fate react E net maybe t port r' -> r = r'.
Proof. intros Sv react E net maybe t port r r'. exact (@open_fate_one Sv react E net maybe t port r r'). Qed.
Print Assumptions C103_one.
(** The login alone, from any state of the connection. *)
Theorem C103_login : forall Sv (react : Sv -> bytes -> reaction Sv) E t w o, typed_auth (auth_of (cl w)) -> clock E t -> (forall w', o <> Starved w') ->
  ((exists fuel, run react (setup_connection E fuel) w = o) <-> login_fate react E t w o).
Proof. exact login_fate_iff. Qed.
Print Assumptions C103_login.
(** The two descriptions of success (C41) and of failure (C100) agree with this one. *)
Theorem C103_agrees : forall Sv (react : Sv -> bytes -> reaction Sv) E t w, typed_auth (auth_of (cl w)) -> clock E t ->
  (forall w', login_fate react E t w (Done (Good tt) w') <-> exists s user last, login react E t w s user last w')
  /\ forall e w', login_fate react E t w (Done (Bad e) w') <-> login_fails react E t w e w'.
Proof.
  intros Sv react E t w Ta Ht. split.
  - intros w'. rewrite <- (@login_iff Sv react E t w w' Ta Ht). symmetry. apply login_fate_iff; auto. discriminate.
  - intros e w'. rewrite <- (@login_fails_iff Sv react E t w e w' Ta Ht). symmetry. apply login_fate_iff; auto. discriminate.
Qed.
Print Assumptions C103_agrees.

(** Seven networks: nothing listens; NTLMv2 and NTLMv1 succeed; the password is wrong;
    an NTLM message of 3 bytes; the server is silent after the negotiation, or on port 139. *)
Definition seven (n : N) : N -> connection (list bytes) :=
  match n with
  | 0 => at_port 1 []
  | 1 => at_port 445 (server_v2 0)
  | 2 => at_port 445 server_v1
  | 3 => at_port 445 (server_v2 0xc000006d)
  | 4 => at_port 445 [negotiated 0x80000004; set_up 0xc0000016 1 [x4e; x54; x4c]]
  | 5 => at_port 445 [negotiated 0x80000004]
  | _ => at_port 139 []
  end.
Definition ending (r : list N * opened (list bytes)) : list N * N :=
  (fst r, match snd r with
          | NoConnection _ => 0
          | OnStream (Done (Good _) _) => 1
          | OnStream (Done (Bad _) _) => 2
          | OnStream (Crashed _) => 3
          | OnStream (Blocked _) => 4
          | OnStream (Starved _) => 5 end).
Example C103_example : forall n, n < 7 -> exists r, open_fate script (env0 true) (seven n) (Some alice) 0 None r
  /\ ending r = nth (N.to_nat n) [([445; 139], 0); ([445], 1); ([445], 1); ([445], 2); ([445], 3); ([445], 4); ([445; 139], 4)] ([], 5).
Proof.
  intros n Hn. exists (open (env0 true) _ (seven n) script 400 None (Some alice)).
  assert (K : n = 0 \/ n = 1 \/ n = 2 \/ n = 3 \/ n = 4 \/ n = 5 \/ n = 6) by lia.
  assert (He : ending (open (env0 true) _ (seven n) script 400 None (Some alice))
    = nth (N.to_nat n) [([445; 139], 0); ([445], 1); ([445], 1); ([445], 2); ([445], 3); ([445], 4); ([445; 139], 4)] ([], 5)).
  { destruct K as [->|[->|[->|[->|[->|[->| ->]]]]]]; vm_compute; reflexivity. }
  split; [|exact He]. apply C103_open; [repeat split; reflexivity|vm_compute; repeat split; discriminate| |eauto].
  intros w Hw. unfold ending in He. rewrite Hw in He. apply (f_equal snd) in He. cbn [snd] in He.
  destruct K as [->|[->|[->|[->|[->|[->| ->]]]]]]; vm_compute in He; discriminate He.
Qed.
