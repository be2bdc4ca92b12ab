(** * TwinFacts: the traffic depends on the password only through its hash (C36) *)
From Verif Require Import Base Text Utils Win Errors Info Common Msg Reply Ntlm Prog Client Spec SpecReply SpecCrash
  SpecNtlm Api SpecCall Flow BaseFacts TextFacts RunFacts SpecFacts InfoFacts ClientFacts MsgFacts CallFacts
  FlowFacts NtlmFacts SpecLogin.
Open Scope N_scope.
Set Implicit Arguments.
Unset Strict Implicit.

Section Twins.
Variable E : env.

(** programs that do the same for twins, results related by [R] *)
Inductive psim {A B} (R : A -> B -> Prop) : prog cifs A -> prog cifs B -> Prop :=
| ps_ret a b : R a b -> psim R (Ret a) (Ret b)
| ps_panic : psim R Panicked Panicked
| ps_fuel : psim R OutOfFuel OutOfFuel
| ps_get k l : (forall c d, twin E c d -> psim R (k c) (l d)) -> psim R (Get k) (Get l)
| ps_put c d k l : twin E c d -> psim R k l -> psim R (Put c k) (Put d l)
| ps_read n k l : (forall r, psim R (k r) (l r)) -> psim R (Read n k) (Read n l)
| ps_write b k l : (forall r, psim R (k r) (l r)) -> psim R (Write b k) (Write b l).
Lemma psim_bind A B A' B' (R : A -> A' -> Prop) (S : B -> B' -> Prop) p q f g : psim R p q ->
  (forall a b, R a b -> psim S (f a) (g b)) -> psim S (pbind p f) (pbind q g).
Proof. intros H Hf. induction H; cbn [pbind]; try (constructor; auto). auto. Qed.
Definition arel {A B} (R : A -> B -> Prop) (x : ans A) (y : ans B) : Prop :=
  match x, y with Good a, Good b => R a b | Bad e, Bad e' => e = e' | _, _ => False end.
Notation msim R := (psim (arel R)).
Lemma psim_mbind A B A' B' (R : A -> A' -> Prop) (S : B -> B' -> Prop) (p : M A) (q : M A') f g : msim R p q ->
  (forall a b, R a b -> msim S (f a) (g b)) -> msim S (mbind p f) (mbind q g).
Proof.
  intros H Hf. unfold mbind. apply (psim_bind H). intros [a|e] [b|e'] Hr; cbn [arel] in Hr; try contradiction; auto.
  constructor. exact Hr.
Qed.
Lemma psim_get : msim (twin E) get get.
Proof. constructor. intros c d H. constructor. exact H. Qed.
Lemma psim_put c d : twin E c d -> msim eq (put c) (put d).
Proof. intros H. constructor; [exact H|]. constructor. reflexivity. Qed.

(** programs that do not look at the client *)
Inductive blind {A} : prog cifs A -> Prop :=
| bl_ret a : blind (Ret a)
| bl_panic : blind Panicked
| bl_fuel : blind OutOfFuel
| bl_read n k : (forall r, blind (k r)) -> blind (Read n k)
| bl_write b k : (forall r, blind (k r)) -> blind (Write b k).
Lemma blind_bind A B (p : prog cifs A) (f : A -> prog cifs B) : blind p -> (forall a, blind (f a)) -> blind (pbind p f).
Proof. intros H Hf. induction H; cbn [pbind]; try (constructor; auto). auto. Qed.
Lemma blind_mbind A B (p : M A) (f : A -> M B) : blind p -> (forall a, blind (f a)) -> blind (mbind p f).
Proof. intros H Hf. apply blind_bind; [exact H|]. intros [a|e]; [apply Hf|constructor]. Qed.
Lemma blind_lift X A (f : X -> error) (r : res X A) : blind (lift f r).
Proof. destruct r; constructor. Qed.
Lemma arel_eq A (x : ans A) : arel eq x x.
Proof. destruct x; reflexivity. Qed.
Lemma psim_blind A (p : M A) : blind p -> msim eq p p.
Proof. intros H. induction H; constructor; auto. apply arel_eq. Qed.
Lemma blind_nb_recv : blind nb_recv.
Proof.
  unfold nb_recv. apply blind_mbind; [constructor; intros [b| |e]; constructor|]. intros t.
  apply blind_mbind; [constructor; intros [b| |e]; constructor|]. intros raw. cbv zeta.
  destruct (_ <? _); [constructor|]. apply blind_mbind; [constructor; intros [b| |e]; constructor|]. intros d. apply blind_lift.
Qed.
Lemma blind_recv_message f : blind (recv_message f).
Proof.
  induction f as [|f IH]; [constructor|]. cbn [recv_message]. apply blind_mbind; [apply blind_nb_recv|].
  intros [m|m| |c| |]; try constructor. exact IH.
Qed.
Lemma blind_recv_frame f g id : blind (recv_frame f g id).
Proof.
  induction f as [|f IH]; [constructor|]. cbn [recv_frame]. apply blind_mbind; [apply blind_recv_message|]. intros m.
  apply blind_mbind; [apply blind_lift|]. intros [i b]. destruct (_ =? _); [constructor|exact IH].
Qed.
Lemma blind_recv R f (r : reply R) id : blind (recv f r id).
Proof.
  unfold recv. apply blind_mbind; [apply blind_recv_frame|]. intros [i b].
  destruct (negb _); [constructor|]. destruct (negb _); [constructor|]. apply blind_lift.
Qed.
Lemma blind_collect f g id ctx : blind (collect f g id ctx).
Proof.
  revert ctx. induction f as [|f IH]; intros ctx; [constructor|]. cbn [collect]. apply blind_mbind; [apply blind_recv|].
  intros x. apply blind_mbind; [apply blind_lift|]. intros [c [|]]; [constructor|apply IH].
Qed.
Lemma blind_after f R (c : call R) id : blind (after f c id).
Proof.
  destruct c; cbn [after]; try apply blind_recv; apply blind_mbind; try apply blind_collect; intros x; apply blind_lift.
Qed.
Lemma blind_nb_send f : blind (nb_send f).
Proof. apply blind_mbind; [apply blind_lift|]. intros b. constructor. intros [e|]; constructor. Qed.
Lemma blind_create_session x y : blind (create_session x y).
Proof.
  apply blind_mbind; [apply blind_nb_send|]. intros _. apply blind_mbind; [apply blind_nb_recv|]. intros [m|m| |c| |]; constructor.
Qed.

Lemma send_sim m : msim eq (send E m) (send E m).
Proof.
  unfold send. apply (psim_mbind psim_get). intros c d T. pose proof T as (Hs & Hm & Hu & Hi & Hd). cbv zeta.
  rewrite Hd. destruct (_ && _); [constructor|].
  apply psim_mbind with (R := eq); [apply psim_put; unfold twin, set_mid; cbn; auto|]. intros _ _ _.
  rewrite Hu, Hi. apply psim_blind. apply blind_mbind; [apply blind_lift|]. intros b.
  apply blind_mbind; [apply blind_nb_send|]. intros _. constructor.
Qed.
Lemma call_sim f R (c : call R) : msim eq (exec E f c) (exec E f c).
Proof.
  rewrite exec_send. apply psim_mbind with (R := eq); [apply send_sim|]. intros a b <-. apply psim_blind, blind_after.
Qed.
Lemma same_hash a b : same_secret E a b -> ntlm_hash E a = ntlm_hash E b.
Proof.
  intros (_ & _ & _ & x & y & Hx & Hy & H). apply utf16le_of_encode in Hx. apply utf16le_of_encode in Hy.
  destruct Hx as [-> _]. destruct Hy as [-> _]. exact H.
Qed.
Lemma setup_sim f : msim eq (setup_connection E f) (setup_connection E f).
Proof.
  unfold setup_connection. apply psim_mbind with (R := eq); [exact (call_sim f Negotiate)|]. intros s ? <-.
  apply (psim_mbind psim_get). intros c d T. 
  apply psim_mbind with (R := eq).
  { apply psim_put. destruct T as (Hs & Hm & Hu & Hi & Hd). unfold twin, set_options. cbn. auto. }
  intros _ _ _. clear c d T. destruct (contains _ _).
  - unfold authenticate_ntlmv2. apply (psim_mbind psim_get). intros c d T. cbv zeta. destruct T as (Hs & _).
    pose proof (same_hash Hs) as Hh. destruct Hs as (Hu & Hw & Hd & _). rewrite <- Hw, <- Hd.
    apply psim_mbind with (R := eq); [apply psim_blind, blind_lift|]. intros m ? <-.
    apply psim_mbind with (R := eq); [exact (call_sim f (SetupBlob m))|]. intros r ? <-.
    apply (psim_mbind psim_get). intros c' d' T. apply psim_mbind with (R := eq).
    { apply psim_put. destruct T as (Hs & Hm & Hu' & Hi & Hd'). unfold twin, set_uid. cbn. auto. }
    intros _ _ _. apply psim_mbind with (R := eq); [apply psim_blind, blind_lift|]. intros ch ? <-.
    assert (Hr : challenge_response E ch (auth_of c) = challenge_response E ch (auth_of d)).
    { unfold challenge_response, ntlmv2_authenticate, ntlmv2_hash. rewrite Hh, Hu, Hw, Hd. reflexivity. }
    rewrite Hr. apply psim_mbind with (R := eq); [apply psim_blind, blind_lift|]. intros m3 ? <-.
    apply psim_mbind with (R := eq); [exact (call_sim f (SetupBlob m3))|]. intros r3 ? <-. constructor. reflexivity.
  - unfold authenticate_ntlm. apply (psim_mbind psim_get). intros c d T. destruct T as (Hs & _).
    pose proof (same_hash Hs) as Hh. destruct Hs as (Hu & Hw & Hd & _). rewrite <- Hu, <- Hd.
    assert (Hr : ntlmv1_authenticate E (X := ntlm_error) (auth_of c) (s_challenge s) = ntlmv1_authenticate E (auth_of d) (s_challenge s)).
    { unfold ntlmv1_authenticate. rewrite Hh. reflexivity. }
    rewrite Hr. apply psim_mbind with (R := eq); [apply psim_blind, blind_lift|]. intros nt ? <-.
    apply psim_mbind with (R := eq); [exact (call_sim f (SetupAuth _ _ nt))|]. intros r ? <-.
    apply (psim_mbind psim_get). intros c' d' T.
    apply psim_put. destruct T as (Hs & Hm & Hu' & Hi & Hd'). unfold twin, set_uid. cbn. auto.
Qed.
Lemma interp_sim f A (p : flow A) : user p -> msim eq (interp E f p) (interp E f p).
Proof.
  intros H. induction H; cbn [interp]; try constructor; [apply arel_eq|]. 
  apply (psim_bind (call_sim f c)). intros a b Hr. assert (a = b) as ->; [|auto].
  destruct a, b; cbn [arel] in Hr; try contradiction; now subst.
Qed.

(** ** runs *)
Section Server.
Variable Sv : Type.
Variable react : Sv -> bytes -> reaction Sv.
Notation world := (world cifs Sv).
Definition orel {A B} (R : A -> B -> Prop) (o : outcome cifs Sv A) (q : outcome cifs Sv B) : Prop :=
  match o, q with
  | Done a w, Done b v => R a b /\ twin_worlds E w v
  | Blocked w, Blocked v | Crashed w, Crashed v | Starved w, Starved v => twin_worlds E w v
  | _, _ => False
  end.
Lemma sim_run A B (R : A -> B -> Prop) p q : psim R p q -> forall w v : world, twin_worlds E w v ->
  orel R (run react p w) (run react q v).
Proof.
  intros H. induction H; intros w v T; cbn [run orel]; try exact T; auto.
  - apply H0; [apply T|exact T].
  - apply IHpsim. destruct T as (_ & T). split; [assumption|exact T].
  - destruct T as (T & Hs & Hx & Ht & Hw). rewrite <- Hx, <- Ht.
    assert (forall r, twin_worlds E (mk_world (cl w) (srv w) r (tl w) (tx w)) (mk_world (cl v) (srv v) r (tl w) (tx v))) as T2
     by (intros r; repeat split; assumption || apply T).
    destruct (_ <=? _); [apply H0, T2|]. destruct (tl w); [apply T2|apply H0, T2|apply H0, T2].
  - destruct T as (T & Hs & Hx & Ht & Hw). rewrite <- Hs, <- Hx, <- Ht, <- Hw.
    destruct (react (srv w) b) as [s inc t|s n e inc t]; destruct (deliver _ _ _ _) as [buf t']; apply H0;
     repeat split; try reflexivity; apply T.
Qed.
Lemma sim_same A (p : M A) : msim eq p p -> forall w v : world, twin_worlds E w v ->
  twin_outcomes E (run react p w) (run react p v).
Proof.
  intros H w v T. pose proof (sim_run H T) as Hr. unfold orel in Hr. unfold twin_outcomes.
  destruct (run react p w) as [a x|x|x|x], (run react p v) as [b y|y|y|y]; try exact Hr.
  destruct Hr as [Hr Hw]. split; [|exact Hw]. destruct a, b; cbn [arel] in Hr; try contradiction; now subst.
Qed.
Lemma setup_twins f w v : twin_worlds E w v -> twin_outcomes E (run react (setup_connection E f) w) (run react (setup_connection E f) v).
Proof. apply sim_same, setup_sim. Qed.
Lemma session_twins f x y w v : twin_worlds E w v ->
  twin_outcomes E (run react (do! _ := create_session x y in setup_connection E f) w)
    (run react (do! _ := create_session x y in setup_connection E f) v).
Proof.
  apply sim_same. apply psim_mbind with (R := eq); [apply psim_blind, blind_create_session|]. intros _ _ _. apply setup_sim.
Qed.
Lemma flow_twins f A (p : flow A) w v : user p -> twin_worlds E w v ->
  twin_outcomes E (run react (interp E f p) w) (run react (interp E f p) v).
Proof. intros H. apply sim_same. now apply interp_sim. Qed.
Lemma open_twins (net : N -> connection Sv) f port a b : same_secret E a b ->
  match open E Sv net react f port (Some a), open E Sv net react f port (Some b) with
  | (p, NoConnection e), (q, NoConnection e') => p = q /\ e = e'
  | (p, OnStream o), (q, OnStream o') => p = q /\ twin_outcomes E o o'
  | _, _ => False
  end.
Proof.
  intros H. assert (Ts : forall st, twin_worlds E (start Sv a st) (start Sv b st)) by (intros st; repeat split; apply H).
  unfold open. destruct port as [p|].
  - destruct (net p) as [st|e]; [|auto]. split; [reflexivity|]. apply setup_twins, Ts.
  - destruct (net 445) as [st|e]; [split; [reflexivity|]; apply setup_twins, Ts|].
    destruct (net 139) as [st|e']; [|auto]. split; [reflexivity|]. destruct H as (_ & Hw & _). rewrite Hw.
    apply session_twins, Ts.
Qed.
End Server.
End Twins.
