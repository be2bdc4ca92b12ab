(** * ConnFacts: the ids of all requests of a connection, from the first one on (C08) *)
From Coq Require Import Lia.
From Verif Require Import Base BaseFacts Text Win Errors Common Reply Ntlm Prog Client Spec SpecReply SpecMsg Api SpecCall Flow Sample
  RunFacts ClientFacts MsgFacts CallFacts SizeFacts ReqFacts FlowFacts WrapFacts AskFacts SpecCrash SpecNtlm SpecLogin OpenFacts TwinFacts SpecBuild BuildFacts SessionFacts.
Open Scope N_scope.
Set Implicit Arguments.

Lemma written_app E st k l st1 : written E st k l st1 -> forall k2 l2 st2, written E st1 k2 l2 st2 -> written E st (k + k2) (l ++ l2) st2.
Proof.
  induction 1 as [st|st R c f k l st' Hr H IH|st R c f n k l st' Hr H IH|st R c k l st' Hr Ho H IH|st u k l st' H IH|st m u k l st' H IH]; intros k2 l2 st2 H2.
  - exact H2.
  - rewrite <- N.add_assoc. cbn [app]. eapply w_sent; [exact Hr|now apply IH].
  - rewrite <- N.add_assoc. cbn [app]. eapply w_cut; [exact Hr|now apply IH].
  - rewrite <- N.add_assoc. eapply w_refused; [exact Hr|exact Ho|now apply IH].
  - apply w_uid with (u := u). now apply IH.
  - apply w_options with (m := m) (u := u). now apply IH.
Qed.
Lemma written_connection E a k l st : written E (initial_cifs a) k l st -> exists is, ids_of l is
  /\ (overflow_checks E = true \/ k <= 65536 -> NoDup is) /\ (k = len l -> consecutive 0 is).
Proof.
  intros Hw. assert (Hm : mid (initial_cifs a) < 65536) by reflexivity.
  pose proof (written_some_ids Hw Hm) as (is & H1 & H2 & _ & H3). pose proof (written_ids Hw Hm) as (_ & H4 & _).
  exists is. split; [exact H1|]. split; [|exact H3].
  intros [H|H]; [|now apply H2]. apply H2. specialize (H4 H). lia.
Qed.
(** the session request comes before, if there is one *)
Definition door_frames (name : text) (l : list bytes) : Prop :=
  l = [] \/ exists f, session_request smb_server name f /\ (l = [f] \/ exists n, l = [take n f]).
Lemma on_stream Sv o o' : @OnStream Sv o = OnStream o' -> o = o'.
Proof. intros H. exact (match H in _ = y return match y with OnStream o2 => o = o2 | _ => True end with eq_refl => eq_refl end). Qed.
Section Conn.
Variable Sv : Type.
Variable react : Sv -> bytes -> reaction Sv.
Variable E : env.
Variable net : N -> connection Sv.
Lemma opened_written fuel port maybe ports o : open E Sv net react fuel port maybe = (ports, OnStream o) ->
  exists first k l, tx (final o) = first ++ l /\ door_frames (a_workstation (credentials maybe)) first
  /\ written E (initial_cifs (credentials maybe)) k l (cl (final o)).
Proof.
  intros H.
  assert (Hdirect : forall st, o = run react (setup_connection E fuel) (start Sv (credentials maybe) st) ->
    exists first k l, tx (final o) = first ++ l /\ door_frames (a_workstation (credentials maybe)) first
    /\ written E (initial_cifs (credentials maybe)) k l (cl (final o))).
  { intros st ->. rewrite (setup_same E fuel react (start Sv (credentials maybe) st)).
    destruct (flow_written react E (setup_flow E) fuel (start Sv (credentials maybe) st)) as (k & l & Hl & Hw).
    exists [], k, l. split; [exact Hl|]. split; [now left|exact Hw]. }
  unfold open in H. change (match maybe with Some a => a | None => default_auth end) with (credentials maybe) in H. cbv zeta in H.
  destruct port as [p|]; [destruct (net p) as [st|e] eqn:Hn; [|discriminate H]; exact (Hdirect st (eq_sym (on_stream (f_equal snd H))))|].
  destruct (net 445) as [st|e]; [exact (Hdirect st (eq_sym (on_stream (f_equal snd H))))|].
  destruct (net 139) as [st|e2]; [|discriminate H]. apply (f_equal snd), on_stream in H. subst o. clear Hdirect. change SMBSERVER with smb_server. set (a := credentials maybe) in *.
  destruct (session_cases react (a_workstation a) (start Sv a st)) as (f & Hf & Hc).
  rewrite run_mbind. destruct Hc as [(w1 & rest & (s & inc & t & _ & Hcl & _ & Hx & _) & _ & Hr)|(Hb & n & Hn)].
  - rewrite Hr. cbn [gbind obind]. rewrite (setup_same E fuel react (leaving w1 rest)).
    destruct (flow_written react E (setup_flow E) fuel (leaving w1 rest)) as (k & l & Hl & Hw).
    exists [f], k, l. cbn [leaving tx cl] in Hl, Hw. rewrite Hx in Hl. rewrite Hcl in Hw. split; [exact Hl|]. split; [right; exists f; auto|exact Hw].
  - assert (Hcl := blind_client react (blind_create_session smb_server (a_workstation a)) (start Sv a st)).
    exists [take n f], 0, []. rewrite app_nil_r.
    destruct (run react (create_session smb_server (a_workstation a)) (start Sv a st)) as [[[]|e1] v|v|v|v]; [exfalso; eapply Hb; reflexivity|..];
      cbn [gbind obind final] in *; (split; [exact Hn|]; split; [right; exists f; eauto|]; rewrite Hcl; constructor).
Qed.
(** what was written on a connection, by [open] and by whatever the user did afterwards *)
Lemma connection_ids fuel port maybe ports o A (p : flow A) fuel2 : open E Sv net react fuel port maybe = (ports, OnStream o) ->
  exists first k l is, tx (final (run react (interp E fuel2 p) (final o))) = first ++ l /\ door_frames (a_workstation (credentials maybe)) first
  /\ (exists c0, fresh maybe c0 /\ written E c0 k l (cl (final (run react (interp E fuel2 p) (final o))))) /\ ids_of l is
  /\ (overflow_checks E = true \/ k <= 65536 -> NoDup is) /\ (k = len l -> consecutive 0 is).
Proof.
  intros H. destruct (opened_written _ _ _ H) as (first & k & l & H1 & H2 & H3).
  destruct (flow_written react E p fuel2 (final o)) as (k2 & l2 & H4 & H5).
  pose proof (written_app H3 H5) as Hw. destruct (written_connection Hw) as (is & H6 & H7 & H8).
  exists first, (k + k2), (l ++ l2), is. rewrite H4, H1, app_assoc. split; [reflexivity|]. split; [exact H2|].
  split; [exists (initial_cifs (credentials maybe)); split; [repeat split|exact Hw]|]. auto.
Qed.
End Conn.
