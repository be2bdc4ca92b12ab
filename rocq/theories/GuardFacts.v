(** * GuardFacts: whole sessions at a server that checks passwords empty a mailbox (C132) *)
From Verif Require Import Base Text Win Errors Common Reply Ntlm Prog Client Spec SpecReply SpecMsg SpecNtlm Api SpecCall BaseFacts TextFacts
  RunFacts MsgFacts SizeFacts NtlmFacts Flow FlowFacts SpecReading ReadingFacts SpecLogin SpecAccount AccountFacts SpecRemote RemoteFacts RefServer RefFacts FileService FileFacts
  SpecLost SpecCutoff Gate GateFacts SpecFetch FetchFacts SpecErrand ErrandFacts HijackFacts SpecHalf HalfFacts SpecTree TreeFacts SpecRemoval RemovalFacts SpecRemovers RemoversFacts SpecBusy BusyFacts
  SpecMove MoveFacts SpecMail MailFacts SpecPost PostFacts SpecVisit VisitFacts SpecGuard.
Open Scope N_scope.
Set Implicit Arguments.

Section Net.
Variable the_tid : N.
Variables fsetup setup : server_setup.
Variables Sn Sv : Type.
Variable net : Sn -> bytes -> reaction Sn.
Variable react : Sv -> bytes -> reaction Sv.
Variable inner : Sn -> Sv.
Variable up : Sn -> Prop.
Hypothesis Hnet : unreliable net react inner up.
Variable E : env.
Variable known : accounts.
Variable nonce : N -> bytes.
Variable info : bytes.
Notation state := (dirs * list (tree -> tree))%type.
Variable abs : Sv -> gated state.
Notation DS := (with_others (dir_service the_tid fsetup)).
Notation G := (gate state E known setup nonce info DS).
Hypothesis conf : conforming react G abs.
Notation view := (fun n => g_behind (abs (inner n))).
Notation root st := (ds_root (fst st)).

(** on a connection, and logged in *)
Definition entered (w : world cifs Sn) : Prop := linked up w /\ In (uid (cl w)) (g_entered (abs (inner (srv w)))).
Lemma gate_visited A (f : flow A) c s s' : visited G f c s s' -> works f -> In (uid c) (g_entered s) -> visited DS f c (g_behind s) (g_behind s').
Proof.
  induction 1 as [f c st|R q k c st r st1 st' HB _ IH|k c st st' _ IH|u f c st st' _ IH|mm u f c st st' _ IH]; intros Hw Hin; [constructor| | | |].
  - destruct Hw as [Hq Hk]. destruct (DS R (uid c) (op_of q) (g_behind st)) as [rb sb] eqn:HD.
    rewrite (gate_pass E known setup nonce info Hq Hin HD) in HB. injection HB as <- <-.
    eapply v_call; [exact HD|]. exact (IH (Hk _) Hin).
  - apply v_state. exact (IH (Hw c) Hin).
  - contradiction.
  - contradiction.
Qed.
Lemma gate_step A (f : flow A) c st n r c' st' : local DS f c st n r c' st' -> strict f -> works f ->
  forall w : world cifs Sn, cl w = c -> view (srv w) = st -> typed_client c -> entered w -> room E c n ->
  exists k a w', (forall fuel, (k <= fuel)%nat -> run net (interp E fuel f) w = Done a w')
  /\ ((a = r /\ cl w' = c' /\ view (srv w') = st' /\ entered w')
      \/ ((exists e, a = Bad (ENetBios e)) /\ visited DS f c st (view (srv w')))).
Proof.
  intros L Hs Hw w Hcl Hst Hc [Hl Hin] Hr. rewrite Hcl in Hin.
  destruct (gate_local E known setup nonce info L Hw (s := abs (inner (srv w))) Hin Hst) as [LG Huid].
  destruct (step_service (E := E) Hnet conf LG Hs (w := w) Hcl eq_refl Hc Hl Hr) as (k & a & w' & H1 & [(-> & H2 & H3 & H4)|(H2 & H3)]); exists k; eexists; exists w'; (split; [exact H1|]).
  - left. split; [reflexivity|]. split; [exact H2|]. rewrite H3. split; [reflexivity|]. split; [exact H4|]. rewrite H3, H2, Huid. exact Hin.
  - right. split; [exact H2|]. rewrite <- Hst. exact (gate_visited H3 Hw Hin).
Qed.

Variable ns : list text.
Hypothesis Hns : Forall a_name ns.
Hypothesis Hshort : short (path_of ns ++ [42]).
Variable m : nat.
Hypothesis Hu : u16 the_tid.
Hypothesis Hguard : guarding setup nonce info.

(** a request at the gate: nothing changes behind it, or the request is let through *)
Lemma gate_or R (q : call R) who s r s1 : G R who (op_of q) s = (r, s1) ->
  g_behind s1 = g_behind s \/ exists r', DS R who (op_of q) (g_behind s) = (r', g_behind s1).
Proof.
  intros H.
  assert (Hpass : forall T (p : op T) (y : T + N) s2,
    (if Gate.among who (g_entered s) then let (r, st) := DS T who p (g_behind s) in (r, mk_gated (g_waiting s) (g_entered s) (g_next s) st) else (inr 0xc0000022, s)) = (y, s2) ->
    g_behind s2 = g_behind s \/ exists r', DS T who p (g_behind s) = (r', g_behind s2)).
  { intros T p y s2. destruct (Gate.among who (g_entered s)).
    - destruct (DS T who p (g_behind s)) as [r' st] eqn:HD. intros [= <- <-]. right. now exists r'.
    - intros [= <- <-]. now left. }
  destruct q; cbn [op_of gate] in H; try exact (Hpass _ _ _ _ H); left.
  - now injection H as <- <-.
  - destruct (_ && _) in H; now injection H as <- <-.
  - destruct (u32_at _ 8) as [k|] in H; [|now injection H as <- <-].
    repeat match type of H with context [match ?x with _ => _ end] => destruct x end; injection H as <- <-; reflexivity.
Qed.
Lemma reading_gate A (f : flow A) c st st' : visited G f c st st' -> reading f -> fine ns m (g_behind st) ->
  fine ns m (g_behind st') /\ keeps ns (root (g_behind st)) (root (g_behind st')).
Proof.
  induction 1 as [f c st|R q k c st r st1 st' HB _ IH|k c st st' _ IH|u f c st st' _ IH|mm u f c st st' _ IH]; intros Hh Hf;
    [split; [exact Hf|apply keeps_refl]| | | |]; cbn [reading] in Hh.
  - destruct Hh as [Hq Hk].
    assert (K : fine ns m (g_behind st1) /\ keeps ns (root (g_behind st)) (root (g_behind st1))).
    { destruct (gate_or _ _ _ HB) as [->|(r' & HD)]; [split; [exact Hf|apply keeps_refl]|].
      exact (@harmless_fine the_tid fsetup _ _ _ _ _ _ _ _ (reading_harmless q Hq) Hf HD). }
    destruct K as [K1 K2]. destruct (IH (Hk _) K1) as [I1 I2]. split; [exact I1|exact (keeps_trans K2 I2)].
  - exact (IH (Hh _) Hf).
  - exact (IH Hh Hf).
  - exact (IH Hh Hf).
Qed.

Lemma guard_once (w : world cifs Sn) path : at_gate E up known setup info path (fun n => abs (inner n)) ns m w ->
  exists got a w', visits net E path ns w (got, a) w' /\ fine ns m (view (srv w'))
  /\ (forall x d, In (x, d) got -> file_of (ds_root (stirred (after (view (srv w))))) (ns ++ [x]) = Some d)
  /\ delivered ns (root (view (srv w))) got (root (view (srv w')))
  /\ ((a = Good tt /\ ds_open (fst (view (srv w'))) = ds_open (fst (view (srv w)))
       /\ forall x d, file_of (root (view (srv w))) (ns ++ [x]) = Some d -> In (x, d) got)
      \/ exists e, a = Bad (ENetBios e)).
Proof.
  intros (Hc & Hi & Hup & (Ha & Hreg & Hnu & Hnd & Hf1 & Hf2 & Hpath & Hfitp) & (t & Ht) & Hr & Hnx & Hfr & Hmov & Hdec).
  destruct Hguard as (Hch & Hno & Hinfo).
  assert (Hfine : fine ns m (view (srv w))) by now split.
  destruct (gate_local_login (E := E) (known := known) setup nonce info DS (cl w) (abs (inner (srv w)))
    Ha Hreg Hnu Hnd Ht Hch Hno Hinfo Hf1 Hf2 Hnx) as (c1 & st1 & L1 & Hin1 & Hb1).
  assert (Hsteps : (login_steps setup <= 3)%nat) by (unfold login_steps; destruct (N.testbit (s_capabilities setup) 31); repeat constructor).
  destruct (local_counted L1 Hc) as [C1 C2].
  destruct (after_fine Hfine) as (A1 & A2 & A3).
  assert (Hnone : forall v : world cifs Sn, keeps ns (root (view (srv w))) (root (view (srv v))) ->
    delivered ns (root (view (srv w))) [] (root (view (srv v)))) by (intros v Hk x d Hx; right; exact (Hk x d Hx)).
  destruct (step_service (E := E) Hnet conf L1 (strict_setup E) (w := w) eq_refl eq_refl Hc (or_introl (conj Hi Hup))) as (k1 & a1 & w1 & H1 & H1').
  { intros Hov. specialize (Hr Hov). lia. }
  assert (R1 : forall fuel, (k1 <= fuel)%nat -> run net (setup_connection E fuel) w = Done a1 w1).
  { intros fuel Hfu. rewrite (setup_same E fuel). now apply H1. }
  destruct H1' as [(-> & Hcl1 & Hv1 & Hl1)|((e & ->) & Hvis)].
  2: { destruct (reading_gate Hvis (reading_setup E) Hfine) as [J1 J2]. exists [], (Bad (ENetBios e)), w1.
       split; [|split; [exact J1|split; [intros x d []|split; [now apply Hnone|right; now exists e]]]].
       exists k1. intros fuel Hfu. unfold visit. rewrite run_bind, R1 by exact Hfu. reflexivity. }
  set (s := mk_share None None [65; 58] [78; 84; 70; 83] the_tid).
  assert (Hview1 : view (srv w1) = view (srv w)) by (cbv beta; rewrite Hv1; exact Hb1).
  assert (He1 : entered w1) by (split; [exact Hl1|rewrite Hcl1, Hv1; exact Hin1]).
  assert (L2 : local DS (fcall (Mount path)) (cl w1) (view (srv w1)) 1 (Good s) (next_client (cl w1)) (after (view (srv w)))).
  { refine (local_call (q := Mount path) (r := inl s) _ _ _ _).
    - exact Hpath.
    - exact I.
    - apply Hfitp.
    - rewrite Hview1. reflexivity. }
  assert (Hc1 : typed_client (cl w1)) by now rewrite Hcl1.
  destruct (local_counted L2 Hc1) as [C3 C4].
  destruct (gate_step L2 (strict_fcall _) (@works_call _ (Mount path) I) (w := w1) eq_refl eq_refl Hc1 He1) as (k2 & a2 & w2 & H2 & H2').
  { rewrite Hcl1. intros Hov. specialize (Hr Hov). lia. }
  assert (R2 : forall fuel, (k2 <= fuel)%nat -> run net (mount E fuel path) w1 = Done a2 w2).
  { intros fuel Hfu. rewrite <- (H2 fuel Hfu). symmetry. exact (@interp_fcall E fuel _ (Mount path) _ net w1). }
  destruct H2' as [(-> & Hcl2 & Hv2 & Hl2)|((e & ->) & Hvis)].
  2: { assert (Hrd : reading (fcall (Mount path))) by now apply reading_call.
       assert (Hf1' : fine ns m (view (srv w1))) by (rewrite Hview1; exact Hfine).
       destruct (reading_others Hvis Hrd Hf1') as [J1 J2]. rewrite Hview1 in J2.
       exists [], (Bad (ENetBios e)), w2.
       split; [|split; [exact J1|split; [intros x d []|split; [now apply Hnone|right; now exists e]]]].
       exists (Nat.max k1 k2). intros fuel Hfu. unfold visit. rewrite run_bind, R1 by lia. cbn [obind]. rewrite run_bind, R2 by lia. reflexivity. }
  destruct (@post_gen the_tid fsetup Sn net view E entered gate_step ns Hns m s Hu eq_refl Hshort w2) as (got & a & w' & (k3 & P1) & P2 & P3 & P4 & P5).
  - rewrite Hv2. exact A1.
  - rewrite Hv2, A3. exact Hfr.
  - now rewrite Hcl2.
  - exact Hl2.
  - rewrite Hcl2. intros Hov. specialize (Hr Hov). rewrite Hcl1 in C4 |- *. lia.
  - assert (Hkeep : keeps ns (root (view (srv w))) (root (view (srv w2)))) by (rewrite Hv2; exact A2).
    exists got, a, w'. split; [|split; [exact P2|split; [|split]]].
    + exists (Nat.max k1 (Nat.max k2 k3)). intros fuel Hfu. unfold visit. rewrite run_bind, R1 by lia. cbn [obind].
      rewrite run_bind, R2 by lia. cbn [obind]. apply P1. lia.
    + intros x d Hin. specialize (P3 x d Hin). now rewrite Hv2 in P3.
    + intros x d Hx. exact (P4 x d (Hkeep x d Hx)).
    + destruct P5 as [(-> & Hop & Hall)|He]; [left|now right]. split; [reflexivity|]. split; [|intros x d Hx; exact (Hall x d (Hkeep x d Hx))].
      rewrite Hop, Hv2, A3. reflexivity.
Qed.
Lemma guard_often path seen got l R R' : sessions net E (fun n => fst (view n)) (at_gate E up known setup info path (fun n => abs (inner n)) ns m) path ns seen got l R R' ->
  delivered ns R got R' /\ (forall T, In T seen -> delivered ns T got R')
  /\ (forall a, In a l -> a = Good tt \/ exists e, a = Bad (ENetBios e)).
Proof.
  induction 1 as [R|seen got l R R1 R' Hk _ IH|w new a w' seen got l R' Hrd Hrun _ IH].
  - split; [now right|]. split; [intros T []|intros a []].
  - destruct IH as (I1 & I2 & I3). split; [|split; [exact I2|exact I3]]. intros x d Hx. exact (I1 x d (Hk x d Hx)).
  - destruct IH as (I1 & I2 & I3). destruct (guard_once Hrd) as (new' & b & v & H1 & _ & _ & F & H2).
    destruct (visits_same Hrun H1) as [[= -> ->] ->].
    assert (Hfirst : delivered ns (root (view (srv w))) (new' ++ got) R').
    { intros x d Hx. destruct (F x d Hx) as [K|K]; [left; apply in_or_app; now left|].
      destruct (I1 x d K) as [J|J]; [left; apply in_or_app; now right|now right]. }
    split; [exact Hfirst|]. split.
    + intros T [<-|HT]; [exact Hfirst|]. intros x d Hx. destruct (I2 T HT x d Hx) as [J|J]; [left; apply in_or_app; now right|now right].
    + intros c [<-|Hin]; [|now apply I3]. destruct H2 as [(-> & _)|H2]; [now left|now right].
Qed.
End Net.
