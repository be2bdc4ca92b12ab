(** * VisitFacts: emptying a mailbox by whole sessions (C130) *)
From Verif Require Import Base Text Win Errors Common Reply Ntlm Prog Client Spec SpecReply SpecMsg SpecNtlm Api SpecCall BaseFacts TextFacts
  RunFacts MsgFacts SizeFacts NtlmFacts Flow FlowFacts SpecReading ReadingFacts SpecLogin SpecAccount SpecRemote RemoteFacts RefServer RefFacts FileService FileFacts
  SpecLost SpecCutoff SpecHalf HalfFacts SpecTree TreeFacts SpecRemoval RemovalFacts SpecRemovers RemoversFacts SpecBusy BusyFacts
  SpecMove MoveFacts SpecMail MailFacts SpecPost PostFacts SpecVisit.
Open Scope N_scope.
Set Implicit Arguments.

Lemma reading_lift X A (f : X -> error) (r : res X A) : reading (flift f r).
Proof. destruct r; exact I. Qed.
Lemma reading_setup E : reading (setup_flow E).
Proof.
  unfold setup_flow. apply reading_bind; [now apply reading_call|]. intros s. cbn [reading]. intros c. cbv zeta.
  destruct (N.testbit (s_capabilities s) 31).
  - apply reading_bind; [apply reading_lift|]. intros m1. apply reading_bind; [now apply reading_call|]. intros r. cbn [reading].
    apply reading_bind; [apply reading_lift|]. intros ch. apply reading_bind; [apply reading_lift|]. intros m2.
    apply reading_bind; [now apply reading_call|]. intros r2. exact I.
  - apply reading_bind; [apply reading_lift|]. intros nt. apply reading_bind; [now apply reading_call|]. intros r. exact I.
Qed.
Lemma reading_harmless R (q : call R) : removes q = false -> RemovalFacts.harmless q.
Proof. destruct q; cbn; try discriminate; intros; exact I. Qed.

Section Net.
Variable the_tid : N.
Variable setup : server_setup.
Variables Sn Sv : Type.
Variable net : Sn -> bytes -> reaction Sn.
Variable react : Sv -> bytes -> reaction Sv.
Variable inner : Sn -> Sv.
Variable up : Sn -> Prop.
Hypothesis Hnet : unreliable net react inner up.
Variable abs : Sv -> dirs * list (tree -> tree).
Notation DS := (with_others (dir_service the_tid setup)).
Hypothesis conf : conforming react DS abs.
Variable E : env.
Notation view := (fun n => abs (inner n)).
Notation linked := (linked up).
Notation root st := (ds_root (fst st)).
Variable ns : list text.
Hypothesis Hns : Forall a_name ns.
Hypothesis Hshort : short (path_of ns ++ [42]).
Variable m : nat.
Hypothesis Hu : u16 the_tid.
Hypothesis Htakes : takes_logins setup.

Lemma reading_others A (f : flow A) c st st' : visited DS f c st st' -> reading f -> fine ns m st -> fine ns m st' /\ keeps ns (root st) (root st').
Proof.
  induction 1 as [f c st|R q k c st r st1 st' HB _ IH|k c st st' _ IH|u f c st st' _ IH|mm u f c st st' _ IH]; intros Hh Hf;
    [split; [exact Hf|apply keeps_refl]| | | |]; cbn [reading] in Hh.
  - destruct Hh as [Hq Hk]. destruct (@harmless_fine the_tid setup _ _ _ _ _ _ _ _ (reading_harmless q Hq) Hf HB) as [K1 K2].
    destruct (IH (Hk _) K1) as [I1 I2]. split; [exact I1|exact (keeps_trans K2 I2)].
  - exact (IH (Hh _) Hf).
  - exact (IH Hh Hf).
  - exact (IH Hh Hf).
Qed.

(** login and mount *)
Lemma after_fine st : fine ns m st -> fine ns m (after st) /\ keeps ns (root st) (root (after st)) /\ ds_open (fst (after st)) = ds_open (fst st).
Proof. intros H. destruct (fine_stirred H) as (K1 & K2 & K3 & K4). split; [split; [exact K1|exact K4]|]. now split. Qed.
Lemma local_enter c st path : can_enter setup path (auth_of c) ->
  exists c', local DS (setup_flow E) c st 2 (Good tt) c' (after (after st)) /\ use_unicode c' = N.testbit (s_capabilities setup) 2.
Proof.
  intros ((Tu & Tw & Td & Tp) & Hnu & Hnd & Hfit & _). destruct Htakes as [Hx Hch].
  assert (exists nt, ntlmv1_authenticate E (X := ntlm_error) (auth_of c) (s_challenge setup) = Ok nt) as (nt & Hnt).
  { destruct (ntlmv1_authenticate E (X := ntlm_error) (auth_of c) (s_challenge setup)) as [nt|e|] eqn:Hn; [now exists nt| |].
    - now apply NtlmFacts.v1_no_error in Hn.
    - apply v1_crash in Hn. contradiction. }
  pose proof (v1_length Hnt) as Hln.
  set (c1 := set_options (s_max_buffer_size setup) (N.testbit (s_capabilities setup) 2) (next_client c)).
  exists (set_uid 1 (next_client c1)). split; [|reflexivity].
  unfold setup_flow, fcall. cbn [fbind].
  apply l_call with (r := inl setup) (st1 := after st); [exact I|exact I|exact I|reflexivity|]. cbn [returned fbind].
  apply l_options, l_state. fold c1. rewrite Hx. change (auth_of c1) with (auth_of c). rewrite Hnt. cbn [flift fbind].
  apply l_call with (r := inl (mk_session false 1 [])) (st1 := after (after st)); [now split|now split| |reflexivity|].
  - unfold fits_v1, fits_request in *. rewrite len_zeros in Hfit. rewrite Hln. exact Hfit.
  - cbn [returned fbind ss_uid]. apply l_uid; [reflexivity|]. constructor.
Qed.

Lemma visit_once (w : world cifs Sn) path : at_door E up setup path view ns m w ->
  exists got a w', visits net E path ns w (got, a) w' /\ fine ns m (view (srv w'))
  /\ (forall x d, In (x, d) got -> file_of (ds_root (stirred (after (after (after (view (srv w))))))) (ns ++ [x]) = Some d)
  /\ delivered ns (root (view (srv w))) got (root (view (srv w')))
  /\ ((a = Good tt /\ ds_open (fst (view (srv w'))) = ds_open (fst (view (srv w)))
       /\ forall x d, file_of (root (view (srv w))) (ns ++ [x]) = Some d -> In (x, d) got)
      \/ exists e, a = Bad (ENetBios e)).
Proof.
  intros (Hc & Hi & Hup & Hent & Hr & Hfr & Hmov & Hdec). pose proof Hent as (_ & _ & _ & _ & Hpath & Hfitp).
  assert (Hfine : fine ns m (view (srv w))) by now split.
  destruct (@local_enter (cl w) (view (srv w)) path Hent) as (c1 & L1 & Huni).
  destruct (local_counted L1 Hc) as [C1 C2].
  destruct (after_fine Hfine) as (A1 & A2 & A3). destruct (after_fine A1) as (B1 & B2 & B3). destruct (after_fine B1) as (D1 & D2 & D3).
  assert (Hnone : forall v : world cifs Sn, fine ns m (view (srv v)) -> keeps ns (root (view (srv w))) (root (view (srv v))) ->
    delivered ns (root (view (srv w))) [] (root (view (srv v)))) by (intros v _ Hk x d Hx; right; exact (Hk x d Hx)).
  destruct (@step_any the_tid setup _ _ net react inner up Hnet abs conf E _ _ _ _ _ _ _ _ L1 (strict_setup E) w eq_refl eq_refl Hc (or_introl (conj Hi Hup)))
    as (k1 & a1 & w1 & H1 & H1').
  { intros Hov. specialize (Hr Hov). lia. }
  assert (R1 : forall fuel, (k1 <= fuel)%nat -> run net (setup_connection E fuel) w = Done a1 w1).
  { intros fuel Hfu. rewrite (setup_same E fuel). now apply H1. }
  destruct H1' as [(-> & Hcl1 & Hv1 & Hl1)|((e & ->) & Hvis)].
  2: { destruct (reading_others Hvis (reading_setup E) Hfine) as [J1 J2]. exists [], (Bad (ENetBios e)), w1.
       split; [|split; [exact J1|split; [intros x d []|split; [now apply Hnone|right; now exists e]]]].
       exists k1. intros fuel Hfu. unfold visit. rewrite run_bind, R1 by exact Hfu. reflexivity. }
  set (s := mk_share None None [65; 58] [78; 84; 70; 83] the_tid).
  assert (L2 : local DS (fcall (Mount path)) (cl w1) (view (srv w1)) 1 (Good s) (next_client (cl w1)) (after (after (after (view (srv w)))))).
  { refine (local_call (q := Mount path) (r := inl s) _ _ _ _).
    - exact Hpath.
    - exact I.
    - rewrite Hcl1, Huni. exact Hfitp.
    - rewrite Hv1. reflexivity. }
  assert (Hc1 : typed_client (cl w1)) by now rewrite Hcl1.
  destruct (local_counted L2 Hc1) as [C3 C4].
  destruct (@step_any the_tid setup _ _ net react inner up Hnet abs conf E _ _ _ _ _ _ _ _ L2 (strict_fcall _) w1 eq_refl eq_refl Hc1 Hl1)
    as (k2 & a2 & w2 & H2 & H2').
  { rewrite Hcl1. intros Hov. specialize (Hr Hov). lia. }
  assert (R2 : forall fuel, (k2 <= fuel)%nat -> run net (mount E fuel path) w1 = Done a2 w2).
  { intros fuel Hfu. rewrite <- (H2 fuel Hfu). symmetry. exact (@interp_fcall E fuel _ (Mount path) _ net w1). }
  destruct H2' as [(-> & Hcl2 & Hv2 & Hl2)|((e & ->) & Hvis)].
  2: { assert (Hrd : reading (fcall (Mount path))) by now apply reading_call.
       rewrite Hv1 in Hvis. destruct (reading_others Hvis Hrd B1) as [J1 J2].
       exists [], (Bad (ENetBios e)), w2.
       split; [|split; [exact J1|split; [intros x d []|split; [|right; now exists e]]]].
       - exists (Nat.max k1 k2). intros fuel Hfu. unfold visit. rewrite run_bind, R1 by lia. cbn [obind]. rewrite run_bind, R2 by lia. reflexivity.
       - apply Hnone; [exact J1|]. exact (keeps_trans A2 (keeps_trans B2 J2)). }
  destruct (@post_linked the_tid setup _ _ net react inner up Hnet abs conf E ns Hns m s Hu eq_refl Hshort w2) as (got & a & w' & (k3 & P1) & P2 & P3 & P4 & P5).
  - rewrite Hv2. exact D1.
  - rewrite Hv2, D3, B3, A3. exact Hfr.
  - now rewrite Hcl2.
  - exact Hl2.
  - rewrite Hcl2. intros Hov. specialize (Hr Hov). rewrite Hcl1 in C4 |- *. lia.
  - assert (Hkeep : keeps ns (root (view (srv w))) (root (view (srv w2)))).
    { rewrite Hv2. exact (keeps_trans A2 (keeps_trans B2 D2)). }
    exists got, a, w'. split; [|split; [exact P2|split; [|split]]].
    + exists (Nat.max k1 (Nat.max k2 k3)). intros fuel Hfu. unfold visit. rewrite run_bind, R1 by lia. cbn [obind].
      rewrite run_bind, R2 by lia. cbn [obind]. apply P1. lia.
    + intros x d Hin. specialize (P3 x d Hin). now rewrite Hv2 in P3.
    + intros x d Hx. exact (P4 x d (Hkeep x d Hx)).
    + destruct P5 as [(-> & Hop & Hall)|He]; [left|now right]. split; [reflexivity|]. split; [|intros x d Hx; exact (Hall x d (Hkeep x d Hx))].
      rewrite Hop, Hv2, D3, B3, A3. reflexivity.
Qed.
Lemma visits_same path (w : world cifs Sn) x v y v' : visits net E path ns w x v -> visits net E path ns w y v' -> x = y /\ v = v'.
Proof.
  intros (k1 & H1) (k2 & H2). specialize (H1 (Nat.max k1 k2) ltac:(lia)). specialize (H2 (Nat.max k1 k2) ltac:(lia)).
  rewrite H1 in H2. injection H2 as -> ->. now split.
Qed.
Lemma visit_often path seen got l R R' : sessions net E (fun n => fst (view n)) (at_door E up setup path view ns m) path ns seen got l R R' ->
  delivered ns R got R' /\ (forall T, In T seen -> delivered ns T got R')
  /\ (forall a, In a l -> a = Good tt \/ exists e, a = Bad (ENetBios e)).
Proof.
  induction 1 as [R|seen got l R R1 R' Hk _ IH|w new a w' seen got l R' Hrd Hrun _ IH].
  - split; [now right|]. split; [intros T []|intros a []].
  - destruct IH as (I1 & I2 & I3). split; [|split; [exact I2|exact I3]]. intros x d Hx. exact (I1 x d (Hk x d Hx)).
  - destruct IH as (I1 & I2 & I3). destruct (visit_once Hrd) as (new' & b & v & H1 & _ & _ & F & H2).
    destruct (visits_same Hrun H1) as [[= -> ->] ->].
    assert (Hfirst : delivered ns (root (view (srv w))) (new' ++ got) R').
    { intros x d Hx. destruct (F x d Hx) as [K|K]; [left; apply in_or_app; now left|].
      destruct (I1 x d K) as [J|J]; [left; apply in_or_app; now right|now right]. }
    split; [exact Hfirst|]. split.
    + intros T [<-|HT]; [exact Hfirst|]. intros x d Hx. destruct (I2 T HT x d Hx) as [J|J]; [left; apply in_or_app; now right|now right].
    + intros c [<-|Hin]; [|now apply I3]. destruct H2 as [(-> & _)|H2]; [now left|now right].
Qed.
End Net.
