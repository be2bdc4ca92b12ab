(** * OpeningFacts: opening a connection does what SpecOpening says, in every case *)
From Verif Require Import Base BaseFacts Text Win Errors Info Common Msg Reply Ntlm Prog Client Spec SpecReply SpecCrash SpecNtlm SpecMsg
  Api SpecCall Flow SpecFacts RunFacts ClientFacts CallFacts NtlmFacts EndFacts FlowFacts SpecLogin OpenFacts SessionFacts
  SpecFault FaultFacts GateFacts SpecWhy WhyFacts SpecFate FateFacts SpecOpening.
Open Scope N_scope.
Set Implicit Arguments.

Section Server.
Variable Sv : Type.
Variable react : Sv -> bytes -> reaction Sv.
Notation world := (world cifs Sv).
Notation run := (run react).
Notation outcome := (outcome cifs Sv).
Variable E : env.
Notation call_then := (call_then react E).
Notation login_fate := (login_fate react E).

(** from some bound on *)
Definition settles {X} (F : nat -> X) (x : X) : Prop := exists k, forall n, (k <= n)%nat -> F n = x.
Lemma settles_const X (F : nat -> X) x : (forall n, F n = x) -> settles F x.
Proof. intros H. exists 0%nat. auto. Qed.
Lemma settles_one X (F : nat -> X) x y : settles F x -> settles F y -> x = y.
Proof. intros (k & H) (k' & H'). rewrite <- (H (Nat.max k k')), <- (H' (Nat.max k k')) by lia. reflexivity. Qed.
Lemma settles_ext X (F G : nat -> X) x : (forall n, F n = G n) -> settles G x -> settles F x.
Proof. intros H (k & Hk). exists k. intros n Hn. rewrite H. now apply Hk. Qed.
Lemma then_settles R (c : call R) w (next : R -> world -> outcome (ans unit) -> Prop) (F : nat -> R -> world -> outcome (ans unit)) o :
  (forall v w1 o, answers react E c w v w1 -> next v w1 o -> settles (fun n => F n v w1) o) ->
  call_then c w next o -> settles (fun n => gbind (run (exec E n c) w) (F n)) o.
Proof.
  intros HF [(v & w1 & Ha & Hn)|[(e & w1 & Ha & ->)|[(w1 & Ha & ->)|(w1 & Ha & ->)]]].
  - destruct (HF _ _ _ Ha Hn) as (k & Hk). apply answers_iff in Ha. apply fate_happens in Ha. destruct Ha as (k' & Ha).
    exists (Nat.max k k'). intros n Hx. rewrite Ha by lia. cbn [gbind obind]. apply Hk. lia.
  - apply fails_iff in Ha. apply fate_happens in Ha. destruct Ha as (k' & Ha). exists k'. intros n Hx. rewrite Ha by lia. reflexivity.
  - apply panics_iff in Ha. apply fate_happens in Ha. destruct Ha as (k' & Ha). exists k'. intros n Hx. rewrite Ha by lia. reflexivity.
  - apply stalls_iff in Ha. apply fate_happens in Ha. destruct Ha as (k' & Ha). exists k'. intros n Hx. rewrite Ha by lia. reflexivity.
Qed.
Lemma then_total R (c : call R) w (next : R -> world -> outcome (ans unit) -> Prop) : (forall v w1, answers react E c w v w1 -> exists o, next v w1 o) -> exists o, call_then c w next o.
Proof.
  intros H. destruct (@four_fates Sv react E R c w) as [(v & w' & Ha)|[(e & w' & Ha)|[(w' & Ha)|(w' & Ha)]]].
  - destruct (H _ _ Ha) as (o & Ho). exists o. left. eauto.
  - eexists. right. left. eauto.
  - eexists. right. right. left. eauto.
  - eexists. right. right. right. eauto.
Qed.
Lemma answers_client R (c : call R) w v w1 : answers react E c w v w1 -> cl w1 = next_client (cl w).
Proof. intros [f w2 p st rest x H1 H2|f w2 fs x y rest z H1 H2]; intros; destruct H2 as (s & inc & t & _ & Hc & _); exact Hc. Qed.

(** ** the login *)
Lemma v1_settles a ch w o : typed_auth a -> v1_fate react E a ch w o -> settles (fun n => v1_run react E n a ch w) o.
Proof.
  intros (Tu & Tw & Td & Tp) [(Hl & ->)|(Hl & nt & Hn & H)].
  - apply settles_const. intros n. unfold v1_run. apply (v1_crash E a) in Hl. rewrite Hl. reflexivity.
  - apply v1_good in Hn; auto. eapply settles_ext; [intros n; unfold v1_run; rewrite Hn; cbn [lifted gbind obind]; reflexivity|].
    eapply (fun X => @then_settles _ _ _ _ (fun _ r w1 => _) _ X H). intros r w1 o' _ ->. now apply settles_const.
Qed.
Lemma v1_total a ch w : typed_auth a -> exists o, v1_fate react E a ch w o.
Proof.
  intros (Tu & Tw & Td & Tp). destruct (N.eq_dec (len ch) 8) as [Hl|Hl].
  - destruct (v1_exists E ch Tp) as (nt & Hn).
    destruct (@then_total _ (SetupAuth (a_user a) (a_domain a) nt) w (fun r w1 o => o = Done (Good tt) (adopt (set_uid (ss_uid r)) w1))) as (o & Ho); [eauto|].
    exists o. right. eauto.
  - exists (Crashed w). left. auto.
Qed.
Definition challenge_run (n : nat) (a : auth) (blob : bytes) (w : world) : outcome (ans unit) :=
  gbind (lifted ENtlm (challenge_parse blob) w) (fun ch w1 =>
  gbind (lifted ENtlm (challenge_response E ch a) w1) (fun m3 w1 =>
  gbind (run (exec E n (SetupBlob m3)) w1) (fun _ w2 => Done (Good tt) w2))).
Lemma challenge_settles a t blob w o : typed_auth a -> clock E t -> challenge_fate react E a t blob w o ->
  settles (fun n => challenge_run n a blob w) o.
Proof.
  intros Ta Ht [(Hc & ->)|[(Hc & Hn & ->)|(ch & Hch & [(Hl & ->)|(nt & m3 & Hn & Hm & H)])]]; unfold challenge_run.
  - apply settles_const. intros n. apply challenge_crash in Hc. rewrite Hc. reflexivity.
  - apply settles_const. intros n. destruct (challenge_parse blob) as [ch|x|] eqn:Hp;
      [apply challenge_ok, Hn in Hp; contradiction| |apply challenge_crash in Hp; contradiction].
    rewrite (challenge_only _ Hp). reflexivity.
  - apply settles_const. intros n. apply challenge_ok in Hch. rewrite Hch. cbn [lifted gbind obind].
    apply (@response_iff E a ch t Ta Ht) in Hl. destruct Hl as (x & Hl). pose proof (@response_error E _ _ _ _ Ta Ht Hl) as ->. rewrite Hl. reflexivity.
  - apply challenge_ok in Hch. assert (Hr : challenge_response E ch a = Ok m3) by (apply (authenticate_iff ch m3 Ta Ht); eauto).
    eapply settles_ext; [intros n; rewrite Hch; cbn [lifted gbind obind]; rewrite Hr; cbn [lifted gbind obind]; reflexivity|].
    eapply (fun X => @then_settles _ _ _ _ (fun _ r w1 => _) _ X H). intros r w1 o' _ ->. now apply settles_const.
Qed.
Lemma challenge_total a t blob w : typed_auth a -> clock E t -> exists o, challenge_fate react E a t blob w o.
Proof.
  intros Ta Ht. destruct (challenge_parse blob) as [ch|x|] eqn:Hp.
  - apply challenge_ok in Hp. destruct (challenge_response E ch a) as [m3|x|] eqn:Hr.
    + apply (authenticate_iff ch m3 Ta Ht) in Hr. destruct Hr as (nt & Hn & Hm).
      destruct (@then_total _ (SetupBlob m3) w (fun _ w1 o => o = Done (Good tt) w1)) as (o & Ho); [eauto|].
      exists o. right. right. exists ch. split; [exact Hp|]. right. eauto.
    + eexists. right. right. exists ch. split; [exact Hp|]. left. split; [|reflexivity]. eapply response_iff; eauto.
    + exfalso. revert Hr. eapply response_no_crash; eauto.
  - eexists. right. left. split; [|split; [|reflexivity]].
    + intros Hc. apply challenge_crash in Hc. congruence.
    + intros ch Hc. apply challenge_ok in Hc. congruence.
  - exists (Crashed w). left. split; [now apply challenge_crash|reflexivity].
Qed.
Lemma v2_settles a t w o : typed_auth a -> clock E t -> v2_fate react E a t w o -> settles (fun n => v2_run react E n a w) o.
Proof.
  intros Ta Ht [(Hl & ->)|(m1 & Hm & H)].
  - apply settles_const. intros n. unfold v2_run. apply names_iff in Hl; [|exact Ta]. destruct Hl as (x & Hl).
    pose proof (@names_error a _ Hl) as ->. rewrite Hl. reflexivity.
  - eapply settles_ext; [intros n; unfold v2_run; rewrite (init_complete Hm); cbn [lifted gbind obind]; reflexivity|].
    eapply (fun X => @then_settles _ _ _ _ (fun n r w1 => _) _ X H). intros r w1 o' _ H'.
    exact (challenge_settles Ta Ht H').
Qed.
Lemma v2_total a t w : typed_auth a -> clock E t -> exists o, v2_fate react E a t w o.
Proof.
  intros Ta Ht. destruct (init_msg (a_domain a) (a_workstation a)) as [m1|x|] eqn:Hi.
  - assert (Hm : negotiate_message (a_domain a) (a_workstation a) m1) by (destruct Ta as (Tu & Tw & Td & Tp); now apply init_good).
    destruct (@then_total _ (SetupBlob m1) w (fun r w1 => challenge_fate react E a t (ss_blob r) (adopt (set_uid (ss_uid r)) w1))) as (o & Ho).
    { intros r w1 _. now apply challenge_total. }
    exists o. right. eauto.
  - eexists. left. split; [|reflexivity]. apply names_iff; eauto.
  - exfalso. revert Hi. apply init_no_crash.
Qed.
Theorem login_settles t w o : typed_auth (auth_of (cl w)) -> clock E t -> login_fate t w o ->
  settles (fun n => run (setup_connection E n) w) o.
Proof.
  intros Ta Ht H. eapply settles_ext; [intros n; apply setup_run|].
  eapply (fun X => @then_settles _ _ _ _ (fun n s w1 => _) _ X H). intros s w1 o' Ha Hn. cbv zeta in *.
  pose proof (answers_client Ha) as Hc. cbn [adopt set_options cl auth_of].
  assert (Hx : auth_of (cl w1) = auth_of (cl w)) by now rewrite Hc. rewrite Hx.
  destruct (N.testbit (s_capabilities s) 31); [now apply v2_settles with (t := t)|now apply v1_settles].
Qed.
Theorem login_has_fate t w : typed_auth (auth_of (cl w)) -> clock E t -> exists o, login_fate t w o.
Proof.
  intros Ta Ht. apply then_total. intros s w1 _. cbv zeta. destruct (N.testbit _ 31); [now apply v2_total|now apply v1_total].
Qed.
Lemma setup_more f n w o : (f <= n)%nat -> run (setup_connection E f) w = o -> (forall w', o <> Starved w') -> run (setup_connection E n) w = o.
Proof.
  intros Hn H Ho. rewrite (setup_same E f react w) in H. rewrite (setup_same E n react w). rewrite <- H. apply ple_run; [now apply interp_mono|].
  intros v. rewrite H. apply Ho.
Qed.
Lemma fate_done R (c : call R) w (next : R -> world -> outcome (ans unit) -> Prop) o : (forall v w1 o, next v w1 o -> forall w', o <> Starved w') -> call_then c w next o -> forall w', o <> Starved w'.
Proof. intros Hn [(v & w1 & _ & H)|[(e & w1 & _ & ->)|[(w1 & _ & ->)|(w1 & _ & ->)]]] w'; try discriminate. eapply Hn; eauto. Qed.
Lemma login_not_starved t w o : login_fate t w o -> forall w', o <> Starved w'.
Proof.
  apply fate_done. intros s w1 q. cbv zeta. destruct (N.testbit _ 31).
  - intros [(_ & ->)|(m1 & _ & H)]; [discriminate|]. revert H. apply fate_done. intros r w2 x.
    intros [(_ & ->)|[(_ & _ & ->)|(ch & _ & [(_ & ->)|(nt & m3 & _ & _ & H)])]]; try discriminate. revert H. apply fate_done. intros r' w3 y ->. discriminate.
  - intros [(_ & ->)|(_ & nt & _ & H)]; [discriminate|]. revert H. apply fate_done. intros r' w3 y ->. discriminate.
Qed.
Theorem login_fate_iff t w o : typed_auth (auth_of (cl w)) -> clock E t -> (forall w', o <> Starved w') ->
  ((exists fuel, run (setup_connection E fuel) w = o) <-> login_fate t w o).
Proof.
  intros Ta Ht Ho. split.
  - intros (fuel & H). destruct (login_has_fate w Ta Ht) as (o' & H'). pose proof (login_settles Ta Ht H') as (k & Hk).
    assert (o = o') as ->; [|exact H'].
    rewrite <- (Hk (Nat.max k fuel)) by lia. symmetry. apply (@setup_more fuel); [lia|exact H|exact Ho].
  - intros H. destruct (login_settles Ta Ht H) as (k & Hk). exists k. now apply Hk.
Qed.
Theorem login_fate_one t w o o' : typed_auth (auth_of (cl w)) -> clock E t -> login_fate t w o -> login_fate t w o' -> o = o'.
Proof. intros Ta Ht H H'. eapply settles_one; eapply login_settles; eauto. Qed.

(** ** the session request *)
Lemma session_three src (w : world) :
  (exists f w1 rest, session_request smb_server src f /\ session_asked react w f w1 /\ rx w1 = positive_response ++ rest)
  \/ (exists e w', session_fails react src w e w')
  \/ (exists f w1, session_request smb_server src f /\ session_asked react w f w1 /\ incomplete (rx w1) /\ tl w1 = Prog.Open).
Proof.
  pose proof (session_request_ok smb_server src) as Hf. set (f := nb_frame 0x81 (session_payload smb_server src)) in *.
  destruct (react (srv w) f) as [s inc t|s n x inc t] eqn:Hr; destruct (deliver (tl w) (rx w) inc t) as [b t'] eqn:Hd.
  - set (w1 := mk_world (cl w) s b t' (tx w ++ [f])).
    assert (Ha : session_asked react w f w1). { exists s, inc, t. cbn. auto. }
    clearbody w1. pose proof (session_accepted Ha) as Hs. rewrite run_nb_recv in Hs. pose proof (next_cases (rx w1)) as Hn.
    assert (K : forall e w', run (create_session smb_server src) w = Done (Bad e) w' -> exists e w', session_fails react src w e w').
    { intros e w' H. apply session_fails_iff in H. eauto. }
    destruct (next_frame (rx w1)) as [ty p rest|rest|].
    + destruct Hn as (Hx & Ht & Hl). pose proof (frame_kinds ty p) as Hk.
      destruct (frame_new ty p) as [[m|m| |c| |]|x|]; cbn [lifted gbind obind] in Hs; try (right; left; eapply K; exact Hs).
      * left. destruct Hk as [-> ->]. exists f, w1, rest. auto.
      * contradiction.
    + right. left. eapply K. exact Hs.
    + destruct (cut_or_open (rx w1) (tl w1)) as [(e & Hc)|Ho].
      * right. left. exists (ENetBios e). eexists. eapply session_cut; eauto.
      * right. right. exists f, w1. auto.
  - right. left. eexists. eexists. eapply session_write; eauto.
Qed.
Lemma session_blocked src (w : world) f w1 : session_request smb_server src f -> session_asked react w f w1 -> incomplete (rx w1) ->
  tl w1 = Prog.Open -> run (create_session smb_server src) w = Blocked (leaving w1 []).
Proof.
  intros Hf Ha Hi Ht. rewrite (session_request_fun Hf (session_request_ok _ _)) in Ha.
  rewrite (session_accepted Ha), run_nb_recv, (next_incomplete react Hi). unfold short_outcome. rewrite Ht. reflexivity.
Qed.
Definition session_run (n : nat) (src : text) : prog cifs (ans unit) := mbind (create_session smb_server src) (fun _ => setup_connection E n).
Lemma session_settles t src w o : typed_auth (auth_of (cl w)) -> clock E t -> session_fate react E t src w o ->
  settles (fun n => run (session_run n src) w) o.
Proof.
  intros Ta Ht [(f & w1 & rest & Hf & Ha & Hx & H)|[(e & w1 & H & ->)|(f & w1 & Hf & Ha & Hi & Ho & ->)]]; unfold session_run.
  - eapply settles_ext; [intros n; rewrite run_mbind, (session_positive Hf Ha Hx); cbn [gbind obind]; reflexivity|].
    eapply login_settles with (t := t); auto. cbn [leaving cl]. destruct Ha as (? & ? & ? & _ & -> & _). exact Ta.
  - apply settles_const. intros n. apply session_fails_iff in H. rewrite run_mbind, H. reflexivity.
  - apply settles_const. intros n. rewrite run_mbind, (session_blocked Hf Ha Hi Ho). reflexivity.
Qed.
Lemma session_total t src w : typed_auth (auth_of (cl w)) -> clock E t -> exists o, session_fate react E t src w o.
Proof.
  intros Ta Ht. destruct (session_three src w) as [(f & w1 & rest & Hf & Ha & Hx)|[(e & w1 & H)|(f & w1 & Hf & Ha & Hi & Ho)]].
  - destruct (@login_has_fate t (leaving w1 rest)) as (o & Hl); [|exact Ht|].
    { cbn [leaving cl]. destruct Ha as (? & ? & ? & _ & -> & _). exact Ta. }
    exists o. left. exists f, w1, rest. auto.
  - eexists. right. left. eauto.
  - eexists. right. right. exists f, w1. eauto 6.
Qed.
Lemma session_more f n src w o : (f <= n)%nat -> run (session_run f src) w = o -> (forall w', o <> Starved w') -> run (session_run n src) w = o.
Proof.
  unfold session_run. rewrite !run_mbind. intros Hn H Ho. destruct (run (create_session smb_server src) w) as [[v|e] w1|w1|w1|w1];
    cbn [gbind obind] in *; auto. now apply (@setup_more f).
Qed.

(** ** open *)
Variable net : N -> connection Sv.
Notation opens := (open E Sv net react).
Notation open_fate := (open_fate react E net).
Definition unstarved (r : opened Sv) : Prop := forall w, r <> OnStream (Starved w).
Lemma open_settles maybe t port r : typed_auth (credentials maybe) -> clock E t -> open_fate maybe t port r ->
  settles (fun n => opens n port maybe) r.
Proof.
  intros Ta Ht H. unfold open. change (match maybe with Some a => a | None => default_auth end) with (credentials maybe). change SMBSERVER with smb_server.
  destruct H as [p e Hp|p st w o Hp Hw H|st w o Hp Hw H|x e Hp Hq|x st w o Hp Hq Hw H].
  - apply settles_const. intros n. now rewrite Hp.
  - apply starts_start in Hw. subst w. destruct (@login_settles t (start Sv (credentials maybe) st) o Ta Ht H) as (k & Hk). exists k. intros n Hn.
    rewrite Hp, (Hk n Hn). reflexivity.
  - apply starts_start in Hw. subst w. destruct (@login_settles t (start Sv (credentials maybe) st) o Ta Ht H) as (k & Hk). exists k. intros n Hn.
    rewrite Hp, (Hk n Hn). reflexivity.
  - apply settles_const. intros n. now rewrite Hp, Hq.
  - apply starts_start in Hw. subst w. destruct (@session_settles t _ (start Sv (credentials maybe) st) o Ta Ht H) as (k & Hk). exists k. intros n Hn.
    unfold session_run in Hk. rewrite Hp, Hq, (Hk n Hn). reflexivity.
Qed.
Theorem open_has_fate maybe t port : typed_auth (credentials maybe) -> clock E t -> exists r, open_fate maybe t port r.
Proof.
  intros Ta Ht.
  assert (S0 : forall st, starts maybe st (start Sv (credentials maybe) st)) by (intros st; now apply starts_start).
  destruct port as [p|].
  - destruct (net p) as [st|e] eqn:Hp; [|eexists; eapply of_unreachable; exact Hp].
    destruct (@login_has_fate t (start Sv (credentials maybe) st) Ta Ht) as (o & Ho). eexists. eapply of_port; eauto.
  - destruct (net 445) as [st|x] eqn:Hp.
    + destruct (@login_has_fate t (start Sv (credentials maybe) st) Ta Ht) as (o & Ho). eexists. eapply of_default; eauto.
    + destruct (net 139) as [st|e] eqn:Hq; [|eexists; eapply of_neither; eauto].
      destruct (@session_total t (a_workstation (credentials maybe)) (start Sv (credentials maybe) st) Ta Ht) as (o & Ho). eexists. eapply of_second; eauto.
Qed.
Lemma open_more f n maybe port r : (f <= n)%nat -> opens f port maybe = r -> unstarved (snd r) -> opens n port maybe = r.
Proof.
  unfold open, unstarved. change (match maybe with Some a => a | None => default_auth end) with (credentials maybe). change SMBSERVER with smb_server.
  intros Hn <-.
  assert (L : forall w, (forall v, OnStream (run (setup_connection E f) w) <> OnStream (Starved v)) -> run (setup_connection E n) w = run (setup_connection E f) w).
  { intros w H. apply (@setup_more f); [exact Hn|reflexivity|]. intros v Hv. apply (H v). rewrite Hv. reflexivity. }
  assert (M : forall src w, (forall v, OnStream (run (session_run f src) w) <> OnStream (Starved v)) -> run (session_run n src) w = run (session_run f src) w).
  { intros src w H. apply (@session_more f); [exact Hn|reflexivity|]. intros v Hv. apply (H v). rewrite Hv. reflexivity. }
  destruct port as [p|].
  - destruct (net p) as [st|e]; cbn [snd]; [|reflexivity]. intros H. rewrite L by exact H. reflexivity.
  - destruct (net 445) as [st|x]; cbn [snd]; [intros H; rewrite L by exact H; reflexivity|].
    destruct (net 139) as [st|e]; [|reflexivity]. intros H. fold (session_run n (a_workstation (credentials maybe))).
    fold (session_run f (a_workstation (credentials maybe))) in *. rewrite M by exact H. reflexivity.
Qed.
Theorem open_fate_iff maybe t port r : typed_auth (credentials maybe) -> clock E t -> unstarved (snd r) ->
  ((exists fuel, opens fuel port maybe = r) <-> open_fate maybe t port r).
Proof.
  intros Ta Ht Hu. split.
  - intros (fuel & H). destruct (@open_has_fate maybe t port Ta Ht) as (r' & H'). destruct (open_settles Ta Ht H') as (k & Hk).
    assert (r = r') as ->; [|exact H'].
    rewrite <- (Hk (Nat.max k fuel)) by lia. symmetry. apply (@open_more fuel); [lia|exact H|exact Hu].
  - intros H. destruct (open_settles Ta Ht H) as (k & Hk). exists k. now apply Hk.
Qed.
Theorem open_fate_one maybe t port r r' : typed_auth (credentials maybe) -> clock E t -> open_fate maybe t port r -> open_fate maybe t port r' -> r = r'.
Proof. intros Ta Ht H H'. eapply settles_one; eapply open_settles; eauto. Qed.
Theorem open_settled maybe t port : typed_auth (credentials maybe) -> clock E t ->
  exists k r, unstarved (snd r) /\ forall n, (k <= n)%nat -> opens n port maybe = r.
Proof.
  intros Ta Ht. destruct (@open_has_fate maybe t port Ta Ht) as (r & H). destruct (open_settles Ta Ht H) as (k & Hk). exists k, r. split; [|exact Hk].
  intros w. destruct H as [p e Hp|p st v o Hp Hw H|st v o Hp Hw H|x e Hp Hq|x st v o Hp Hq Hw H]; cbn [snd]; try discriminate;
    intros Hx; apply on_inj in Hx; revert Hx.
  - eapply login_not_starved; eauto.
  - eapply login_not_starved; eauto.
  - destruct H as [(f & w1 & rest & _ & _ & _ & H)|[(e & w1 & _ & ->)|(f & w1 & _ & _ & _ & _ & ->)]]; try discriminate. eapply login_not_starved; eauto.
Qed.
End Server.
