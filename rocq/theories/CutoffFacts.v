(** * CutoffFacts: a conforming server behind a network on which the connection may break *)
From Coq Require Import Lia.
From Verif Require Import Base BaseFacts Text Win Errors Common Reply Ntlm Prog Client Spec SpecReply SpecCrash SpecNtlm SpecMsg
  Api SpecCall Flow SpecFault SpecBlame SpecLogin SizeFacts SpecWhy SpecFate SpecFacts ClientFacts CallFacts FlowFacts FaultFacts WhyFacts
  FateFacts RunFacts SpecRemote RemoteFacts ShareFacts FileFacts SpecLost LostFacts SpecCutoff.
Open Scope N_scope.
Set Implicit Arguments.

(** ** more bytes after the ones that were read change nothing *)
Lemma arrives_more id b p rest x : reply_arrives id b p rest -> reply_arrives id (b ++ x) p (rest ++ x).
Proof. intros (s & Hs & Hp & ->). exists s. split; [exact Hs|]. split; [exact Hp|]. now rewrite <- !app_assoc. Qed.
Lemma fragments_more id b fs rest x : fragments_arrive id b fs rest -> fragments_arrive id (b ++ x) fs (rest ++ x).
Proof.
  induction 1 as [b|b p b' f fs rest Hr Hp Hg H IH]; [apply no_fragment|]. eapply next_fragment; [exact (arrives_more x Hr)|exact Hp|exact Hg|exact IH].
Qed.
Lemma faulty_more id code b e rest x : faulty id code b e rest -> faulty id code (b ++ x) e (rest ++ x).
Proof.
  induction 1 as [s b e rest Hs H IH|t a y z rest H|ty p rest e H1 H2 H3|p rest e H1 H2|p want got st rest H1 H2 H3 H4|p st rest H1 H2 H3]; rewrite <- app_assoc.
  - now apply faulty_skip.
  - now apply faulty_big.
  - now apply faulty_frame.
  - now apply faulty_header.
  - now apply faulty_reply with (st := st).
  - now apply faulty_status.
Qed.
Lemma waits_more R (c : call R) id b b' x : waits c id b b' -> waits c id (b ++ x) (b' ++ x).
Proof.
  intros [H|(Hs & fs & tp & td & H & Hc)]; [left; now rewrite H|]. right. split; [exact Hs|]. exists fs, tp, td. split; [now apply fragments_more|exact Hc].
Qed.
Lemma wrong_more R (c : call R) id b e rest x : search_wrong c id b e rest -> search_wrong c id (b ++ x) e (rest ++ x).
Proof.
  intros [fs tp td b' p rest0 H1 H2 H3 H4 H5 H6|fs tp td b' p g rest0 e0 H1 H2 H3 H4 H5 H6 H7|fs g tp td rest0 e0 H1 H2 H3 H4 H5 H6 H7 H8|fs y z rest0 H1 H2 H3 H4 H5].
  - eapply no_piece; eauto using fragments_more, arrives_more.
  - eapply bad_piece; eauto using fragments_more, arrives_more.
  - eapply bad_blocks; eauto using fragments_more, arrives_more.
  - eapply bad_batch; eauto using fragments_more, arrives_more.
Qed.

Section Two.
Variables Sv Sw : Type.
Variable react : Sv -> bytes -> reaction Sv.
Variable other : Sw -> bytes -> reaction Sw.
Variable E : env.

Lemma asked_one (w : world cifs Sv) f w1 w2 : asked react w f w1 -> asked react w f w2 -> w1 = w2.
Proof.
  intros (s & inc & t & H1 & H2 & H3 & H4 & H5) (s' & inc' & t' & K1 & K2 & K3 & K4 & K5). rewrite H1 in K1. injection K1 as <- <- <-.
  destruct w1, w2; cbn in *. rewrite <- H5 in K5. injection K5 as -> ->. congruence.
Qed.
Lemma request_one st R (c : call R) f g : is_request E st c f -> is_request E st c g -> f = g.
Proof. intros (n & H) (m & H'). rewrite (request_fuel E n m c st) in H. congruence. Qed.

(** the call [c] asked in [w] (of the one server) and in [v] (of the other); there more bytes
    have arrived: the fate is the same, unless the end of the stream was met *)
Lemma fate_more R (c : call R) (w : world cifs Sv) (v : world cifs Sw) f w1 v1 x o : cl v = cl w -> is_request E (cl w) c f ->
  asked react w f w1 -> asked other v f v1 -> rx v1 = rx w1 ++ x -> fate react E c w o ->
  (exists e, o = Done (Bad (ENetBios e)) (leaving w1 []) /\ tl w1 <> Prog.Open)
  \/ (tl w1 = Prog.Open /\ (x = [] -> tl v1 = Prog.Open -> fate other E c v (Blocked (leaving v1 []))))
  \/ (exists a left, o = Done a (leaving w1 left) /\ fate other E c v (Done a (leaving v1 (left ++ x))))
  \/ (exists left, fate other E c v (Crashed (leaving v1 (left ++ x)))).
Proof.
  intros Hv Hf Ha Hb Hx Ho. pose proof Hf as Hf'. rewrite <- Hv in Hf'.
  assert (Hfit : fits_request (use_unicode (cl w)) c /\ ~ mid_full E (cl w)).
  { destruct Hf as (n & Hn). apply (request_iff E n c (cl w)). eauto. }
  assert (Eq : forall g w2, is_request E (cl w) c g -> asked react w g w2 -> g = f /\ w2 = w1).
  { intros g w2 Hg Hg2. rewrite (request_one Hg Hf) in *. split; [reflexivity|]. now apply (asked_one Hg2). }
  destruct Ho as [a w' H|e w' H|w' H|w' H].
  - right; right; left. destruct H as [g w2 p st rest a H1 H2 H3 H4 H5 H6 H7|g w2 fs y z rest a H1 H2 H3 H4 H5 H6 H7];
      destruct (Eq _ _ H1 H2) as (-> & ->); exists (Good a), rest; (split; [reflexivity|]); apply fate_good; rewrite <- Hv in H4.
    + eapply answers_reply; eauto; [|rewrite Hv; exact H5]. rewrite Hx. now apply arrives_more.
    + eapply answers_search; eauto. rewrite Hx. now apply fragments_more.
  - destruct H as [H1 H2 H3|g s n e inc t b t' H1 H2 H3|g w2 b e rest H1 H2 H3 H4|g w2 s r e H1 H2 H3 H4 H5 H6|g w2 p st rest e H1 H2 H3 H4 H5 H6 H7 H8 H9|g w2 rest e H1 H2 H3 H4].
    + tauto.
    + exfalso. rewrite (request_one H1 Hf) in H2. destruct Ha as (s' & inc' & t0 & Ha & _). congruence.
    + destruct (Eq _ _ H1 H2) as (-> & ->). right; right; left. exists (Bad e), rest. split; [reflexivity|]. apply fate_bad. rewrite <- Hv in H3, H4.
      apply (@fails_arrival _ other E R c v f v1 (b ++ x) e (rest ++ x)); [exact Hf'|exact Hb|rewrite Hx; now apply waits_more|now apply faulty_more].
    + destruct (Eq _ _ H1 H2) as (-> & ->). left. exists e. split; [reflexivity|]. intros Ht. rewrite Ht in H6. inversion H6.
    + destruct (Eq _ _ H1 H2) as (-> & ->). right; right; left. exists (Bad (ESmb e)), rest. split; [reflexivity|]. apply fate_bad. rewrite <- Hv in H4, H5.
      eapply fails_contents; eauto. rewrite Hx. now apply arrives_more.
    + destruct (Eq _ _ H1 H2) as (-> & ->). right; right; left. exists (Bad (ESmb e)), rest. split; [reflexivity|]. apply fate_bad. rewrite <- Hv in H4.
      eapply fails_search; eauto. rewrite Hx. now apply wrong_more.
  - right; right; right. destruct H as [H|_ H|g w2 p st rest H1 H2 H3 H4 H5 H6 H7|g w2 fs tp td b p rest H1 H2 H3 H4 H5 H6 H7 H8|g w2 fs y z rest H1 H2 H3 H4 H5 H6 H7].
    + tauto.
    + exfalso. exact (@window_unfit R c (use_unicode (cl w)) H (proj1 Hfit)).
    + destruct (Eq _ _ H1 H2) as (-> & ->). exists rest. apply fate_crash. rewrite <- Hv in H4, H5. eapply panics_reply; eauto. rewrite Hx. now apply arrives_more.
    + destruct (Eq _ _ H1 H2) as (-> & ->). exists rest. apply fate_crash. rewrite <- Hv in H4, H6, H7. apply (@panics_fragment _ other E R c v f v1 fs tp td (b ++ x) p (rest ++ x)); auto; [|now apply arrives_more].
      rewrite Hx. now apply fragments_more.
    + destruct (Eq _ _ H1 H2) as (-> & ->). exists rest. apply fate_crash. rewrite <- Hv in H4. eapply panics_blocks; eauto. rewrite Hx. now apply fragments_more.
  - destruct H as [g w2 s r H1 H2 H3 H4 H5 H6]. destruct (Eq _ _ H1 H2) as (-> & ->). right; left. split; [exact H6|]. intros -> Ht. rewrite app_nil_r in Hx.
    apply fate_wait. rewrite <- Hv in H3, H4. rewrite <- Hx in H3. eapply stalls_open; eauto.
Qed.
End Two.

(** what holds of the state of the peer whatever it is sent *)
Lemma run_peer Sv (react : Sv -> bytes -> reaction Sv) (P : Sv -> Prop) :
  (forall s b, P s -> match react s b with Accept s' _ _ | Refuse s' _ _ _ _ => P s' end) ->
  forall A (p : prog cifs A) w, P (srv w) -> P (srv (world_of (run react p w))).
Proof.
  intros HP A p. induction p as [a| | |k IH|c k IH|n k IH|b k IH]; intros w Hw; cbn [Prog.run]; try exact Hw.
  - now apply IH.
  - exact (IH (mk_world c (srv w) (rx w) (tl w) (tx w)) Hw).
  - destruct (n <=? len (rx w)).
    + exact (IH (Got (take n (rx w))) (mk_world (cl w) (srv w) (drop n (rx w)) (tl w) (tx w)) Hw).
    + destruct (tl w) as [| |e]; [exact Hw|exact (IH RdEof (mk_world (cl w) (srv w) [] Closed (tx w)) Hw)|exact (IH (RdErr e) (mk_world (cl w) (srv w) [] (Broken e) (tx w)) Hw)].
  - specialize (HP (srv w) b Hw). destruct (react (srv w) b) as [s inc t|s n e inc t]; destruct (deliver (tl w) (rx w) inc t) as [buf t'].
    + exact (IH None (mk_world (cl w) s buf t' (tx w ++ [b])) HP).
    + exact (IH (Some e) (mk_world (cl w) s buf t' (tx w ++ [take n b])) HP).
Qed.

Lemma fails_next Sv (react : Sv -> bytes -> reaction Sv) E R (c : call R) w e w' : fails react E c w e w' -> cl w' = next_client (cl w).
Proof.
  intros [H1 H2 H3|f s n e0 inc t b t' H1 H2 H3|f w1 b e0 rest H1 H2 H3 H4|f w1 s r e0 H1 H2 H3 H4 H5 H6|f w1 p st rest e0 H1 H2 _ _ _ _ _ _ _|f w1 rest e0 H1 H2 _ _];
    try reflexivity; destruct H2 as (s' & inc & t & _ & H2 & _); exact H2.
Qed.

Section Net.
Variables Sn Sv St : Type.
Variable net : Sn -> bytes -> reaction Sn.
Variable react : Sv -> bytes -> reaction Sv.
Variable inner : Sn -> Sv.
Variable up : Sn -> Prop.
Hypothesis Hnet : unreliable net react inner up.
Variable B : service St.
Variable abs : Sv -> St.
Hypothesis conf : conforming react B abs.
Variable E : env.
Notation world := (world cifs Sn).
Notation run := (run net).

(** one call on a connection that is there *)
Lemma cutoff_call_at R (c : call R) (w : world) : typed_client (cl w) -> idle w -> up (srv w) ->
  typed c -> unambiguous c -> fits_request (use_unicode (cl w)) c -> ~ mid_full E (cl w) ->
  let st := abs (inner (srv w)) in let r := B (uid (cl w)) (op_of c) st in
  exists n a w', (forall fuel, (n <= fuel)%nat -> run (exec E fuel c) w = Done a w') /\ cl w' = next_client (cl w) /\ rx w' = []
  /\ ((a = returned (fst r) /\ abs (inner (srv w')) = snd r /\ idle w' /\ up (srv w'))
      \/ (a = returned (fst r) /\ abs (inner (srv w')) = snd r /\ silent w' /\ ~ up (srv w'))
      \/ ((exists e, a = Bad (ENetBios e)) /\ (abs (inner (srv w')) = st \/ abs (inner (srv w')) = snd r) /\ silent w' /\ ~ up (srv w'))).
Proof.
  intros Htc (Hrx & Htl) Hup Hty Hun Hfit Hmid st r.
  set (v := mk_world (cl w) (inner (srv w)) [] Prog.Open (tx w)).
  assert (Hiv : idle v) by (split; reflexivity).
  destruct (@remote_call_at _ _ react B abs conf E R c v Htc Hiv Hty Hun Hfit Hmid) as (f & s' & inc & v' & Hreq & Hr & Hrun & (Hi1 & Hi2) & Hcl & Hs & Habs & _).
  cbn [v cl srv] in *. fold st in Hrun, Habs. fold r in Hrun, Habs.
  set (v1 := mk_world (next_client (cl w)) s' inc Prog.Open (tx w ++ [f])).
  assert (Hav : asked react v f v1) by (exists s', inc, Prog.Open; repeat split; exact Hr).
  assert (Hq : is_request E (cl w) c f) by (exists 0%nat; apply Hreq).
  assert (Hfv : fate react E c v (Done (returned (fst r)) v')) by (apply call_fate; [discriminate|exists (S (length inc)); apply Hrun; lia]).
  assert (Hall : forall n' part rest t, net (srv w) f = Accept n' part t -> inc = part ++ rest -> (t = Prog.Open -> rest = []) ->
    exists a w', fate net E c w (Done a w') /\ cl w' = next_client (cl w) /\ srv w' = n' /\ rx w' = [] /\ tl w' = t
      /\ (a = returned (fst r) \/ (t <> Prog.Open /\ exists e, a = Bad (ENetBios e)))).
  { intros n' part rest t Hn Hp Ht. set (w1 := mk_world (next_client (cl w)) n' part t (tx w ++ [f])).
    assert (Haw : asked net w f w1). { exists n', part, t. rewrite Hrx, Htl. repeat split. exact Hn. }
    destruct (call_has_fate net E c w) as (o & Ho).
    assert (Hxv : rx v1 = rx w1 ++ rest) by exact Hp.
    destruct (@fate_more _ _ net react E R c w v f w1 v1 rest o eq_refl Hq Haw Hav Hxv Ho) as [(e & -> & Ho')|[(H1 & H2)|[(a & left & -> & H1)|(left & H1)]]].
    - exists (Bad (ENetBios e)), (leaving w1 []). split; [exact Ho|]. do 4 (split; [reflexivity|]). right. split; [exact Ho'|eauto].
    - exfalso. specialize (H2 (Ht H1) eq_refl). pose proof (fate_one Hfv H2) as K. discriminate K.
    - pose proof (fate_one Hfv H1) as K. injection K as K1 K2. subst v'. cbn [rx leaving] in Hi1. apply app_eq_nil in Hi1. destruct Hi1 as (-> & _).
      exists a, (leaving w1 []). split; [exact Ho|]. do 4 (split; [reflexivity|]). left. now symmetry.
    - exfalso. pose proof (fate_one Hfv H1) as K. discriminate K. }
  assert (Hquiet : forall w' : world, rx w' = [] -> tl w' <> Prog.Open -> silent w') by (intros w' H1 H2; split; [exact H2|rewrite H1; exact incomplete_nil]).
  destruct (proj1 Hnet (srv w) f s' inc Hup Hr) as [(n' & Hn & Hin & Hu)|[(n' & part & rest & t & Hn & Hp & Ht & Hin & Hu)|[(n' & t & Hn & Ht & Hin & Hu)|(n' & k & e & t & Hn & Ht & Hin & Hu)]]].
  - destruct (Hall n' inc [] Prog.Open Hn (eq_sym (app_nil_r inc)) (fun _ => eq_refl)) as (a & w' & Hf & Hc & Hs' & Hx & Ht & [Ha|(Ha & _)]); [|now destruct Ha].
    apply fate_happens in Hf. destruct Hf as (n & Hf). exists n, a, w'. split; [exact Hf|]. split; [exact Hc|]. split; [exact Hx|]. left. rewrite Hs', Hin. repeat split; auto.
  - destruct (Hall n' part rest t Hn Hp (fun H => False_ind _ (Ht H))) as (a & w' & Hf & Hc & Hs' & Hx & Ht' & Ha).
    apply fate_happens in Hf. destruct Hf as (n & Hf). exists n, a, w'. split; [exact Hf|]. split; [exact Hc|]. split; [exact Hx|]. right. rewrite Hs', Hin.
    assert (silent w') by (apply Hquiet; [exact Hx|rewrite Ht'; exact Ht]).
    destruct Ha as [Ha|(_ & Ha)]; [left; auto|right]. split; [exact Ha|]. auto.
  - destruct (Hall n' [] inc t Hn eq_refl (fun H => False_ind _ (Ht H))) as (a & w' & Hf & Hc & Hs' & Hx & Ht' & Ha).
    assert (Hsw : silent w') by (apply Hquiet; [exact Hx|rewrite Ht'; exact Ht]).
    destruct Ha as [Ha|(_ & Ha)].
    + (* the whole answer is empty: it cannot be an answer *)
      exfalso. assert (Hlost : forall w1 : world, asked net w f w1 -> incomplete (rx w1)).
      { intros w1 (s1 & inc1 & t1 & K1 & _ & _ & _ & K5). rewrite Hn in K1. injection K1 as <- <- <-. rewrite Hrx, Htl in K5. injection K5 as -> _. exact incomplete_nil. }
      destruct (fst r) as [y|code]; cbn [returned] in Ha; subst a.
      * apply answers_iff in Hf. destruct Hf as [g w1 p st0 rest v0 G1 G2 G3 G4 G5 G6 G7|g w1 fs x y0 rest v0 G1 G2 G3 G4 G5 G6 G7];
          rewrite (request_one G1 Hq) in G2; specialize (Hlost _ G2).
        -- exact (no_reply Hlost G4).
        -- apply (no_fragments Hlost) in G4. destruct G4 as (-> & _). destruct G5 as (G5 & _). now apply G5.
      * apply fails_iff in Hf. remember (ServerError (status_of_code code)) as er eqn:Her.
        destruct Hf as [H1 H2 H3|g s0 n0 e0 inc0 t0 b t' H1 H2 H3|g w1 b e0 rest G1 G2 G3 G4|g w1 s0 r0 e0 G1 G2 G3 G4 G5 G6|g w1 p st0 rest e0 G1 G2 _ G4 _ _ _ _ _|g w1 rest e0 G1 G2 _ G4];
          try discriminate Her.
        rewrite (request_one G1 Hq) in G2; specialize (Hlost _ G2). apply (no_wait Hlost) in G3. subst b. exact (no_fault G4 Hlost).
    + apply fate_happens in Hf. destruct Hf as (n & Hf). exists n, a, w'. split; [exact Hf|]. split; [exact Hc|]. split; [exact Hx|]. right. right. rewrite Hs', Hin. auto.
  - set (w' := mk_world (next_client (cl w)) n' [] t (tx w ++ [take k f])).
    assert (Hf : fate net E c w (Done (Bad (ENetBios (IoError (IoOther e)))) w')).
    { apply fate_bad. eapply fails_write; [exact Hq|exact Hn|]. rewrite Hrx, Htl. reflexivity. }
    apply fate_happens in Hf. destruct Hf as (n & Hf). eexists n, _, w'. split; [exact Hf|]. split; [reflexivity|]. split; [reflexivity|]. right. right.
    split; [eauto|]. cbn [srv w']. split; [|split; [apply Hquiet; [reflexivity|exact Ht]|exact Hu]].
    destruct Hin as [Hin|Hin]; rewrite Hin; [right; exact Habs|left; reflexivity].
Qed.
Lemma cutoff_call R (c : call R) (w : world) : typed_client (cl w) -> idle w -> up (srv w) ->
  typed c -> unambiguous c -> fits_request (use_unicode (cl w)) c -> ~ mid_full E (cl w) ->
  let st := abs (inner (srv w)) in let r := B (uid (cl w)) (op_of c) st in
  exists n a w', (forall fuel, (n <= fuel)%nat -> run (exec E fuel c) w = Done a w') /\ cl w' = next_client (cl w)
  /\ ((a = returned (fst r) /\ abs (inner (srv w')) = snd r /\ idle w' /\ up (srv w'))
      \/ (a = returned (fst r) /\ abs (inner (srv w')) = snd r /\ silent w' /\ ~ up (srv w'))
      \/ ((exists e, a = Bad (ENetBios e)) /\ (abs (inner (srv w')) = st \/ abs (inner (srv w')) = snd r) /\ silent w' /\ ~ up (srv w'))).
Proof.
  intros H1 H2 H3 H4 H5 H6 H7 st r. destruct (@cutoff_call_at R c w H1 H2 H3 H4 H5 H6 H7) as (n & a & w' & G1 & G2 & _ & G3). eauto 10.
Qed.

(** the program when the connection is gone *)
Lemma offline_runs A (f : flow A) n : quiet n f -> forall w : world, silent w -> ~ up (srv w) -> room E (cl w) n ->
  exists k a w', (forall fuel, (k <= fuel)%nat -> run (interp E fuel f) w = Done a w') /\ offline f a /\ inner (srv w') = inner (srv w).
Proof.
  induction 1 as [n a|n R q k Hp _ IH]; intros w Hs Hu Hr.
  - exists 0%nat, a, w. split; [reflexivity|]. split; [constructor|reflexivity].
  - assert (Hmid : ~ mid_full E (cl w)) by (intros [Ho Hm]; specialize (Hr Ho); lia).
    destruct (@silent_call _ net E R q w Hs Hmid Hp) as (e & w1 & (k1 & Hk1) & _ & Hs1 & _).
    assert (Hf : fate net E q w (Done (Bad e) w1)) by (apply call_fate; [discriminate|exists k1; apply Hk1; lia]).
    assert (Hc1 : cl w1 = next_client (cl w)) by (apply fails_iff in Hf; exact (fails_next Hf)).
    assert (Hin : inner (srv w1) = inner (srv w) /\ ~ up (srv w1)).
    { pose proof (@run_peer _ net (fun s => inner s = inner (srv w) /\ ~ up s)) as K. specialize (K ltac:(
        intros s b (K1 & K2); pose proof (proj2 Hnet s b K2) as K3; destruct (net s b); rewrite <- K1; exact K3) _ (exec E k1 q) w (conj eq_refl Hu)).
      rewrite Hk1 in K by lia. exact K. }
    destruct (IH e w1 Hs1 (proj2 Hin)) as (k2 & a & w2 & H1 & H2 & H3); [rewrite Hc1; apply room_after, Hr|].
    exists (Nat.max k1 k2), a, w2. split; [|split; [eapply off_call, H2|rewrite H3; apply Hin]].
    intros fuel Hfu. cbn [interp]. rewrite run_bind, Hk1 by lia. cbn [obind]. apply H1. lia.
Qed.

Lemma silent_sendable A (f : flow A) n c st : sendable B n f c st -> forall w : world, cl w = c -> silent w -> ~ up (srv w) -> room E c n ->
  exists k a w', (forall fuel, (k <= fuel)%nat -> run (interp E fuel f) w = Done a w') /\ cut_off B f c st a st /\ inner (srv w') = inner (srv w).
Proof.
  intros [n0 a c0 st0|n0 R q k c0 st0 r st1 Hty Hun Hfit HB _ Hq] w Hcl Hs Hu Hr.
  - exists 0%nat, a, w. split; [reflexivity|]. split; [constructor|reflexivity].
  - subst c0. assert (Hmid : ~ mid_full E (cl w)) by (intros [Ho Hm]; specialize (Hr Ho); lia).
    assert (Hp : ~ pattern_window q) by (intros Hp; exact (@window_unfit R q (use_unicode (cl w)) Hp Hfit)).
    destruct (@silent_call _ net E R q w Hs Hmid Hp) as (e & w1 & (k1 & Hk1) & Hca & Hs1 & _).
    assert (Hf : fate net E q w (Done (Bad e) w1)) by (apply call_fate; [discriminate|exists k1; apply Hk1; lia]).
    assert (Hc1 : cl w1 = next_client (cl w)) by (apply fails_iff in Hf; exact (fails_next Hf)).
    assert (Hin : inner (srv w1) = inner (srv w) /\ ~ up (srv w1)).
    { pose proof (@run_peer _ net (fun s => inner s = inner (srv w) /\ ~ up s)) as K. specialize (K ltac:(
        intros s b (K1 & K2); pose proof (proj2 Hnet s b K2) as K3; destruct (net s b); rewrite <- K1; exact K3) _ (exec E k1 q) w (conj eq_refl Hu)).
      rewrite Hk1 in K by lia. exact K. }
    assert (He : exists x, e = ENetBios x) by (destruct Hca as [H|? ? ? ? ? ? _ _|? ? ? ? ? _ _ _]; [now destruct H|eauto..]). destruct He as (x & ->).
    destruct (offline_runs (Hq (ENetBios x)) Hs1 (proj2 Hin)) as (k2 & a & w2 & H2 & H3 & H4); [rewrite Hc1; apply room_after, Hr|].
    exists (Nat.max k1 k2), a, w2. split; [|split; [eapply co_lost, H3|rewrite H4; apply Hin]].
    intros fuel Hfu. cbn [interp]. rewrite run_bind, Hk1 by lia. cbn [obind]. apply H2. lia.
Qed.

(** C109 *)
Theorem cutoff_program A (f : flow A) n c st : sendable B n f c st -> forall w : world, cl w = c -> abs (inner (srv w)) = st ->
  typed_client c -> idle w -> up (srv w) -> room E c n ->
  exists k a w', (forall fuel, (k <= fuel)%nat -> run (interp E fuel f) w = Done a w')
    /\ cut_off B f c st a (abs (inner (srv w'))).
Proof.
  induction 1 as [n a c st|n R q k c st r st1 Hty Hun Hfit HB Hse IH Hq]; intros w Hcl Hst Htc Hi Hu Hr.
  - exists 0%nat, a, w. split; [reflexivity|]. rewrite Hst. constructor.
  - subst c st. assert (Hmid : ~ mid_full E (cl w)) by (intros [Ho Hm]; specialize (Hr Ho); lia).
    destruct (@cutoff_call R q w Htc Hi Hu Hty Hun Hfit Hmid) as (k1 & a1 & w1 & Hk1 & Hc1 & H). rewrite HB in H. cbn [fst snd] in H.
    assert (Hr1 : room E (cl w1) n) by (rewrite Hc1; apply room_after, Hr).
    assert (Hgo : forall k2 a w2, (forall fuel, (k2 <= fuel)%nat -> run (interp E fuel (k a1)) w1 = Done a w2) ->
      forall fuel, (Nat.max k1 k2 <= fuel)%nat -> run (interp E fuel (FCall q k)) w = Done a w2).
    { intros k2 a w2 H2 fuel Hfu. cbn [interp]. rewrite run_bind, Hk1 by lia. cbn [obind]. apply H2. lia. }
    destruct H as [(-> & Ha & Hi1 & Hu1)|[(-> & Ha & Hs1 & Hu1)|((e & ->) & Ha & Hs1 & Hu1)]].
    + destruct (IH w1 Hc1 Ha) as (k2 & a & w2 & H2 & H3).
      * destruct Htc as [Ht1 Ht2]. split; [exact Ht1|]. unfold next_client, u16. cbn. apply N.mod_lt. lia.
      * exact Hi1.
      * exact Hu1.
      * now rewrite <- Hc1.
      * exists (Nat.max k1 k2), a, w2. split; [apply Hgo, H2|]. eapply co_call; [exact HB|exact H3].
    + destruct (silent_sendable Hse Hc1 Hs1 Hu1) as (k2 & a & w2 & H2 & H3 & H4); [now rewrite <- Hc1|].
      exists (Nat.max k1 k2), a, w2. split; [apply Hgo, H2|]. rewrite H4, Ha. eapply co_call; [exact HB|exact H3].
    + destruct (offline_runs (Hq (ENetBios e)) Hs1 Hu1 Hr1) as (k2 & a & w2 & H2 & H3 & H4).
      exists (Nat.max k1 k2), a, w2. split; [apply Hgo, H2|]. rewrite H4. destruct Ha as [Ha|Ha]; rewrite Ha.
      * eapply co_lost, H3.
      * eapply co_late; [exact HB|exact H3].
Qed.
End Net.
