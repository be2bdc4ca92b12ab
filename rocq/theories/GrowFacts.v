(** * GrowFacts: downloading a file to which others append (C131) *)
From Verif Require Import Base Text Win Errors Common Reply Ntlm Prog Client Spec SpecReply SpecMsg Api SpecCall BaseFacts TextFacts
  RunFacts MsgFacts SizeFacts Flow FlowFacts SpecReading ReadingFacts SpecRemote RemoteFacts RefServer RefFacts FileService FileFacts
  SpecLost SpecCutoff SpecHalf HalfFacts SpecTree TreeFacts SpecRemoval RemovalFacts SpecRemovers RemoversFacts SpecBusy BusyFacts
  SpecMove MoveFacts SpecMail MailFacts SpecPost PostFacts SpecVisit VisitFacts ResumeFacts SpecGrow.
Open Scope N_scope.
Set Implicit Arguments.

Lemma extends_refl d : extends d d. Proof. exists []. now rewrite app_nil_r. Qed.
Lemma extends_trans a b c : extends a b -> extends b c -> extends a c.
Proof. intros [e ->] [f ->]. exists (e ++ f). now rewrite app_assoc. Qed.
Lemma extends_len a b : extends a b -> len a <= len b.
Proof. intros [e ->]. rewrite len_app. lia. Qed.
(** two beginnings of the same *)
Lemma extends_both a b c : extends a c -> extends b c -> len a <= len b -> extends a b.
Proof.
  intros [e ->] [f H] Hl. exists (drop (len a) b).
  assert (K : take (len a) (a ++ e) = take (len a) (b ++ f)) by now rewrite H.
  rewrite take_exact, take_app in K. replace (len a - len b) with 0 in K by lia. rewrite take_0, app_nil_r in K. rewrite K at 1. symmetry. apply take_drop.
Qed.
Lemma reading_reads n h data : reading (download_reads n h data).
Proof.
  revert data. induction n as [|n IH]; intros data; cbn [download_reads]; [exact I|]. destruct (_ <? _); [|exact I].
  apply reading_bind; [now apply reading_call|]. intros chunk. apply IH.
Qed.
Lemma reading_download n s path : reading (download_flow n s path).
Proof.
  unfold download_flow. apply reading_bind; [now apply reading_call|]. intros h. apply reading_bind; [apply reading_reads|]. intros d.
  apply reading_bind; [now apply reading_call|]. intros u. exact I.
Qed.
Lemma append_appending p e : appending p (fun R => append_at R p e).
Proof.
  intros R. revert p. induction R as [|n d r IH|n sub IHs r IH]; intros p b; cbn [file_of append_at]; [discriminate| |].
  - destruct p as [|x [|y q]]; [apply IH| |apply IH]. destruct (text_eqb n x) eqn:Ex; cbn [file_of]; rewrite Ex.
    + intros [= ->]. exists (b ++ e). split; [reflexivity|]. now exists e.
    + apply IH.
  - destruct p as [|x [|y q]]; [apply IH|apply IH|]. destruct (text_eqb n x) eqn:Ex; cbn [file_of]; rewrite Ex; [apply IHs|apply IH].
Qed.

Section Net.
Variable the_tid : N.
Variable setup : server_setup.
Variables Sn Sv : Type.
Variable net : Sn -> bytes -> reaction Sn.
Variable react : Sv -> bytes -> reaction Sv.
Variable inner : Sn -> Sv.
Variable up : Sn -> Prop.
Hypothesis Hnet : unreliable net react inner up.
Variable abs : Sv -> dirs * list (tree -> tree).
Notation DS := (with_others (dir_service the_tid setup)).
Hypothesis conf : conforming react DS abs.
Variable E : env.
Notation view := (fun n => abs (inner n)).
Notation root st := (ds_root (fst st)).

Section File.
Variable p : list text.
Lemma grow_stirred st d : growing p d st -> exists d', file_of (ds_root (stirred st)) p = Some d' /\ extends d d'
  /\ ds_open (stirred st) = ds_open (fst st) /\ Forall (appending p) (List.tl (snd st)).
Proof.
  intros [H1 H2]. unfold stirred. destruct (snd st) as [|c cs]; cbn [List.tl].
  - exists d. split; [exact H1|]. split; [apply extends_refl|]. split; [reflexivity|constructor].
  - inversion H2 as [|? ? Hc Hcs]; subst. destruct (Hc _ _ H1) as (d' & K1 & K2). exists d'. cbn [ds_root ds_open]. auto.
Qed.
Lemma grow_visited A (f : flow A) c st st' : visited DS f c st st' -> reading f -> forall d, growing p d st -> exists d', growing p d' st' /\ extends d d'.
Proof.
  induction 1 as [f c st|R q k c st r st1 st' HB _ IH|k c st st' _ IH|u f c st st' _ IH|mm u f c st st' _ IH]; intros Hh d Hd;
    [exists d; split; [exact Hd|apply extends_refl]| | | |]; cbn [reading] in Hh.
  - destruct Hh as [Hq Hk]. destruct (grow_stirred Hd) as (d1 & K1 & K2 & K3 & K4).
    unfold with_others in HB. destruct (dir_service the_tid setup R (uid c) (op_of q) (stirred st)) as [r' dd] eqn:HD. cbn [fst snd] in HB.
    injection HB as <- <-. pose proof (@harmless_op the_tid setup R q (uid c) _ _ _ (reading_harmless q Hq) HD) as Hroot.
    destruct (IH (Hk _) d1) as (d2 & J1 & J2); [split; cbn [fst snd]; [now rewrite Hroot|exact K4]|]. exists d2. split; [exact J1|exact (extends_trans K2 J2)].
  - exact (IH (Hh _) d Hd).
  - exact (IH Hh d Hd).
  - exact (IH Hh d Hd).
Qed.
Variable fid size : N.
Hypothesis Hfid : u16 fid.
Hypothesis Hsize : size < 2 ^ 64.
Hypothesis Hu : u16 the_tid.
Notation h := (the_handle the_tid fid size).
(** the reads of an open file that grows *)
Lemma grow_reads n : forall data c st d, growing p d st -> open_path (ds_open (fst st)) fid = Some p -> size <= len d -> extends data d ->
  size - len data < N.of_nat n ->
  exists m data' c' st' d', local DS (download_reads n h data) c st m (Good data') c' st' /\ growing p d' st' /\ extends d d'
    /\ extends data' d' /\ size <= len data' /\ ds_open (fst st') = ds_open (fst st) /\ (m <= pieces (size - len data) 65534)%nat.
Proof.
  induction n as [|n IH]; intros data c st d Hg Hop Hsz Hex Hn; [lia|]. cbn [download_reads].
  change (h_size h) with size. destruct (N.ltb_spec (len data) size) as [H|H].
  - destruct (grow_stirred Hg) as (d1 & K1 & K2 & K3 & K4). set (st1 := (stirred st, List.tl (snd st))).
    set (chunk := take 65534 (drop (len data) d1)).
    pose proof (extends_trans Hex K2) as Hex1. pose proof (extends_len K2) as Hl1.
    assert (Hc : len chunk = N.min 65534 (len d1 - len data)) by (unfold chunk; now rewrite len_take, len_drop).
    assert (Hex2 : extends (data ++ chunk) d1).
    { destruct Hex1 as [e He]. exists (drop 65534 (drop (len data) d1)). unfold chunk. rewrite <- app_assoc, take_drop.
      rewrite He. f_equal. rewrite drop_app, drop_all by lia. now replace (len data - len data) with 0 by lia. }
    destruct (IH (data ++ chunk) (next_client c) st1 d1) as (m & data' & c' & st' & d' & L & J1 & J2 & J3 & J4 & J5 & J6).
    + split; [exact K1|exact K4].
    + unfold st1. cbn [fst]. now rewrite K3.
    + lia.
    + exact Hex2.
    + rewrite len_app. lia.
    + exists (1 + m)%nat, data', c', st', d'. split; [|split; [exact J1|split; [exact (extends_trans K2 J2)|split; [exact J3|split; [exact J4|split]]]]].
      * eapply local_bind; [|exact L]. refine (local_call (q := ReadAt h (len data)) (r := inl chunk) _ _ _ _); [|exact I|exact I|].
        -- split; [exact Hu|]. split; [exact Hfid|]. lia.
        -- unfold with_others. cbn [op_of dir_service the_handle h_tid h_fid]. rewrite K3, Hop, K1. reflexivity.
      * rewrite J5. exact K3.
      * rewrite len_app in J6. destruct (N.leb_spec size (len data + len chunk)) as [X|X].
        -- replace (size - (len data + len chunk)) with 0 in J6 by lia. rewrite pieces_none in J6 by lia.
           pose proof (@pieces_last (size - len data) 65534 ltac:(lia) ltac:(lia)). lia.
        -- pose proof (@pieces_more (size - len data) (len chunk) 65534 ltac:(lia) ltac:(lia) ltac:(lia)) as Hp.
           replace (size - len data - len chunk) with (size - (len data + len chunk)) in Hp by lia. lia.
  - exists 0%nat, data, c, st, d. split; [constructor|]. split; [exact Hg|]. split; [apply extends_refl|]. split; [exact Hex|]. split; [exact H|]. split; [reflexivity|lia].
Qed.
End File.

Lemma grow_once (w : world cifs Sn) path s d0 d1 : u16 the_tid -> grow_ready E up the_tid view path d0 d1 w s ->
  exists a w' d', downloads net E s path w a w' /\ growing (names_of (backslashes path)) d' (view (srv w')) /\ extends d0 d1
  /\ ((exists data, a = Good data /\ extends d1 data /\ extends data d' /\ ds_open (fst (view (srv w'))) = ds_open (fst (view (srv w))))
      \/ ((exists e, a = Bad (ENetBios e)) /\ extends d0 d')).
Proof.
  intros Hu (Hpath & Hsh & Hg & Hd1 & Hlen & ((Hc & Hi & Hup & _ & Hs & Hr) & Hfr)).
  set (p := names_of (backslashes path)) in *. set (fid := fresh (ds_open (fst (view (srv w))))) in *. set (h := the_handle the_tid fid (len d1)).
  destruct (grow_stirred Hg) as (d1' & K1 & K2 & K3 & K4). assert (d1' = d1) as -> by congruence.
  set (st1 := (mk_dirs (ds_root (stirred (view (srv w)))) ((fid, p) :: ds_open (fst (view (srv w)))), List.tl (snd (view (srv w))))).
  set (n := (N.to_nat (len d1) + 1)%nat).
  destruct (@grow_reads p fid (len d1) Hfr Hlen Hu n [] (next_client (cl w)) st1 d1) as (m & data & c2 & st2 & d2 & L & J1 & J2 & J3 & J4 & J5 & J6).
  - split; [exact K1|exact K4].
  - unfold st1. cbn [fst ds_open open_path]. now rewrite N.eqb_refl.
  - lia.
  - now exists d1.
  - unfold n. lia.
  - destruct (grow_stirred J1) as (d3 & M1 & M2 & M3 & M4).
    set (st3 := (mk_dirs (ds_root (stirred st2)) (ds_open (fst (view (srv w)))), List.tl (snd st2))).
    assert (W : without_fid ((fid, p) :: ds_open (fst (view (srv w)))) fid = ds_open (fst (view (srv w)))).
    { cbn [without_fid filter fst]. rewrite N.eqb_refl. cbn [negb]. apply without_same. apply fresh_above. }
    assert (Lall : local DS (download_flow n s path) (cl w) (view (srv w)) (1 + (m + (1 + 0))) (Good data) (next_client c2) st3).
    { unfold download_flow. eapply local_bind; [refine (local_call (q := OpenFile s path) (r := inl h) (st1 := st1) _ _ _ _)|].
      - split; [now rewrite Hs|exact Hpath].
      - exact I.
      - unfold short in Hsh. cbn [fits_request]. lia.
      - unfold with_others. cbn [op_of dir_service]. fold p. rewrite K1, K3, Hs, N.eqb_refl. fold fid.
        destruct (N.ltb_spec fid 65536); [|lia]. destruct (N.ltb_spec (len d1) (2 ^ 64)); [|lia]. reflexivity.
      - eapply local_bind; [exact L|]. eapply local_bind; [refine (local_call (q := Close h) (r := inl tt) (st1 := st3) _ _ _ _)|constructor].
        + split; [exact Hu|exact Hfr].
        + exact I.
        + exact I.
        + unfold with_others. cbn [op_of dir_service h the_handle h_tid h_fid]. rewrite M3, J5. cbn [st1 fst ds_open open_path]. rewrite N.eqb_refl.
          cbn [fst snd]. unfold st3. rewrite W. reflexivity. }
    destruct (@step_any the_tid setup _ _ net react inner up Hnet abs conf E _ _ _ _ _ _ _ _ Lall (strict_download _ _ _) w eq_refl eq_refl Hc (or_introl (conj Hi Hup)))
      as (k & a & w' & H1 & H2).
    { intros Hov. specialize (Hr Hov). change (len []) with 0 in J6. rewrite N.sub_0_r in J6. lia. }
    assert (Hrun : downloads net E s path w a w').
    { exists (Nat.max k n). intros fuel Hfu. rewrite (download_same E fuel s path). eapply run_less; [apply less_download|apply H1; lia]; lia. }
    destruct H2 as [(-> & Hcl & Hv & Hw)|(He & Hvis)].
    + exists (Good data), w', d3. split; [exact Hrun|]. rewrite Hv. split; [split; [exact M1|exact M4]|]. split; [exact K2|]. left. exists data.
      split; [reflexivity|]. split; [|split; [exact (extends_trans J3 M2)|reflexivity]].
      apply (@extends_both d1 data d2); [exact J2|exact J3|exact J4].
    + destruct (grow_visited Hvis (reading_download _ _ _) Hg) as (d' & G1 & G2). exists a, w', d'. split; [exact Hrun|]. split; [exact G1|]. split; [exact K2|]. right. now split.
Qed.
Lemma downloads_same s path (w : world cifs Sn) x v y v' : downloads net E s path w x v -> downloads net E s path w y v' -> x = y /\ v = v'.
Proof.
  intros (k1 & H1) (k2 & H2). specialize (H1 (Nat.max k1 k2) ltac:(lia)). specialize (H2 (Nat.max k1 k2) ltac:(lia)).
  rewrite H1 in H2. injection H2 as -> ->. now split.
Qed.
Lemma grow_polls path l d d' : u16 the_tid ->
  polls net E (fun n => root (view n)) (fun w s => exists d0 d1, grow_ready E up the_tid view path d0 d1 w s) path l d d' ->
  extends d d'
  /\ (forall a, In a l -> (exists data, a = Good data /\ extends d data /\ extends data d') \/ exists e, a = Bad (ENetBios e))
  /\ (forall l1 x l2 y l3, l = l1 ++ Good x :: l2 ++ Good y :: l3 -> extends x y).
Proof.
  intros Hu. induction 1 as [d|l d d1 d' Hex _ IH|w s a w' l d d1 d' (d0 & dd & Hrd) Hf Hrun Hf1 _ IH].
  - split; [apply extends_refl|]. split; [intros a []|]. intros l1 x l2 y l3 H. destruct l1; discriminate H.
  - destruct IH as (I1 & I2 & I3). split; [exact (extends_trans Hex I1)|]. split; [|exact I3].
    intros a Ha. destruct (I2 a Ha) as [(data & J1 & J2 & J3)|J]; [left; exists data; split; [exact J1|]; split; [exact (extends_trans Hex J2)|exact J3]|now right].
  - destruct IH as (I1 & I2 & I3). pose proof Hrd as (_ & _ & (Hf' & _) & _). assert (d0 = d) as -> by congruence.
    destruct (grow_once Hu Hrd) as (b & v & dv & H1 & (Hg & _) & H3 & H4). destruct (downloads_same Hrun H1) as [-> ->].
    assert (dv = d1) as -> by congruence.
    assert (Hdd : extends d d1) by (destruct H4 as [(data & _ & J2 & J3 & _)|(_ & J)]; [exact (extends_trans H3 (extends_trans J2 J3))|exact J]).
    split; [exact (extends_trans Hdd I1)|]. split.
    + intros x [<-|Hx].
      * destruct H4 as [(data & -> & J2 & J3 & _)|(J & _)]; [left; exists data; split; [reflexivity|]; split; [exact (extends_trans H3 J2)|exact (extends_trans J3 I1)]|now right].
      * destruct (I2 x Hx) as [(data & J1 & J2 & J3)|J]; [left; exists data; split; [exact J1|]; split; [exact (extends_trans Hdd J2)|exact J3]|now right].
    + intros l1 x l2 y l3 Hl. destruct l1 as [|z l1].
      * injection Hl as -> ->. destruct H4 as [(data & [= <-] & J2 & J3 & _)|((e & J) & _)]; [|discriminate J].
        destruct (I2 (Good y)) as [(data & [= <-] & K2 & K3)|(e & K)]; [apply in_or_app; right; now left| |discriminate K].
        exact (extends_trans J3 K2).
      * injection Hl as _ ->. exact (I3 l1 x l2 y l3 eq_refl).
Qed.
End Net.
