(** * ResumeFacts: a download that is continued on another connection *)
From Coq Require Import Lia.
From Verif Require Import Base BaseFacts Text Win Errors Common Reply Ntlm Prog Client Spec SpecReply SpecMsg Api SpecCall Flow FlowFacts
  SpecRemote RemoteFacts FileFacts RunFacts FateFacts SpecCutoff CutoffFacts.
Open Scope N_scope.
Set Implicit Arguments.

Lemma quiet_more A (f : flow A) n m : quiet n f -> (n <= m)%nat -> quiet m f.
Proof.
  intros H. revert m. induction H as [n a|n R q k Hp _ IH]; intros m Hm; [constructor|]. destruct m as [|m]; [lia|]. constructor; [exact Hp|]. intros e. apply IH. lia.
Qed.
Lemma sendable_more St (B : service St) A (f : flow A) n c st m : sendable B n f c st -> (n <= m)%nat -> sendable B m f c st.
Proof.
  intros H. revert m. induction H as [n a c st|n R q k c st r st1 H1 H2 H3 H4 _ IH H5]; intros m Hm; [constructor|]. destruct m as [|m]; [lia|].
  eapply s_call; eauto; [apply IH; lia|]. intros e. eapply quiet_more; [apply H5|lia].
Qed.

Lemma beginning_refl d : beginning d d.
Proof. exists []. now rewrite app_nil_r. Qed.
Lemma beginning_trans a b d : beginning a b -> beginning b d -> beginning a d.
Proof. intros (x & ->) (y & ->). exists (x ++ y). now rewrite app_assoc. Qed.
Lemma beginning_full a d : beginning a d -> len d <= len a -> a = d.
Proof. intros (x & ->) H. rewrite len_app in H. destruct x; [now rewrite app_nil_r|rewrite len_cons in H; lia]. Qed.
Lemma beginning_len a d : beginning a d -> len a <= len d /\ drop (len a) d = drop (len a) d.
Proof. intros (x & ->). rewrite len_app. split; [lia|reflexivity]. Qed.

Section Fetch.
Variable St : Type.
Variable B : service St.
Variable who : N.

(** reading on: one step *)
Lemma read_step h d q inv st have c : reads_file B who h d q inv -> 1 <= q -> inv st -> uid c = who -> beginning have d -> len have < len d ->
  exists chunk st1, B (uid c) (ORead (h_tid h) (h_fid h) (len have)) st = (inl chunk, st1) /\ inv st1 /\ beginning (have ++ chunk) d
  /\ 1 <= len chunk /\ (S (pieces (len d - len (have ++ chunk)) q) <= pieces (len d - len have) q)%nat.
Proof.
  intros Hr Hq Hi Hu (x & Hx) Hl. destruct (Hr st (len have) Hi Hl) as (chunk & rest & st1 & HB & Hi1 & Hd & Hc).
  exists chunk, st1. rewrite Hu. split; [exact HB|]. split; [exact Hi1|].
  assert (Hx' : x = chunk ++ rest) by (rewrite Hx, drop_exact in Hd; exact Hd).
  assert (Ld : len d = len have + len chunk + len rest) by (rewrite Hx, Hx', !len_app; lia).
  assert (Lc : 1 <= len chunk). { destruct Hc as [Hc| ->]; [lia|]. change (len (@nil byte)) with 0 in Ld. lia. }
  split; [exists rest; rewrite Hx, Hx', app_assoc; reflexivity|]. split; [exact Lc|]. rewrite len_app.
  replace (len d - (len have + len chunk)) with (len d - len have - len chunk) by lia.
  destruct Hc as [Hc| ->]; [apply pieces_more; lia|].
  change (len (@nil byte)) with 0 in Ld. replace (len d - len have - len chunk) with 0 by lia. rewrite pieces_none by exact Hq.
  apply pieces_last; lia.
Qed.

Notation rest_of h := (fun res : bytes * option error => FCall (Close h) (fun _ => FRet (Good res))).
Lemma reading_quiet h res : quiet 1 (fbind (FRet (Good res)) (rest_of h)).
Proof. cbn [fbind]. constructor; [intros []|]. intros e. constructor. Qed.

Lemma reading_sendable h d q inv : reads_file B who h d q inv -> 1 <= q -> h_size h = len d -> u16 (h_tid h) -> u16 (h_fid h) -> len d < 2 ^ 64 ->
  (forall st', inv st' -> exists st2, B who (OClose (h_tid h) (h_fid h)) st' = (inl tt, st2)) ->
  forall n have st c, inv st -> uid c = who -> beginning have d -> (length d - length have < n)%nat ->
  sendable B (1 + pieces (len d - len have) q) (fbind (keep_reading n h have) (rest_of h)) c st.
Proof.
  intros Hr Hq Hs Ht Hf Hd Hc. induction n as [|n IH]; intros have st c Hi Hu Hb Hn; [lia|]. cbn [keep_reading]. rewrite Hs.
  destruct (N.ltb_spec (len have) (len d)) as [L|L].
  - destruct (@read_step h d q inv st have c Hr Hq Hi Hu Hb L) as (chunk & st1 & HB & Hi1 & Hb1 & Lc & Hp). cbn [fbind].
    eapply (@sendable_more _ B _ _ (S (1 + pieces (len d - len (have ++ chunk)) q))); [|lia].
    eapply (@s_call _ B _ _ _ (ReadAt h (len have))); [repeat split; auto; lia|exact I|exact I|exact HB| |].
    + cbn [returned]. apply IH; [exact Hi1|exact Hu|exact Hb1|]. rewrite app_length. unfold len in Lc, L. lia.
    + intros e. eapply quiet_more; [apply reading_quiet|lia].
  - cbn [fbind]. destruct (Hc st Hi) as (st2 & HB).
    eapply (@s_call _ B _ _ _ (Close h)); [split; assumption|exact I|exact I|rewrite Hu; exact HB|constructor|]. intros e. constructor.
Qed.
Lemma fetch_sendable s path d q st h over c n have : file_at B who (sh_tid s) (backslashes path) d q st h over ->
  u16 (sh_tid s) -> is_str path -> fits_request (use_unicode c) (OpenFile s path) -> uid c = who -> len d < 2 ^ 64 ->
  beginning have d -> (length d - length have < n)%nat ->
  sendable B (2 + pieces (len d - len have) q) (fetch n s path have) c st.
Proof.
  intros (Hq & Hs & Ht & Hf & inv & (st1 & HB & Hi) & Hr & Hc) Hts Hpath Hfit Hu Hd Hb Hn. unfold fetch.
  eapply (@s_call _ B _ _ _ (OpenFile s path)); [split; assumption|exact I|exact Hfit|rewrite Hu; exact HB| |].
  - cbn [returned]. eapply reading_sendable; eauto. intros st' Hi'. destruct (Hc st' Hi') as (st2 & H & _). eauto.
  - intros e. constructor.
Qed.

Lemma reading_local h d q inv over : reads_file B who h d q inv -> 1 <= q -> h_size h = len d -> u16 (h_tid h) -> u16 (h_fid h) -> len d < 2 ^ 64 ->
  (forall st', inv st' -> exists st2, B who (OClose (h_tid h) (h_fid h)) st' = (inl tt, st2) /\ over st2) ->
  forall n have st c, inv st -> uid c = who -> beginning have d -> (length d - length have < n)%nat ->
  exists m c' st', local B (fbind (keep_reading n h have) (rest_of h)) c st m (Good (d, None)) c' st' /\ over st'
    /\ (m <= 1 + pieces (len d - len have) q)%nat /\ uid c' = who /\ use_unicode c' = use_unicode c.
Proof.
  intros Hr Hq Hs Ht Hf Hd Hc. induction n as [|n IH]; intros have st c Hi Hu Hb Hn; [lia|]. cbn [keep_reading]. rewrite Hs.
  destruct (N.ltb_spec (len have) (len d)) as [L|L].
  - destruct (@read_step h d q inv st have c Hr Hq Hi Hu Hb L) as (chunk & st1 & HB & Hi1 & Hb1 & Lc & Hp). cbn [fbind].
    destruct (IH (have ++ chunk) st1 (next_client c) Hi1 Hu Hb1) as (m & c' & st' & HL & Ho & Hm & Hu' & Huc).
    { rewrite app_length. unfold len in Lc, L. lia. }
    exists (S m), c', st'. split; [|split; [exact Ho|split; [lia|split; [exact Hu'|exact Huc]]]].
    eapply (@l_call _ B _ _ (ReadAt h (len have))); [repeat split; auto; lia|exact I|exact I|exact HB|]. cbn [returned]. exact HL.
  - cbn [fbind]. destruct (Hc st Hi) as (st2 & HB & Ho). rewrite (@beginning_full have d Hb L).
    exists 1%nat, (next_client c), st2. split; [|split; [exact Ho|split; [lia|split; [exact Hu|reflexivity]]]].
    eapply (@l_call _ B _ _ (Close h)); [split; assumption|exact I|exact I|rewrite Hu; exact HB|]. constructor.
Qed.
Lemma fetch_local s path d q st h over c n have : file_at B who (sh_tid s) (backslashes path) d q st h over ->
  u16 (sh_tid s) -> is_str path -> fits_request (use_unicode c) (OpenFile s path) -> uid c = who -> len d < 2 ^ 64 ->
  beginning have d -> (length d - length have < n)%nat ->
  exists m c' st', local B (fetch n s path have) c st m (Good (d, None)) c' st' /\ over st'
    /\ (m <= 2 + pieces (len d - len have) q)%nat /\ uid c' = who /\ use_unicode c' = use_unicode c.
Proof.
  intros (Hq & Hs & Ht & Hf & inv & (st1 & HB & Hi) & Hr & Hc) Hts Hpath Hfit Hu Hd Hb Hn. unfold fetch.
  destruct (@reading_local h d q inv over Hr Hq Hs Ht Hf Hd Hc n have st1 (next_client c) Hi Hu Hb Hn) as (m & c' & st' & HL & Ho & Hm & Hu' & Huc).
  exists (S m), c', st'. split; [|split; [exact Ho|split; [lia|split; [exact Hu'|exact Huc]]]].
  eapply (@l_call _ B _ _ (OpenFile s path)); [split; assumption|exact I|exact Hfit|rewrite Hu; exact HB|]. cbn [returned]. exact HL.
Qed.

(** cut off at any point: what was read is a beginning of the file *)
Definition kept (d have : bytes) (a : ans (bytes * option error)) : Prop :=
  exists x e, a = Good (x, e) /\ beginning have x /\ beginning x d /\ (e = None -> x = d).
Lemma offline_inv A (f : flow A) a : offline f a ->
  match f with FRet b => a = b | FCall q k => exists e, offline (k (Bad e)) a | _ => False end.
Proof. intros [b|R q k e b H]; [reflexivity|eauto]. Qed.
Lemma cut_off_inv A (f : flow A) c st a st' : cut_off B f c st a st' ->
  match f with
  | FRet b => a = b
  | @FCall _ R q k => (exists r st1, B (uid c) (op_of q) st = (r, st1) /\ cut_off B (k (returned r)) (next_client c) st1 a st')
      \/ exists e, offline (k (Bad e)) a
  | _ => False end.
Proof. intros [b c0 st0|R q k c0 st0 r st1 b st2 H1 H2|R q k c0 st0 e b H|R q k c0 st0 r st1 e b H1 H2]; [reflexivity|left; eauto|right; eauto..]. Qed.
Lemma offline_close h res a : offline (rest_of h res) a -> a = Good res.
Proof. intros H. apply offline_inv in H. destruct H as (e & H). now apply offline_inv in H. Qed.
Lemma cut_off_close h res c st a st' : cut_off B (rest_of h res) c st a st' -> a = Good res.
Proof.
  intros H. apply cut_off_inv in H. destruct H as [(r & st1 & _ & H)|(e & H)]; [now apply cut_off_inv in H|now apply offline_inv in H].
Qed.
Lemma reading_kept h d q inv : reads_file B who h d q inv -> 1 <= q -> h_size h = len d -> 
  forall n have st c a st', inv st -> uid c = who -> beginning have d ->
  cut_off B (fbind (keep_reading n h have) (rest_of h)) c st a st' -> kept d have a.
Proof.
  intros Hr Hq Hs. induction n as [|n IH]; intros have st c a st' Hi Hu Hb; cbn [keep_reading]; [intros H; now apply cut_off_inv in H|]. rewrite Hs.
  destruct (N.ltb_spec (len have) (len d)) as [L|L]; cbn [fbind]; intros H.
  - apply cut_off_inv in H. destruct H as [(r & st1 & HB & H)|(e & H)].
    + destruct (@read_step h d q inv st have c Hr Hq Hi Hu Hb L) as (chunk & st2 & HB2 & Hi1 & Hb1 & _). cbn [op_of] in HB. rewrite HB in HB2.
      injection HB2 as -> ->. cbn [returned] in H. apply (IH (have ++ chunk) st2 (next_client c) a st' Hi1 Hu Hb1) in H.
      destruct H as (x & e & -> & H1 & H2 & H3). exists x, e. split; [reflexivity|]. split; [|auto].
      eapply beginning_trans; [|exact H1]. now exists chunk.
    + cbn [fbind] in H. apply offline_close in H. subst a. exists have, (Some e). split; [reflexivity|]. split; [apply beginning_refl|]. split; [exact Hb|discriminate].
  - apply cut_off_close in H. subst a. exists have, None. split; [reflexivity|]. split; [apply beginning_refl|]. split; [exact Hb|]. intros _. now apply beginning_full.
Qed.
Lemma fetch_kept s path d q st h over c n have a st' : file_at B who (sh_tid s) (backslashes path) d q st h over -> uid c = who -> beginning have d ->
  cut_off B (fetch n s path have) c st a st' -> kept d have a.
Proof.
  intros (Hq & Hs & Ht & Hf & inv & (st1 & HB & Hi) & Hr & Hc) Hu Hb H. unfold fetch in H. apply cut_off_inv in H.
  destruct H as [(r & st2 & HB2 & H)|(e & H)].
  - cbn [op_of] in HB2. rewrite Hu, HB in HB2. injection HB2 as <- <-. cbn [returned] in H. exact (@reading_kept h d q inv Hr Hq Hs n have st1 (next_client c) a st' Hi Hu Hb H).
  - apply offline_inv in H. subst a. exists have, (Some e). split; [reflexivity|]. split; [apply beginning_refl|]. split; [exact Hb|discriminate].
Qed.
End Fetch.

Section Net.
Variables Sn Sv St : Type.
Variable net : Sn -> bytes -> reaction Sn.
Variable react : Sv -> bytes -> reaction Sv.
Variable inner : Sn -> Sv.
Variable up : Sn -> Prop.
Hypothesis Hnet : unreliable net react inner up.
Variable B : service St.
Variable abs : Sv -> St.
Hypothesis conf : conforming react B abs.
Variable E : env.

Theorem net_fetch (w : world cifs Sn) s path d q h over n have : typed_client (cl w) -> idle w -> up (srv w) ->
  file_at B (uid (cl w)) (sh_tid s) (backslashes path) d q (abs (inner (srv w))) h over ->
  u16 (sh_tid s) -> is_str path -> fits_request (use_unicode (cl w)) (OpenFile s path) -> len d < 2 ^ 64 ->
  room E (cl w) (2 + pieces (len d - len have) q) -> beginning have d -> (length d - length have < n)%nat ->
  exists k x e w', (forall fuel, (k <= fuel)%nat -> run net (interp E fuel (fetch n s path have)) w = Done (Good (x, e)) w')
    /\ beginning have x /\ beginning x d /\ (e = None -> x = d).
Proof.
  intros Htc Hi Hu Hf Hts Hp Hfit Hd Hr Hb Hn.
  pose proof (@fetch_sendable _ B (uid (cl w)) s path d q _ h over (cl w) n have Hf Hts Hp Hfit eq_refl Hd Hb Hn) as Hs.
  destruct (@cutoff_program _ _ _ net react inner up Hnet B abs conf E _ _ _ _ _ Hs w eq_refl eq_refl Htc Hi Hu Hr) as (k & a & w' & Hrun & Hc).
  apply (@fetch_kept _ B (uid (cl w)) s path d q _ h over (cl w) n have a _ Hf eq_refl Hb) in Hc. destruct Hc as (x & e & -> & H1 & H2 & H3).
  exists k, x, e, w'. auto.
Qed.

Lemma less_keep h n m : (n <= m)%nat -> forall have, less (keep_reading n h have) (keep_reading m h have).
Proof.
  revert m. induction n as [|n IH]; intros m Hm have; [constructor|]. destruct m as [|m]; [lia|]. cbn [keep_reading].
  destruct (len have <? h_size h); [|constructor]. constructor. intros [chunk|e]; [apply IH; lia|constructor].
Qed.
Lemma less_fetch s path have n m : (n <= m)%nat -> less (fetch n s path have) (fetch m s path have).
Proof.
  intros Hm. unfold fetch. constructor. intros [h|e]; [|constructor]. apply less_bind; [now apply less_keep|]. intros res. apply less_refl.
Qed.
Lemma pieces_less a b q : 1 <= q -> a <= b -> (pieces a q <= pieces b q)%nat.
Proof.
  intros Hq H. unfold pieces.
  assert ((a + q - 1) / q <= (b + q - 1) / q) by (apply N.div_le_mono; lia). lia.
Qed.
Lemma attempt_kept (w : world cifs Sn) s path d q h over n have fuel x e w' : typed_client (cl w) -> idle w -> up (srv w) ->
  file_at B (uid (cl w)) (sh_tid s) (backslashes path) d q (abs (inner (srv w))) h over ->
  u16 (sh_tid s) -> is_str path -> fits_request (use_unicode (cl w)) (OpenFile s path) -> len d < 2 ^ 64 ->
  room E (cl w) (2 + pieces (len d) q) -> beginning have d ->
  run net (interp E fuel (fetch n s path have)) w = Done (Good (x, e)) w' ->
  beginning have x /\ beginning x d /\ (e = None -> x = d).
Proof.
  intros Htc Hi Hu Hf Hts Hp Hfit Hd Hr Hb Hrun. set (m := Nat.max n (S (length d))).
  destruct (@net_fetch w s path d q h over m have Htc Hi Hu Hf Hts Hp Hfit Hd) as (k & x' & e' & w2 & H1 & H2).
  - intros Hoc. specialize (Hr Hoc). pose proof (@pieces_less (len d - len have) (len d) q (proj1 Hf)). lia.
  - exact Hb.
  - unfold m. lia.
  - assert (Hrun' : run net (interp E (Nat.max fuel k) (fetch n s path have)) w = Done (Good (x, e)) w').
    { rewrite <- Hrun. apply ple_run; [apply interp_mono; lia|]. intros v. rewrite Hrun. discriminate. }
    clear Hrun. rename Hrun' into Hrun. specialize (H1 (Nat.max fuel k) ltac:(lia)).
    apply (@run_less _ net E (Nat.max fuel k) _ (fetch n s path have) (fetch m s path have)) in Hrun; [|apply less_fetch; unfold m; lia].
    rewrite Hrun in H1. injection H1 as -> -> _. exact H2.
Qed.
End Net.
Section Direct.
Variables Sv St : Type.
Variable react : Sv -> bytes -> reaction Sv.
Variable B : service St.
Variable abs : Sv -> St.
Hypothesis conf : conforming react B abs.
Variable E : env.
Theorem direct_fetch (w : world cifs Sv) s path d q h over n have : typed_client (cl w) -> idle w ->
  file_at B (uid (cl w)) (sh_tid s) (backslashes path) d q (abs (srv w)) h over ->
  u16 (sh_tid s) -> is_str path -> fits_request (use_unicode (cl w)) (OpenFile s path) -> len d < 2 ^ 64 ->
  room E (cl w) (2 + pieces (len d - len have) q) -> beginning have d -> (length d - length have < n)%nat ->
  exists k w' fs, (forall fuel, (k <= fuel)%nat -> run react (interp E fuel (fetch n s path have)) w = Done (Good (d, None)) w')
    /\ idle w' /\ over (abs (srv w')) /\ tx w' = tx w ++ fs /\ (length fs <= 2 + pieces (len d - len have) q)%nat.
Proof.
  intros Htc Hi Hf Hts Hp Hfit Hd Hr Hb Hn.
  destruct (@fetch_local _ B (uid (cl w)) s path d q _ h over (cl w) n have Hf Hts Hp Hfit eq_refl Hd Hb Hn) as (m & c' & st' & HL & Ho & Hm & _).
  destruct (@remote_local _ _ react B abs conf E _ _ _ _ _ _ _ _ HL w eq_refl eq_refl Htc Hi) as (k & w' & fs & H1 & H2 & H3 & H4 & H5 & H6).
  { intros Hoc. specialize (Hr Hoc). lia. }
  exists k, w', fs. split; [exact H1|]. split; [exact H2|]. rewrite H4. split; [exact Ho|]. split; [exact H5|]. now rewrite H6.
Qed.
End Direct.
