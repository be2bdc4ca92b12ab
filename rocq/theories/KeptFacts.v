(** * KeptFacts: a copy of a directory kept by watching (C107) *)
From Verif Require Import Base Text Win Errors Common Reply Ntlm Prog Client Spec SpecReply SpecMsg Api SpecCall BaseFacts TextFacts
  RunFacts ClientFacts MsgFacts SizeFacts Flow FlowFacts SpecRemote RemoteFacts RefServer RefFacts FileService FileFacts SpecWatch JournalService WatchFacts
  SpecKept KeptService.
Open Scope N_scope.
Set Implicit Arguments.

(** ** names *)
Lemma after_app a b names : after (a ++ b) names = after b (after a names).
Proof. apply fold_left_app. Qed.
Lemma after_step c a b x : (In x a <-> In x b) -> (In x (after_change a c) <-> In x (after_change b c)).
Proof.
  intros H. unfold after_change. destruct (comes (snd c)); [cbn [In]; tauto|]. destruct (goes (snd c)); [|exact H].
  rewrite !filter_In. tauto.
Qed.
Lemma after_one l x : forall a b, (In x a <-> In x b) -> (In x (after l a) <-> In x (after l b)).
Proof.
  unfold after. induction l as [|c l IH]; intros a b H; [exact H|]. cbn [fold_left]. apply IH, after_step, H.
Qed.
Lemma after_same l a b : same_names a b -> same_names (after l a) (after l b).
Proof. intros H x. apply after_one, H. Qed.
(** the last word about a name counts *)
Lemma after_moved x l : moved x l -> forall a b, In x (after l a) <-> In x (after l b).
Proof.
  unfold after. induction l as [|[y c] l IH]; intros (k & Hin & Hk) a b; [destruct Hin|]. cbn [fold_left].
  destruct Hin as [H|Hin]; [|apply IH; now exists k].
  injection H as -> ->. apply (@after_one l x). unfold after_change. cbn [fst snd].
  destruct (comes k); [cbn [In]; tauto|]. destruct Hk as [Hk|Hk]; [discriminate Hk|]. rewrite Hk, !filter_In.
  assert (text_eqb x x = true) as -> by now apply text_eqb_iff. cbn. split; intros [_ H]; discriminate H.
Qed.
Lemma moved_dec x l : moved x l \/ ~ moved x l.
Proof.
  induction l as [|[y a] l IH]; [right; intros (k & [] & _)|]. destruct IH as [IH|IH]; [left; destruct IH as (k & H & Hk); exists k; split; [now right|exact Hk]|].
  destruct (list_eq_dec N.eq_dec x y) as [<-|Hne].
  - destruct (comes a) eqn:E1; [left; exists a; split; [now left|now left]|]. destruct (goes a) eqn:E2; [left; exists a; split; [now left|now right]|].
    right. intros (k & [H|H] & Hk); [|apply IH; now exists k]. injection H as <-. rewrite E1, E2 in Hk. destruct Hk; discriminate.
  - right. intros (k & [H|H] & Hk); [|apply IH; now exists k]. injection H as -> _. now apply Hne.
Qed.
Lemma moved_more x a b : moved x a -> moved x (a ++ b).
Proof. intros (k & H & Hk). exists k. split; [apply in_or_app; now left|exact Hk]. Qed.
(** names that are right except for those that have come or gone are right afterwards *)
Lemma after_right l a b : (forall x, ~ moved x l -> (In x a <-> In x b)) -> same_names (after l a) (after l b).
Proof.
  intros H x. destruct (moved_dec x l) as [Hm|Hm]; [now apply after_moved|]. apply after_one, H, Hm.
Qed.

(** ** programs *)
Lemma keep_same E fuel s path pattern mode n : same_prog (keep E fuel s path pattern mode n) (interp E fuel (keep_flow fuel s path pattern mode n)).
Proof.
  apply same_sym. unfold keep, keep_flow. eapply same_trans; [apply interp_fbind|].
  apply same_mbind; [intros Sv react w; cbn [fcall interp exec]; rewrite run_bind; now destruct run|]. intros h.
  eapply same_trans; [apply interp_fbind|]. apply same_mbind; [apply same_sym, list_same|]. intros l.
  eapply same_trans; [apply interp_fbind|]. apply same_mbind; [apply same_sym, follow_same|]. intros x.
  eapply same_trans; [apply interp_fbind|].
  apply same_mbind; [intros Sv react w; cbn [fcall interp exec]; rewrite run_bind; now destruct run|]. intros u. apply same_refl.
Qed.
Lemma less_keep s path pattern mode n k m : (k <= m)%nat -> less (keep_flow k s path pattern mode n) (keep_flow m s path pattern mode n).
Proof.
  intros H. unfold keep_flow. apply less_bind; [apply less_refl|]. intros h. apply less_bind; [now apply less_list|]. intros l. apply less_refl.
Qed.

Section Local.
Variable St : Type.
Variable B : service St.
Lemma local_further who s sid unicode : u16 (sh_tid s) -> u16 sid ->
  forall d st m l st', further B who unicode s sid d st m l st' ->
  forall res c, uid c = who -> use_unicode c = unicode ->
  exists c', local B (list_nexts m s sid (res ++ [d])) c st m (Good ((res ++ [d]) ++ l)) c' st' /\ uid c' = who.
Proof.
  intros Hs Hsid d st m l st' H.
  induction H as [d st l st1 Hd Hf HB|d st l d1 st1 m more st2 Hd Hf HB _ IH]; intros res c Hu Hc; cbn [list_nexts]; rewrite map_app; cbn [map]; rewrite last_last.
  - exists (next_client c). split; [|exact Hu]. change 1%nat with (1 + 0)%nat. eapply local_bind.
    + refine (local_call (q := FindNext s sid (d_filename d)) (r := inl _) _ _ _ _); [split; [exact Hs|split; [exact Hsid|exact Hd]]|exact I|now rewrite Hc|].
      cbn [op_of]. rewrite Hu. exact HB.
    + cbn [fn_end fn_info]. constructor.
  - destruct (IH (res ++ d :: l) (next_client c) Hu Hc) as (c' & HL & Hu').
    exists c'. split; [|exact Hu']. change (S m) with (1 + m)%nat. eapply local_bind.
    + refine (local_call (q := FindNext s sid (d_filename d)) (r := inl _) _ _ _ _); [split; [exact Hs|split; [exact Hsid|exact Hd]]|exact I|now rewrite Hc|].
      cbn [op_of]. rewrite Hu. exact HB.
    + cbn [fn_end fn_info]. replace ((res ++ [d]) ++ l ++ [d1]) with ((res ++ d :: l) ++ [d1]) by now rewrite <- !app_assoc.
      replace ((res ++ [d]) ++ (l ++ [d1]) ++ more) with (((res ++ d :: l) ++ [d1]) ++ more) by now rewrite <- !app_assoc. exact HL.
Qed.
Lemma local_searched who unicode s pattern : u16 (sh_tid s) -> is_str pattern -> fits_request unicode (FindFirst s pattern) ->
  forall st m l st', searched B who unicode s pattern st m l st' ->
  forall c, uid c = who -> use_unicode c = unicode ->
  exists k c', local B (list_flow k s pattern) c st m (Good l) c' st' /\ uid c' = who /\ (k <= m)%nat.
Proof.
  intros Hs Hp Hf st m l st' H. destruct H as [st sid l st1 HB|st sid l d st1 m more st2 Hsid HB H]; intros c Hu Hc.
  - exists 1%nat, (next_client c). split; [|split; [exact Hu|lia]]. change 1%nat with (1 + 0)%nat at 2. eapply local_bind.
    + refine (local_call (q := FindFirst s pattern) (r := inl _) _ _ _ _); [now split|exact I|now rewrite Hc|]. cbn [op_of]. rewrite Hu. exact HB.
    + cbn [ff_end ff_info]. constructor.
  - destruct (local_further Hs Hsid H l (next_client c) Hu Hc) as (c' & HL & Hu').
    exists m, c'. split; [|split; [exact Hu'|lia]]. change (S m) with (1 + m)%nat. eapply local_bind.
    + refine (local_call (q := FindFirst s pattern) (r := inl _) _ _ _ _); [now split|exact I|now rewrite Hc|]. cbn [op_of]. rewrite Hu. exact HB.
    + cbn [ff_end ff_info ff_sid]. exact HL.
Qed.
End Local.

Section Behind.
Variable Sv St : Type.
Variable react : Sv -> bytes -> reaction Sv.
Variable B : service St.
Variable abs : Sv -> St.
Hypothesis conf : conforming react B abs.
Variable E : env.
Lemma remote_keep (w : world cifs Sv) s path pattern mode n h names calls inv broken :
  typed_client (cl w) -> idle w ->
  keepable B (uid (cl w)) (use_unicode (cl w)) s path pattern mode (abs (srv w)) h names calls inv broken ->
  u16 (sh_tid s) -> is_str path -> is_str pattern -> mode < 2 ^ 32 ->
  fits_request (use_unicode (cl w)) (OpenDir s path) -> fits_request (use_unicode (cl w)) (FindFirst s pattern) -> room E (cl w) (2 + calls + n) ->
  exists k w' copy e st', (forall fuel, (k <= fuel)%nat -> run react (keep E fuel s path pattern mode n) w = Done (Good (copy, e)) w')
    /\ idle w' /\ @B unit (uid (cl w)) (OClose (h_tid h) (h_fid h)) st' = (inl tt, abs (srv w'))
    /\ exists all rest st0, inv all rest st0 /\ same_names (after rest copy) (after all names)
       /\ match e with
          | None => st' = st0 /\ (n <> 0%nat -> exists st1 l, @B (list change) (uid (cl w)) (ONotify (h_tid h) (h_fid h) mode) st1 = (inl l, st'))
          | Some e => exists code, e = ServerError (status_of_code code)
              /\ @B (list change) (uid (cl w)) (ONotify (h_tid h) (h_fid h) mode) st0 = (inr code, st')
          end.
Proof.
  intros Hc Hi ((T1 & T2 & (st1 & HB1 & Hinv) & Ht & Hcl) & Hls) Hu Hp Hpt Hm Hf Hff Hr.
  destruct (Hls _ _ _ Hinv) as (new & m1 & l & st2 & Hse & Hm1 & Hinv2 & Hl). cbn [app] in Hinv2, Hl.
  destruct (local_searched Hu Hpt Hff Hse (next_client (cl w)) eq_refl eq_refl) as (k1 & c1 & HL1 & Hu1 & Hk1).
  set (inv' := fun all rest st => inv all rest st /\ exists more, all = new ++ more).
  assert (Ht' : tells B (uid (cl w)) h mode inv' broken).
  { intros all rest st (HI & more & ->). destruct (Ht _ _ _ HI) as (nw & r & st' & HB & Hx). exists nw, r, st'. split; [exact HB|].
    destruct r as [x|code]; [|exact Hx]. destruct Hx as (rest' & E1 & E2). exists rest'. split; [exact E1|]. split; [exact E2|].
    exists (more ++ nw). now rewrite app_assoc. }
  destruct (@local_follow' _ B (uid (cl w)) h mode inv' broken Ht' (conj T1 (conj T2 Hm)) n [] new c1 st2 Hu1) as (m & [x e] & c' & st' & HL & Hmn & Hn & Hu' & Hfo & Hla).
  { split; [exact Hinv2|]. exists []. now rewrite app_nil_r. }
  assert (HF : exists all rest st0, inv all rest st0 /\ same_names (after rest (after x (map d_filename l))) (after all names)
       /\ match e with
          | None => st' = st0
          | Some e => exists code, e = ServerError (status_of_code code)
              /\ @B (list change) (uid (cl w)) (ONotify (h_tid h) (h_fid h) mode) st0 = (inr code, st') /\ broken st'
          end).
  { assert (K : forall rest st0, inv' (x ++ rest) rest st0 -> inv (x ++ rest) rest st0 /\ same_names (after rest (after x (map d_filename l))) (after (x ++ rest) names)).
    { intros rest st0 (HI & more & Heq). split; [exact HI|]. rewrite <- after_app. apply after_right. intros y Hy. apply Hl. intros H. apply Hy. rewrite Heq. now apply moved_more. }
    unfold found_out in Hfo. cbn [fst snd app] in Hfo. destruct e as [e|].
    - destruct Hfo as (code & st0 & rest & He & HI & HB & Hb). destruct (K _ _ HI) as [K1 K2].
      exists (x ++ rest), rest, st0. split; [exact K1|]. split; [exact K2|]. exists code. auto.
    - destruct Hfo as (rest & HI). destruct (K _ _ HI) as [K1 K2]. exists (x ++ rest), rest, st'. auto. }
  destruct (Hcl st') as [st3 Hclose].
  { destruct HF as (all & rest & st0 & K1 & _ & K3). destruct e as [e|]; [destruct K3 as (code & _ & _ & Hb); now right|]. subst st0. left. eauto. }
  assert (HW : local B (keep_flow k1 s path pattern mode n) (cl w) (abs (srv w)) (1 + (m1 + (m + (1 + 0)))) (Good (after x (map d_filename l), e)) (next_client c') st3).
  { unfold keep_flow. eapply local_bind.
    - unfold fcall. eapply l_call; [split; eassumption|exact I|exact Hf|exact HB1|]. constructor.
    - eapply local_bind; [exact HL1|]. eapply local_bind; [exact HL|]. eapply local_bind; [|constructor].
      unfold fcall. eapply l_call; [split; eassumption|exact I|exact I|cbn [op_of]; rewrite Hu'; exact Hclose|]. constructor. }
  destruct (@remote_local _ _ react _ abs conf E _ _ _ _ _ _ _ _ HW w eq_refl eq_refl Hc Hi) as (k & w' & fs & Hrun & Hi' & _ & Hst & _).
  { intros Hov. specialize (Hr Hov). lia. }
  exists (Nat.max k k1), w', (after x (map d_filename l)), e, st'. split.
  { intros fuel Hfu. rewrite (keep_same E fuel s path pattern mode n). eapply run_less; [|apply Hrun; lia]. apply less_keep. lia. }
  split; [exact Hi'|]. split; [rewrite Hst; exact Hclose|].
  destruct HF as (all & rest & st0 & K1 & K2 & K3). exists all, rest, st0. split; [exact K1|]. split; [exact K2|].
  destruct e as [e|].
  2: { split; [exact K3|]. intros Hn0. destruct (Hla eq_refl) as [[H _]|H]; [contradiction|exact H]. }
  destruct K3 as (code & G1 & G2 & _). exists code. auto.
Qed.
End Behind.

(** ** the service with a directory in which others are at work *)
Lemma after_untouched x l : ~ moved x l -> forall names, In x (after l names) <-> In x names.
Proof.
  unfold after. induction l as [|[y a] l IH]; intros Hm names; [reflexivity|]. cbn [fold_left].
  rewrite IH; [|intros (k & H & Hk); apply Hm; exists k; split; [now right|exact Hk]].
  unfold after_change. cbn [fst snd]. destruct (comes a) eqn:E1; [|destruct (goes a) eqn:E2; [|reflexivity]].
  - cbn [In]. split; [intros [->|H]; [|exact H]|now right]. exfalso. apply Hm. exists a. split; [now left|now left].
  - rewrite filter_In. split; [now intros [H _]|]. intros H. split; [exact H|]. destruct (text_eqb x y) eqn:Ex; [|reflexivity].
    apply text_eqb_iff in Ex. subst y. exfalso. apply Hm. exists a. split; [now left|now right].
Qed.
Lemma skip_one A k : forall l : list A, List.tl (skipn k l) = skipn (S k) l.
Proof. induction k as [|k IH]; intros [|x l]; try reflexivity. exact (IH l). Qed.
Lemma first_one A k : forall l : list (list A), concat (firstn (S k) l) = concat (firstn k l) ++ hd [] (skipn k l).
Proof.
  induction k as [|k IH]; intros [|x l]; try reflexivity.
  - cbn. now rewrite app_nil_r.
  - cbn [firstn concat skipn]. rewrite <- app_assoc. f_equal. exact (IH l).
Qed.
Section Kept.
Variable setup : server_setup.
Notation K := (kept_service setup).
Lemma kept_proper : proper_server setup -> proper K.
Proof.
  intros Hs R who o s. destruct o; cbn [kept_service fst proper_value].
  - unfold proper_share. cbn [sh_tid sh_access_rights sh_guest_rights sh_service sh_filesystem rights].
    split; [reflexivity|]. split; [exact I|]. split; [exact I|]. split; [reflexivity|].
    split; [split; [repeat constructor; left; reflexivity|cbn; lia]|].
    split; [split; [repeat constructor; left; reflexivity|cbn; lia]|]. vm_compute. reflexivity.
  - exact I.
  - repeat split; discriminate.
  - destruct (k_open s); [repeat split; discriminate|]. vm_compute. repeat split.
  - destruct (k_open s); [exact I|repeat split; discriminate].
  - repeat split; discriminate.
  - repeat split; discriminate.
  - repeat split; discriminate.
  - destruct (k_open s); [|repeat split; discriminate]. cbv zeta. unfold tellable. cbn [fst].
    destruct (forallb _ _) eqn:E1; cbn [andb]; [|repeat split; discriminate].
    destruct (N.leb_spec (size_of_changes (k_pending (happen s))) 1000) as [E2|E2]; [|repeat split; discriminate].
    split; [|unfold size_of_changes in E2; lia]. rewrite forallb_forall in E1. apply Forall_forall. intros c Hc. now apply is_text_str, E1.
  - cbv zeta. cbn [fst]. unfold listable. destruct (forallb _ _) eqn:E1; cbn [andb]; [|repeat split; discriminate].
    destruct (N.ltb_spec (len (write_entries (map name_entry (k_names (happen s))))) 65400) as [E2|E2]; [|repeat split; discriminate].
    unfold proper_found. cbn [ff_sid ff_info ff_end]. split; [reflexivity|]. split; [|split; [|exact E2]].
    + rewrite forallb_forall in E1. apply Forall_map, Forall_forall. intros x Hx. apply E1 in Hx. apply andb_prop in Hx as [Hx _].
      apply is_text_str in Hx. unfold proper_entry, name_entry, u64, within. cbn [d_creation d_access d_write d_change d_filesize d_attributes d_filename].
      repeat split; exact Hx.
    + clear. destruct (k_names (happen s)); [reflexivity|]. intros H. discriminate H.
  - split; reflexivity.
  - exact Hs.
  - repeat split; discriminate.
  - repeat split; discriminate.
Qed.
(** the state after [k] rounds *)
Definition kept_inv (s0 : shared) (all rest : list change) (st : shared) : Prop :=
  k_open st = true /\ k_pending st = rest /\ exists k, k_future st = skipn k (k_future s0) /\ all = concat (firstn k (k_future s0))
    /\ k_names st = after all (k_names s0).
Lemma kept_happen s0 all rest st : kept_inv s0 all rest st ->
  kept_inv s0 (all ++ hd [] (k_future st)) (rest ++ hd [] (k_future st)) (happen st).
Proof.
  intros (H1 & H2 & k & H3 & H4 & H5). split; [exact H1|]. split; [cbn [happen k_pending]; now rewrite H2|]. exists (S k).
  cbn [happen k_future k_names]. rewrite H3. split; [apply skip_one|]. split; [rewrite first_one; now rewrite H4|].
  rewrite after_app. now rewrite H5.
Qed.
Definition always_listable (s : shared) : Prop := forall k, listable (after (concat (firstn k (k_future s))) (k_names s)) = true.
Lemma kept_keepable who unicode s path pattern mode s0 : k_open s0 = false -> always_listable s0 ->
  keepable K who unicode s path pattern mode s0 dir_handle (k_names s0) 2 (kept_inv s0) (fun st => k_open st = true).
Proof.
  intros Ho Hli. split; [split; [reflexivity|split; [reflexivity|split; [|split]]]|].
  - eexists. split; [cbn [kept_service]; rewrite Ho; reflexivity|]. split; [reflexivity|]. split; [reflexivity|]. exists 0%nat. repeat split.
  - intros all rest st HI. pose proof (kept_happen HI) as HH. destruct HI as (H1 & H2 & _). cbn [kept_service]. rewrite H1. cbv zeta.
    exists (hd [] (k_future st)). eexists _, _. split; [reflexivity|].
    destruct (tellable (k_pending (happen st))); [|reflexivity]. exists []. rewrite app_nil_r. split; [cbn [happen k_pending]; now rewrite H2|].
    destruct HH as (_ & _ & k & G3 & G4 & G5). split; [reflexivity|]. split; [reflexivity|]. exists k. auto.
  - intros st' H. assert (Hj : k_open st' = true) by (destruct H as [(all & rest & H & _)|H]; exact H).
    cbn [kept_service]. rewrite Hj. eauto.
  - intros all rest st HI. pose proof (kept_happen HI) as HH. pose proof (kept_happen HH) as HH2.
    set (s1 := happen st) in *. set (new1 := hd [] (k_future st)) in *. set (new2 := hd [] (k_future s1)) in *.
    assert (L1 : listable (k_names s1) = true) by (destruct HH as (_ & _ & k & _ & G4 & G5); rewrite G5, G4; apply Hli).
    assert (HB : K _ who (OFindFirst (sh_tid s) (backslashes pattern)) st = (inl (mk_found 1 (len (k_names s1) =? 0) (map name_entry (k_names s1))), s1)).
    { cbn [kept_service]. fold s1. cbv zeta. now rewrite L1. }
    assert (Hids : map d_filename (map name_entry (k_names s1)) = k_names s1) by (rewrite map_map; apply map_id).
    assert (Hall : forall x, ~ moved x (all ++ new1) -> (In x (k_names s1) <-> In x (k_names s0))).
    { intros x Hx. destruct HH as (_ & _ & k & _ & _ & G5). rewrite G5. now apply after_untouched. }
    clearbody new1 new2 s1. destruct (k_names s1) as [|x0 xs] eqn:En.
    + exists new1, 1%nat, [], s1. change (len (@nil text) =? 0) with true in HB. cbn [map] in HB.
      split; [eapply se_one; exact HB|]. split; [lia|]. split; [exact HH|]. exact Hall.
    + assert (Hne : x0 :: xs <> []) by discriminate. destruct (exists_last Hne) as (ys & y & Hy). clear Hne.
      rewrite Hy in HB, L1, Hall. clear Hids En Hy. rewrite map_app in HB. cbn [map] in HB.
      replace (len (ys ++ [y]) =? 0) with false in HB by (symmetry; apply N.eqb_neq; rewrite len_app; cbn; lia).
      exists (new1 ++ new2), 2%nat, ((map name_entry ys ++ [name_entry y]) ++ []), (happen s1).
      split; [|split; [lia|split]].
      * eapply se_more; [|exact HB|]; [reflexivity|]. unfold listable in L1. apply andb_prop in L1 as [L1 _]. rewrite forallb_forall in L1.
        assert (Hin : In y (ys ++ [y])) by (apply in_or_app; right; left; reflexivity). specialize (L1 y Hin). apply andb_prop in L1 as [L1 L2]. apply N.leb_le in L2.
        apply fu_last; [exact L1|cbn [fits_request name_entry d_filename]; lia|reflexivity].
      * rewrite !app_assoc. exact HH2.
      * intros x Hx. rewrite app_nil_r, map_app. cbn [map]. replace (map d_filename (map name_entry ys) ++ [d_filename (name_entry y)]) with (ys ++ [y]) by (rewrite map_map, map_id; reflexivity).
        apply Hall. intros H. apply Hx. rewrite app_assoc. now apply moved_more.
Qed.
End Kept.
(** after a question that was answered nothing is kept back *)
Section KeptRuns.
Variable setup : server_setup.
Notation K := (kept_service setup).
Variable Sv : Type.
Variable react : Sv -> bytes -> reaction Sv.
Variable abs : Sv -> shared.
Hypothesis conf : conforming react K abs.
Variable E : env.
Lemma kept_directory (w : world cifs Sv) s path pattern mode n :
  typed_client (cl w) -> idle w -> k_open (abs (srv w)) = false -> always_listable (abs (srv w)) ->
  u16 (sh_tid s) -> is_str path -> is_str pattern -> mode < 2 ^ 32 ->
  fits_request (use_unicode (cl w)) (OpenDir s path) -> fits_request (use_unicode (cl w)) (FindFirst s pattern) -> room E (cl w) (4 + S n) ->
  exists k w' copy e, (forall fuel, (k <= fuel)%nat -> run react (keep E fuel s path pattern mode (S n)) w = Done (Good (copy, e)) w')
    /\ idle w' /\ k_open (abs (srv w')) = false
    /\ match e with
       | None => same_names copy (k_names (abs (srv w')))
       | Some e => e = ServerError (Unknown 0x10c)
       end.
Proof.
  intros Hc Hi Ho Hli Hu Hp Hpt Hm Hf Hff Hr.
  destruct (@remote_keep _ _ react K abs conf E w s path pattern mode (S n) dir_handle (k_names (abs (srv w))) 2 (kept_inv (abs (srv w)))
    (fun st => k_open st = true) Hc Hi) as (k & w' & copy & e & st' & Hrun & Hi' & Hcl & all & rest & st0 & HI & Hsame & He); try assumption.
  { now apply kept_keepable. }
  exists k, w', copy, e. split; [exact Hrun|]. split; [exact Hi'|].
  assert (Hop : k_open st' = true).
  { destruct e as [e|]; [|destruct He as [-> _]; apply HI]. destruct He as (code & _ & HB). cbn [kept_service] in HB.
    rewrite (proj1 HI) in HB. cbv zeta in HB. apply (f_equal snd) in HB. cbn [snd] in HB. rewrite <- HB. reflexivity. }
  cbn [kept_service] in Hcl. rewrite Hop in Hcl. apply (f_equal snd) in Hcl. cbn [snd] in Hcl. rewrite <- Hcl. split; [reflexivity|].
  destruct e as [e|].
  - destruct He as (code & -> & HB). cbn [kept_service] in HB. rewrite (proj1 HI) in HB. cbv zeta in HB.
    destruct (tellable (k_pending (happen st0))); [discriminate HB|]. apply (f_equal fst) in HB. cbn [fst] in HB. injection HB as <-. reflexivity.
  - destruct He as (-> & Hla). destruct Hla as (st1 & l & HB); [discriminate|]. cbn [k_names].
    destruct HI as (_ & Hpe & j & _ & _ & Hnames). cbn [kept_service] in HB. destruct (k_open st1); [|discriminate HB]. cbv zeta in HB.
    apply (f_equal snd) in HB. cbn [snd] in HB. assert (Hr0 : rest = []) by (rewrite <- Hpe, <- HB; reflexivity). rewrite Hr0 in Hsame.
    rewrite Hnames. exact Hsame.
Qed.
End KeptRuns.
