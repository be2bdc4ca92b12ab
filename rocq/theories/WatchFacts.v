(** * WatchFacts: watching a directory (C95) *)
From Verif Require Import Base Text Win Errors Common Reply Ntlm Prog Client Spec SpecReply SpecMsg Api SpecCall BaseFacts TextFacts
  RunFacts ClientFacts MsgFacts SizeFacts Flow FlowFacts SpecRemote RemoteFacts RefServer RefFacts FileService FileFacts SpecTimeout TimeoutFacts SpecWatch JournalService.
Open Scope N_scope.
Set Implicit Arguments.

Lemma follow_same E fuel h mode n : same_prog (follow E fuel h mode n) (interp E fuel (follow_flow h mode n)).
Proof.
  induction n as [|n IH]; cbn [follow follow_flow]; [apply same_refl|]. intros Sv react w. cbn [interp exec]. rewrite !run_bind.
  destruct (run react (notify_about E fuel h mode) w) as [[l|e] w'|w'|w'|w']; cbn [obind]; try reflexivity.
  rewrite interp_fbind, !run_mbind, IH. reflexivity.
Qed.
Lemma watch_same E fuel s path mode n : same_prog (watch E fuel s path mode n) (interp E fuel (watch_flow s path mode n)).
Proof.
  apply same_sym. unfold watch, watch_flow. eapply same_trans; [apply interp_fbind|].
  apply same_mbind; [intros Sv react w; cbn [fcall interp exec]; rewrite run_bind; now destruct run|]. intros h.
  eapply same_trans; [apply interp_fbind|]. apply same_mbind; [apply same_sym, follow_same|]. intros x.
  eapply same_trans; [apply interp_fbind|].
  apply same_mbind; [intros Sv react w; cbn [fcall interp exec]; rewrite run_bind; now destruct run|]. intros u. apply same_refl.
Qed.

Section Local.
Variable St : Type.
Variable B : service St.
Variable who : N.
Variable h : handle.
Variable mode : N.
Variable inv : list change -> list change -> St -> Prop.
Variable broken : St -> Prop.
Hypothesis Ht : tells B who h mode inv broken.
Hypothesis Hh : u16 (h_tid h) /\ u16 (h_fid h) /\ mode < 2 ^ 32.
(** what following has found: everything up to the last answer *)
Definition found_out (all : list change) (x : list change * option error) (st' : St) : Prop :=
  match snd x with
  | None => exists rest, inv (all ++ fst x ++ rest) rest st'
  | Some e => exists code st0 rest, e = ServerError (status_of_code code) /\ inv (all ++ fst x ++ rest) rest st0
      /\ @B (list change) who (ONotify (h_tid h) (h_fid h) mode) st0 = (inr code, st') /\ broken st'
  end.
Definition last_answer (n : nat) (st st' : St) : Prop :=
  (n = 0%nat /\ st' = st) \/ exists st0 l, @B (list change) who (ONotify (h_tid h) (h_fid h) mode) st0 = (inl l, st').
Lemma local_follow' n : forall all rest c st, uid c = who -> inv (all ++ rest) rest st ->
  exists m x c' st', local B (follow_flow h mode n) c st m (Good x) c' st' /\ (m <= n)%nat /\ (snd x = None -> m = n) /\ uid c' = who
    /\ found_out all x st' /\ (snd x = None -> last_answer n st st').
Proof.
  induction n as [|n IH]; intros all rest c st Hc Hi.
  - exists 0%nat, ([], None), c, st. split; [constructor|]. split; [lia|]. split; [reflexivity|]. split; [exact Hc|]. split; [exists rest; exact Hi|]. now left.
  - destruct (Ht Hi) as (new & r & st1 & HB & Hr). cbn [follow_flow].
    assert (step : forall m a c' st', local B (match returned r with Bad e => FRet (Good ([], Some e))
        | Good l => fbind (follow_flow h mode n) (fun x => FRet (Good (l ++ fst x, snd x))) end) (next_client c) st1 m a c' st' ->
      local B (follow_flow h mode (S n)) c st (S m) a c' st').
    { intros m a c' st' HL. cbn [follow_flow]. eapply l_call; [exact Hh|exact I|exact I| |exact HL]. cbn [op_of]. rewrite Hc. exact HB. }
    destruct r as [l|code]; cbn [returned] in step.
    + destruct Hr as (rest' & Heq & Hi').
      destruct (IH (all ++ l) rest' (next_client c) st1) as (m & x & c' & st' & HL & Hm & Hn & Hu & Hf & Hla); [exact Hc| |].
      { rewrite <- !app_assoc in Hi' |- *. rewrite Heq in Hi'. exact Hi'. }
      exists (S (m + 0))%nat, (l ++ fst x, snd x), c', st'. split; [|split; [lia|split; [|split; [exact Hu|split]]]].
      * apply step. eapply local_bind; [exact HL|constructor].
      * cbn [snd]. intros H. specialize (Hn H). lia.
      * unfold found_out in *. cbn [fst snd]. destruct (snd x) as [e|].
        -- destruct Hf as (code & st0 & rest0 & He & H0 & H1). exists code, st0, rest0. rewrite <- !app_assoc in *. auto.
        -- destruct Hf as [rest0 H0]. exists rest0. rewrite <- !app_assoc in *. exact H0.
      * cbn [snd]. intros H. right. destruct (Hla H) as [[_ ->]|H']; [|exact H']. exists st, l. exact HB.
    + exists 1%nat, ([], Some (ServerError (status_of_code code))), (next_client c), st1.
      split; [apply step; constructor|]. split; [lia|]. split; [discriminate|]. split; [exact Hc|].
      split; [|discriminate]. exists code, st, rest. cbn [fst]. auto.
Qed.
Lemma local_follow n : forall all rest c st, uid c = who -> inv (all ++ rest) rest st ->
  exists m x c' st', local B (follow_flow h mode n) c st m (Good x) c' st' /\ (m <= n)%nat /\ (snd x = None -> m = n) /\ uid c' = who
    /\ found_out all x st'.
Proof.
  intros all rest c st H1 H2. destruct (@local_follow' n all rest c st H1 H2) as (m & x & c' & st' & G1 & G2 & G3 & G4 & G5 & _).
  exists m, x, c', st'. auto.
Qed.
End Local.

Section Behind.
Variable Sv St : Type.
Variable react : Sv -> bytes -> reaction Sv.
Variable B : service St.
Variable abs : Sv -> St.
Hypothesis conf : conforming react B abs.
Variable E : env.
Lemma remote_watch (w : world cifs Sv) s path mode n h inv broken :
  typed_client (cl w) -> idle w ->
  watchable B (uid (cl w)) (sh_tid s) (backslashes path) mode (abs (srv w)) h inv broken ->
  u16 (sh_tid s) -> is_str path -> mode < 2 ^ 32 -> fits_request (use_unicode (cl w)) (OpenDir s path) -> room E (cl w) (2 + n) ->
  exists k w' l e fs st', (forall fuel, (k <= fuel)%nat -> run react (watch E fuel s path mode n) w = Done (Good (l, e)) w')
    /\ idle w' /\ tx w' = tx w ++ fs /\ (length fs <= 2 + n)%nat /\ (e = None -> length fs = 2 + n)%nat
    /\ @B unit (uid (cl w)) (OClose (h_tid h) (h_fid h)) st' = (inl tt, abs (srv w'))
    /\ match e with
       | None => exists rest, inv (l ++ rest) rest st'
       | Some e => exists code st0 rest, e = ServerError (status_of_code code) /\ inv (l ++ rest) rest st0
           /\ @B (list change) (uid (cl w)) (ONotify (h_tid h) (h_fid h) mode) st0 = (inr code, st')
       end.
Proof.
  intros Hc Hi (T1 & T2 & (st1 & HB1 & Hinv) & Ht & Hcl) Hu Hp Hm Hf Hr.
  destruct (@local_follow _ B (uid (cl w)) h mode inv broken Ht (conj T1 (conj T2 Hm)) n [] [] (next_client (cl w)) st1 eq_refl Hinv)
    as (m & [l e] & c' & st' & HL & Hmn & Hn & Hu' & Hfo).
  destruct (Hcl st') as [st2 Hclose].
  { unfold found_out in Hfo. cbn [snd] in Hfo. destruct e as [e|].
    - destruct Hfo as (code & st0 & rest & _ & _ & _ & Hb). now right.
    - destruct Hfo as [rest H0]. left. eauto. }
  assert (HW : local B (watch_flow s path mode n) (cl w) (abs (srv w)) (1 + (m + (1 + 0))) (Good (l, e)) (next_client c') st2).
  { unfold watch_flow. eapply local_bind.
    - unfold fcall. eapply l_call; [split; eassumption|exact I|exact Hf|exact HB1|]. constructor.
    - eapply local_bind; [exact HL|]. eapply local_bind; [|constructor].
      unfold fcall. eapply l_call; [split; eassumption|exact I|exact I|cbn [op_of]; rewrite Hu'; exact Hclose|]. constructor. }
  destruct (@remote_local _ _ react _ abs conf E _ _ _ _ _ _ _ _ HW w eq_refl eq_refl Hc Hi) as (k & w' & fs & Hrun & Hi' & _ & Hst & Htx & Hlen).
  { intros Hov. specialize (Hr Hov). lia. }
  exists k, w', l, e, fs, st'. split; [intros fuel Hfu; rewrite (watch_same E fuel s path mode n); now apply Hrun|].
  split; [exact Hi'|]. split; [exact Htx|]. split; [lia|]. split; [intros He; specialize (Hn He); cbn in Hlen; lia|].
  split; [rewrite Hst; exact Hclose|]. unfold found_out in Hfo. cbn [fst snd app] in Hfo. destruct e as [e|]; [|exact Hfo].
  destruct Hfo as (code & st0 & rest & H1 & H2 & H3 & _). eauto 6.
Qed.
End Behind.

(** ** the service with a journal *)
Section Journal.
Variable setup : server_setup.
Notation J := (journal_service setup).
Lemma journal_proper : proper_server setup -> proper J.
Proof.
  intros Hs R who o s. destruct o; cbn [journal_service fst proper_value].
  - unfold proper_share. cbn [sh_tid sh_access_rights sh_guest_rights sh_service sh_filesystem rights].
    split; [reflexivity|]. split; [exact I|]. split; [exact I|]. split; [reflexivity|].
    split; [split; [repeat constructor; left; reflexivity|cbn; lia]|].
    split; [split; [repeat constructor; left; reflexivity|cbn; lia]|]. vm_compute. reflexivity.
  - exact I.
  - repeat split; discriminate.
  - destruct (j_open s); [repeat split; discriminate|]. vm_compute. repeat split.
  - destruct (j_open s); [exact I|repeat split; discriminate].
  - repeat split; discriminate.
  - repeat split; discriminate.
  - repeat split; discriminate.
  - destruct (j_open s); [|repeat split; discriminate]. cbv zeta. unfold tellable. cbn [fst].
    destruct (forallb _ _) eqn:E1; cbn [andb]; [|repeat split; discriminate].
    destruct (N.leb_spec (size_of_changes (hd [] (j_future s))) 1000) as [E2|E2]; [|repeat split; discriminate].
    split; [|unfold size_of_changes in E2; lia]. rewrite forallb_forall in E1. apply Forall_forall. intros c Hc. now apply is_text_str, E1.
  - repeat split; discriminate.
  - split; reflexivity.
  - exact Hs.
  - repeat split; discriminate.
  - repeat split; discriminate.
Qed.
Lemma journal_watchable who tid path mode s : j_open s = false ->
  watchable J who tid path mode s dir_handle
    (fun all rest st => j_open st = true /\ rest = [] /\ j_all st = all /\ exists k, j_future st = skipn k (j_future s) /\ all = concat (firstn k (j_future s))
       /\ Forall (fun l => tellable l = true) (firstn k (j_future s)))
    (fun st => j_open st = true).
Proof.
  intros Ho. split; [reflexivity|]. split; [reflexivity|]. split; [|split].
  - exists (mk_journal (j_future s) [] true). cbn [journal_service]. rewrite Ho. split; [reflexivity|]. repeat split. exists 0%nat. repeat split. constructor.
  - intros all rest st (H1 & -> & <- & k & Hk & Ha & Hf). cbn [journal_service]. rewrite H1. cbv zeta.
    exists (hd [] (j_future st)). eexists _, _. split; [reflexivity|].
    destruct (tellable (hd [] (j_future st))) eqn:Et; [|reflexivity]. exists []. split; [now rewrite app_nil_r|].
    cbn [j_open j_all j_future]. repeat split. rewrite Hk in Et |- *. rewrite Ha.
    exists (S k). clear - Et Hf. revert Et Hf. generalize (j_future s). induction k as [|k IH]; intros [|x l] Et Hf.
    + cbn. repeat split. constructor.
    + cbn. rewrite app_nil_r. repeat split. repeat constructor. exact Et.
    + cbn. repeat split. constructor.
    + cbn [skipn firstn concat] in *. inversion Hf as [|? ? Hx Hr]; subst. destruct (IH l Et Hr) as (A1 & A2 & A3).
      split; [exact A1|]. cbn [firstn] in A2, A3. rewrite <- app_assoc. cbn [concat]. split; [now rewrite A2|constructor; assumption].
  - intros st' H. assert (Hj : j_open st' = true) by (destruct H as [(all & rest & H & _)|H]; exact H).
    cbn [journal_service]. rewrite Hj. eauto.
Qed.
End Journal.
Section JournalRuns.
Variable setup : server_setup.
Notation J := (journal_service setup).
(** what is told when asked [n] times *)
Fixpoint told (n : nat) (fut : list (list change)) : list change * option error :=
  match n with
  | O => ([], None)
  | S n => if tellable (hd [] fut) then (hd [] fut ++ fst (told n (List.tl fut)), snd (told n (List.tl fut)))
           else ([], Some (ServerError (status_of_code ST_ENUM_DIR)))
  end.
Lemma local_journal mode n : mode < 2 ^ 32 -> forall c st, j_open st = true ->
  exists m c' st', local J (follow_flow dir_handle mode n) c st m (Good (told n (j_future st))) c' st' /\ (m <= n)%nat /\ j_open st' = true.
Proof.
  intros Hm. induction n as [|n IH]; intros c st Ho.
  - exists 0%nat, c, st. split; [constructor|]. split; [lia|exact Ho].
  - set (st1 := mk_journal (List.tl (j_future st)) (j_all st ++ hd [] (j_future st)) true).
    assert (HB : J _ (uid c) (op_of (NotifyAbout dir_handle mode)) st
      = (if tellable (hd [] (j_future st)) then inl (hd [] (j_future st)) else inr ST_ENUM_DIR, st1)).
    { cbn [op_of journal_service]. rewrite Ho. reflexivity. }
    cbn [told]. destruct (tellable (hd [] (j_future st))) eqn:Et.
    + destruct (IH (next_client c) st1 eq_refl) as (m & c' & st' & HL & Hmn & Ho').
      exists (S (m + 0))%nat, c', st'. split; [|split; [lia|exact Ho']]. cbn [follow_flow].
      eapply l_call; [split; [reflexivity|split; [reflexivity|exact Hm]]|exact I|exact I|exact HB|]. cbn [returned].
      eapply local_bind; [exact HL|]. constructor.
    + exists 1%nat, (next_client c), st1. split; [|split; [lia|reflexivity]]. cbn [follow_flow].
      eapply l_call; [split; [reflexivity|split; [reflexivity|exact Hm]]|exact I|exact I|exact HB|]. cbn [returned]. constructor.
Qed.
Lemma told_all n : forall fut, Forall (fun l => tellable l = true) (firstn n fut) -> told n fut = (concat (firstn n fut), None).
Proof.
  induction n as [|n IH]; intros fut H; [reflexivity|]. cbn [told]. destruct fut as [|x r].
  - cbn [hd List.tl]. change (tellable []) with true. cbv iota. rewrite IH; [|destruct n; constructor]. now destruct n.
  - cbn [hd List.tl firstn concat] in *. inversion H as [|? ? Hx Hr]; subst. rewrite Hx, (IH r Hr). reflexivity.
Qed.
Lemma told_lost n : forall k fut, (k < n)%nat -> Forall (fun l => tellable l = true) (firstn k fut) -> tellable (nth k fut []) = false ->
  told n fut = (concat (firstn k fut), Some (ServerError (status_of_code ST_ENUM_DIR))).
Proof.
  induction n as [|n IH]; intros k fut Hk H Hl; [lia|]. cbn [told]. destruct k as [|k].
  - destruct fut as [|x r]; cbn [nth] in Hl; [discriminate Hl|]. cbn [hd]. rewrite Hl. reflexivity.
  - destruct fut as [|x r]; cbn [nth] in Hl; [discriminate Hl|]. cbn [hd List.tl firstn concat] in *.
    inversion H as [|? ? Hx Hr]; subst. rewrite Hx, (IH k r); [reflexivity|lia|exact Hr|exact Hl].
Qed.
Variable Sv : Type.
Variable react : Sv -> bytes -> reaction Sv.
Variable abs : Sv -> journal.
Hypothesis conf : conforming react J abs.
Variable E : env.
Lemma journal_watch (w : world cifs Sv) s path mode n :
  typed_client (cl w) -> idle w -> j_open (abs (srv w)) = false ->
  u16 (sh_tid s) -> is_str path -> mode < 2 ^ 32 -> fits_request (use_unicode (cl w)) (OpenDir s path) -> room E (cl w) (2 + n) ->
  exists k w', (forall fuel, (k <= fuel)%nat -> run react (watch E fuel s path mode n) w = Done (Good (told n (j_future (abs (srv w))))) w')
    /\ idle w' /\ j_open (abs (srv w')) = false.
Proof.
  intros Hc Hi Ho Hu Hp Hm Hf Hr.
  destruct (local_journal n Hm (next_client (cl w)) (mk_journal (j_future (abs (srv w))) [] true) eq_refl) as (m & c' & st' & HL & Hmn & Ho').
  assert (HW : local J (watch_flow s path mode n) (cl w) (abs (srv w)) (1 + (m + (1 + 0))) (Good (told n (j_future (abs (srv w))))) (next_client c')
    (mk_journal (j_future st') (j_all st') false)).
  { unfold watch_flow. eapply local_bind.
    - unfold fcall. eapply l_call; [split; eassumption|exact I|exact Hf|cbn [op_of journal_service]; rewrite Ho; reflexivity|]. constructor.
    - eapply local_bind; [exact HL|]. eapply local_bind; [|constructor].
      unfold fcall. eapply l_call; [split; reflexivity|exact I|exact I|cbn [op_of journal_service]; rewrite Ho'; reflexivity|]. constructor. }
  destruct (@remote_local _ _ react _ abs conf E _ _ _ _ _ _ _ _ HW w eq_refl eq_refl Hc Hi) as (k & w' & fs & Hrun & Hi' & _ & Hst & Htx & Hlen).
  { intros Hov. specialize (Hr Hov). lia. }
  exists k, w'. split; [intros fuel Hfu; rewrite (watch_same E fuel s path mode n); now apply Hrun|].
  split; [exact Hi'|]. rewrite Hst. reflexivity.
Qed.
End JournalRuns.

(** ** watching with timeouts *)
Lemma patient_sensible setup who unicode s path mode n st : u16 (sh_tid s) -> is_str path -> mode < 2 ^ 32 -> fits_request unicode (OpenDir s path) ->
  j_open st = false -> sensible (journal_service setup) who unicode (patient s path mode n) st.
Proof.
  intros Hs Hp Hm Hf Ho. unfold patient. cbn [sensible op_of journal_service]. split; [repeat split; assumption|]. rewrite Ho. cbn [returned].
  assert (K : forall st got, j_open st = true -> sensible (journal_service setup) who unicode
    (try_notify dir_handle mode n (fun got => TCall (Close dir_handle) (fun _ => TRet (Good got))) got) st).
  { clear - Hm. induction n as [|n IH]; intros st got Ho; cbn [try_notify sensible op_of journal_service]; (split; [repeat split; exact Hm|]).
    - rewrite Ho. exact I.
    - rewrite Ho. cbv zeta. repeat split; apply IH; [reflexivity|reflexivity|exact Ho]. }
  apply K. reflexivity.
Qed.
Lemma journal_tries setup who mode n k : forall got st a st', j_open st = true ->
  Forall (fun l => tellable l = true) (j_future st) ->
  tlocal (journal_service setup) who (try_notify dir_handle mode n k got) st a st' ->
  exists more st1, length more = n /\ all_but_given_up more (j_future st) /\ j_open st1 = true
    /\ tlocal (journal_service setup) who (k (got ++ more)) st1 a st'.
Proof.
  induction n as [|n IH]; intros got st a st' Ho Ht H; cbn [try_notify] in H.
  - exists [], st. rewrite app_nil_r. repeat split; [constructor|exact Ho|exact H].
  - cbn [tlocal op_of journal_service] in H. rewrite Ho in H. cbv zeta in H.
    assert (Hh : tellable (hd [] (j_future st)) = true) by (destruct Ht; [reflexivity|assumption]).
    assert (Ht' : Forall (fun l => tellable l = true) (List.tl (j_future st))) by (destruct Ht; [constructor|assumption]).
    rewrite Hh in H. cbn [returned] in H. destruct H as [H|[H|H]]; (apply IH in H; [|first [exact Ho|reflexivity]|assumption]);
      destruct H as (more & st1 & L & A & O & K); cbn [j_future] in A; rewrite <- app_assoc in K; cbn [app] in K.
    + exists (Some (Good (hd [] (j_future st))) :: more), st1. split; [cbn; now rewrite L|]. split; [now apply ab_told|]. split; [exact O|exact K].
    + exists (None :: more), st1. split; [cbn; now rewrite L|]. split; [now apply ab_lost|]. split; [exact O|exact K].
    + exists (None :: more), st1. split; [cbn; now rewrite L|]. split; [now apply ab_unsent|]. split; [exact O|exact K].
Qed.
Lemma journal_patient setup who s path mode n st a st' : j_open st = false -> Forall (fun l => tellable l = true) (j_future st) ->
  tlocal (journal_service setup) who (patient s path mode n) st a st' ->
  exists got, a = Good got /\ length got = n /\ all_but_given_up got (j_future st) /\ j_open st' = false.
Proof.
  intros Ho Ht H. unfold patient in H. cbn [tlocal op_of journal_service] in H. rewrite Ho in H. cbn [returned] in H.
  apply journal_tries in H; [|reflexivity|exact Ht]. destruct H as (got & st1 & L & A & O & K). cbn [j_future app] in A, K.
  cbn [tlocal op_of journal_service] in K. rewrite O in K. cbn [tlocal] in K. destruct K as [-> ->]. exists got. auto.
Qed.
