(** * ListFacts: when a directory listing comes to an end (C65). *)
From Coq Require Import Permutation.
From Verif Require Import Base Text Utils Win Errors Info Common Msg Reply Ntlm Prog Client Spec SpecReply SpecCrash
  SpecMsg Api SpecCall Sample BaseFacts RunFacts SpecFacts InfoFacts ClientFacts MsgFacts ReplyFacts CollectFacts CallFacts FindFacts
  AnswerFacts LoopFacts TextFacts EndFacts DownloadFacts SizeFacts.
Open Scope N_scope.
Set Implicit Arguments.
Unset Strict Implicit.

Section Server.
Variable Sv : Type.
Variable react : Sv -> bytes -> reaction Sv.
Notation world := (world cifs Sv).
Notation run := (run react).
Variable E : env.
Notation returns := (returns react).
Notation ends := (ends react).

(** the searches of a listing after the first gave these batches, none of them the last *)
Inductive pages (s : share) (sid : N) : list dir_info -> world -> list (list dir_info) -> world -> Prop :=
| pg_none sofar w : pages s sid sofar w [] w
| pg_more sofar name w l w1 ls w2 : last_name sofar name ->
    returns (fun f => exec E f (FindNext s sid name)) w (mk_found_next false l) w1 ->
    pages s sid (sofar ++ l) w1 ls w2 -> pages s sid sofar w (l :: ls) w2.
(** in this world the server sends no more than [n] such batches *)
Definition pages_bounded (s : share) (pattern : text) (w : world) (n : nat) : Prop :=
  forall sid l w1 ls w2, returns (fun f => exec E f (FindFirst s pattern)) w (mk_found sid false l) w1 ->
  pages s sid l w1 ls w2 -> (length ls <= n)%nat.

Lemma list_step f g s sid sofar d w : last (map Some sofar) None = Some d ->
  run (list_loop E (S f) g s sid sofar) w
  = gbind (run (exec E g (FindNext s sid (d_filename d))) w)
     (fun r w1 => run (if fn_end r then ret (sofar ++ fn_info r) else list_loop E f g s sid (sofar ++ fn_info r)) w1).
Proof. intros H. cbn [list_loop]. rewrite H, run_mbind. reflexivity. Qed.

Lemma list_loop_ends s sid n : forall sofar w, sofar <> [] -> (forall ls w2, pages s sid sofar w ls w2 -> (length ls <= n)%nat) ->
  exists f0 o, (forall w', o <> Starved w') /\ forall f g, (f0 <= f)%nat -> (f0 <= g)%nat -> run (list_loop E f g s sid sofar) w = o.
Proof.
  induction n as [|n IH]; intros sofar w Hs Hb; destruct (last_some Hs) as (d & Hd & Hl);
    destruct (call_ends react E (FindNext s sid (d_filename d)) w) as (f0 & o & Ho & H);
    (destruct o as [[r|e] w1|w1|w1|w1]; [|exists (S f0), (Done (Bad e) w1)|exists (S f0), (Blocked w1)|exists (S f0), (Crashed w1)|now destruct (Ho w1)]);
    try (split; [easy|]; intros [|f] g Hf Hg; [lia|]; rewrite (list_step _ _ _ _ _ Hd), H by lia; reflexivity);
    destruct r as [[] l].
  - exists (S f0), (Done (Good (sofar ++ l)) w1). split; [easy|]. intros [|f] g Hf Hg; [lia|]. now rewrite (list_step _ _ _ _ _ Hd), H by lia.
  - exfalso. assert (Hp : pages s sid sofar w [l] w1) by (eapply pg_more; [exact Hl|exists f0; exact H|constructor]).
    pose proof (Hb _ _ Hp) as Hp0. clear Hp. rename Hp0 into Hp. cbn in Hp. lia.
  - exists (S f0), (Done (Good (sofar ++ l)) w1). split; [easy|]. intros [|f] g Hf Hg; [lia|]. now rewrite (list_step _ _ _ _ _ Hd), H by lia.
  - destruct (IH (sofar ++ l) w1) as (f1 & o1 & Ho1 & H1).
    + destruct sofar; [easy|discriminate].
    + intros ls w2 Hp. assert (Hp' : pages s sid sofar w (l :: ls) w2) by (eapply pg_more; [exact Hl|exists f0; exact H|exact Hp]).
      apply Hb in Hp'. cbn in Hp'. lia.
    + exists (S (f0 + f1)), o1. split; [exact Ho1|]. intros [|f] g Hf Hg; [lia|].
      rewrite (list_step _ _ _ _ _ Hd), H, gbind_good by lia. cbn [fn_end fn_info]. apply H1; lia.
Qed.
(** a longer sequence of batches uses up the rounds *)
Lemma pages_starve s sid sofar w ls w2 : pages s sid sofar w ls w2 -> forall f, (f <= length ls)%nat ->
  exists g0 w', forall g, (g0 <= g)%nat -> run (list_loop E f g s sid sofar) w = Starved w'.
Proof.
  induction 1 as [sofar w|sofar name w l w1 ls w2 Hn [g1 Hr] Hp IH]; intros f Hf.
  - cbn in Hf. destruct f; [|lia]. exists 0%nat, w. reflexivity.
  - destruct f as [|f]; [exists 0%nat, w; reflexivity|]. cbn in Hf. destruct (IH f ltac:(lia)) as (g0 & w' & Hg).
    exists (g0 + g1)%nat, w'. intros g Hge. destruct (last_name_last Hn) as (d & Hd & <-).
    rewrite (list_step _ _ _ _ _ Hd), Hr, gbind_good by lia. cbn [fn_end fn_info]. apply Hg. lia.
Qed.
Lemma call_mono R (c : call R) f f' : (f <= f')%nat -> ple (exec E f c) (exec E f' c).
Proof.
  intros Hf. rewrite !exec_send. apply ple_mbind; [apply ple_refl|]. intros id.
  assert (Hc : forall f f' g g' k, (f <= f')%nat -> (g <= g')%nat -> ple (collect f g id k) (collect f' g' id k)).
  { clear. induction f as [|f IH]; intros f' g g' k H1 H2; cbn [collect]; [constructor|]. destruct f' as [|f']; [lia|]. cbn [collect].
    apply ple_mbind; [now apply recv_mono|]. intros fr. apply ple_mbind; [apply ple_refl|]. intros [k' d]. apply ple_if; [apply ple_refl|].
    apply IH; lia. }
  destruct c; cbn [after]; try (now apply recv_mono); (apply ple_mbind; [now apply Hc|]; intros; apply ple_refl).
Qed.
Lemma list_loop_mono f s sid : forall g g' sofar, (g <= g')%nat -> ple (list_loop E f g s sid sofar) (list_loop E f g' s sid sofar).
Proof.
  induction f as [|f IH]; intros g g' sofar Hg; cbn [list_loop]; [constructor|].
  destruct (last (map Some sofar) None) as [d|]; [|apply ple_refl].
  apply ple_mbind; [exact (@call_mono _ (FindNext s sid (d_filename d)) _ _ Hg)|]. intros r. apply ple_if; [apply ple_refl|]. now apply IH.
Qed.

(** a listing ends exactly if there is a bound on the unfinished batches the server sends *)
Theorem list_ends_iff s pattern w : ends (fun f => list_dir E f s pattern) w <-> exists n, pages_bounded s pattern w n.
Proof.
  split.
  - intros (f0 & o & Ho & H). exists f0. intros sid l w1 ls w2 [f1 Hr] Hp.
    destruct (Nat.le_gt_cases (length ls) f0) as [Hle|Hgt]; [exact Hle|]. exfalso.
    assert (Hm : forall f, (f0 <= f)%nat -> (f1 <= f)%nat -> run (list_loop E f f s sid l) w1 = o).
    { intros f H1 H2. rewrite <- (H f H1). unfold list_dir. rewrite run_mbind.
      change (find_first E f s pattern) with (exec E f (FindFirst s pattern)). rewrite Hr by exact H2. reflexivity. }
    (* one bound for the calls, another for the rounds *)
    destruct (pages_starve Hp (f := f0)) as (g0 & w' & Hg); [lia|].
    assert (Hle : ple (list_loop E f0 f0 s sid l) (list_loop E f0 (f0 + f1 + g0) s sid l)) by (apply list_loop_mono; lia).
    specialize (Hg (f0 + f1 + g0)%nat ltac:(lia)).
    destruct (Nat.le_gt_cases f1 f0) as [Hf|Hf].
    + specialize (Hm f0 (Nat.le_refl _) Hf). apply (@ple_run _ _ _ react _ _ w1) in Hle.
      * rewrite Hg, Hm in Hle. now destruct (Ho w').
      * intros w'' Hs. rewrite Hm in Hs. now destruct (Ho w'').
    + (* the first call needs more than f0: then the outcome with f0 was already that it was not enough *)
      specialize (H f0 (Nat.le_refl _)).
      assert (Hf0 : ple (list_dir E f0 s pattern) (do! r := exec E (f0 + f1) (FindFirst s pattern) in
          if ff_end r then ret (ff_info r) else list_loop E f0 (f0 + f1 + g0) s (ff_sid r) (ff_info r))).
      { unfold list_dir. apply ple_mbind; [exact (@call_mono _ (FindFirst s pattern) f0 (f0 + f1)%nat ltac:(lia))|].
        intros r. apply ple_if; [apply ple_refl|]. apply list_loop_mono. lia. }
      apply (@ple_run _ _ _ react _ _ w) in Hf0.
      * rewrite H, run_mbind, Hr, gbind_good in Hf0 by lia. cbn [ff_end ff_info ff_sid] in Hf0. rewrite Hg in Hf0. now destruct (Ho w').
      * intros w'' Hs. rewrite H in Hs. now destruct (Ho w'').
  - intros [n Hb]. apply (@ends_bind _ react _ _ (fun f => exec E f (FindFirst s pattern))
      (fun f r => if ff_end r then ret (ff_info r) else list_loop E f f s (ff_sid r) (ff_info r))); [apply call_ends|].
    intros [sid over l] w1 Hw. destruct over; cbn [ff_end ff_info ff_sid].
    + apply ends_const. easy.
    + assert (Hl : l <> []).
      { destruct Hw as [f Hw]. specialize (Hw f (Nat.le_refl _)). exact (first_nonempty Hw). }
      destruct (@list_loop_ends s sid n l w1 Hl) as (f0 & o & Ho & H).
      { intros ls w2. now apply Hb. }
      exists f0, o. split; [exact Ho|]. intros. apply H; lia.
Qed.
End Server.

(** ** a server whose directories never end: every search gives the entry a, and more to come *)
Definition page_head (next : bool) : bytes :=
  if next then le 2 1 ++ le 2 0 ++ zeros 4 else le 2 77 ++ le 2 1 ++ le 2 0 ++ zeros 4.
Definition page_data : bytes := le 4 66 ++ zeros 56 ++ le 4 2 ++ [x61; x00].
Definition page_words (next : bool) : bytes :=
  let n := len (page_head next) in
  le 2 n ++ le 2 66 ++ zeros 2 ++ le 2 n ++ le 2 55 ++ le 2 0 ++ le 2 66 ++ le 2 (55 + n) ++ le 2 0 ++ zeros 2.
Definition page (next : bool) (m : N) : bytes := message 0x32 0 m (page_words next) (page_head next ++ page_data).
Definition endless (s : bool * N) (_ : bytes) : reaction (bool * N) :=
  Accept (true, (snd s + 1) mod 65536) (session_message (page (fst s) (snd s))) Open.
Definition endless_entry : dir_info := mk_dir 0 0 0 0 [97] 0 0.
Definition page_fragment (next : bool) : trans2_reply :=
  mk_trans2 (page_head next) (len (page_head next)) 0 page_data 66 0.

Lemma page_is_fragment next m : fragment_of (page next m) (page_fragment next).
Proof.
  exists (page_words next), (page_head next ++ page_data), [], (len (page_head next)), 55, 66, (55 + len (page_head next)).
  split; [unfold page; apply message_parts; destruct next; vm_compute; reflexivity|].
  destruct next; do 8 (split; [vm_compute; reflexivity|]); (split; (split; [vm_compute; discriminate|split; [vm_compute; discriminate|vm_compute; reflexivity]])).
Qed.
Definition endless_world (next : bool) (m : N) (l : list bytes) : world cifs (bool * N) :=
  mk_world (mk_cifs default_auth 4356 true 7 m) (next, m) [] Open l.
Lemma endless_dir : dir_of (zeros 56 ++ le 4 2 ++ [x61; x00]) endless_entry.
Proof.
  exists 0, 0, 0, 0, 0, 2, [x61; x00]. do 10 (split; [vm_compute; reflexivity|]).
  split; [apply flags_of_iff; vm_compute; reflexivity|]. do 2 (split; [vm_compute; reflexivity|]). apply decode_utf16le_ok. vm_compute. reflexivity.
Qed.
Lemma endless_found next (R : Type) (c : call R) (v : R) m l fuel : fits_request true c -> m < 65536 -> (300 <= fuel)%nat ->
  ~ single_reply c -> opcode c = 0x32 -> found_in c (page_head next) page_data v ->
  exists f, run endless (exec (env0 false) fuel c) (endless_world next m l)
    = Done (Good v) (endless_world true ((m + 1) mod 65536) (l ++ [f])).
Proof.
  intros Hfit Hm Hf Hs Hop Hv.
  destruct (proj2 (request_iff (env0 false) fuel c (cl (endless_world next m l)))) as [f Hr].
  { split; [exact Hfit|]. intros [H _]. discriminate. }
  exists f.
  assert (Hl : len (page next m) < 190) by (unfold page; rewrite len_message; destruct next; vm_compute; reflexivity).
  replace (endless_world true ((m + 1) mod 65536) (l ++ [f]))
    with (leaving (mk_world (next_client (cl (endless_world next m l))) (true, (m + 1) mod 65536)
            (session_message (page next m)) Open (l ++ [f])) []) by reflexivity.
  apply searched_run; [exact Hs|].
  exists f, (mk_world (next_client (cl (endless_world next m l))) (true, (m + 1) mod 65536)
            (session_message (page next m)) Open (l ++ [f])), [page_fragment next], (page_head next), page_data, [].
  split; [exact Hr|]. split; [|split; [|split; [|split; [|split; [|split; [exact Hv|reflexivity]]]]]].
  - exists (true, (m + 1) mod 65536), (session_message (page next m)), Open. repeat split.
  - cbn [rx]. pose proof (len_session (page next m)). unfold len in *. lia.
  - apply next_fragment with (p := page next m) (b' := []).
    + exists []. split; [constructor|]. split; [unfold NB_MAX; lia|]. cbn [rx app]. now rewrite app_nil_r.
    + cbn [cl endless_world mid]. unfold page. apply message_reply; try lia. vm_compute. tauto.
    + apply page_is_fragment.
    + constructor.
  - split; [discriminate|]. split; [constructor; [destruct next; split; reflexivity|constructor]|].
    split.
    + exists [(0, page_head next)]. split; [destruct next; apply Permutation_refl|].
      rewrite <- (app_nil_r (page_head next)) at 2. constructor. constructor.
    + exists [(0, page_data)]. split; [apply Permutation_refl|].
      rewrite <- (app_nil_r page_data) at 2. constructor. constructor.
  - intros [|a [|b fs1]] fs2 H H1 H2; [easy| |discriminate]. injection H as _ <-. easy.
Qed.
Lemma endless_pages fuel n s : (300 <= fuel)%nat -> fits_request true (FindNext s 77 [97]) -> forall sofar m l, m < 65536 ->
  last_name sofar [97] ->
  exists w, run endless (list_loop (env0 false) n fuel s 77 sofar) (endless_world true m l) = Starved w
   /\ length (tx w) = (length l + n)%nat.
Proof.
  intros Hf Hfit. induction n as [|n IH]; intros sofar m l Hm Hn.
  - eexists. split; [reflexivity|]. cbn. lia.
  - destruct (last_name_last Hn) as (d & Hd & Hdn). rewrite (list_step _ _ _ _ _ _ _ Hd), Hdn.
    destruct (@endless_found true _ (FindNext s 77 [97]) (mk_found_next false [endless_entry]) m l fuel Hfit Hm Hf) as [f ->].
    + cbn. tauto.
    + reflexivity.
    + cbn [found_in fn_end fn_info]. split; [vm_compute; reflexivity|]. split; [exists 0; split; [vm_compute; reflexivity|easy]|].
      split; [|easy]. eapply entries_more with (n := 66) (e := zeros 56 ++ le 4 2 ++ [x61; x00]).
      * vm_compute; reflexivity.
      * reflexivity.
      * vm_compute; reflexivity.
      * apply endless_dir.
      * change (drop 66 page_data) with (@nil byte). constructor.
    + rewrite gbind_good. cbn [fn_end fn_info].
      destruct (IH (sofar ++ [endless_entry]) ((m + 1) mod 65536) (l ++ [f])) as (w & H1 & H2); [lia|now exists sofar, endless_entry|].
      exists w. split; [exact H1|]. rewrite H2, app_length. cbn. lia.
Qed.
Lemma endless_list s pattern : fits_request true (FindFirst s pattern) -> fits_request true (FindNext s 77 [97]) ->
  forall fuel, (300 <= fuel)%nat ->
  exists w, run endless (list_dir (env0 false) fuel s pattern) (endless_world false 0 []) = Starved w
   /\ length (tx w) = (fuel + 1)%nat.
Proof.
  intros H1 H2 fuel Hf. unfold list_dir. rewrite run_mbind.
  change (find_first (env0 false) fuel s pattern) with (exec (env0 false) fuel (FindFirst s pattern)).
  destruct (@endless_found false _ (FindFirst s pattern) (mk_found 77 false [endless_entry]) 0 [] fuel H1 ltac:(lia) Hf) as [f ->].
  - cbn. tauto.
  - reflexivity.
  - cbn [found_in ff_end ff_info ff_sid]. split; [vm_compute; discriminate|]. do 2 (split; [vm_compute; reflexivity|]).
    split; [exists 0; split; [vm_compute; reflexivity|easy]|].
    split; [|easy]. eapply entries_more with (n := 66) (e := zeros 56 ++ le 4 2 ++ [x61; x00]).
    + vm_compute; reflexivity.
    + reflexivity.
    + vm_compute; reflexivity.
    + apply endless_dir.
    + change (drop 66 page_data) with (@nil byte). constructor.
  - rewrite gbind_good. cbn [ff_end ff_info ff_sid].
    destruct (@endless_pages fuel fuel s Hf H2 [endless_entry] ((0 + 1) mod 65536) ([] ++ [f])) as (w & -> & H3); [lia|now exists [], endless_entry|].
    exists w. split; [reflexivity|]. rewrite H3. cbn. lia.
Qed.
Lemma list_diverges : exists Sv (react : Sv -> bytes -> reaction Sv) w s pattern, forall fuel, (300 <= fuel)%nat ->
  exists w', run react (list_dir (env0 false) fuel s pattern) w = Starved w' /\ length (tx w') = (fuel + 1)%nat.
Proof.
  exists (bool * N)%type, endless, (endless_world false 0 []), share0, [42]. apply endless_list; vm_compute; try reflexivity; discriminate.
Qed.
