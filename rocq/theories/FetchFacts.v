(** * FetchFacts: from a URI to the file (C72) *)
From Coq Require Import String.
From Verif Require Import Base Text Win Errors Common Reply Ntlm Prog Client Uri Spec SpecReply SpecNtlm SpecMsg Api SpecCall BaseFacts TextFacts
  RunFacts MsgFacts SizeFacts Flow FlowFacts SpecLogin SpecRemote RemoteFacts RefServer RefFacts FileService FileFacts
  SpecAccount AccountFacts Gate GateFacts OpenFacts SessionFacts SpecUri UriFacts SpecFetch.
Open Scope N_scope.
Open Scope list_scope.
Set Implicit Arguments.

(** ** sizes *)
Lemma utf16_len_most s : utf16_len s <= 2 * len s.
Proof. induction s as [|c s IH]; [reflexivity|]. cbn [utf16_len]. rewrite len_cons. destruct (c <? 0x10000); lia. Qed.
Lemma utf8_len_most s : utf8_len s <= 4 * len s.
Proof.
  induction s as [|c s IH]; [reflexivity|]. cbn [utf8_len]. rewrite len_cons.
  destruct (c <? 0x80), (c <? 0x800), (c <? 0x10000); lia.
Qed.
Lemma text_size_most s : text_size s <= 4 * len s.
Proof. unfold text_size. pose proof (utf16_len_most s). pose proof (utf8_len_most s). lia. Qed.

(** ** components of a URI are parts of it *)
Lemma written_str u : (u_user u = None -> u_password u = None) -> is_str (written u) ->
  is_str (or_else (u_domain u) []) /\ is_str (or_else (u_user u) []) /\ is_str (or_else (u_password u) [])
  /\ is_str (u_host u) /\ is_str (u_share u) /\ is_str (or_else (u_path u) []).
Proof.
  destruct u as [dom usr pw host port share path]. unfold written, part, is_str. cbn [u_domain u_user u_password u_host u_port u_share u_path].
  intros Hp. destruct usr as [usr|]; [|rewrite (Hp eq_refl)]; destruct dom, port, path; try destruct pw; cbn [or_else]; rewrite ?is_text_app, ?Bool.andb_true_iff; tauto.
Qed.
Lemma written_len u : (u_user u = None -> u_password u = None) ->
  len (or_else (u_domain u) []) + len (or_else (u_user u) []) + len (or_else (u_password u) [])
  + len (u_host u) + len (u_share u) + len (or_else (u_path u) []) <= len (written u).
Proof.
  destruct u as [dom usr pw host port share path]. unfold written, part. cbn [u_domain u_user u_password u_host u_port u_share u_path].
  intros Hp. destruct usr as [usr|]; [|rewrite (Hp eq_refl)]; destruct dom, port, path; try destruct pw; cbn [or_else]; rewrite ?len_app; change (len (@nil N)) with 0; lia.
Qed.
Lemma no_slash c : c <> 47 -> (if c =? 47 then 92 else c) = c.
Proof. intros H. destruct (N.eqb_spec c 47); [contradiction|reflexivity]. Qed.
Lemma backslashes_same s : Forall (fun c => c <> 47) s -> backslashes s = s.
Proof. induction 1 as [|c s Hc _ IH]; [reflexivity|]. cbn [backslashes map]. fold (backslashes s). now rewrite IH, no_slash. Qed.
Lemma word_no_slash more c : word_char more c -> c <> 47 /\ c <> 0.
Proof. unfold word_char. lia. Qed.
Lemma host_no_slash more c : word_char more c \/ one_of ".-" c -> c <> 47.
Proof. intros [H|H]; [now apply word_no_slash in H|]. cbn in H. lia. Qed.
Lemma unc_same more digit u : valid more digit u -> backslashes (unc (u_host u) (u_share u)) = unc (u_host u) (u_share u).
Proof.
  intros (_ & _ & _ & _ & (c & r & Hh & Hc & Hr) & _ & _ & Hs & _). apply backslashes_same. unfold unc. rewrite Hh.
  constructor; [discriminate|]. constructor; [discriminate|]. apply Forall_app. split.
  - constructor; [now apply word_no_slash in Hc|]. eapply Forall_impl; [|exact Hr]. intros x. apply host_no_slash.
  - constructor; [discriminate|]. eapply Forall_impl; [|exact Hs]. intros x. apply host_no_slash.
Qed.
Lemma user_no_nul more digit u : valid more digit u -> ~ In 0 (or_else (u_user u) []).
Proof.
  intros (_ & H & _). destruct (u_user u) as [x|]; [|intros []]. destruct H as [_ H]. cbn [or_else]. intros Hi.
  rewrite Forall_forall in H. apply H in Hi. destruct Hi as [Hi|Hi]; [now apply word_no_slash in Hi|]. cbn in Hi. lia.
Qed.
Lemma domain_no_nul more digit u dom : valid more digit u -> ~ In 0 dom -> ~ In 0 (or_else (u_domain u) dom).
Proof.
  intros (H & _) Hd. destruct (u_domain u) as [x|]; [|exact Hd]. destruct H as [_ H]. cbn [or_else]. intros Hi.
  rewrite Forall_forall in H. apply H in Hi. now apply word_no_slash in Hi.
Qed.

(** ** the program *)
Lemma fetch_same E fuel sh path : same_prog (fetch E fuel sh path) (interp E fuel (fetch_flow fuel sh path)).
Proof.
  apply same_sym. unfold fetch_flow, fetch. apply interp_call_then; [reflexivity|]. intros s.
  eapply same_trans; [apply interp_fbind|]. apply same_mbind; [apply same_sym, download_same|]. intros d.
  apply interp_call_then; [reflexivity|]. intros []. apply same_refl.
Qed.
Lemma less_fetch sh path n m : (n <= m)%nat -> less (fetch_flow n sh path) (fetch_flow m sh path).
Proof.
  intros H. unfold fetch_flow. apply less_bind; [apply less_refl|]. intros s. apply less_bind; [now apply less_download|]. intros d. apply less_refl.
Qed.
Lemma works_bind A X (p : flow A) (k : A -> flow X) : works p -> (forall a, works (k a)) -> works (fbind p k).
Proof. induction p as [[a|e]| | |R c f IH|f IH|u p IH|m u p IH]; cbn [fbind works]; intros Hp Hk; try tauto; [apply Hk|split; [apply Hp|intros r; apply IH; [apply Hp|exact Hk]]|intros c; apply IH; [apply Hp|exact Hk]]. Qed.
Lemma works_call R (c : call R) : working c -> works (fcall c).
Proof. intros H. split; [exact H|]. intros r. exact I. Qed.
Lemma works_reads n h data : works (download_reads n h data).
Proof.
  revert data. induction n as [|n IH]; intros data; cbn [download_reads]; [exact I|].
  destruct (_ <? _); [|exact I]. apply works_bind; [now apply works_call|]. intros chunk. apply IH.
Qed.
Lemma works_fetch n sh path : works (fetch_flow n sh path).
Proof.
  unfold fetch_flow, download_flow. apply works_bind; [now apply works_call|]. intros s. apply works_bind.
  - apply works_bind; [now apply works_call|]. intros h. apply works_bind; [apply works_reads|]. intros d.
    apply works_bind; [now apply works_call|]. intros x. exact I.
  - intros d. apply works_bind; [now apply works_call|]. intros x. exact I.
Qed.
Section Fetch.
Variable tree : text -> text -> option N.
Variable fsetup : server_setup.
Variable accepts : text -> text -> bytes -> option N.
Notation FS := (file_service tree fsetup accepts).
Lemma local_fetch c st n sh path tid d : tree (backslashes sh) [] = Some tid -> u16 tid -> sound_files st ->
  contents (fs_files st) tid (backslashes path) = Some d -> fs_next st < 65536 -> is_str sh -> is_str path ->
  fits_request (use_unicode c) (Mount sh) -> (forall s, fits_request (use_unicode c) (OpenFile s path)) -> len d < 2 ^ 64 -> (length d < n)%nat ->
  exists m c', local FS (fetch_flow n sh path) c st m (Good d) c' (mk_files (fs_files st) (fs_open st) (fs_next st + 1))
    /\ (m <= 4 + pieces (len d) 65534)%nat.
Proof.
  intros Ht Hu Hs Hc Hn Ish Ip F1 F2 Hd Hl. set (s := mk_share None None [65; 58] [78; 84; 70; 83] tid).
  destruct (local_download (s := s) (c := next_client c) (n := n) (file_there tree fsetup accepts (uid c) Hs Hc Hn Hu Hd) Hu Ip (F2 s) eq_refl Hd Hl)
    as (m & c' & st' & HL & -> & Huid & Hm & Huni).
  exists (1 + (m + (1 + 0)))%nat, (next_client c'). split; [|lia]. unfold fetch_flow.
  eapply local_bind; [refine (local_call (r := inl s) _ _ _ _)|].
  - exact Ish.
  - exact I.
  - exact F1.
  - cbn [op_of file_service]. rewrite Ht. reflexivity.
  - eapply local_bind; [exact HL|]. eapply local_bind; [refine (local_call (r := inl tt) _ _ _ _)|constructor].
    + exact Hu.
    + exact I.
    + exact I.
    + reflexivity.
Qed.

Variable Sv : Type.
Variable react : Sv -> bytes -> reaction Sv.
Variable E : env.
Lemma login_mid t (w : world cifs Sv) s user last w' : mid (cl w) = 0 -> login react E t w s user last w' -> mid (cl w') <= 3.
Proof.
  intros Hm (p & w1 & H1 & H). apply exchange_client in H1. cbv zeta in H. destruct (N.testbit (s_capabilities s) 31).
  - destruct H as (m1 & p1 & st1 & r1 & v1 & ch & nt & m3 & p3 & r3 & _ & H2 & _ & _ & _ & _ & H3).
    apply exchange_client in H2, H3. rewrite H3. cbn [adopt set_uid cl next_client mid]. rewrite H2. cbn [adopt set_options cl next_client mid].
    rewrite H1. cbn [next_client mid]. rewrite Hm. vm_compute. discriminate.
  - destruct H as (nt & p2 & r & v1 & _ & _ & H2 & _ & ->). apply exchange_client in H2. cbn [adopt set_uid cl mid]. rewrite H2.
    cbn [adopt set_options cl next_client mid]. rewrite H1. cbn [next_client mid]. rewrite Hm. vm_compute. discriminate.
Qed.

Variable known : accounts.
Variable setup : server_setup.
Variable nonce : N -> bytes.
Variable info : bytes.
Variable abs : Sv -> gated files.
Notation G := (gate files E known setup nonce info FS).
Hypothesis conf : conforming react G abs.
Hypothesis good_challenge : len (s_challenge setup) = 8.
Hypothesis good_nonce : forall n, len (nonce n) = 8.
Hypothesis good_info : len info <= 30000.
Variable net : N -> connection Sv.

Lemma fetch_file word digit u path ws dom t s0 p tid d :
  valid word digit_char u -> given (u_port u) (fun p => value 0 p < 65536) -> ~ ambiguous word digit u -> u_path u = Some path ->
  is_str (written u) -> is_str ws -> is_str dom -> ~ In 0 dom -> len (written u) + len ws + len dom <= 8000 -> clock E t ->
  p = match u_port u with Some q => value 0 q | None => 445 end -> net p = Connected (mk_stream s0 [] Open) ->
  registered E known (mk_auth (or_else (u_user u) []) ws (or_else (u_domain u) dom) (or_else (u_password u) [])) ->
  g_next (abs s0) < 65536 -> sound_files (g_behind (abs s0)) -> fs_next (g_behind (abs s0)) < 65536 ->
  tree (unc (u_host u) (u_share u)) [] = Some tid -> u16 tid ->
  contents (fs_files (g_behind (abs s0))) tid (backslashes path) = Some d -> len d < 2 ^ 64 -> (overflow_checks E = true -> len d <= 65500 * 65534) ->
  exists cfg w1 w2 k, resolve_smb_uri word digit (written u) = Ok cfg /\ cf_path cfg = Some path
  /\ forall fuel, (k <= fuel)%nat ->
     open E Sv net react fuel (cf_port cfg) (Some (login_of cfg ws dom)) = ([p], OnStream (Done (Good tt) w1))
     /\ run react (fetch E fuel (unc (cf_hostname cfg) (cf_share cfg)) path) w1 = Done (Good d) w2
     /\ g_behind (abs (srv w2)) = mk_files (fs_files (g_behind (abs s0))) (fs_open (g_behind (abs s0))) (fs_next (g_behind (abs s0)) + 1).
Proof.
  intros Hv Hport Ha Hpath Hstr Hws Hdom Hnul Hlen Ht Hp Hnet Hreg Hnx Hsf Hfn Htree Htid Hcon Hd Hov.
  destruct (resolve_exact word digit u Hv Hport Ha) as (cfg & Hcfg & C1 & C2 & C3 & C4 & C5 & C6 & C7).
  assert (Hl : login_of cfg ws dom = mk_auth (or_else (u_user u) []) ws (or_else (u_domain u) dom) (or_else (u_password u) [])).
  { unfold login_of. now rewrite C1, C2, C3. }
  set (a := mk_auth (or_else (u_user u) []) ws (or_else (u_domain u) dom) (or_else (u_password u) [])) in *.
  assert (Hup : u_user u = None -> u_password u = None) by apply Hv.
  destruct (written_str Hup Hstr) as (S1 & S2 & S3 & S4 & S5 & S6). pose proof (written_len u Hup) as L.
  assert (Td : is_str (or_else (u_domain u) dom)). { revert S1. destruct (u_domain u); cbn [or_else]; auto. }
  assert (Ld : len (or_else (u_domain u) dom) <= len (or_else (u_domain u) []) + len dom). { destruct (u_domain u); cbn [or_else]; lia. }
  assert (Ta : typed_auth a) by (split; [exact S2|split; [exact Hws|split; [exact Td|exact S3]]]).
  rewrite Hpath in S6, L. cbn [or_else] in S6, L.
  destruct (open_direct react E (port := cf_port cfg) (Some a) Hnet) as (w & ((Fa & Fn & Fu & Fm) & Bs & Br & Bt & Bx) & Ho).
  { destruct (u_port u) as [q|], (cf_port cfg) as [v|]; try contradiction.
    - left. f_equal. destruct C7 as (_ & -> & _). symmetry. exact Hp.
    - right. split; [reflexivity|exact Hp]. }
  cbn [st_srv st_rx st_tl credentials] in Bs, Br, Bt, Fa.
  pose proof (text_size_most (a_user a)) as Z1. pose proof (text_size_most (a_domain a)) as Z2. pose proof (text_size_most (a_workstation a)) as Z3.
  pose proof (utf16_len_most (a_user a)) as Z4. pose proof (utf16_len_most (a_domain a)) as Z5.
  unfold a in Z1, Z2, Z3, Z4, Z5. cbn [a_user a_domain a_workstation] in Z1, Z2, Z3, Z4, Z5.
  destruct (gate_open conf (w := w) (t := t)) as (k1 & w1 & Hrun & Hi1 & Hin & Hb).
  { split; [rewrite Fu|rewrite Fm]; reflexivity. }
  { split; [exact Br|exact Bt]. }
  { rewrite Fa. exact Ta. }
  { rewrite Fa. exact Hreg. }
  { rewrite Fa. exact (user_no_nul Hv). }
  { rewrite Fa. exact (domain_no_nul dom Hv Hnul). }
  { exact Ht. }
  { exact good_challenge. }
  { exact good_nonce. }
  { lia. }
  { rewrite Fa. unfold fits_v1, a. cbn [fits_request a_user a_domain]. change (len (zeros 24)) with 24.
    destruct (N.testbit (s_capabilities setup) 2); lia. }
  { rewrite Fa. unfold fits_v2, a. cbn [a_user a_domain a_workstation]. lia. }
  { intros _. rewrite Fm. vm_compute. discriminate. }
  { rewrite Bs. exact Hnx. }
  rewrite Bs in Hb.
  pose proof (Hrun k1 (le_n k1)) as Hlog. apply (login_good (t := t)) in Hlog; [|rewrite Fa; exact Ta|exact Ht]. destruct Hlog as (sv & user & last & Hlog).
  pose proof (login_mid Fm Hlog) as Hmid. apply login_state in Hlog. destruct Hlog as (_ & _ & _ & _ & Tc & _).
  assert (Hunc : len (unc (u_host u) (u_share u)) = 3 + len (u_host u) + len (u_share u)).
  { unfold unc. rewrite !len_app. change (len [92; 92]) with 2. change (len [92]) with 1. lia. }
  pose proof (utf16_len_most (unc (u_host u) (u_share u))) as Z6. pose proof (utf8_len_most (unc (u_host u) (u_share u))) as Z7.
  pose proof (utf16_len_most path) as Z8.
  destruct (local_fetch (cl w1) (st := g_behind (abs (srv w1))) (n := S (length d)) (sh := unc (u_host u) (u_share u)) (path := path) (tid := tid) (d := d))
    as (m & c' & HL & Hm).
  { rewrite (unc_same Hv). exact Htree. }
  { exact Htid. }
  { rewrite Hb. exact Hsf. }
  { rewrite Hb. exact Hcon. }
  { rewrite Hb. exact Hfn. }
  { unfold is_str, unc. rewrite !is_text_app. unfold is_str in S4, S5. rewrite S4, S5. reflexivity. }
  { exact S6. }
  { cbn [fits_request]. unfold mount_size. cbn [utf8_len]. change (N.max 1 0) with 1. change ((1 + 1) mod 2) with 0.
    destruct (use_unicode (cl w1)); lia. }
  { intros s. cbn [fits_request]. lia. }
  { exact Hd. }
  { lia. }
  destruct (gate_session conf Tc Hi1 Hin HL (works_fetch _ _ _)) as (k2 & w2 & Hrun2 & _ & Hbeh & _).
  { intros Hc. specialize (Hov Hc). assert (pieces (len d) 65534 <= N.to_nat 65500)%nat; [|lia].
    unfold pieces. assert ((len d + 65534 - 1) / 65534 < 65501) by (apply N.div_lt_upper_bound; lia). lia. }
  exists cfg, w1, w2, (Nat.max (Nat.max k1 k2) (S (length d))). split; [exact Hcfg|]. split; [now rewrite C6|]. intros fuel Hf. split; [|split].
  - rewrite Hl, Ho, Hrun by lia. reflexivity.
  - rewrite C4, C5, (fetch_same E fuel). eapply run_less; [apply less_fetch|apply Hrun2; lia]. lia.
  - rewrite Hbeh, Hb. reflexivity.
Qed.
End Fetch.
