(** * ErrandFacts: from a URI to anything (C115) *)
From Coq Require Import Lia String.
From Verif Require Import Base Text Win Errors Common Reply Ntlm Prog Client Uri Spec SpecReply SpecNtlm SpecMsg Api SpecCall BaseFacts TextFacts
  RunFacts MsgFacts SizeFacts Flow FlowFacts SpecLogin SpecRemote RemoteFacts RefServer RefFacts FileService FileFacts
  SpecAccount AccountFacts Gate GateFacts OpenFacts SessionFacts SpecUri UriFacts SpecFetch FetchFacts SpecErrand.
Open Scope N_scope.
Open Scope list_scope.
Set Implicit Arguments.

Section Any.
Variables Sv St : Type.
Variable react : Sv -> bytes -> reaction Sv.
Variable E : env.
Variable known : accounts.
Variable setup : server_setup.
Variable nonce : N -> bytes.
Variable info : bytes.
Variable B : service St.
Variable abs : Sv -> gated St.
Notation G := (gate St E known setup nonce info B).
Hypothesis conf : conforming react G abs.
Hypothesis good_challenge : len (s_challenge setup) = 8.
Hypothesis good_nonce : forall n, len (nonce n) = 8.
Hypothesis good_info : len info <= 30000.
Variable net : N -> connection Sv.

Theorem uri_program word digit u ws dom t s0 p :
  valid word digit_char u -> given (u_port u) (fun p => value 0 p < 65536) -> ~ ambiguous word digit u ->
  is_str (written u) -> is_str ws -> is_str dom -> ~ In 0 dom -> len (written u) + len ws + len dom <= 8000 -> clock E t ->
  p = match u_port u with Some q => value 0 q | None => 445 end -> net p = Connected (mk_stream s0 [] Open) ->
  registered E known (mk_auth (or_else (u_user u) []) ws (or_else (u_domain u) dom) (or_else (u_password u) [])) ->
  g_next (abs s0) < 65536 ->
  exists cfg w1 k1, resolve_smb_uri word digit (written u) = Ok cfg /\ config_of u cfg
  /\ (forall fuel, (k1 <= fuel)%nat -> open E Sv net react fuel (cf_port cfg) (Some (login_of cfg ws dom)) = ([p], OnStream (Done (Good tt) w1)))
  /\ mid (cl w1) <= 3 /\ g_behind (abs (srv w1)) = g_behind (abs s0)
  /\ forall A (f : flow A) n a c' st', local B f (cl w1) (g_behind (abs s0)) n a c' st' -> works f -> room E (cl w1) n ->
     exists k2 w2, (forall fuel, (k2 <= fuel)%nat -> run react (interp E fuel f) w1 = Done a w2) /\ idle w2 /\ g_behind (abs (srv w2)) = st'.
Proof.
  intros Hv Hport Ha Hstr Hws Hdom Hnul Hlen Ht Hp Hnet Hreg Hnx.
  destruct (resolve_exact word digit u Hv Hport Ha) as (cfg & Hcfg & HC). pose proof HC as (C1 & C2 & C3 & C4 & C5 & C6 & C7).
  assert (Hl : login_of cfg ws dom = mk_auth (or_else (u_user u) []) ws (or_else (u_domain u) dom) (or_else (u_password u) [])).
  { unfold login_of. now rewrite C1, C2, C3. }
  set (a := mk_auth (or_else (u_user u) []) ws (or_else (u_domain u) dom) (or_else (u_password u) [])) in *.
  assert (Hup : u_user u = None -> u_password u = None) by apply Hv.
  destruct (written_str Hup Hstr) as (S1 & S2 & S3 & S4 & S5 & S6). pose proof (written_len u Hup) as L.
  assert (Td : is_str (or_else (u_domain u) dom)). { revert S1. destruct (u_domain u); cbn [or_else]; auto. }
  assert (Ld : len (or_else (u_domain u) dom) <= len (or_else (u_domain u) []) + len dom). { destruct (u_domain u); cbn [or_else]; lia. }
  assert (Ta : typed_auth a) by (split; [exact S2|split; [exact Hws|split; [exact Td|exact S3]]]).
  destruct (open_direct react E (port := cf_port cfg) (Some a) Hnet) as (w & ((Fa & Fn & Fu & Fm) & Bs & Br & Bt & Bx) & Ho).
  { destruct (u_port u) as [q|], (cf_port cfg) as [v|]; try contradiction.
    - left. f_equal. destruct C7 as (_ & -> & _). symmetry. exact Hp.
    - right. split; [reflexivity|exact Hp]. }
  cbn [st_srv st_rx st_tl credentials] in Bs, Br, Bt, Fa.
  pose proof (text_size_most (a_user a)) as Z1. pose proof (text_size_most (a_domain a)) as Z2. pose proof (text_size_most (a_workstation a)) as Z3.
  pose proof (utf16_len_most (a_user a)) as Z4. pose proof (utf16_len_most (a_domain a)) as Z5.
  unfold a in Z1, Z2, Z3, Z4, Z5. cbn [a_user a_domain a_workstation] in Z1, Z2, Z3, Z4, Z5.
  destruct (gate_open conf (w := w) (t := t)) as (k1 & w1 & Hrun & Hi1 & Hin & Hb).
  { split; [rewrite Fu|rewrite Fm]; reflexivity. }
  { split; [exact Br|exact Bt]. }
  { rewrite Fa. exact Ta. }
  { rewrite Fa. exact Hreg. }
  { rewrite Fa. exact (user_no_nul Hv). }
  { rewrite Fa. exact (domain_no_nul dom Hv Hnul). }
  { exact Ht. }
  { exact good_challenge. }
  { exact good_nonce. }
  { lia. }
  { rewrite Fa. unfold fits_v1, a. cbn [fits_request a_user a_domain]. change (len (zeros 24)) with 24.
    destruct (N.testbit (s_capabilities setup) 2); lia. }
  { rewrite Fa. unfold fits_v2, a. cbn [a_user a_domain a_workstation]. lia. }
  { intros _. rewrite Fm. vm_compute. discriminate. }
  { rewrite Bs. exact Hnx. }
  rewrite Bs in Hb.
  pose proof (Hrun k1 (le_n k1)) as Hlog. apply (login_good (t := t)) in Hlog; [|rewrite Fa; exact Ta|exact Ht]. destruct Hlog as (sv & user & last & Hlog).
  pose proof (login_mid Fm Hlog) as Hmid. apply login_state in Hlog. destruct Hlog as (_ & _ & _ & _ & Tc & _).
  exists cfg, w1, k1. split; [exact Hcfg|]. split; [exact HC|]. split; [intros fuel Hf; rewrite Hl, Ho, Hrun by exact Hf; reflexivity|].
  split; [exact Hmid|]. split; [exact Hb|]. intros A f n x c' st' HL Hw Hr. rewrite <- Hb in HL.
  destruct (gate_session conf Tc Hi1 Hin HL Hw Hr) as (k2 & w2 & Hrun2 & Hi2 & Hbeh & _). exists k2, w2. auto.
Qed.
End Any.

(** ** the two programs *)
Definition look_flow (n : nat) (share pattern : text) : flow (list dir_info) :=
  fbind (fcall (Mount share)) (fun s => fbind (list_flow n s pattern) (fun l => fbind (fcall (Umount s)) (fun _ => FRet (Good l)))).
Definition remove_flow (share path : text) : flow unit :=
  fbind (fcall (Mount share)) (fun s => fbind (fcall (Delete s path)) (fun _ => fbind (fcall (Umount s)) (fun _ => FRet (Good tt)))).
Lemma look_same E fuel sh pattern : same_prog (look E fuel sh pattern) (interp E fuel (look_flow fuel sh pattern)).
Proof.
  apply same_sym. unfold look_flow, look. apply interp_call_then; [reflexivity|]. intros s.
  eapply same_trans; [apply interp_fbind|]. apply same_mbind; [apply same_sym, list_same|]. intros d.
  apply interp_call_then; [reflexivity|]. intros []. apply same_refl.
Qed.
Lemma remove_same E fuel sh path : same_prog (remove E fuel sh path) (interp E fuel (remove_flow sh path)).
Proof.
  apply same_sym. unfold remove_flow, remove. apply interp_call_then; [reflexivity|]. intros s.
  apply interp_call_then; [reflexivity|]. intros []. apply interp_call_then; [reflexivity|]. intros []. apply same_refl.
Qed.
Lemma works_nexts n s sid : forall l, works (list_nexts n s sid l).
Proof.
  induction n as [|n IH]; intros l; cbn [list_nexts]; [exact I|].
  destruct (last (map Some l) None) as [d|]; [|exact I]. apply works_bind; [now apply works_call|]. intros x. destruct (fn_end x); [exact I|apply IH].
Qed.
Lemma works_look n sh pattern : works (look_flow n sh pattern).
Proof.
  unfold look_flow, list_flow. apply works_bind; [now apply works_call|]. intros s. apply works_bind.
  - apply works_bind; [now apply works_call|]. intros r. destruct (ff_end r); [exact I|apply works_nexts].
  - intros d. apply works_bind; [now apply works_call|]. intros x. exact I.
Qed.
Lemma works_remove sh path : works (remove_flow sh path).
Proof.
  unfold remove_flow. apply works_bind; [now apply works_call|]. intros s. apply works_bind; [now apply works_call|]. intros x.
  apply works_bind; [now apply works_call|]. intros y. exact I.
Qed.
Lemma less_look sh pattern n m : (n <= m)%nat -> less (look_flow n sh pattern) (look_flow m sh pattern).
Proof.
  intros H. unfold look_flow. apply less_bind; [apply less_refl|]. intros s. apply less_bind; [now apply less_list|]. intros d. apply less_refl.
Qed.

Section Files.
Variable tree : text -> text -> option N.
Variable fsetup : server_setup.
Variable accepts : text -> text -> bytes -> option N.
Notation FS := (file_service tree fsetup accepts).
Definition mounted (tid : N) : share := mk_share None None [65; 58] [78; 84; 70; 83] tid.
Lemma local_look c st n sh pattern tid : tree (backslashes sh) [] = Some tid -> u16 tid -> is_str sh -> is_str pattern ->
  fits_request (use_unicode c) (Mount sh) -> fits_request (use_unicode c) (FindFirst (mounted tid) pattern) ->
  len (write_entries (listing st tid (backslashes pattern))) < 65400 ->
  exists c', local FS (look_flow n sh pattern) c st 3 (Good (listing st tid (backslashes pattern))) c' st.
Proof.
  intros Ht Hu Ish Ip F1 F2 Hl. eexists. unfold look_flow. change 3%nat with (1 + (1 + (1 + 0)))%nat.
  eapply local_bind; [refine (local_call (r := inl (mounted tid)) _ _ _ _)|].
  - exact Ish.
  - exact I.
  - exact F1.
  - cbn [op_of file_service]. rewrite Ht. reflexivity.
  - eapply local_bind; [eapply local_list|].
    + cbn [file_service sh_tid mounted]. cbv zeta. destruct (N.ltb_spec (len (write_entries (listing st tid (backslashes pattern)))) 65400); [reflexivity|lia].
    + exact Hu.
    + exact Ip.
    + exact F2.
    + eapply local_bind; [refine (local_call (r := inl tt) _ _ _ _)|constructor].
      * exact Hu.
      * exact I.
      * exact I.
      * reflexivity.
Qed.
Lemma local_remove c st sh path tid d : tree (backslashes sh) [] = Some tid -> u16 tid -> is_str sh -> is_str path ->
  fits_request (use_unicode c) (Mount sh) -> fits_request (use_unicode c) (Delete (mounted tid) path) ->
  contents (fs_files st) tid (backslashes path) = Some d ->
  exists c', local FS (remove_flow sh path) c st 3 (Good tt) c' (mk_files (without (fs_files st) tid (backslashes path)) (fs_open st) (fs_next st)).
Proof.
  intros Ht Hu Ish Ip F1 F2 Hc. eexists. unfold remove_flow. change 3%nat with (1 + (1 + (1 + 0)))%nat.
  eapply local_bind; [refine (local_call (r := inl (mounted tid)) _ _ _ _)|].
  - exact Ish.
  - exact I.
  - exact F1.
  - cbn [op_of file_service]. rewrite Ht. reflexivity.
  - eapply local_bind; [refine (local_call (r := inl tt) _ _ _ _)|].
    + now split.
    + exact I.
    + exact F2.
    + cbn [op_of file_service sh_tid mounted]. rewrite Hc. reflexivity.
    + eapply local_bind; [refine (local_call (r := inl tt) _ _ _ _)|constructor].
      * exact Hu.
      * exact I.
      * exact I.
      * reflexivity.
Qed.
Lemma local_unshared X c st sh (k : share -> flow X) : tree (backslashes sh) [] = None -> is_str sh -> fits_request (use_unicode c) (Mount sh) ->
  local FS (fbind (fcall (Mount sh)) k) c st 1 (Bad (ServerError (Known NAME_NOT_FOUND))) (next_client c) st.
Proof.
  intros Ht Ish F1. apply local_fails. refine (local_call (r := inr ST_NOT_FOUND) _ _ _ _).
  - exact Ish.
  - exact I.
  - exact F1.
  - cbn [op_of file_service]. rewrite Ht. reflexivity.
Qed.

Variable Sv : Type.
Variable react : Sv -> bytes -> reaction Sv.
Variable E : env.
Variable known : accounts.
Variable setup : server_setup.
Variable nonce : N -> bytes.
Variable info : bytes.
Variable abs : Sv -> gated files.
Hypothesis conf : conforming react (gate files E known setup nonce info FS) abs.
Hypothesis good_challenge : len (s_challenge setup) = 8.
Hypothesis good_nonce : forall n, len (nonce n) = 8.
Hypothesis good_info : len info <= 30000.
Variable net : N -> connection Sv.

Section Uri.
Variable word digit : N -> bool.
Variable u : parts.
Variables path ws dom : text.
Variable t : N.
Variable s0 : Sv.
Variables p : N.
Hypothesis Hv : valid word digit_char u.
Hypothesis Hport : given (u_port u) (fun p => value 0 p < 65536).
Hypothesis Ha : ~ ambiguous word digit u.
Hypothesis Hpath : u_path u = Some path.
Hypothesis Hstr : is_str (written u).
Hypothesis Hws : is_str ws.
Hypothesis Hdom : is_str dom.
Hypothesis Hnul : ~ In 0 dom.
Hypothesis Hlen : len (written u) + len ws + len dom <= 8000.
Hypothesis Ht : clock E t.
Hypothesis Hp : p = match u_port u with Some q => value 0 q | None => 445 end.
Hypothesis Hnet : net p = Connected (mk_stream s0 [] Open).
Hypothesis Hreg : registered E known (mk_auth (or_else (u_user u) []) ws (or_else (u_domain u) dom) (or_else (u_password u) [])).
Hypothesis Hnx : g_next (abs s0) < 65536.
Let sh := unc (u_host u) (u_share u).
Lemma uri_sizes : is_str sh /\ is_str path /\ backslashes sh = sh /\ (forall b, fits_request b (Mount sh))
  /\ (forall b s, fits_request b (FindFirst s path)) /\ forall b s, fits_request b (Delete s path).
Proof.
  assert (Hup : u_user u = None -> u_password u = None) by apply Hv.
  destruct (written_str Hup Hstr) as (S1 & S2 & S3 & S4 & S5 & S6). pose proof (written_len u Hup) as L.
  rewrite Hpath in S6, L. cbn [or_else] in S6, L.
  assert (Hunc : len sh = 3 + len (u_host u) + len (u_share u)).
  { unfold sh, unc. rewrite !len_app. change (len [92; 92]) with 2. change (len [92]) with 1. lia. }
  pose proof (utf16_len_most sh) as Z6. pose proof (utf8_len_most sh) as Z7.
  pose proof (utf16_len_most path) as Z8. pose proof (utf8_len_most path) as Z9.
  split; [unfold sh, is_str, unc; rewrite !is_text_app; unfold is_str in S4, S5; rewrite S4, S5; reflexivity|].
  split; [exact S6|]. split; [exact (unc_same Hv)|]. split; [|split].
  - intros b. cbn [fits_request]. unfold mount_size. cbn [utf8_len]. change (N.max 1 0) with 1. change ((1 + 1) mod 2) with 0. destruct b; lia.
  - intros b s. cbn [fits_request]. destruct b; lia.
  - intros b s. cbn [fits_request]. destruct b; lia.
Qed.
Theorem uri_look tid : tree sh [] = Some tid -> u16 tid ->
  len (write_entries (listing (g_behind (abs s0)) tid (backslashes path))) < 65400 ->
  exists cfg w1 w2 k, resolve_smb_uri word digit (written u) = Ok cfg /\ cf_path cfg = Some path
  /\ (forall fuel, (k <= fuel)%nat ->
     open E Sv net react fuel (cf_port cfg) (Some (login_of cfg ws dom)) = ([p], OnStream (Done (Good tt) w1))
     /\ run react (look E fuel (unc (cf_hostname cfg) (cf_share cfg)) path) w1 = Done (Good (listing (g_behind (abs s0)) tid (backslashes path))) w2)
  /\ g_behind (abs (srv w2)) = g_behind (abs s0).
Proof.
  intros Htree Htid Hl. destruct uri_sizes as (Z1 & Z2 & Z3 & Z4 & Z5 & Z6).
  destruct (@uri_program _ _ react E known setup nonce info FS abs conf good_challenge good_nonce good_info net word digit u ws dom t s0 p
    Hv Hport Ha Hstr Hws Hdom Hnul Hlen Ht Hp Hnet Hreg Hnx) as (cfg & w1 & k1 & Hr & (C1 & C2 & C3 & C4 & C5 & C6 & C7) & Hopen & Hm & Hb & Hprog).
  destruct (@local_look (cl w1) (g_behind (abs s0)) 0 sh path tid) as (c' & HL); auto; [now rewrite Z3|].
  destruct (Hprog _ _ _ _ _ _ HL (works_look _ _ _)) as (k2 & w2 & Hrun & _ & Hbeh); [intros _; lia|].
  exists cfg, w1, w2, (Nat.max k1 k2). split; [exact Hr|]. split; [now rewrite C6|]. split; [|exact Hbeh].
  intros fuel Hf. split; [apply Hopen; lia|]. rewrite C4, C5, (look_same E fuel). eapply run_less; [apply less_look|apply Hrun; lia]. lia.
Qed.
Theorem uri_remove tid d : tree sh [] = Some tid -> u16 tid -> contents (fs_files (g_behind (abs s0))) tid (backslashes path) = Some d ->
  exists cfg w1 w2 k, resolve_smb_uri word digit (written u) = Ok cfg /\ cf_path cfg = Some path
  /\ (forall fuel, (k <= fuel)%nat ->
     open E Sv net react fuel (cf_port cfg) (Some (login_of cfg ws dom)) = ([p], OnStream (Done (Good tt) w1))
     /\ run react (remove E fuel (unc (cf_hostname cfg) (cf_share cfg)) path) w1 = Done (Good tt) w2)
  /\ forall tid' q, contents (fs_files (g_behind (abs (srv w2)))) tid' q
     = if (tid =? tid') && text_eqb (backslashes path) q then None else contents (fs_files (g_behind (abs s0))) tid' q.
Proof.
  intros Htree Htid Hc. destruct uri_sizes as (Z1 & Z2 & Z3 & Z4 & Z5 & Z6).
  destruct (@uri_program _ _ react E known setup nonce info FS abs conf good_challenge good_nonce good_info net word digit u ws dom t s0 p
    Hv Hport Ha Hstr Hws Hdom Hnul Hlen Ht Hp Hnet Hreg Hnx) as (cfg & w1 & k1 & Hr & (C1 & C2 & C3 & C4 & C5 & C6 & C7) & Hopen & Hm & Hb & Hprog).
  destruct (@local_remove (cl w1) (g_behind (abs s0)) sh path tid d) as (c' & HL); auto; [now rewrite Z3|].
  destruct (Hprog _ _ _ _ _ _ HL (works_remove _ _)) as (k2 & w2 & Hrun & _ & Hbeh); [intros _; lia|].
  exists cfg, w1, w2, (Nat.max k1 k2). split; [exact Hr|]. split; [now rewrite C6|]. split.
  - intros fuel Hf. split; [apply Hopen; lia|]. rewrite C4, C5, (remove_same E fuel). apply Hrun. lia.
  - intros tid' q. rewrite Hbeh. apply contents_without.
Qed.
(** a share that is not there *)
Theorem uri_unshared : tree sh [] = None ->
  exists cfg w1 w2 k, resolve_smb_uri word digit (written u) = Ok cfg /\ cf_path cfg = Some path
  /\ (forall fuel, (k <= fuel)%nat ->
     open E Sv net react fuel (cf_port cfg) (Some (login_of cfg ws dom)) = ([p], OnStream (Done (Good tt) w1))
     /\ run react (fetch E fuel (unc (cf_hostname cfg) (cf_share cfg)) path) w1 = Done (Bad (ServerError (Known NAME_NOT_FOUND))) w2)
  /\ g_behind (abs (srv w2)) = g_behind (abs s0).
Proof.
  intros Htree. destruct uri_sizes as (Z1 & Z2 & Z3 & Z4 & Z5 & Z6).
  destruct (@uri_program _ _ react E known setup nonce info FS abs conf good_challenge good_nonce good_info net word digit u ws dom t s0 p
    Hv Hport Ha Hstr Hws Hdom Hnul Hlen Ht Hp Hnet Hreg Hnx) as (cfg & w1 & k1 & Hr & (C1 & C2 & C3 & C4 & C5 & C6 & C7) & Hopen & Hm & Hb & Hprog).
  assert (HL : local FS (fetch_flow 0 sh path) (cl w1) (g_behind (abs s0)) 1 (Bad (ServerError (Known NAME_NOT_FOUND))) (next_client (cl w1)) (g_behind (abs s0))).
  { apply local_unshared; auto. now rewrite Z3. }
  destruct (Hprog _ _ _ _ _ _ HL (works_fetch _ _ _)) as (k2 & w2 & Hrun & _ & Hbeh); [intros _; lia|].
  exists cfg, w1, w2, (Nat.max k1 k2). split; [exact Hr|]. split; [now rewrite C6|]. split; [|exact Hbeh].
  intros fuel Hf. split; [apply Hopen; lia|]. rewrite C4, C5, (fetch_same E fuel). eapply run_less; [apply less_fetch|apply Hrun; lia]. lia.
Qed.
End Uri.
End Files.
