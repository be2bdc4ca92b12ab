(** * SizeFacts: which arguments fit a request (C12, C13) *)
From Verif Require Import Base Text Utils Win Errors Info Common Msg Reply Ntlm Prog Client Spec SpecReply SpecMsg
  Api SpecCall BaseFacts TextFacts RunFacts SpecFacts InfoFacts ClientFacts MsgFacts CallFacts.
Open Scope N_scope.
Set Implicit Arguments.
Unset Strict Implicit.

Ltac lens := rewrite ?len_app, ?len_cons, ?len_nil, ?len_zeros, ?len_repeat, ?len_le, ?len_encode_utf16le_0,
  ?len_encode_utf16le, ?utf16_len_utf16, ?utf8_len_utf8, ?utf16_len_sanitize, ?utf8_len_sanitize.

(** how a body comes out *)
Inductive sized (unicode : bool) {R} (c : call R) : res smb_error bytes -> Prop :=
| sz_fits b : fits_request unicode c -> sized unicode c (Ok b)
| sz_error : ~ fits_request unicode c -> ~ pattern_window c -> sized unicode c (Err (CreatePacket (refusal c)))
| sz_crash : pattern_window c -> sized unicode c Panic.

Lemma window_unfit R (c : call R) u : pattern_window c -> ~ fits_request u c.
Proof. destruct c; cbn; try tauto; lia. Qed.

Lemma unicode_out st R (c : call R) : contains (i_flags2 (out_info st (msg_of c))) F2_UNICODE = use_unicode st.
Proof. rewrite out_info_eq. cbn [i_flags2]. now destruct (use_unicode st). Qed.

Lemma refused_as (u : bool) R (c : call R) e : refusal c = e -> ~ fits_request u c -> ~ pattern_window c -> sized u c (Err (CreatePacket e)).
Proof. intros <-. apply sz_error. Qed.
Lemma pick (n : N) (u : bool) R (c : call R) (x : bytes) : (n < 65536 <-> fits_request u c) -> ~ pattern_window c ->
  (65536 <= n -> refusal c = DataTooBig) -> sized u c (if 65536 <=? n then Err (CreatePacket DataTooBig) else Ok x).
Proof.
  intros H1 H2 H3. destruct (N.leb_spec 65536 n); [apply refused_as|constructor]; auto; rewrite <- H1; lia.
Qed.

Lemma tree_sized st R (c : call R) path pw : (~ pattern_window c) ->
  (refusal c = if utf8_len pw <? 65536 then DataTooBig else PasswordTooLong) ->
  (mount_size (use_unicode st) path pw < 65536 <-> fits_request (use_unicode st) c) ->
  msg_of c = msg_tree_connect (sanitize_path path) pw ->
  sized (use_unicode st) c (smb_out st (msg_of c)).
Proof.
  intros Hw Hre Hf Hm. rewrite smb_out_call. pose proof (unicode_out st c) as Hu. rewrite Hm in *.
  cbn [m_body msg_tree_connect]. unfold tree_connect_body. cbn [m_body msg_tree_connect] in Hu. rewrite Hu. clear Hu.
  set (pwd := if 0 <? len (utf8 pw) then utf8 pw else [x00]).
  assert (Hp : len pwd = N.max 1 (utf8_len pw)).
  { unfold pwd. destruct (N.ltb_spec 0 (len (utf8 pw))) as [H|H]; rewrite utf8_len_utf8 in *; [lia|]. cbn. lia. }
  assert (Hre' : refusal c = if len pwd <? 65536 then DataTooBig else PasswordTooLong).
  { rewrite Hre, Hp. destruct (N.ltb_spec (utf8_len pw) 65536), (N.ltb_spec (N.max 1 (utf8_len pw)) 65536); auto; lia. }
  unfold mount_size in Hf. rewrite <- Hp in Hf. clearbody pwd.
  unfold try_into, fits. change (2 ^ 16) with 65536. destruct (N.ltb_spec (len pwd) 65536) as [H16|H16]; cbn [rbind].
  - apply pick; auto. rewrite <- Hf. clear Hf.
    destruct (use_unicode st); lens; cbn [length N.of_nat Pos.of_succ_nat Pos.succ].
    + destruct (N.eqb_spec (len pwd mod 2) 0); lens; change (N.of_nat 2) with 2; lia.
    + lia.
  - apply refused_as; auto. rewrite <- Hf. destruct (use_unicode st); lia.
Qed.

Lemma open_sized st R (c : call R) tid o path : (~ pattern_window c) ->
  (refusal c = if 2 * utf16_len path + 2 <? 65536 then DataTooBig else FilenameTooLong) ->
  (1 + (2 * utf16_len path + 2) < 65536 <-> fits_request (use_unicode st) c) -> o_filename o = sanitize_path path ->
  msg_of c = msg_open tid o ->
  sized (use_unicode st) c (smb_out st (msg_of c)).
Proof.
  intros Hw Hre Hf Ho Hm. rewrite smb_out_call. rewrite Hm in *.
  cbn [m_body msg_open]. unfold open_body, try_into, fits. rewrite Ho. lens. change (2 ^ 16) with 65536.
  destruct (N.ltb_spec (2 * utf16_len path + 2) 65536) as [H|H]; cbn [rbind].
  - apply pick; auto. lens. rewrite <- Hf. lia.
  - apply refused_as; auto. rewrite <- Hf. lia.
Qed.

Lemma find_sized st R (c : call R) tid t path : refusal c = Trans2ParameterTooLarge -> (pattern_window c <-> 32726 <= utf16_len path <= 32760) ->
  (80 + (2 * utf16_len path + 2) <= 65532 <-> fits_request (use_unicode st) c) ->
  len (t2_parameter t) = 12 + (2 * utf16_len path + 2) -> t2_data t = [] ->
  msg_of c = msg_transact2 tid t ->
  sized (use_unicode st) c (smb_out st (msg_of c)).
Proof.
  intros Hre Hw Hf Hp Hd Hm. rewrite smb_out_call. rewrite Hm in *.
  cbn [m_body msg_transact2]. unfold transact2_body, try_into, fits. rewrite Hd, Hp. change (2 ^ 16) with 65536.
  destruct (N.ltb_spec (12 + (2 * utf16_len path + 2)) 65536) as [H|H]; cbn [rbind].
  2:{ apply refused_as; [exact Hre|rewrite <- Hf; lia|rewrite Hw; lia]. }
  rewrite (N.ltb_compare (len []) 65536). cbn [len length N.of_nat N.compare rbind].
  rewrite try_into_expect_small by reflexivity. cbn [rbind].
  change (round_up_4n (SMB_HEADER_LEN + 1 + 30 + 2 + 1)) with 68. unfold round_up_4n, fill_up_4n.
  destruct (N.ltb_spec (4 * ((68 + (12 + (2 * utf16_len path + 2)) + 3) / 4)) 65536) as [H2|H2].
  - rewrite try_into_expect_small by (change (2 ^ 16) with 65536; lia). cbn [rbind].
    change ((SMB_HEADER_LEN + 1 + 30 + 2)) with 65.
    apply pick; [|rewrite Hw; lia|]; lens; rewrite Hp; [rewrite <- Hf|]; lia.
  - rewrite try_into_expect_big by (change (2 ^ 16) with 65536; lia). cbn [rbind]. constructor. rewrite Hw. lia.
Qed.

Lemma body_sized st R (c : call R) : sized (use_unicode st) c (smb_out st (msg_of c)).
Proof.
  destruct c; try (rewrite smb_out_call; cbn; constructor; exact I).
  - eapply tree_sized; [cbn; tauto|cbn; reflexivity|cbn; reflexivity|reflexivity].
  - apply tree_sized with (path := path) (pw := []); [cbn; tauto|cbn; reflexivity|cbn; reflexivity|reflexivity].
  - eapply open_sized; [cbn; tauto|cbn; reflexivity|cbn; reflexivity| |reflexivity]; reflexivity.
  - eapply open_sized; [cbn; tauto|cbn; reflexivity|cbn; reflexivity| |reflexivity]; reflexivity.
  - rewrite smb_out_call. cbn [m_body msg_of msg_delete]. apply pick; auto. lens. cbn. lia.
  - rewrite smb_out_call. cbn [m_body msg_of msg_rmdir]. apply pick; auto. lens. cbn. lia.
  - eapply find_sized; [reflexivity|cbn; reflexivity|cbn; reflexivity| | |reflexivity]; [|reflexivity].
    cbn [t2_parameter find_first2]. lens. lia.
  - eapply find_sized; [reflexivity|cbn; reflexivity|cbn; reflexivity| | |reflexivity]; [|reflexivity].
    cbn [t2_parameter find_next2]. lens. lia.
  - pose proof (unicode_out st (SetupAuth user domain secret)) as Hu.
    rewrite smb_out_call. cbn [m_body msg_of msg_session_setup] in *. unfold session_setup_body, session_setup_with. rewrite Hu. clear Hu.
    unfold try_into, fits. change (2 ^ 16) with 65536.
    destruct (N.ltb_spec (len secret) 65536) as [H|H]; cbn [rbind].
    + apply pick; auto; [|intros _; cbn [refusal]; apply N.ltb_lt in H; now rewrite H]. cbn [fits_request].
      destruct (N.eqb_spec (len (secret ++ secret) mod 2) 0) as [E0|E0]; revert E0; lens;
      destruct (use_unicode st); lens; change (N.of_nat 2) with 2; change (len (@nil byte)) with 0; lia.
    + apply refused_as; auto; [cbn [refusal]; apply N.ltb_ge in H; now rewrite H|]. cbn. lia.
  - pose proof (unicode_out st (SetupBlob blob)) as Hu.
    rewrite smb_out_call. cbn [m_body msg_of msg_session_setup] in *. unfold session_setup_body, session_setup_with. rewrite Hu. clear Hu.
    unfold try_into, fits. change (2 ^ 16) with 65536.
    destruct (N.ltb_spec (len blob) 65536) as [H|H]; cbn [rbind].
    + apply pick; auto; [|intros _; cbn [refusal]; apply N.ltb_lt in H; now rewrite H]. cbn [fits_request].
      destruct (N.eqb_spec (len blob mod 2) 0) as [E0|E0]; lens;
      destruct (use_unicode st); lens; change (N.of_nat 2) with 2; change (len (@nil byte)) with 0; lia.
    + apply refused_as; auto; [cbn [refusal]; apply N.ltb_ge in H; now rewrite H|]. cbn. lia.
Qed.

(** overflow of the multiplex id *)
Definition mid_full (E : env) (c : cifs) : Prop := overflow_checks E = true /\ 65535 <= mid c.
Lemma mid_panics_iff E c : mid_panics E c = true <-> mid_full E c.
Proof.
  unfold mid_panics, mid_full. change (2 ^ 16) with 65536. rewrite andb_true_iff, N.leb_le. split; intros [? ?]; split; auto; lia.
Qed.
Lemma mid_panics_not E c : mid_panics E c = false <-> ~ mid_full E c.
Proof. rewrite <- mid_panics_iff. destruct (mid_panics E c); split; congruence. Qed.

Section Server.
Variable Sv : Type.
Variable react : Sv -> bytes -> reaction Sv.
Notation world := (world cifs Sv).
Notation run := (run react).
Variable E : env.

(** a request exists exactly if its arguments fit and there is a next id *)
Lemma request_iff fuel R (c : call R) st :
  (exists f, request (exec E fuel c) st = Some f) <-> fits_request (use_unicode st) c /\ ~ mid_full E st.
Proof.
  clear react. rewrite request_exec, out_frame_call, <- mid_panics_not.
  destruct (mid_panics E st) eqn:Em.
  - split; [intros [f [=]]|intros [_ [=]]].
  - destruct (body_sized st c) as [b H|H1 H2|H].
    + split; eauto.
    + split; [intros [f [=]]|tauto].
    + split; [intros [f [=]]|]. intros [H' _]. now apply (window_unfit (u := use_unicode st)) in H.
Qed.

(** arguments that do not fit: an error, nothing sent, nothing read *)
Lemma call_refused fuel R (c : call R) (w : world) : ~ fits_request (use_unicode (cl w)) c -> ~ pattern_window c ->
  ~ mid_full E (cl w) ->
  run (exec E fuel c) w = Done (Bad (ESmb (CreatePacket (refusal c))))
    (mk_world (next_client (cl w)) (srv w) (rx w) (tl w) (tx w)).
Proof.
  intros H1 H2 H3. apply mid_panics_not in H3. rewrite exec_send, run_mbind, run_send. unfold sent. rewrite H3.
  destruct (body_sized (cl w) c) as [b H|_ _|H]; [contradiction| |contradiction].
  reflexivity.
Qed.
Lemma call_window fuel R (c : call R) (w : world) : pattern_window c -> ~ mid_full E (cl w) ->
  run (exec E fuel c) w = Crashed (mk_world (next_client (cl w)) (srv w) (rx w) (tl w) (tx w)).
Proof.
  intros H2 H3. apply mid_panics_not in H3. rewrite exec_send, run_mbind, run_send. unfold sent. rewrite H3.
  destruct (body_sized (cl w) c) as [b H|H H'|H]; [now apply window_unfit in H|contradiction|reflexivity].
Qed.
Lemma call_mid_full fuel R (c : call R) (w : world) : mid_full E (cl w) -> run (exec E fuel c) w = Crashed w.
Proof. intros H. apply mid_panics_iff in H. rewrite exec_send, run_mbind, run_send. unfold sent. now rewrite H. Qed.
End Server.
