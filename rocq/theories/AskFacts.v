(** * AskFacts: the properties of single requests *)
From Verif Require Import Base Text Utils Win Errors Info Common Msg Reply Ntlm Prog Client Spec SpecReply SpecMsg
  Api SpecCall Flow Sample BaseFacts TextFacts RunFacts SpecFacts InfoFacts ClientFacts MsgFacts ReplyFacts CallFacts SizeFacts ReqFacts FlowFacts WrapFacts.
Open Scope N_scope.
Set Implicit Arguments.
Unset Strict Implicit.

Section Requests.
Variable E : env.
Variable fuel : nat.
Variable st : cifs.
Hypothesis Hst : typed_client st.
Lemma request_identity R (c : call R) f : typed c -> request (exec E fuel c) st = Some f ->
  exists p flags2, f = session_message p
    /\ request_header p (opcode c) flags2 (op_tid c) (uid st) (mid st) /\ N.testbit flags2 15 = use_unicode st.
Proof.
  intros Hc Hr. apply (request_asks Hst Hc) in Hr. destruct Hr as (p & w & d & Hf & _ & _ & Hh & _).
  exists p. eexists. split; [exact Hf|]. split; [exact Hh|]. destruct (use_unicode st); reflexivity.
Qed.
Lemma request_consistent R (c : call R) f : request (exec E fuel c) st = Some f ->
  exists p words data, f = session_message p /\ smb_parts p words data [] /\ len p <= 65618.
Proof.
  clear Hst. intros Hr. apply request_inv in Hr. destruct Hr as (p & pw & d & Hf & Hl & _ & _ & Hp & _).
  exists p. eauto 6.
Qed.
Lemma request_read h offset f : u16 (h_tid h) -> u16 (h_fid h) -> offset < 2 ^ 64 ->
  request (exec E fuel (ReadAt h offset)) st = Some f ->
  exists p words low high, f = session_message p /\ smb_parts p words [] [] /\ len words = 24 /\ last_command words
    /\ u8_at p 4 = Some 0x2e /\ u16_at p 24 = Some (h_tid h) /\ u16_at words 4 = Some (h_fid h)
    /\ u32_at words 6 = Some low /\ u32_at words 20 = Some high /\ offset = low + 4294967296 * high
    /\ u16_at words 10 = Some 65534 /\ u16_at words 12 = Some 32768.
Proof.
  intros H1 H2 H3 Hr. apply (request_asks Hst (c := ReadAt h offset) (conj H1 (conj H2 H3))) in Hr.
  destruct Hr as (p & w & d & Hf & _ & Hp & Hh & Ha). cbn [asks] in Ha.
  destruct Ha as (A1 & A2 & A3 & (low & high & A4 & A5 & A6) & A7 & A8 & _ & _ & ->).
  exists p, w, low, high. pose proof (rh_code _ _ _ _ _ _ Hh). pose proof (rh_tid _ _ _ _ _ _ Hh). auto 15.
Qed.
Lemma request_close h f : u16 (h_tid h) -> u16 (h_fid h) ->
  request (exec E fuel (Close h)) st = Some f ->
  exists p words, f = session_message p /\ smb_parts p words [] [] /\ len words = 6
    /\ u8_at p 4 = Some 0x04 /\ u16_at p 24 = Some (h_tid h) /\ u16_at words 0 = Some (h_fid h)
    /\ u32_at words 2 = Some 0.
Proof.
  intros H1 H2 Hr. apply (request_asks Hst (c := Close h) (conj H1 H2)) in Hr.
  destruct Hr as (p & w & d & Hf & _ & Hp & Hh & Ha). cbn [asks] in Ha. destruct Ha as (A1 & A2 & A3 & ->).
  exists p, w. pose proof (rh_code _ _ _ _ _ _ Hh). pose proof (rh_tid _ _ _ _ _ _ Hh). auto 15.
Qed.
Lemma request_umount s f : u16 (sh_tid s) -> request (exec E fuel (Umount s)) st = Some f ->
  exists p, f = session_message p /\ smb_parts p [] [] [] /\ u8_at p 4 = Some 0x71 /\ u16_at p 24 = Some (sh_tid s).
Proof.
  intros H1 Hr. apply (request_asks Hst (c := Umount s) H1) in Hr.
  destruct Hr as (p & w & d & Hf & _ & Hp & Hh & Ha). cbn [asks] in Ha. destruct Ha as (-> & ->).
  exists p. pose proof (rh_code _ _ _ _ _ _ Hh). pose proof (rh_tid _ _ _ _ _ _ Hh). auto 15.
Qed.

(** C16 *)
Lemma asks_read_only access sharing options p w path dir : asks_open access sharing options p w path ->
  (forall b, In b changing_bits -> N.testbit access b = false) -> N.testbit options 12 = false ->
  N.testbit options 0 = dir -> N.testbit options 6 = negb dir -> opens_read_only w dir.
Proof.
  intros (_ & _ & _ & _ & _ & _ & H1 & _ & _ & _ & H2 & H3 & _) Ha H4 H5 H6. exists access, options. auto 10.
Qed.
Lemma request_openfile s path f : u16 (sh_tid s) -> is_str path -> request (exec E fuel (OpenFile s path)) st = Some f ->
  exists p words data, f = session_message p /\ smb_parts p words data [] /\ u8_at p 4 = Some 0xa2 /\ u16_at p 24 = Some (sh_tid s)
    /\ opens_read_only words false.
Proof.
  intros H1 H2 Hr. apply (request_asks Hst (c := OpenFile s path) (conj H1 H2)) in Hr.
  destruct Hr as (p & w & d & Hf & _ & Hp & Hh & Ha). cbn [asks] in Ha.
  exists p, w, d. pose proof (rh_code _ _ _ _ _ _ Hh). pose proof (rh_tid _ _ _ _ _ _ Hh).
  split; [exact Hf|]. split; [exact Hp|]. split; [assumption|]. split; [assumption|].
  eapply asks_read_only; [exact Ha| |reflexivity|reflexivity|reflexivity].
  intros b Hb. cbn in Hb. repeat (destruct Hb as [<-|Hb]; [reflexivity|]). destruct Hb.
Qed.
Lemma request_opendir s path f : u16 (sh_tid s) -> is_str path -> request (exec E fuel (OpenDir s path)) st = Some f ->
  exists p words data, f = session_message p /\ smb_parts p words data [] /\ u8_at p 4 = Some 0xa2 /\ u16_at p 24 = Some (sh_tid s)
    /\ opens_read_only words true.
Proof.
  intros H1 H2 Hr. apply (request_asks Hst (c := OpenDir s path) (conj H1 H2)) in Hr.
  destruct Hr as (p & w & d & Hf & _ & Hp & Hh & Ha). cbn [asks] in Ha.
  exists p, w, d. pose proof (rh_code _ _ _ _ _ _ Hh). pose proof (rh_tid _ _ _ _ _ _ Hh).
  split; [exact Hf|]. split; [exact Hp|]. split; [assumption|]. split; [assumption|].
  eapply asks_read_only; [exact Ha| |reflexivity|reflexivity|reflexivity].
  intros b Hb. cbn in Hb. repeat (destruct Hb as [<-|Hb]; [reflexivity|]). destruct Hb.
Qed.

(** C17 *)
(** the calls that send a path, and the path *)
Definition path_of {R} (c : call R) : option text :=
  match c with
  | OpenFile _ path | OpenDir _ path | Delete _ path | Rmdir _ path | FindFirst _ path | Mount path | MountPassword path _ => Some path
  | _ => None
  end.
(** where the message says its path ends: by a length field (open: directly, search: by
    the size of the parameter block), or by the end of the message (tree connect: 6 bytes
    of service name follow) *)
Definition path_end_at {R} (c : call R) (p words : bytes) (o n : N) : Prop :=
  match c with
  | OpenFile _ _ | OpenDir _ _ => u16_at words 5 = Some n /\ o + n = len p
  | Delete _ _ | Rmdir _ _ => o + n = len p
  | FindFirst _ _ => exists po, u16_at words 20 = Some po /\ u16_at words 18 = Some (o + n - po) /\ po + 12 = o
  | Mount _ | MountPassword _ _ => bytes_at p (o + n) 6 = Some QUESTION_MARKS /\ o + n + 6 = len p
  | _ => False
  end.
Lemma request_path R (c : call R) path f : typed c -> path_of c = Some path -> request (exec E fuel c) st = Some f ->
  (opcode c = 0x75 -> use_unicode st = true) ->
  exists p words data o n, f = session_message p /\ smb_parts p words data [] /\ path_at p o n path /\ path_end_at c p words o n.
Proof.
  intros Hc Hpath Hr Hu. apply (request_asks Hst Hc) in Hr. destruct Hr as (p & w & d & Hf & _ & Hp & _ & Ha).
  exists p, w, d. destruct c; cbn [path_of] in Hpath; try discriminate Hpath; apply some_inj in Hpath; subst path;
    cbn [asks opcode] in Ha, Hu; try rewrite (Hu eq_refl) in Ha.
  - destruct Ha as (_ & _ & _ & pw & _ & _ & _ & o & n & H1 & H2 & H3). cbn [path_end_at]. exists o, n. tauto.
  - destruct Ha as (_ & _ & _ & pw & _ & _ & _ & o & n & H1 & H2 & H3). cbn [path_end_at]. exists o, n. tauto.
  - destruct Ha as (_ & _ & _ & (n & H1 & H2 & H3) & _). exists 84, n. cbn [path_end_at]. auto.
  - destruct Ha as (_ & _ & _ & (n & H1 & H2 & H3) & _). exists 84, n. cbn [path_end_at]. auto.
  - destruct Ha as (_ & _ & _ & n & H2 & H3). exists 38, n. cbn [path_end_at]. auto.
  - destruct Ha as (_ & _ & n & H2 & H3). exists 36, n. cbn [path_end_at]. auto.
  - destruct Ha as (b & o & n & H1 & _ & _ & _ & _ & _ & H2 & H3 & H4). exists (o + 12), n. cbn [path_end_at].
    split; [exact Hf|]. split; [exact Hp|]. split; [exact H4|]. exists o. split; [exact H2|]. split; [|reflexivity].
    destruct H1 as (_ & _ & _ & _ & _ & _ & _ & _ & H1 & _). rewrite H1, H3. f_equal. clear. lia.
Qed.

(** C20 *)
Lemma request_mount_encoding R (c : call R) path f : typed c -> path_of c = Some path -> opcode c = 0x75 ->
  request (exec E fuel c) st = Some f ->
  exists p words data flags2 o n, f = session_message p /\ smb_parts p words data [] /\ u16_at p 10 = Some flags2
   /\ if N.testbit flags2 15 then path_at p o n path
      else exists q b, windows_path path q /\ utf8_of q b /\ bytes_at p o n = Some (b ++ [x00]).
Proof.
  intros Hc Hpath Ho Hr. apply (request_asks Hst Hc) in Hr. destruct Hr as (p & w & d & Hf & _ & Hp & Hh & Ha).
  exists p, w, d. apply rh_flags2 in Hh.
  assert (Hb : N.testbit (if use_unicode st then 0xc843 else 0x4843) 15 = use_unicode st) by (destruct (use_unicode st); reflexivity).
  destruct c; try discriminate Ho; cbn [path_of] in Hpath; apply some_inj in Hpath; subst path; cbn [asks] in Ha;
  destruct Ha as (_ & _ & _ & pw & _ & _ & _ & o & n & _ & _ & H); eexists; exists o, n;
  (split; [exact Hf|]; split; [exact Hp|]; split; [exact Hh|]); rewrite Hb; destruct (use_unicode st); tauto.
Qed.

(** C21 *)
Lemma request_find R (c : call R) f : typed c -> opcode c = 0x32 -> request (exec E fuel c) st = Some f ->
  exists p words data sub parameter, f = session_message p /\ smb_parts p words data [] /\ asks_trans2 sub p words parameter.
Proof.
  intros Hc Ho Hr. apply (request_asks Hst Hc) in Hr. destruct Hr as (p & w & d & Hf & _ & Hp & _ & Ha).
  destruct c; try discriminate Ho; cbn [asks] in Ha; destruct Ha as (b & o & n & H & _).
  - exists p, w, d, 1, b. auto.
  - exists p, w, d, 2, b. auto.
Qed.
(** C45 *)
Lemma request_notify_about h mode f : u16 (h_tid h) -> u16 (h_fid h) -> mode < 2 ^ 32 ->
  request (exec E fuel (NotifyAbout h mode)) st = Some f ->
  exists p words data, f = session_message p /\ smb_parts p words data [] /\ u8_at p 4 = Some 0xa0
    /\ u16_at p 24 = Some (h_tid h) /\ asks_notify p words (h_fid h) mode.
Proof.
  intros H1 H2 H3 Hr. apply (request_asks Hst (c := NotifyAbout h mode) (conj H1 (conj H2 H3))) in Hr.
  destruct Hr as (p & w & d & Hf & _ & Hp & Hh & Ha). cbn [asks] in Ha.
  exists p, w, d. pose proof (rh_code _ _ _ _ _ _ Hh). pose proof (rh_tid _ _ _ _ _ _ Hh). auto 10.
Qed.
Lemma request_notify h f : u16 (h_tid h) -> u16 (h_fid h) ->
  request (exec E fuel (Notify h)) st = Some f ->
  exists p words data, f = session_message p /\ smb_parts p words data [] /\ u8_at p 4 = Some 0xa0
    /\ u16_at p 24 = Some (h_tid h) /\ asks_notify p words (h_fid h) 0xfff.
Proof.
  intros H1 H2 Hr. apply (request_asks Hst (c := Notify h) (conj H1 H2)) in Hr.
  destruct Hr as (p & w & d & Hf & _ & Hp & Hh & Ha). cbn [asks] in Ha.
  exists p, w, d. pose proof (rh_code _ _ _ _ _ _ Hh). pose proof (rh_tid _ _ _ _ _ _ Hh). auto 10.
Qed.
End Requests.

(** ** C12: the window *)
Lemma window_pattern : exists s, is_str s /\ utf16_len s = 32726.
Proof.
  destruct (some_nat 32726) as [n Hn]. exists (repeat 97 n). rewrite utf16_len_repeat, Hn. split; [|reflexivity].
  clear Hn. unfold is_str. apply is_text_str. induction n; constructor; auto. left. reflexivity.
Qed.
Lemma window_crash : exists pattern w', is_str pattern
  /\ run script (exec (env0 true) 100 (FindFirst share0 pattern)) (world0 []) = Crashed w'.
Proof.
  destruct window_pattern as (s & H1 & H2). exists s. eexists. split; [exact H1|].
  apply call_window; [cbn [pattern_window]; rewrite H2; lia|]. intros [_ H]. cbn in H. lia.
Qed.

(** ** C13 *)
Definition path600 : text := repeat 97 600.
Lemma small_buffer : exists st p, max_smb_size st = 1024 /\ typed_client st /\ typed (OpenFile share0 path600)
  /\ request (exec (env0 true) 0 (OpenFile share0 path600)) st = Some (session_message p) /\ 1024 < len p.
Proof.
  exists (mk_cifs default_auth 1024 true 7 3).
  destruct (request (exec (env0 true) 0 (OpenFile share0 path600)) (mk_cifs default_auth 1024 true 7 3)) as [f|] eqn:Hf.
  2:{ exfalso. revert Hf. vm_compute. discriminate. }
  assert (Ht : typed (OpenFile share0 path600)) by (split; vm_compute; reflexivity).
  assert (Hs : typed_client (mk_cifs default_auth 1024 true 7 3)) by (split; vm_compute; reflexivity).
  pose proof (request_asks Hs Ht Hf) as (p & w & d & -> & _ & Hp & _ & Ha). exists p.
  split; [reflexivity|]. split; [exact Hs|]. split; [exact Ht|]. split; [reflexivity|].
  destruct Ha as (_ & _ & _ & (n & _ & (q & Hq & _ & b & Hb & He) & Hn) & _).
  apply bytes_at_bound in He. destruct He as [_ He]. apply utf16le_of_encode in Hb. destruct Hb as [-> _].
  apply windows_path_fun in Hq. subst q. rewrite len_app, len_encode_utf16le, utf16_len_utf16, utf16_len_sanitize in He.
  change (utf16_len path600) with 600 in He. change (len [x00; x00]) with 2 in He. lia.
Qed.

(** ** C20 *)
Lemma no_unicode : exists p, let st := mk_cifs default_auth 4356 false 7 3 in
  request (exec (env0 true) 0 (OpenFile share0 [97; 98])) st = Some (session_message p)
  /\ u16_at p 10 = Some 0x4843 (* the unicode flag, bit 15, is not set *)
  /\ bytes_at p 84 6 = Some [x61; x00; x62; x00; x00; x00].
Proof.
  cbv zeta.
  destruct (request (exec (env0 true) 0 (OpenFile share0 [97; 98])) (mk_cifs default_auth 4356 false 7 3)) as [f|] eqn:Hf;
    [|exfalso; revert Hf; vm_compute; discriminate].
  exists (drop 4 f). split; [|split].
  - vm_compute in Hf. apply some_inj in Hf. subst f. vm_compute. reflexivity.
  - vm_compute in Hf. apply some_inj in Hf. subst f. vm_compute. reflexivity.
  - vm_compute in Hf. apply some_inj in Hf. subst f. vm_compute. reflexivity.
Qed.

(** ** C10: headers *)
Lemma header_read p code st mid : smb_reply p code st mid ->
  exists i, info_parse p = Ok (i, drop 32 p) /\ cmd_code (i_cmd i) = code /\ status_code (i_status i) = st /\ i_mid i = mid
   /\ u16_at p 24 = Some (i_tid i) /\ u16_at p 28 = Some (i_uid i)
   /\ u8_at p 9 = Some (i_flags1 i)
   /\ (exists f2, u16_at p 10 = Some f2 /\ flags_of FLAGS2_BITS f2 (i_flags2 i))
   /\ (exists hi lo, u16_at p 12 = Some hi /\ u16_at p 26 = Some lo /\ i_pid i = hi * 65536 + lo).
Proof.
  intros H. apply info_parse_reply in H. destruct H as (i & H1 & H2 & H3 & H4). exists i. split; [exact H1|].
  apply info_parse_ok_fields in H1. destruct H1 as (_ & _ & _ & H5 & H6 & (f1 & H7 & H8) & (f2 & H9 & H10) & H11).
  split; [now apply cmd_of_code_inv|]. split; [rewrite H3; apply status_code_of|]. split; [exact H4|].
  split; [exact H5|]. split; [exact H6|]. split.
  - rewrite H7, H8. f_equal. pose proof (u8_at_bound _ _ _ H7) as [_ Hb]. change Flags1_all with (N.ones 8).
    rewrite N.land_ones. symmetry. apply N.mod_small. exact Hb.
  - split; [|exact H11]. exists f2. split; [exact H9|]. apply flags_of_iff. exact H10.
Qed.

Lemma header_written i r : info_range i ->
  take 4 (info_write i ++ r) = magic /\ u8_at (info_write i ++ r) 4 = Some (cmd_code (i_cmd i))
  /\ u32_at (info_write i ++ r) 5 = Some (status_code (i_status i))
  /\ u8_at (info_write i ++ r) 9 = Some (i_flags1 i) /\ u16_at (info_write i ++ r) 10 = Some (i_flags2 i)
  /\ u16_at (info_write i ++ r) 12 = Some (i_pid i / 65536) /\ bytes_at (info_write i ++ r) 14 8 = Some (zeros 8)
  /\ u16_at (info_write i ++ r) 24 = Some (i_tid i) /\ u16_at (info_write i ++ r) 26 = Some (i_pid i mod 65536)
  /\ u16_at (info_write i ++ r) 28 = Some (i_uid i) /\ u16_at (info_write i ++ r) 30 = Some (i_mid i)
  /\ drop 32 (info_write i ++ r) = r.
Proof.
  intros H. destruct (info_write_header r H) as [-> Ho].
  split; [apply (header_magic r Ho)|]. split; [apply (header_cmd r Ho)|]. split; [apply (header_status r Ho)|].
  split; [apply (header_flags1 r Ho)|]. split; [apply (header_flags2 r Ho)|]. split; [apply (header_pid_high r Ho)|].
  split; [apply (header_sig r Ho)|]. split; [apply (header_tid r Ho)|]. split; [apply (header_pid_low r Ho)|].
  split; [apply (header_uid r Ho)|]. split; [apply (header_mid r Ho)|]. apply (header_drop r Ho).
Qed.
Lemma header_round i r : info_range i -> status_of_code (status_code (i_status i)) = i_status i ->
  flags_of FLAGS1_BITS (i_flags1 i) (i_flags1 i) -> flags_of FLAGS2_BITS (i_flags2 i) (i_flags2 i) ->
  info_parse (info_write i ++ r) = if N.testbit (i_flags1 i) 7 then Ok (i, r) else Err ReplyExpected.
Proof.
  intros H Hs H1 H2. destruct (info_write_header r H) as [-> Ho]. rewrite (info_parse_header r Ho).
  destruct (list_eq_dec Byte.byte_eq_dec magic magic) as [_|n]; [|now destruct n]. rewrite cmd_of_code_code.
  destruct (N.testbit (i_flags1 i) 7); [|reflexivity]. do 2 f_equal. unfold header_info. rewrite Hs.
  change Flags1_all with FLAGS1_BITS. change Flags2_all with FLAGS2_BITS. apply flags_of_iff in H1, H2. rewrite <- H1, <- H2.
  destruct i as [a b c d e f g h]. cbn [i_cmd i_flags1 i_flags2 i_pid i_tid i_uid i_mid i_status]. f_equal.
  rewrite N.shiftl_mul_pow2. change 65536 with (2 ^ 16).
  assert (Hand : N.land (e / 2 ^ 16 * 2 ^ 16) (e mod 2 ^ 16) = 0).
  { apply N.bits_inj; intros k. rewrite N.land_spec, N.bits_0.
    destruct (N.ltb_spec k 16) as [Hk|Hk]; [now rewrite N.mul_pow2_bits_low|].
    rewrite N.mod_pow2_bits_high by lia. apply andb_false_r. }
  rewrite <- N.lxor_lor, <- N.add_nocarry_lxor by exact Hand. change (2 ^ 16) with 65536. lia.
Qed.

(** ** C08: histories *)
Lemma history E fuel A (p : flow A) Sv (react : Sv -> bytes -> reaction Sv) w : mid (cl w) < 65536 ->
  exists k l is, tx (final (run react (interp E fuel p) w)) = tx w ++ l
  /\ written E (cl w) k l (cl (final (run react (interp E fuel p) w))) /\ ids_of l is
  /\ (overflow_checks E = true \/ k <= 65536 -> NoDup is)
  /\ (k = len l -> consecutive (mid (cl w)) is).
Proof.
  intros Hm. destruct (flow_written react E p fuel w) as (k & l & Hx & Hw).
  pose proof (written_some_ids Hw Hm) as (is & H1 & H2 & _ & H3). pose proof (written_ids Hw Hm) as (_ & H4 & _).
  exists k, l, is. split; [exact Hx|]. split; [exact Hw|]. split; [exact H1|]. split; [|exact H3].
  intros [H|H]; [|now apply H2]. apply H2. specialize (H4 H). lia.
Qed.
(** a frame of the history belongs to a call made in a state of the history: same
    identity *)
Lemma written_identity E st k l st' : written E st k l st' -> forall f, In f l ->
  exists stf R (c : call R) g, is_request E stf c g /\ (f = g \/ exists n, f = take n g).
Proof.
  intros H. induction H; intros x Hx; cbn [In] in Hx; try contradiction; eauto.
  - destruct Hx as [<-|Hx]; [|eauto]. do 4 eexists. split; [eassumption|now left].
  - destruct Hx as [<-|Hx]; [|eauto]. do 4 eexists. split; [eassumption|right; eauto].
Qed.
