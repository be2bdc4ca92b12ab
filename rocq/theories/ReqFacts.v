(** * ReqFacts: the contents of every request (C09, C11, C14-C17, C20, C21, C45) *)
From Verif Require Import Base Text Utils Win Errors Info Common Msg Reply Ntlm Prog Client Spec SpecReply SpecMsg
  Api SpecCall BaseFacts TextFacts RunFacts SpecFacts InfoFacts ClientFacts MsgFacts CallFacts SizeFacts.
Open Scope N_scope.
Set Implicit Arguments.
Unset Strict Implicit.

(** positions in the bytes of a message *)
Lemma parts_len p w d : smb_parts p w d [] -> len p = 35 + len w + len d.
Proof. intros (h & n & Hh & Hw & Hn & Hd & ->). rewrite app_nil_r. lens. rewrite Hh. lia. Qed.
Lemma parts_bytes p w d o n : smb_parts p w d [] -> 35 + len w <= o ->
  bytes_at p o n = bytes_at d (o - (35 + len w)) n.
Proof.
  intros (h & k & Hh & Hw & Hn & Hd & ->) Ho. rewrite app_nil_r.
  rewrite !bytes_at_app2 by (lens; cbn [len length N.of_nat Pos.of_succ_nat Pos.succ]; lia).
  f_equal. cbn [len length N.of_nat Pos.of_succ_nat Pos.succ]. fold (len h). fold (len w). lia.
Qed.
Lemma parts_u8 p w d o : smb_parts p w d [] -> 35 + len w <= o -> u8_at p o = u8_at d (o - (35 + len w)).
Proof.
  intros (h & k & Hh & Hw & Hn & Hd & ->) Ho. rewrite app_nil_r.
  rewrite !u8_at_app2 by (lens; cbn [len length N.of_nat Pos.of_succ_nat Pos.succ]; lia).
  f_equal. cbn [len length N.of_nat Pos.of_succ_nat Pos.succ]. fold (len h). fold (len w). lia.
Qed.
Lemma bytes_mid (a b c : bytes) o n : o = len a -> n = len b -> bytes_at (a ++ b ++ c) o n = Some b.
Proof. intros -> ->. rewrite bytes_at_app2 by lia. apply bytes_at_exact; lia. Qed.

Lemma wide_mid (p w a c : bytes) (s : text) o n : smb_parts p w (a ++ encode_utf16le_0 s ++ c) [] -> str s ->
  o mod 2 = 0 -> o = 35 + len w + len a -> n = len (encode_utf16le_0 s) -> wide_at p o n s.
Proof.
  intros Hp Hs He Ho Hn. split; [exact He|]. exists (encode_utf16le s). split; [now apply utf16le_encode|].
  rewrite (parts_bytes _ Hp) by lia. change (encode_utf16le s ++ [x00; x00]) with (encode_utf16le_0 s).
  apply bytes_mid; [lia|exact Hn].
Qed.
Lemma path_mid (p w a c : bytes) (s : text) o n : smb_parts p w (a ++ encode_utf16le_0 (sanitize_path s) ++ c) [] -> str s ->
  o mod 2 = 0 -> o = 35 + len w + len a -> n = len (encode_utf16le_0 (sanitize_path s)) -> path_at p o n s.
Proof.
  intros Hp Hs He Ho Hn. exists (sanitize_path s). split; [apply sanitize_windows|].
  eapply wide_mid; eauto using sanitize_str.
Qed.
Lemma path_end (p w a : bytes) (s : text) o n : smb_parts p w (a ++ encode_utf16le_0 (sanitize_path s)) [] -> str s ->
  o mod 2 = 0 -> o = 35 + len w + len a -> n = len (encode_utf16le_0 (sanitize_path s)) -> path_at p o n s /\ o + n = len p.
Proof.
  intros Hp Hs He Ho Hn. split.
  - eapply path_mid with (a := a) (c := []); eauto. now rewrite app_nil_r.
  - rewrite (parts_len Hp), len_app. lia.
Qed.


Lemma andx_words (pw : bytes) : last_command ([xff; x00; x00; x00] ++ pw).
Proof. unfold last_command. now apply bytes_at_exact. Qed.

Ltac fdone := first [reflexivity | fields; reflexivity].

Lemma asks_open_ok access sharing options path p o pw d i :
  str path -> open_body o i = Ok (pw, d) ->
  o = mk_open (sanitize_path path) 0 0 access 0 0 sharing DISP_OPEN options IMPERSONATE 0 ->
  access < 4294967296 -> sharing < 4294967296 -> options < 4294967296 ->
  smb_parts p ([xff; x00; x00; x00] ++ pw) d [] ->
  asks_open access sharing options p ([xff; x00; x00; x00] ++ pw) path.
Proof.
  intros Hs Hb -> H1 H2 H3 Hp. apply open_body_ok in Hb.
  cbn [o_filename o_create_flags o_directory o_access o_allocation_size o_attributes o_share_access o_disposition
       o_options o_impersonation o_security] in Hb.
  destruct Hb as (Hn & -> & ->). change (2 ^ 16) with 65536 in Hn.
  assert (Hl : len ([xff; x00; x00; x00] ++ le 1 0 ++ le 2 (len (encode_utf16le_0 (sanitize_path path))) ++ le 4 0 ++ le 4 0
    ++ le 4 access ++ le 8 0 ++ le 4 0 ++ le 4 sharing ++ le 4 DISP_OPEN ++ le 4 options ++ le 4 IMPERSONATE ++ le 1 0) = 48).
  { rewrite !len_app, !len_le. reflexivity. }
  unfold asks_open. split; [exact Hl|]. split; [apply andx_words|].
  split. { fdone. }
  split.
  { exists (len (encode_utf16le_0 (sanitize_path path))). split; [fields; reflexivity|].
    apply path_end with (1 := Hp); auto. }
  clear Hp Hl. unfold DISP_OPEN, IMPERSONATE. repeat split; fdone.
Qed.

Lemma asks_mount_ok path password p pw d i u : str path -> str password -> contains (i_flags2 i) F2_UNICODE = u ->
  tree_connect_body (sanitize_path path) password i = Ok (pw, d) ->
  smb_parts p ([xff; x00; x00; x00] ++ pw) d [] ->
  asks_mount u p ([xff; x00; x00; x00] ++ pw) path password.
Proof.
  intros Hs Hs' Hu Hb Hp. unfold tree_connect_body in Hb. rewrite Hu in Hb. clear Hu.
  set (q := if 0 <? len (utf8 password) then utf8 password else [x00]) in *.
  assert (Hq : if 0 <? len password then utf8_of password q else q = [x00]).
  { unfold q. clear -Hs'. destruct password as [|c r]; [reflexivity|]. rewrite len_cons.
    replace (0 <? 1 + len r) with true by (symmetry; apply N.ltb_lt; lia).
    replace (0 <? len (utf8 (c :: r))) with true; [now apply utf8_of_utf8|].
    symmetry. apply N.ltb_lt. rewrite utf8_len_utf8. cbn [utf8_len].
    destruct (c <? 0x80); [|destruct (c <? 0x800); [|destruct (c <? 0x10000)]]; lia. }
  clearbody q. bind_ok Hb. apply ok_pair in Hb. destruct Hb as [<- <-].
  change (2 ^ 16) with 65536 in Hn. change TC_EXTENDED_RESPONSE with 8 in *.
  set (w := [xff; x00; x00; x00] ++ le 2 8 ++ le 2 (len q)) in *.
  assert (Hw : len w = 8) by (unfold w; lens; reflexivity).
  assert (F : u16_at w 4 = Some 8 /\ u16_at w 6 = Some (len q)) by (unfold w; split; fdone).
  assert (Hc : last_command w) by apply andx_words. clearbody w. destruct F as [F1 F2].
  split; [exact Hw|]. split; [exact Hc|]. split; [exact F1|]. exists q. split; [exact Hq|]. split; [exact F2|].
  split. { rewrite (parts_bytes _ Hp) by lia. rewrite Hw. now apply bytes_at_exact. }
  change (repeat x3f 5 ++ [x00]) with QUESTION_MARKS in Hp.
  destruct u.
  - set (a := if len q mod 2 =? 0 then [x00] else []) in *.
    assert (Ha : len a = (len q + 1) mod 2).
    { unfold a. destruct (N.eqb_spec (len q mod 2) 0); [change (len [x00]) with 1|change (len (@nil byte)) with 0]; lia. }
    clearbody a.
    assert (Hp' : smb_parts p w ((q ++ a) ++ encode_utf16le_0 (sanitize_path path) ++ QUESTION_MARKS) []).
    { revert Hp. unfold encode_utf16le_0. change (le 2 0) with [x00; x00]. rewrite <- !app_assoc. auto. }
    clear Hp. exists (43 + len (q ++ a)), (len (encode_utf16le_0 (sanitize_path path))). rewrite len_app, Ha.
    split; [|split; [|split]].
    + rewrite (parts_bytes _ Hp') by lia. rewrite app_assoc, bytes_at_app2 by (rewrite !len_app; lia).
      apply bytes_at_self; [rewrite !len_app; lia|reflexivity].
    + rewrite (parts_len Hp'), !len_app, Hw, Ha. change (len QUESTION_MARKS) with 6. lia.
    + lia.
    + apply path_mid with (1 := Hp'); auto; [lia|rewrite len_app; lia].
  - exists (43 + len q), (len (utf8 (sanitize_path path) ++ [x00])).
    assert (Hp' : smb_parts p w (q ++ (utf8 (sanitize_path path) ++ [x00]) ++ QUESTION_MARKS) []).
    { revert Hp. rewrite <- !app_assoc. auto. }
    clear Hp. split; [|split; [|split; [reflexivity|]]].
    + rewrite (parts_bytes _ Hp') by lia. rewrite app_assoc, bytes_at_app2 by (rewrite !len_app; lia).
      apply bytes_at_self; [rewrite !len_app; lia|reflexivity].
    + rewrite (parts_len Hp'), !len_app, Hw. change (len QUESTION_MARKS) with 6. lia.
    + exists (sanitize_path path), (utf8 (sanitize_path path)).
      split; [apply sanitize_windows|]. split; [now apply utf8_of_utf8, sanitize_str|].
      rewrite (parts_bytes _ Hp') by lia. apply bytes_mid; [lia|reflexivity].
Qed.

Lemma asks_trans2_ok t p pw d i : t2_data t = [] -> t2_max_setup t = 0 -> t2_max_param t = 10 -> t2_max_data t = 65535 ->
  t2_setup t < 65536 ->
  transact2_body t i = Ok (pw, d) -> smb_parts p pw d [] ->
  asks_trans2 (t2_setup t) p pw (t2_parameter t) /\ u16_at pw 20 = Some 68
  /\ (forall o n, 3 <= o -> bytes_at p (65 + o) n = bytes_at (t2_parameter t ++ zeros (fill_up_4n (68 + len (t2_parameter t)))) (o - 3) n).
Proof.
  intros Hd Hm1 Hm2 Hm3 Hs Hb Hp. apply transact2_body_ok in Hb. cbv zeta in Hb. rewrite Hd, Hm1, Hm2, Hm3 in Hb.
  rewrite app_nil_r in Hb. change (len (@nil byte)) with 0 in Hb. change (2 ^ 16) with 65536 in Hb.
  destruct Hb as (H1 & _ & H2 & -> & ->).
  set (n := len (t2_parameter t)) in *. set (e := round_up_4n (68 + n)) in *.
  assert (He : e = 68 + n + fill_up_4n (68 + n) /\ e mod 4 = 0) by (unfold e, round_up_4n, fill_up_4n; lia).
  set (w := le 2 n ++ _) in *.
  assert (Hw : len w = 30) by (unfold w; rewrite !len_app, !len_le; reflexivity).
  assert (F0 : u16_at w 20 = Some 68) by (unfold w; fdone).
  assert (F : u16_at w 0 = Some n /\ u16_at w 2 = Some 0 /\ u16_at w 4 = Some 10 /\ u16_at w 6 = Some 65535 /\ u8_at w 8 = Some 0
   /\ u16_at w 10 = Some 0 /\ u32_at w 12 = Some 0 /\ u16_at w 18 = Some n /\ u16_at w 22 = Some 0 /\ u16_at w 24 = Some e
   /\ u8_at w 26 = Some 1 /\ u16_at w 28 = Some (t2_setup t)).
  { unfold w. repeat split; fdone. }
  clearbody w. clearbody e. destruct F as (F1 & F2 & F3 & F4 & F5 & F6 & F7 & F8 & F9 & F10 & F11 & F12).
  split; [|split; [exact F0|]].
  - unfold asks_trans2. fold n. rewrite F1, F2, F3, F4, F5, F6, F7, F8, F9, F11, F12.
    split; [exact Hw|]. do 8 (split; [reflexivity|]). split; [exists 68; split; [exact F0|]|].
    { split; [reflexivity|]. rewrite (parts_bytes _ Hp) by lia. rewrite Hw. rewrite <- app_assoc. now apply bytes_mid. }
    split; [reflexivity|]. split; [exists e; split; [exact F10|]|split; reflexivity].
    split; [apply He|]. unfold bytes_at. rewrite (parts_len Hp), Hw, !len_app, !len_zeros. fold n.
    destruct (N.leb_spec (e + 0) (35 + 30 + (3 + n + fill_up_4n (68 + n)))); [reflexivity|lia].
  - intros o m Ho. rewrite (parts_bytes _ Hp) by lia. rewrite Hw. rewrite <- app_assoc, bytes_at_app2.
    + f_equal. change (len (zeros 3)) with 3. lia.
    + change (len (zeros 3)) with 3. lia.
Qed.

Lemma asks_notify_ok fid mode p pw d i : fid < 65536 -> mode < 4294967296 ->
  transact_body (notify_setup fid mode false) i = Ok (pw, d) -> smb_parts p pw d [] -> asks_notify p pw fid mode.
Proof.
  intros Hf Hm Hb Hp. apply transact_body_ok in Hb. cbn [t_setup t_parameter t_data t_max_setup t_max_param t_max_data t_id notify_setup] in Hb.
  assert (Hl : len (le 4 mode ++ le 2 fid ++ le 1 0 ++ le 1 0) = 8) by (rewrite !len_app, !len_le; reflexivity).
  cbv zeta in Hb. rewrite Hl in Hb. destruct Hb as (_ & _ & _ & _ & _ & Hw & Hd). vm_compute in Hd. subst d.
  change (len (@nil byte)) with 0 in Hw. change (4 * ((73 + 8 + 3) / 4)) with 84 in Hw.
  change (4 * ((84 + 0 + 3) / 4)) with 84 in Hw. change (8 / 2) with 4 in Hw.
  assert (Hn : len pw = 46) by (subst pw; rewrite !len_app, !len_le; reflexivity).
  assert (F : forall b, 84 = len p -> bytes_at p 84 0 = Some b <-> b = []).
  { intros b H. unfold bytes_at. rewrite <- H. cbn. split; [intros [= <-]; reflexivity|intros ->; reflexivity]. }
  assert (Hz : 84 = len p) by (rewrite (parts_len Hp), Hn; reflexivity).
  unfold asks_notify. split; [exact Hn|].
  do 6 (split; [subst pw; fdone|]).
  split; [exists 84; split; [subst pw; fdone|split; [reflexivity|now apply F]]|].
  split; [subst pw; fdone|].
  split; [exists 84; split; [subst pw; fdone|split; [reflexivity|now apply F]]|].
  subst pw. repeat split; fdone.
Qed.

Lemma setup_auth_ok user domain secret u p pw d i : contains (i_flags2 i) F2_UNICODE = u -> str user -> str domain ->
  session_setup_body (Classic user domain secret) i = Ok (pw, d) ->
  smb_parts p ([xff; x00; x00; x00] ++ pw) d [] ->
  asks u (SetupAuth user domain secret) p ([xff; x00; x00; x00] ++ pw) d.
Proof.
  intros Hu Hs1 Hs2 Hb Hp. unfold session_setup_body, session_setup_with in Hb. rewrite Hu in Hb. clear Hu.
  apply rbind_ok in Hb. destruct Hb as (p2 & H2 & Hb). bind_ok H2. apply ok_inj in H2. subst p2.
  apply ok_pair in Hb. destruct Hb as [<- <-]. change (2 ^ 16) with 65536 in Hn.
  set (w := [xff; x00; x00; x00] ++ _) in *.
  assert (Hw : len w = 26) by (unfold w; rewrite !len_app, !len_le; reflexivity).
  assert (Hc : last_command w) by apply andx_words.
  assert (F : u16_at w 4 = Some 65535 /\ u16_at w 6 = Some 0 /\ u16_at w 8 = Some 0 /\ u32_at w 10 = Some 0
    /\ u16_at w 14 = Some (len secret) /\ u16_at w 16 = Some (len secret) /\ u32_at w 22 = Some 0x5c).
  { unfold w. change (setup_caps (Classic user domain secret)) with 0x5c. repeat split; fdone. }
  clearbody w. destruct F as (F1 & F2 & F3 & F4 & F5 & F6 & F7).
  assert (He : (len (secret ++ secret) mod 2 =? 0) = true) by (apply N.eqb_eq; rewrite len_app; lia).
  rewrite He in Hp. clear He.
  assert (Hz : (if u then le 2 0 ++ le 2 0 else zeros 2) = zeros (if u then 4 else 2)) by (destruct u; reflexivity).
  rewrite Hz in Hp. clear Hz. set (z := if u then 4 else 2) in *.
  pose proof (len_encode_utf16le_0 user) as L1. pose proof (len_encode_utf16le_0 domain) as L2.
  cbn [asks]. fold z. split; [exact Hw|]. split; [exact (conj Hc (conj F1 (conj F2 (conj F3 F4))))|].
  split; [exact F5|]. split; [exact F6|]. split; [exact F7|].
  split. { rewrite (parts_bytes _ Hp), Hw by lia. rewrite <- !app_assoc. now apply bytes_at_exact. }
  split. { rewrite (parts_bytes _ Hp), Hw by lia. rewrite <- !app_assoc. apply bytes_mid; [lia|reflexivity]. }
  exists (len (encode_utf16le_0 user)), (len (encode_utf16le_0 domain)).
  split; [|split; [|split]].
  - apply wide_mid with (w := w) (a := (secret ++ secret) ++ [x00]) (c := encode_utf16le_0 domain ++ zeros z).
    + revert Hp. now rewrite <- !app_assoc.
    + exact Hs1.
    + lia.
    + rewrite !len_app. change (len [x00]) with 1. lia.
    + reflexivity.
  - apply wide_mid with (w := w) (a := (secret ++ secret) ++ [x00] ++ encode_utf16le_0 user) (c := zeros z).
    + revert Hp. now rewrite <- !app_assoc.
    + exact Hs2.
    + lia.
    + rewrite !len_app. change (len [x00]) with 1. lia.
    + reflexivity.
  - rewrite (parts_bytes _ Hp), Hw by lia. rewrite bytes_at_app2.
    + apply bytes_at_self; [|now rewrite len_zeros]. rewrite !len_app. change (len [x00]) with 1. lia.
    + rewrite !len_app. change (len [x00]) with 1. lia.
  - rewrite (parts_len Hp), Hw, !len_app, len_zeros. change (len [x00]) with 1. lia.
Qed.
Lemma setup_blob_ok blob u p pw d i : contains (i_flags2 i) F2_UNICODE = u ->
  session_setup_body (Extended blob) i = Ok (pw, d) ->
  smb_parts p ([xff; x00; x00; x00] ++ pw) d [] ->
  asks u (SetupBlob blob) p ([xff; x00; x00; x00] ++ pw) d.
Proof.
  intros Hu Hb Hp. unfold session_setup_body, session_setup_with in Hb. rewrite Hu in Hb. clear Hu.
  apply rbind_ok in Hb. destruct Hb as (p2 & H2 & Hb). bind_ok H2. apply ok_inj in H2. subst p2.
  apply ok_pair in Hb. destruct Hb as [<- <-]. change (2 ^ 16) with 65536 in Hn.
  set (w := [xff; x00; x00; x00] ++ _) in *.
  assert (Hw : len w = 24) by (unfold w; rewrite !len_app, !len_le; reflexivity).
  assert (Hc : last_command w) by apply andx_words.
  assert (F : u16_at w 4 = Some 65535 /\ u16_at w 6 = Some 0 /\ u16_at w 8 = Some 0 /\ u32_at w 10 = Some 0
    /\ u16_at w 14 = Some (len blob) /\ u32_at w 20 = Some 0x8000005c).
  { unfold w. change (setup_caps (Extended blob)) with 0x8000005c. repeat split; fdone. }
  clearbody w. destruct F as (F1 & F2 & F3 & F4 & F5 & F7).
  assert (Hz : (if u then le 2 0 ++ le 2 0 else zeros 2) = zeros (if u then 4 else 2)) by (destruct u; reflexivity).
  rewrite Hz in Hp. clear Hz. set (z := if u then 4 else 2) in *.
  set (a := if len blob mod 2 =? 0 then [x00] else []) in *.
  assert (Ha : len a = (len blob + 1) mod 2).
  { unfold a. destruct (N.eqb_spec (len blob mod 2) 0); [change (len [x00]) with 1|change (len (@nil byte)) with 0]; lia. }
  clearbody a.
  cbn [asks]. fold z. split; [exact Hw|]. split; [exact (conj Hc (conj F1 (conj F2 (conj F3 F4))))|].
  split; [exact F5|]. split; [exact F7|].
  split. { rewrite (parts_bytes _ Hp), Hw by lia. rewrite <- !app_assoc. now apply bytes_at_exact. }
  exists (59 + len blob + len a). split; [lia|]. split; [lia|]. split.
  - rewrite (parts_bytes _ Hp), Hw by lia. rewrite bytes_at_app2 by (rewrite !len_app; lia).
    apply bytes_at_self; [|now rewrite len_zeros]. rewrite !len_app. lia.
  - rewrite (parts_len Hp), Hw, !len_app, len_zeros. lia.
Qed.

Lemma find_path p w t b path fixed : (forall o n, 3 <= o -> bytes_at p (65 + o) n = bytes_at (t2_parameter t ++ b) (o - 3) n) ->
  u16_at w 20 = Some 68 -> t2_parameter t = fixed ++ encode_utf16le_0 path -> len fixed = 12 -> str path ->
  wide_at p (68 + 12) (len (encode_utf16le_0 path)) path.
Proof.
  intros Hp _ Ht Hf Hs. split; [reflexivity|]. exists (encode_utf16le path). split; [now apply utf16le_encode|].
  replace (68 + 12) with (65 + 15) by reflexivity. rewrite Hp, Ht by lia.
  change (encode_utf16le path ++ [x00; x00]) with (encode_utf16le_0 path). rewrite <- app_assoc.
  apply bytes_mid; [rewrite Hf; reflexivity|reflexivity].
Qed.

(** every request: its header, and what it asks for *)
Lemma request_asks E fuel st R (c : call R) f : typed_client st -> typed c -> request (exec E fuel c) st = Some f ->
  exists p words data, f = session_message p /\ len p <= 65618 /\ smb_parts p words data []
    /\ request_header p (opcode c) (if use_unicode st then 0xc843 else 0x4843) (op_tid c) (uid st) (mid st)
    /\ asks (use_unicode st) c p words data.
Proof.
  intros Hst Hc Hr. pose proof (fun p => @request_inv_header E fuel st R c f p Hst Hc Hr) as Hh.
  apply request_inv in Hr. destruct Hr as (p & pw & d & Hf & Hl & _ & Hb & Hp & Hw & _). specialize (Hh p Hf).
  exists p, (andx_of (msg_of c) ++ pw), d. split; [exact Hf|]. split; [exact Hl|]. split; [exact Hp|]. split; [exact Hh|].
  clear Hh Hf Hl. pose proof (unicode_out st c) as Hu.
  destruct c; cbn [typed] in Hc; unfold is_str in Hc; rewrite ?is_text_str in Hc;
    cbn [andx_of msg_of m_andx msg_tree_connect msg_tree_disconnect msg_open msg_close msg_read msg_delete msg_rmdir msg_transact
         msg_transact2 msg_negotiate msg_session_setup] in Hp |- *;
    cbn [msg_of m_body msg_tree_connect msg_tree_disconnect msg_open msg_close msg_read msg_delete msg_rmdir msg_transact
         msg_transact2 msg_negotiate msg_session_setup] in Hb, Hu.
  - eapply asks_mount_ok with (d := d); [apply Hc|apply Hc|exact Hu|exact Hb|exact Hp].
  - eapply asks_mount_ok with (d := d); [apply Hc|constructor|exact Hu|exact Hb|exact Hp].
  - apply ok_pair in Hb. destruct Hb as [<- <-]. now split.
  - eapply asks_open_ok; [apply Hc|exact Hb|reflexivity|reflexivity|reflexivity|reflexivity|exact Hp].
  - eapply asks_open_ok; [apply Hc|exact Hb|reflexivity|reflexivity|reflexivity|reflexivity|exact Hp].
  - apply ok_pair in Hb. destruct Hb as [<- <-]. cbn [asks app]. destruct Hc as [_ H]. unfold u16 in H.
    split; [reflexivity|]. repeat split; fdone.
  - apply ok_pair in Hb. destruct Hb as [<- <-]. cbn [asks]. destruct Hc as (_ & H & Ho). unfold u16 in H.
    change (2 ^ 64) with 18446744073709551616 in Ho.
    split; [reflexivity|]. split; [apply andx_words|]. split; [fdone|]. split.
    { exists (offset mod 4294967296), (offset / 4294967296).
      replace (N.land offset 0xffffffff) with (offset mod 4294967296)
        by (symmetry; exact (N.land_ones offset 32)).
      replace (N.shiftr offset 32) with (offset / 4294967296) by (symmetry; exact (N.shiftr_div_pow2 offset 32)).
      assert (offset mod 4294967296 < 4294967296) by lia. assert (offset / 4294967296 < 4294967296) by lia.
      split; [fields; reflexivity|]. split; [fields; reflexivity|]. lia. }
    unfold SMB_READ_MAX, SMB_READ_MIN. repeat split; fdone.
  - apply ok_pair in Hb. destruct Hb as [<- <-]. cbn [asks app] in *. split; [reflexivity|]. split; [reflexivity|].
    split; [rewrite (parts_u8 Hp); [reflexivity|vm_compute; discriminate]|].
    exists (len (encode_utf16le_0 (sanitize_path path))).
    apply path_end with (w := le 2 (N.lor ATTR_HIDDEN ATTR_SYSTEM)) (a := [x04]); [exact Hp|apply Hc|reflexivity|reflexivity|reflexivity].
  - apply ok_pair in Hb. destruct Hb as [<- <-]. cbn [asks app] in *. split; [reflexivity|].
    split; [rewrite (parts_u8 Hp); [reflexivity|vm_compute; discriminate]|].
    exists (len (encode_utf16le_0 (sanitize_path path))).
    apply path_end with (w := []) (a := [x04]); [exact Hp|apply Hc|reflexivity|reflexivity|reflexivity].
  - destruct Hc as (_ & H & Hm). eapply asks_notify_ok; [exact H|exact Hm|exact Hb|exact Hp].
  - destruct Hc as (_ & H). eapply asks_notify_ok; [exact H|reflexivity|exact Hb|exact Hp].
  - cbn [app] in *. apply asks_trans2_ok with (p := p) in Hb; [|reflexivity|reflexivity|reflexivity|reflexivity|reflexivity|exact Hp].
    destruct Hb as (H1 & H2 & H3). eexists. exists 68, (len (encode_utf16le_0 (sanitize_path pattern))). split; [exact H1|].
    cbn [t2_parameter find_first2]. change (lor_all [ATTR_HIDDEN; ATTR_SYSTEM; ATTR_DIRECTORY]) with 0x16.
    unfold FIND_CLOSE_ON_EOS, FIND_DIRECTORY_INFO.
    split; [fields; reflexivity|]. split; [fields; reflexivity|]. split; [fields; reflexivity|]. split; [fields; reflexivity|].
    split; [fields; reflexivity|]. split; [exact H2|].
    split; [rewrite !len_app, !len_le; change (N.of_nat 2) with 2; change (N.of_nat 4) with 4; lia|].
    exists (sanitize_path pattern). split; [apply sanitize_windows|].
    eapply find_path with (1 := H3) (2 := H2) (fixed := le 2 0x16 ++ le 2 1024 ++ le 2 2 ++ le 2 0x101 ++ le 4 0);
      [reflexivity|reflexivity|apply sanitize_str, Hc].
  - cbn [app] in *. apply asks_trans2_ok with (p := p) in Hb; [|reflexivity|reflexivity|reflexivity|reflexivity|reflexivity|exact Hp].
    destruct Hb as (H1 & H2 & H3). eexists. exists 68, (len (encode_utf16le_0 lastfile)). split; [exact H1|].
    cbn [t2_parameter find_next2]. destruct Hc as (_ & Hsid & Hs). unfold u16 in Hsid.
    unfold FIND_CLOSE_ON_EOS, FIND_DIRECTORY_INFO.
    split; [fields; reflexivity|]. split; [fields; reflexivity|]. split; [fields; reflexivity|]. split; [fields; reflexivity|].
    split; [fields; reflexivity|]. split; [exact H2|].
    split; [rewrite !len_app, !len_le; change (N.of_nat 2) with 2; change (N.of_nat 4) with 4; lia|].
    eapply find_path with (1 := H3) (2 := H2) (fixed := le 2 sid ++ le 2 1024 ++ le 2 0x101 ++ le 4 0 ++ le 2 2);
      [reflexivity|rewrite !len_app, !len_le; reflexivity|exact Hs].
  - apply ok_pair in Hb. destruct Hb as [<- <-]. now split.
  - eapply setup_auth_ok; [exact Hu|apply Hc|apply Hc|exact Hb|exact Hp].
  - eapply setup_blob_ok; [exact Hu|exact Hb|exact Hp].
Qed.
