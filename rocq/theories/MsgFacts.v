(** * MsgFacts: the request of every call. *)
From Verif Require Import Base BaseFacts Text Utils Win Errors Info Common Msg Reply Ntlm Prog
  RunFacts Client Spec SpecFacts TextFacts InfoFacts ClientFacts Api.
Set Implicit Arguments.
Unset Strict Implicit.
Open Scope N_scope.

Definition msg_of {R} (c : call R) : msg :=
  match c with
  | MountPassword path password => msg_tree_connect (sanitize_path path) password
  | Mount path => msg_tree_connect (sanitize_path path) []
  | Umount s => msg_tree_disconnect (sh_tid s)
  | OpenFile s path => msg_open (sh_tid s) (open_file_ro (sanitize_path path))
  | OpenDir s path => msg_open (sh_tid s) (open_dir (sanitize_path path))
  | Close h => msg_close (h_tid h) (h_fid h)
  | ReadAt h offset => msg_read (h_tid h) (h_fid h) offset
  | Delete s path => msg_delete (sh_tid s) (sanitize_path path)
  | Rmdir s path => msg_rmdir (sh_tid s) (sanitize_path path)
  | NotifyAbout h mode => msg_transact (h_tid h) (notify_setup (h_fid h) mode false)
  | Notify h => msg_transact (h_tid h) (notify_setup (h_fid h) NotifyMode_all false)
  | FindFirst s pattern =>
      msg_transact2 (sh_tid s) (find_first2 (sanitize_path pattern) (lor_all [ATTR_HIDDEN; ATTR_SYSTEM; ATTR_DIRECTORY]))
  | FindNext s sid lastfile => msg_transact2 (sh_tid s) (find_next2 sid lastfile)
  | Negotiate => msg_negotiate
  | SetupAuth user domain secret => msg_session_setup (Classic user domain secret)
  | SetupBlob blob => msg_session_setup (Extended blob)
  end.

(** what a call does after sending *)
Definition after {R} (fuel : nat) (c : call R) : N -> M R :=
  match c with
  | MountPassword _ _ | Mount _ => fun id => recv fuel r_share id
  | Umount _ => fun id => recv fuel r_tree_disconnect id
  | OpenFile _ _ | OpenDir _ _ => fun id => recv fuel r_handle id
  | Close _ => fun id => recv fuel r_close id
  | ReadAt _ _ => fun id => recv fuel r_read id
  | Delete _ _ => fun id => recv fuel r_delete id
  | Rmdir _ _ => fun id => recv fuel r_rmdir id
  | NotifyAbout _ _ | Notify _ => fun id => recv fuel r_notification id
  | FindFirst _ _ => fun id =>
      do! ctx := collect fuel fuel id collect2_new in lift ESmb (get_subreply find_first_parse ctx)
  | FindNext _ _ _ => fun id =>
      do! ctx := collect fuel fuel id collect2_new in lift ESmb (get_subreply find_next_parse ctx)
  | Negotiate => fun id => recv fuel r_server_setup id
  | SetupAuth _ _ _ | SetupBlob _ => fun id => recv fuel r_session_setup id
  end.

Lemma exec_send E fuel R (c : call R) :
  exec E fuel c = mbind (send E (msg_of c)) (after fuel c).
Proof. destruct c; reflexivity. Qed.

Definition reply_of {R} (c : call R) : option (reply R) :=
  match c in call R return option (reply R) with
  | MountPassword _ _ | Mount _ => Some r_share
  | Umount _ => Some r_tree_disconnect
  | OpenFile _ _ | OpenDir _ _ => Some r_handle
  | Close _ => Some r_close
  | ReadAt _ _ => Some r_read
  | Delete _ _ => Some r_delete
  | Rmdir _ _ => Some r_rmdir
  | NotifyAbout _ _ | Notify _ => Some r_notification
  | FindFirst _ _ => None
  | FindNext _ _ _ => None
  | Negotiate => Some r_server_setup
  | SetupAuth _ _ _ | SetupBlob _ => Some r_session_setup
  end.
Lemma reply_of_single R (c : call R) : single_reply c -> exists r, reply_of c = Some r.
Proof. destruct c; cbn; intros H; eauto; easy. Qed.
Lemma reply_of_cmd R (c : call R) r : reply_of c = Some r -> cmd_code (r_cmd r) = opcode c.
Proof. destruct c; intros [= <-]; reflexivity. Qed.
Lemma msg_of_cmd R (c : call R) : cmd_code (m_cmd (msg_of c)) = opcode c.
Proof. destruct c; reflexivity. Qed.

(** ** what is written *)
Section Request.
Variable E : env.

Definition out_frame (st : cifs) (m : msg) : option bytes :=
  if mid_panics E st then None else
  match smb_out st m with
  | Ok b => if NB_MAX <? len b then None else Some (session_message b)
  | _ => None
  end.

Lemma request_send {B} st m (f : N -> M B) : request (mbind (send E m) f) st = out_frame st m.
Proof.
  unfold send, out_frame. cbn [mbind get pbind ret request].
  fold (mid_panics E st). destruct (mid_panics E st); [reflexivity|].
  cbn [put mbind pbind ret request info_default i_cmd i_status i_flags1 i_flags2 i_pid i_tid].
  fold (out_info st m). rewrite len_info_write. unfold smb_out.
  destruct (msg_write m (out_info st m) 32) as [body|e|]; try reflexivity.
  cbn [lift ret mbind pbind rbind]. unfold send_message, nb_send. rewrite frame_encode_message.
  destruct (NB_MAX <? len (info_write (out_info st m) ++ body)); reflexivity.
Qed.
Lemma request_exec R fuel (c : call R) st : request (exec E fuel c) st = out_frame st (msg_of c).
Proof. rewrite exec_send. apply request_send. Qed.
End Request.

(** ** writing a message *)
Definition andx_of (m : msg) : bytes := if m_andx m then [xff; x00; x00; x00] else [].
Definition packed (words data : bytes) : bytes :=
  [n2b (len words / 2)] ++ words ++ [n2b (len data); n2b (len data / 256)] ++ data.

Lemma msg_write_eq m i : msg_write m i 32 =
  match m_body m i with
  | Ok (p, d) =>
    if 256 <=? len (andx_of m ++ p) / 2 then Err (CreatePacket ParameterTooBig)
    else if 65536 <=? len d then Err (CreatePacket DataTooBig)
    else Ok (packed (andx_of m ++ p) d)
  | Err e => Err e
  | Panic => Panic
  end.
Proof.
  unfold msg_write.
  replace (if m_andx m then andx_write CNoCommand 0 else []) with (andx_of m)
    by (unfold andx_of; destruct (m_andx m); reflexivity).
  destruct (m_body m i) as [[p d]|e|]; cbn [rbind]; try reflexivity.
  set (w := andx_of m ++ p). destruct (N.leb_spec 256 (len w / 2)) as [Hw|Hw].
  { rewrite try_into_big by (change (2 ^ 8) with 256; lia). reflexivity. }
  rewrite try_into_small by (change (2 ^ 8) with 256; lia). cbn [rbind].
  unfold remaining_mut, USIZE_MAX. change (2 ^ 64 - 1 - 32) with 18446744073709551583.
  destruct (N.ltb_spec 18446744073709551583 (len w)); [lia|].
  destruct (N.leb_spec 65536 (len d)) as [Hd|Hd].
  { rewrite try_into_big by (change (2 ^ 16) with 65536; lia). reflexivity. }
  rewrite try_into_small by (change (2 ^ 16) with 65536; lia). cbn [rbind].
  assert (Hl : len (le 1 (len w / 2) ++ w) = 1 + len w) by (autorewrite with len; lia).
  rewrite Hl. change (2 ^ 64 - 1) with 18446744073709551615.
  destruct (N.ltb_spec (18446744073709551615 - (32 + (1 + len w))) (len d)); [lia|].
  unfold packed. cbn [le app]. try rewrite <- app_assoc. reflexivity.
Qed.
Lemma len_packed w d : len (packed w d) = 3 + len w + len d.
Proof. unfold packed. autorewrite with len. lia. Qed.

(** ** the words of every message *)
Definition wc {R} (c : call R) : N :=
  match c with
  | MountPassword _ _ | Mount _ => 4
  | Umount _ => 0
  | OpenFile _ _ | OpenDir _ _ => 24
  | Close _ => 3
  | ReadAt _ _ => 12
  | Delete _ _ => 1
  | Rmdir _ _ => 0
  | NotifyAbout _ _ | Notify _ => 23
  | FindFirst _ _ | FindNext _ _ _ => 15
  | Negotiate => 0
  | SetupAuth _ _ _ => 13
  | SetupBlob _ => 12
  end.

Lemma try_into_expect_ok E k v r : @try_into_expect E k v = Ok r -> r = v /\ v < 2 ^ k.
Proof. unfold try_into_expect. destruct (fits k v) eqn:H; [|easy]. intros [= <-]. now rewrite <- fits_spec. Qed.
Lemma try_into_expect_small E k v : v < 2 ^ k -> @try_into_expect E k v = Ok v.
Proof. intros H. unfold try_into_expect. now rewrite (proj2 (fits_spec k v) H). Qed.
Lemma try_into_expect_big E k v : 2 ^ k <= v -> @try_into_expect E k v = Panic.
Proof.
  intros H. unfold try_into_expect. destruct (fits k v) eqn:F; [|easy]. apply fits_spec in F. lia.
Qed.

Ltac bind_ok H := 
  let n := fresh "n" in let Hn := fresh "Hn" in
  apply rbind_ok in H; destruct H as (n & Hn & H);
  first [apply try_into_ok in Hn; destruct Hn as [-> Hn]
        |apply try_into_expect_ok in Hn; destruct Hn as [-> Hn] | idtac].

Lemma open_body_ok o i p d : open_body o i = Ok (p, d) ->
  len (encode_utf16le_0 (o_filename o)) < 2 ^ 16
  /\ p = le 1 0 ++ le 2 (len (encode_utf16le_0 (o_filename o))) ++ le 4 (o_create_flags o) ++ le 4 (o_directory o)
      ++ le 4 (o_access o) ++ le 8 (o_allocation_size o) ++ le 4 (o_attributes o) ++ le 4 (o_share_access o)
      ++ le 4 (o_disposition o) ++ le 4 (o_options o) ++ le 4 (o_impersonation o) ++ le 1 (o_security o)
  /\ d = [x00] ++ encode_utf16le_0 (o_filename o).
Proof. unfold open_body. intros H. bind_ok H. injection H as <- <-. auto. Qed.

Lemma transact_body_ok t i p d : transact_body t i = Ok (p, d) ->
  let ds := 73 + len (t_setup t) in
  let po := 4 * ((ds + 3) / 4) in
  let do_ := 4 * ((po + len (t_parameter t) + 3) / 4) in
  len (t_setup t) / 2 < 2 ^ 8 /\ len (t_parameter t) < 2 ^ 32 /\ len (t_data t) < 2 ^ 32
  /\ po < 2 ^ 32 /\ do_ < 2 ^ 32
  /\ p = le 1 (t_max_setup t) ++ le 2 0 ++ le 4 (len (t_parameter t)) ++ le 4 (len (t_data t))
         ++ le 4 (t_max_param t) ++ le 4 (t_max_data t) ++ le 4 (len (t_parameter t)) ++ le 4 po
         ++ le 4 (len (t_data t)) ++ le 4 do_ ++ le 1 (len (t_setup t) / 2) ++ le 2 (t_id t) ++ t_setup t
  /\ d = (zeros ((4 - ds mod 4) mod 4) ++ t_parameter t)
         ++ zeros ((4 - (ds + len (zeros ((4 - ds mod 4) mod 4) ++ t_parameter t)) mod 4) mod 4) ++ t_data t.
Proof.
  unfold transact_body. intros H. cbv zeta. change SMB_HEADER_LEN with 32 in H.
  assert (E : 32 + 1 + 38 + len (t_setup t) + 2 = 73 + len (t_setup t)) by lia. rewrite E in H.
  bind_ok H. bind_ok H. bind_ok H. bind_ok H. bind_ok H. injection H as <- <-. auto 10.
Qed.

Lemma transact2_body_ok t i p d : transact2_body t i = Ok (p, d) ->
  let po := 68 in
  let do_ := round_up_4n (68 + len (t2_parameter t)) in
  len (t2_parameter t) < 2 ^ 16 /\ len (t2_data t) < 2 ^ 16 /\ do_ < 2 ^ 16
  /\ p = le 2 (len (t2_parameter t)) ++ le 2 (len (t2_data t)) ++ le 2 (t2_max_param t) ++ le 2 (t2_max_data t)
         ++ le 1 (t2_max_setup t) ++ le 1 0 ++ le 2 0 ++ le 4 0 ++ le 2 0 ++ le 2 (len (t2_parameter t))
         ++ le 2 po ++ le 2 (len (t2_data t)) ++ le 2 do_ ++ le 1 1 ++ le 1 0 ++ le 2 (t2_setup t)
  /\ d = (zeros 3 ++ t2_parameter t) ++ zeros (fill_up_4n (68 + len (t2_parameter t))) ++ t2_data t.
Proof.
  unfold transact2_body. intros H. cbv zeta. change SMB_HEADER_LEN with 32 in H.
  change (round_up_4n (32 + 1 + 30 + 2 + 1)) with 68 in H.
  change (fill_up_4n (32 + 1 + 30 + 2 + len [x00])) with 2 in H.
  change ([x00] ++ zeros 2 ++ t2_parameter t) with (zeros 3 ++ t2_parameter t) in H.
  assert (E : 32 + 1 + 30 + 2 + len (zeros 3 ++ t2_parameter t) = 68 + len (t2_parameter t)).
  { rewrite len_app, len_zeros. lia. }
  rewrite E in H.
  bind_ok H. bind_ok H. bind_ok H. bind_ok H. injection H as <- <-.
  split; [easy|]. split; [easy|]. split; [easy|]. split; [|reflexivity].
  reflexivity.
Qed.

Lemma session_setup_body_ok m i p d : session_setup_body m i = Ok (p, d) ->
  len p = match m with Classic _ _ _ => 22 | Extended _ => 20 end.
Proof.
  unfold session_setup_body, session_setup_with. intros H. apply rbind_ok in H. destruct H as (p2 & H2 & H).
  injection H as <- <-. destruct m; bind_ok H2; injection H2 as <-; autorewrite with len; reflexivity.
Qed.

(** (injection would compute) *)
Lemma ok_pair E A B (a a' : A) (b b' : B) : @Ok E _ (a, b) = Ok (a', b') -> a = a' /\ b = b'.
Proof. intros H. injection H. auto. Qed.

Lemma ok_inj E A (a a' : A) : @Ok E _ a = Ok a' -> a = a'.
Proof. intros H. injection H. auto. Qed.
Lemma some_inj A (a a' : A) : Some a = Some a' -> a = a'.
Proof. intros H. injection H. auto. Qed.

Lemma words_len R (c : call R) i p d : m_body (msg_of c) i = Ok (p, d) ->
  len (andx_of (msg_of c) ++ p) = 2 * wc c.
Proof.
  destruct c; cbn [msg_of m_body msg_tree_connect msg_tree_disconnect msg_open msg_close msg_read msg_delete
    msg_rmdir msg_transact msg_transact2 msg_negotiate msg_session_setup]; intros H;
    unfold andx_of; cbn [m_andx wc]; rewrite len_app.
  all: try (match type of H with Ok _ = Ok _ => apply ok_pair in H; destruct H as [<- <-]; autorewrite with len; reflexivity end).
  - unfold tree_connect_body in H. bind_ok H. injection H as <- <-. autorewrite with len. reflexivity.
  - unfold tree_connect_body in H. bind_ok H. injection H as <- <-. autorewrite with len. reflexivity.
  - apply open_body_ok in H. destruct H as (_ & -> & _). autorewrite with len. reflexivity.
  - apply open_body_ok in H. destruct H as (_ & -> & _). autorewrite with len. reflexivity.
  - apply transact_body_ok in H. destruct H as (_ & _ & _ & _ & _ & -> & _).
    cbn [t_setup notify_setup]. autorewrite with len. reflexivity.
  - apply transact_body_ok in H. destruct H as (_ & _ & _ & _ & _ & -> & _).
    cbn [t_setup notify_setup]. autorewrite with len. reflexivity.
  - apply transact2_body_ok in H. destruct H as (_ & _ & _ & -> & _). autorewrite with len. reflexivity.
  - apply transact2_body_ok in H. destruct H as (_ & _ & _ & -> & _). autorewrite with len. reflexivity.
  - apply session_setup_body_ok in H. rewrite H. reflexivity.
  - apply session_setup_body_ok in H. rewrite H. reflexivity.
Qed.

(** ** the frame of a request *)
Lemma flags2_value b : set_flag Flags2_default F2_UNICODE b = if b then 0xc843 else 0x4843.
Proof. destruct b; reflexivity. Qed.

Lemma out_info_eq st R (c : call R) : out_info st (msg_of c) =
  mk_info (m_cmd (msg_of c)) (Known SUCCESS) Flags1_default
    (if use_unicode st then 0xc843 else 0x4843) 0xfeff (op_tid c) (uid st) (mid st).
Proof. unfold out_info. rewrite flags2_value. destruct c; reflexivity. Qed.

Lemma op_tid_u16 R (c : call R) : typed c -> op_tid c < 65536.
Proof. destruct c; unfold typed, u16, op_tid; intros; try tauto; try lia; try (destruct H; lia). Qed.

Lemma out_info_range st R (c : call R) : typed_client st -> typed c -> info_range (out_info st (msg_of c)).
Proof.
  intros [Hu Hm] Hc. rewrite out_info_eq. unfold u16 in *.
  split; cbn [i_status i_flags1 i_flags2 i_pid i_tid i_uid i_mid]; try (cbn; lia); try easy.
  - destruct (use_unicode st); lia.
  - now apply op_tid_u16.
Qed.


Lemma smb_out_eq st m : smb_out st m =
  match m_body m (out_info st m) with
  | Ok (p, d) =>
    if 256 <=? len (andx_of m ++ p) / 2 then Err (CreatePacket ParameterTooBig)
    else if 65536 <=? len d then Err (CreatePacket DataTooBig)
    else Ok (info_write (out_info st m) ++ packed (andx_of m ++ p) d)
  | Err e => Err e
  | Panic => Panic
  end.
Proof.
  unfold smb_out. rewrite msg_write_eq. destruct (m_body m (out_info st m)) as [[p d]|e|]; try reflexivity.
  destruct (256 <=? len (andx_of m ++ p) / 2); [reflexivity|]. destruct (65536 <=? len d); reflexivity.
Qed.

Lemma smb_out_call st R (c : call R) : smb_out st (msg_of c) =
  match m_body (msg_of c) (out_info st (msg_of c)) with
  | Ok (p, d) =>
    if 65536 <=? len d then Err (CreatePacket DataTooBig)
    else Ok (info_write (out_info st (msg_of c)) ++ packed (andx_of (msg_of c) ++ p) d)
  | Err e => Err e
  | Panic => Panic
  end.
Proof.
  rewrite smb_out_eq. destruct (m_body (msg_of c) (out_info st (msg_of c))) as [[p d]|e|] eqn:H; try reflexivity.
  apply words_len in H. rewrite H. destruct (N.leb_spec 256 (2 * wc c / 2)) as [Hw|]; [|reflexivity].
  assert (wc c <= 24) by (destruct c; cbn; lia). lia.
Qed.

Lemma smb_out_len st R (c : call R) b : smb_out st (msg_of c) = Ok b -> len b <= 65618.
Proof.
  rewrite smb_out_call. destruct (m_body (msg_of c) (out_info st (msg_of c))) as [[p d]|e|] eqn:H; [|intros X; discriminate X..].
  apply words_len in H. destruct (N.leb_spec 65536 (len d)); [easy|]. intros Hb. apply ok_inj in Hb. subst b.
  rewrite len_app, len_info_write, len_packed, H.
  assert (wc c <= 24) by (destruct c; cbn; lia). lia.
Qed.

Lemma out_frame_call E st R (c : call R) : out_frame E st (msg_of c) =
  if mid_panics E st then None else
  match smb_out st (msg_of c) with Ok b => Some (session_message b) | _ => None end.
Proof.
  unfold out_frame. destruct (mid_panics E st); [reflexivity|].
  destruct (smb_out st (msg_of c)) as [b|e|] eqn:H; try reflexivity. apply smb_out_len in H.
  unfold NB_MAX. destruct (N.ltb_spec 0x1ffff (len b)); [lia|reflexivity].
Qed.

Lemma out_header st R (c : call R) r : typed_client st -> typed c ->
  request_header (info_write (out_info st (msg_of c)) ++ r) (opcode c)
    (if use_unicode st then 0xc843 else 0x4843) (op_tid c) (uid st) (mid st).
Proof.
  intros Hs Hc. destruct (info_write_header r (out_info_range Hs Hc)) as [-> Ho].
  split.
  - rewrite (header_len _ Ho). lia.
  - apply (header_magic _ Ho).
  - rewrite (header_cmd _ Ho), out_info_eq. cbn [i_cmd]. now rewrite msg_of_cmd.
  - rewrite (header_status _ Ho), out_info_eq. reflexivity.
  - rewrite (header_flags1 _ Ho), out_info_eq. reflexivity.
  - rewrite (header_flags2 _ Ho), out_info_eq. reflexivity.
  - rewrite (header_pid_high _ Ho), out_info_eq. reflexivity.
  - apply (header_sig _ Ho).
  - rewrite (header_tid _ Ho), out_info_eq. reflexivity.
  - rewrite (header_pid_low _ Ho), out_info_eq. reflexivity.
  - rewrite (header_uid _ Ho), out_info_eq. reflexivity.
  - rewrite (header_mid _ Ho), out_info_eq. reflexivity.
Qed.

(** every request, taken apart *)
Lemma request_inv E fuel st R (c : call R) f : request (exec E fuel c) st = Some f ->
  exists p pw d, f = session_message p /\ len p <= 65618
    /\ p = info_write (out_info st (msg_of c)) ++ packed (andx_of (msg_of c) ++ pw) d
    /\ m_body (msg_of c) (out_info st (msg_of c)) = Ok (pw, d)
    /\ smb_parts p (andx_of (msg_of c) ++ pw) d []
    /\ len (andx_of (msg_of c) ++ pw) = 2 * wc c
    /\ mid_panics E st = false.
Proof.
  rewrite request_exec, out_frame_call. destruct (mid_panics E st) eqn:Hm; [easy|].
  destruct (smb_out st (msg_of c)) as [b|e|] eqn:H; try easy. intros Hf. apply some_inj in Hf. subst f.
  pose proof (smb_out_len H) as Hl. rewrite smb_out_call in H.
  destruct (m_body (msg_of c) (out_info st (msg_of c))) as [[pw d]|e|] eqn:Hb; [|discriminate H..].
  destruct (N.leb_spec 65536 (len d)); [discriminate H|]. apply ok_inj in H. subst b.
  eexists. exists pw, d. split; [reflexivity|]. split; [exact Hl|]. split; [reflexivity|]. split; [reflexivity|].
  pose proof (words_len Hb) as Hw. split; [|split; [exact Hw|reflexivity]].
  exists (info_write (out_info st (msg_of c))), (wc c).
  assert (wc c <= 24) by (destruct c; cbn; lia).
  split; [apply len_info_write|]. split; [exact Hw|]. split; [lia|]. split; [exact H0|].
  unfold packed. rewrite Hw. replace (2 * wc c / 2) with (wc c) by lia. rewrite app_nil_r. reflexivity.
Qed.
Lemma request_inv_header E fuel st R (c : call R) f p : typed_client st -> typed c ->
  request (exec E fuel c) st = Some f -> f = session_message p ->
  request_header p (opcode c) (if use_unicode st then 0xc843 else 0x4843) (op_tid c) (uid st) (mid st).
Proof.
  intros Hs Hc H ->. apply request_inv in H. destruct H as (p' & pw & d & H1 & Hl & -> & _).
  assert (p = info_write (out_info st (msg_of c)) ++ packed (andx_of (msg_of c) ++ pw) d) as ->.
  { exact (f_equal (skipn 4) H1). }
  now apply out_header.
Qed.

Lemma request_message E fuel st R (c : call R) f : request (exec E fuel c) st = Some f ->
  exists p, f = session_message p /\ len p <= NB_MAX.
Proof.
  intros H. apply request_inv in H as (p & pw & d & Hf & Hl & _). exists p. split; [exact Hf|]. unfold NB_MAX. lia.
Qed.
