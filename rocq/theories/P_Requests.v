(** * Properties of requests: C08-C17, C20, C21, C45, C57 *)
From Verif Require Import Base Text Utils Win Errors Info Common Msg Reply Ntlm Prog Client Spec SpecReply SpecMsg
  Api SpecCall Flow Sample BaseFacts TextFacts RunFacts SpecFacts InfoFacts ClientFacts MsgFacts ReplyFacts CallFacts SizeFacts ReqFacts FlowFacts WrapFacts AskFacts.
Open Scope N_scope.

(** C08: whatever calls a user makes in whatever order, against any server: the ids of
    the frames written are pairwise distinct, up to 65536 calls, or for any number of calls if
    arithmetic is checked; and consecutive if no call was refused.
    Partial: the statement for any number of requests is false (below). *)
Theorem C08_history_partial : forall E fuel A (p : flow A) Sv (react : Sv -> bytes -> reaction Sv) w, mid (cl w) < 65536 ->
  exists k l is, tx (final (run react (interp E fuel p) w)) = tx w ++ l
  /\ written E (cl w) k l (cl (final (run react (interp E fuel p) w))) /\ ids_of l is
  /\ (overflow_checks E = true \/ k <= 65536 -> NoDup is)
  /\ (k = len l -> consecutive (mid (cl w)) is).
Proof. exact history. Qed.
Print Assumptions C08_history_partial.
(** The functions of the crate that make several calls are such sequences of calls. *)
Theorem C08_download : forall E fuel s path, same_prog (download E fuel s path) (interp E fuel (download_flow fuel s path)).
Proof. exact download_same. Qed.
Print Assumptions C08_download.
Theorem C08_list : forall E fuel s pattern, same_prog (list_dir E fuel s pattern) (interp E fuel (list_flow fuel s pattern)).
Proof. exact list_same. Qed.
Print Assumptions C08_list.
Theorem C08_open : forall E fuel, same_prog (setup_connection E fuel) (interp E fuel (setup_flow E)).
Proof. exact setup_same. Qed.
Print Assumptions C08_open.
(** Without overflow checks the 65537th request repeats the id of the first. *)
Theorem C08_wraps_refuted : exists (p : flow unit) fuel w' i j f g, user p
  /\ run silent (interp (env0 false) fuel p) (deaf 0 []) = Done (Good tt) w'
  /\ (i < j)%nat /\ nth_error (tx w') i = Some f /\ nth_error (tx w') j = Some g /\ frame_id f = frame_id g.
Proof. exact wraps. Qed.
Print Assumptions C08_wraps_refuted.
(** With overflow checks the 65536th call panics. *)
Theorem C08_overflows_refuted : exists (p : flow unit) fuel w', user p
  /\ run silent (interp (env0 true) fuel p) (deaf 0 []) = Crashed w'.
Proof. exact overflows. Qed.
Print Assumptions C08_overflows_refuted.
(** A call refused for its arguments uses up an id: the first frame carries id 1. *)
Theorem C08_gap_refuted : exists (p : flow unit) fuel w' f, user p
  /\ run silent (interp (env0 true) fuel p) (deaf 0 []) = Done (Good tt) w'
  /\ tx w' = [f] /\ frame_id f = Some 1.
Proof. exact gap. Qed.
Print Assumptions C08_gap_refuted.
Example C08_example : exists w' f g, run silent (interp (env0 true) 5 (closes 2)) (deaf 3 []) = Done (Good tt) w'
  /\ tx w' = [f; g] /\ frame_id f = Some 3 /\ frame_id g = Some 4.
Proof. do 3 eexists. split; [runs|]. split; [reflexivity|]. split; reflexivity. Qed.

(** C09: magic, command, status 0, uid of the session, tid of the share or handle, unicode
    flag iff negotiated (the rest of [request_header]: flags, process id, signature). *)
Theorem C09_identity : forall E fuel st, typed_client st -> forall R (c : call R) f, typed c -> request (exec E fuel c) st = Some f ->
  exists p flags2, f = session_message p
    /\ request_header p (opcode c) flags2 (op_tid c) (uid st) (mid st) /\ N.testbit flags2 15 = use_unicode st.
Proof. exact request_identity. Qed.
Print Assumptions C09_identity.
(** In any history, every frame (or part of one, if the stream fails) is the request of a call. *)
Theorem C09_history : forall E st k l st', written E st k l st' -> forall f, In f l ->
  exists stf R (c : call R) g, is_request E stf c g /\ (f = g \/ exists n, f = take n g).
Proof. exact written_identity. Qed.
Print Assumptions C09_history.
Example C09_example : typed_client client0 /\ typed (Close handle0)
  /\ match request (exec (env0 true) 5 (Close handle0)) client0 with
     | Some f => u8_at f 8 = Some 0x04 /\ u16_at f 28 = Some 5 /\ u16_at f 32 = Some 7 /\ u16_at f 34 = Some 3
     | None => False end.
Proof. split; [split; vm_compute; reflexivity|]. split; [split; vm_compute; reflexivity|]. vm_compute. auto. Qed.

(** C10 *)
Theorem C10_read : forall p code st mid, smb_reply p code st mid ->
  exists i, info_parse p = Ok (i, drop 32 p) /\ cmd_code (i_cmd i) = code /\ status_code (i_status i) = st /\ i_mid i = mid
   /\ u16_at p 24 = Some (i_tid i) /\ u16_at p 28 = Some (i_uid i)
   /\ u8_at p 9 = Some (i_flags1 i)
   /\ (exists f2, u16_at p 10 = Some f2 /\ flags_of FLAGS2_BITS f2 (i_flags2 i))
   /\ (exists hi lo, u16_at p 12 = Some hi /\ u16_at p 26 = Some lo /\ i_pid i = hi * 65536 + lo).
Proof. exact header_read. Qed.
Print Assumptions C10_read.
(** every message is a reply header, or rejected with the error of its defect *)
Theorem C10_rejected : forall p,
  (len p < 32 /\ info_parse p = Err InvalidHeader)
  \/ (32 <= len p /\ take 4 p <> magic /\ info_parse p = Err InvalidHeader)
  \/ (32 <= len p /\ take 4 p = magic /\ exists c, u8_at p 4 = Some c /\ ~ In c known_codes
      /\ info_parse p = Err (InvalidCommand c))
  \/ (32 <= len p /\ take 4 p = magic /\ (exists c, u8_at p 4 = Some c /\ In c known_codes)
      /\ (exists f, u8_at p 9 = Some f /\ N.testbit f 7 = false) /\ info_parse p = Err ReplyExpected)
  \/ (exists code st mid, smb_reply p code st mid).
Proof. exact info_parse_total. Qed.
Print Assumptions C10_rejected.
Theorem C10_no_crash : forall p, info_parse p <> Panic.
Proof. exact info_parse_no_panic. Qed.
Print Assumptions C10_no_crash.
(** a header as written: the fields at the offsets of the layout *)
Theorem C10_written : forall i r, info_range i ->
  take 4 (info_write i ++ r) = magic /\ u8_at (info_write i ++ r) 4 = Some (cmd_code (i_cmd i))
  /\ u32_at (info_write i ++ r) 5 = Some (status_code (i_status i))
  /\ u8_at (info_write i ++ r) 9 = Some (i_flags1 i) /\ u16_at (info_write i ++ r) 10 = Some (i_flags2 i)
  /\ u16_at (info_write i ++ r) 12 = Some (i_pid i / 65536) /\ bytes_at (info_write i ++ r) 14 8 = Some (zeros 8)
  /\ u16_at (info_write i ++ r) 24 = Some (i_tid i) /\ u16_at (info_write i ++ r) 26 = Some (i_pid i mod 65536)
  /\ u16_at (info_write i ++ r) 28 = Some (i_uid i) /\ u16_at (info_write i ++ r) 30 = Some (i_mid i)
  /\ drop 32 (info_write i ++ r) = r.
Proof. exact header_written. Qed.
Print Assumptions C10_written.
(** and read back *)
Theorem C10_round_trip : forall i r, info_range i -> status_of_code (status_code (i_status i)) = i_status i ->
  flags_of FLAGS1_BITS (i_flags1 i) (i_flags1 i) -> flags_of FLAGS2_BITS (i_flags2 i) (i_flags2 i) ->
  info_parse (info_write i ++ r) = if N.testbit (i_flags1 i) 7 then Ok (i, r) else Err ReplyExpected.
Proof. exact header_round. Qed.
Print Assumptions C10_round_trip.
Example C10_example2 : let i := mk_info CCreate (Known ACCESS_DENIED) 0x98 0xc843 0x1feff 1 2 3 in
  info_range i /\ N.testbit (i_flags1 i) 7 = true /\ flags_of FLAGS2_BITS (i_flags2 i) (i_flags2 i)
  /\ info_parse (info_write i ++ [x01]) = Ok (i, [x01]).
Proof.
  split; [split; vm_compute; reflexivity|]. split; [reflexivity|]. split; [apply flags_of_iff; reflexivity|]. vm_compute. reflexivity.
Qed.
Example C10_example : smb_reply (message 0x04 0xc0000022 3 [] []) 0x04 0xc0000022 3.
Proof. unfold smb_reply. repeat split; try reflexivity; [now vm_compute|vm_compute; tauto|]. eexists. split; reflexivity. Qed.

(** C11: header, words and bytes make up the message, with the counts as announced
    ([smb_parts]), and nothing behind. *)
Theorem C11_consistent : forall E fuel st R (c : call R) f, request (exec E fuel c) st = Some f ->
  exists p words data, f = session_message p /\ smb_parts p words data [] /\ len p <= 65618.
Proof. exact request_consistent. Qed.
Print Assumptions C11_consistent.
Example C11_example : exists f, request (exec (env0 true) 5 (OpenFile share0 [97; 47; 98])) client0 = Some f /\ len f = 96.
Proof. eexists. split; [runs|]. reflexivity. Qed.

(** C12: a request is made iff the arguments fit (and, with overflow checks, an id is left) *)
Theorem C12_sent_iff : forall E fuel R (c : call R) st,
  (exists f, request (exec E fuel c) st = Some f) <-> fits_request (use_unicode st) c /\ ~ mid_full E st.
Proof. exact request_iff. Qed.
Print Assumptions C12_sent_iff.
(** Otherwise the call returns the error that says why, nothing is sent and nothing received.
    Partial: except for search patterns of 32726 to 32760 UTF-16 units. *)
Theorem C12_refused_partial : forall Sv (react : Sv -> bytes -> reaction Sv) E fuel R (c : call R) w,
  ~ fits_request (use_unicode (cl w)) c -> ~ pattern_window c -> ~ mid_full E (cl w) ->
  run react (exec E fuel c) w = Done (Bad (ESmb (CreatePacket (refusal c))))
    (mk_world (next_client (cl w)) (srv w) (rx w) (tl w) (tx w)).
Proof. exact call_refused. Qed.
Print Assumptions C12_refused_partial.
(** These crash: *)
Theorem C12_window : forall Sv (react : Sv -> bytes -> reaction Sv) E fuel R (c : call R) w,
  pattern_window c -> ~ mid_full E (cl w) ->
  run react (exec E fuel c) w = Crashed (mk_world (next_client (cl w)) (srv w) (rx w) (tl w) (tx w)).
Proof. exact call_window. Qed.
Print Assumptions C12_window.
Theorem C12_panics_refuted : exists pattern w', is_str pattern
  /\ run script (exec (env0 true) 100 (FindFirst share0 pattern)) (world0 []) = Crashed w'.
Proof. exact window_crash. Qed.
Print Assumptions C12_panics_refuted.
Example C12_example : exists path, is_str path /\ ~ fits_request true (OpenFile share0 path) /\ ~ pattern_window (OpenFile share0 path)
  /\ ~ mid_full (env0 true) client0.
Proof.
  destruct long_path as (path & H1 & H2). exists path. split; [now apply is_text_str|]. cbn [fits_request pattern_window]. rewrite H2.
  split; [lia|]. split; [tauto|]. intros [_ H]. cbn in H. lia.
Qed.

(** C13: no request is longer than a NetBIOS frame can be.
    Partial: the size the server announced is not respected. *)
Theorem C13_netbios_partial : forall E fuel st R (c : call R) f, request (exec E fuel c) st = Some f ->
  exists p, f = session_message p /\ len p <= NB_MAX.
Proof. exact request_message. Qed.
Print Assumptions C13_netbios_partial.
Example C13_example : exists f, request (exec (env0 true) 5 (OpenFile share0 [97])) client0 = Some f /\ len f = 92.
Proof. eexists. split; [runs|]. reflexivity. Qed.
Theorem C13_buffer_refuted : exists st p, max_smb_size st = 1024 /\ typed_client st /\ typed (OpenFile share0 path600)
  /\ request (exec (env0 true) 0 (OpenFile share0 path600)) st = Some (session_message p) /\ 1024 < len p.
Proof. exact small_buffer. Qed.
Print Assumptions C13_buffer_refuted.

(** C14 *)
Theorem C14_read : forall E fuel st, typed_client st -> forall h offset f, u16 (h_tid h) -> u16 (h_fid h) -> offset < 2 ^ 64 ->
  request (exec E fuel (ReadAt h offset)) st = Some f ->
  exists p words low high, f = session_message p /\ smb_parts p words [] [] /\ len words = 24 /\ last_command words
    /\ u8_at p 4 = Some 0x2e /\ u16_at p 24 = Some (h_tid h) /\ u16_at words 4 = Some (h_fid h)
    /\ u32_at words 6 = Some low /\ u32_at words 20 = Some high /\ offset = low + 4294967296 * high
    /\ u16_at words 10 = Some 65534 /\ u16_at words 12 = Some 32768.
Proof. exact request_read. Qed.
Print Assumptions C14_read.
Example C14_example : match request (exec (env0 true) 5 (ReadAt handle0 0x1122334455667788)) client0 with
  | Some f => u32_at f 43 = Some 0x55667788 /\ u32_at f 57 = Some 0x11223344 /\ u16_at f 41 = Some 9
  | None => False end.
Proof. vm_compute. auto. Qed.

(** C15 *)
Theorem C15_close : forall E fuel st, typed_client st -> forall h f, u16 (h_tid h) -> u16 (h_fid h) ->
  request (exec E fuel (Close h)) st = Some f ->
  exists p words, f = session_message p /\ smb_parts p words [] [] /\ len words = 6
    /\ u8_at p 4 = Some 0x04 /\ u16_at p 24 = Some (h_tid h) /\ u16_at words 0 = Some (h_fid h)
    /\ u32_at words 2 = Some 0.
Proof. exact request_close. Qed.
Print Assumptions C15_close.
Theorem C15_umount : forall E fuel st, typed_client st -> forall s f, u16 (sh_tid s) -> request (exec E fuel (Umount s)) st = Some f ->
  exists p, f = session_message p /\ smb_parts p [] [] [] /\ u8_at p 4 = Some 0x71 /\ u16_at p 24 = Some (sh_tid s).
Proof. exact request_umount. Qed.
Print Assumptions C15_umount.
Example C15_example : request (exec (env0 true) 5 (Umount share0)) client0 <> None
  /\ request (exec (env0 true) 5 (Close handle0)) client0 <> None.
Proof. split; vm_compute; discriminate. Qed.

(** C16 *)
Theorem C16_openfile : forall E fuel st, typed_client st -> forall s path f, u16 (sh_tid s) -> is_str path ->
  request (exec E fuel (OpenFile s path)) st = Some f ->
  exists p words data, f = session_message p /\ smb_parts p words data [] /\ u8_at p 4 = Some 0xa2 /\ u16_at p 24 = Some (sh_tid s)
    /\ opens_read_only words false.
Proof. exact request_openfile. Qed.
Print Assumptions C16_openfile.
Theorem C16_opendir : forall E fuel st, typed_client st -> forall s path f, u16 (sh_tid s) -> is_str path ->
  request (exec E fuel (OpenDir s path)) st = Some f ->
  exists p words data, f = session_message p /\ smb_parts p words data [] /\ u8_at p 4 = Some 0xa2 /\ u16_at p 24 = Some (sh_tid s)
    /\ opens_read_only words true.
Proof. exact request_opendir. Qed.
Print Assumptions C16_opendir.
Example C16_example : request (exec (env0 true) 5 (OpenFile share0 [97])) client0 <> None
  /\ request (exec (env0 true) 5 (OpenDir share0 [97])) client0 <> None.
Proof. split; vm_compute; discriminate. Qed.

(** C17 *)
Theorem C17_paths : forall E fuel st, typed_client st -> forall R (c : call R) path f, typed c -> path_of c = Some path ->
  request (exec E fuel c) st = Some f -> (opcode c = 0x75 -> use_unicode st = true) ->
  exists p words data o n, f = session_message p /\ smb_parts p words data [] /\ path_at p o n path /\ path_end_at c p words o n.
Proof. exact request_path. Qed.
Print Assumptions C17_paths.
Example C17_example : match request (exec (env0 true) 5 (FindFirst share0 [97; 47; 8364])) client0 with
  | Some f => bytes_at f 84 8 = Some [x61; x00; x5c; x00; xac; x20; x00; x00]
  | None => False end.
Proof. vm_compute. auto. Qed.

(** C20: share names (tree connect) are UTF-16 iff the header says so.
    Partial: all other strings are UTF-16, whatever the flag says ([C17_paths] needs no
    hypothesis on it). *)
Theorem C20_mount_partial : forall E fuel st, typed_client st -> forall R (c : call R) path f, typed c -> path_of c = Some path ->
  opcode c = 0x75 -> request (exec E fuel c) st = Some f ->
  exists p words data flags2 o n, f = session_message p /\ smb_parts p words data [] /\ u16_at p 10 = Some flags2
   /\ if N.testbit flags2 15 then path_at p o n path
      else exists q b, windows_path path q /\ utf8_of q b /\ bytes_at p o n = Some (b ++ [x00]).
Proof. exact request_mount_encoding. Qed.
Print Assumptions C20_mount_partial.
Theorem C20_open_refuted : exists p, let st := mk_cifs default_auth 4356 false 7 3 in
  request (exec (env0 true) 0 (OpenFile share0 [97; 98])) st = Some (session_message p)
  /\ u16_at p 10 = Some 0x4843 (* the unicode flag, bit 15, is not set *)
  /\ bytes_at p 84 6 = Some [x61; x00; x62; x00; x00; x00].
Proof. exact no_unicode. Qed.
Print Assumptions C20_open_refuted.
Example C20_example : match request (exec (env0 true) 5 (Mount [92; 97])) (mk_cifs default_auth 4356 false 7 3) with
  | Some f => u16_at f 14 = Some 0x4843 /\ bytes_at f 48 3 = Some [x5c; x61; x00]
  | None => False end.
Proof. vm_compute. auto. Qed.

(** C21 *)
Theorem C21_find : forall E fuel st, typed_client st -> forall R (c : call R) f, typed c -> opcode c = 0x32 ->
  request (exec E fuel c) st = Some f ->
  exists p words data sub parameter, f = session_message p /\ smb_parts p words data [] /\ asks_trans2 sub p words parameter.
Proof. exact request_find. Qed.
Print Assumptions C21_find.
Theorem C21_notify : forall E fuel st, typed_client st -> forall h mode f, u16 (h_tid h) -> u16 (h_fid h) -> mode < 2 ^ 32 ->
  request (exec E fuel (NotifyAbout h mode)) st = Some f ->
  exists p words data, f = session_message p /\ smb_parts p words data [] /\ u8_at p 4 = Some 0xa0
    /\ u16_at p 24 = Some (h_tid h) /\ asks_notify p words (h_fid h) mode.
Proof. exact request_notify_about. Qed.
Print Assumptions C21_notify.
(** the whole contents of every request, field by field *)
Theorem C21_contents : forall E fuel R (c : call R) st f, typed_client st -> typed c -> request (exec E fuel c) st = Some f ->
  exists p words data, f = session_message p /\ len p <= 65618 /\ smb_parts p words data []
  /\ request_header p (opcode c) (if use_unicode st then 0xc843 else 0x4843) (op_tid c) (uid st) (mid st)
  /\ asks (use_unicode st) c p words data.
Proof. intros E fuel R c st f Hs Hc. exact (request_asks Hs Hc). Qed.
Print Assumptions C21_contents.
Example C21_example : match request (exec (env0 true) 5 (FindNext share0 77 [97; 98])) client0 with
  | Some f => u16_at f 57 = Some 68 /\ u16_at f 55 = Some 18 /\ u16_at f (4 + 68) = Some 77
  | None => False end.
Proof. vm_compute. auto. Qed.

(** C45 *)
Theorem C45_notify_about : forall E fuel st, typed_client st -> forall h mode f, u16 (h_tid h) -> u16 (h_fid h) -> mode < 2 ^ 32 ->
  request (exec E fuel (NotifyAbout h mode)) st = Some f ->
  exists p words data, f = session_message p /\ smb_parts p words data [] /\ u8_at p 4 = Some 0xa0
    /\ u16_at p 24 = Some (h_tid h) /\ asks_notify p words (h_fid h) mode.
Proof. exact request_notify_about. Qed.
Print Assumptions C45_notify_about.
Theorem C45_notify : forall E fuel st, typed_client st -> forall h f, u16 (h_tid h) -> u16 (h_fid h) ->
  request (exec E fuel (Notify h)) st = Some f ->
  exists p words data, f = session_message p /\ smb_parts p words data [] /\ u8_at p 4 = Some 0xa0
    /\ u16_at p 24 = Some (h_tid h) /\ asks_notify p words (h_fid h) 0xfff.
Proof. exact request_notify. Qed.
Print Assumptions C45_notify.
Example C45_example : match request (exec (env0 true) 5 (NotifyAbout handle0 0x105)) client0 with
  | Some f => u32_at f 75 = Some 0x105 /\ u16_at f 79 = Some 9 /\ u8_at f 81 = Some 0
  | None => False end.
Proof. vm_compute. auto. Qed.

(** C57: a call writes at most one frame, namely its request ([call_writes]); *)
Theorem C57_one : forall Sv (react : Sv -> bytes -> reaction Sv) E fuel R (c : call R) w, exists l,
  tx (final (run react (exec E fuel c) w)) = tx w ++ l
  /\ call_writes E (cl w) c fuel l (cl (final (run react (exec E fuel c) w))).
Proof. exact call_once. Qed.
Print Assumptions C57_one.
(** exactly one, unless it returns an argument error (none) or the stream fails (a part). *)
Theorem C57_answered : forall Sv (react : Sv -> bytes -> reaction Sv) E fuel R (c : call R) w a w',
  run react (exec E fuel c) w = Done a w' ->
  (exists f, request (exec E fuel c) (cl w) = Some f /\ tx w' = tx w ++ [f])
  \/ (request (exec E fuel c) (cl w) = None /\ tx w' = tx w /\ exists e, a = Bad (ESmb (CreatePacket e)))
  \/ (exists f n e, request (exec E fuel c) (cl w) = Some f /\ tx w' = tx w ++ [take n f]
      /\ a = Bad (ENetBios (IoError (IoOther e)))).
Proof. exact call_answered. Qed.
Print Assumptions C57_answered.
Example C57_example : exists w', run script (exec (env0 true) 5 (Close handle0)) (world0 [session_message (message 0x04 0 3 [] [])])
  = Done (Good tt) w' /\ len (tx w') = 1.
Proof. eexists. split; [runs|]. reflexivity. Qed.
