(** * RefServer: an executable server for any service.

    It reads requests and writes replies, and asks the service for the answers.  A
    witness: the theorems about services are not empty.  Not part of the model. *)
From Verif Require Import Base Text Win Errors Common Reply Ntlm Prog Client Spec SpecReply SpecMsg Api SpecCall Flow SpecRemote Sample.
Open Scope N_scope.

Local Notation "'let?' x ':=' c1 'in' c2" := (match c1 with Some x => c2 | None => None end)
  (at level 61, x pattern, c1 at next level, right associativity).

(** ** reading requests *)
(** a string of [n] bytes, its terminating zeros included *)
Definition wide (p : bytes) (o n : N) : option text :=
  let? b := bytes_at p o (n - 2) in
  match decode_utf16le b with Ok s => Some s | _ => None end.
Inductive some_op := Some_op R (o : op R).
Arguments Some_op {R} o.

Definition read_mount (unicode : bool) (p words : bytes) : option some_op :=
  let? n := u16_at words 6 in
  let? raw := bytes_at p 43 n in
  let? password := utf8_decode raw in
  let o := 43 + n + (if unicode then (43 + n) mod 2 else 0) in
  let? path := (if unicode then wide p o (len p - 6 - o)
                else let? b := bytes_at p o (len p - 7 - o) in utf8_decode b) in
  Some (Some_op (OMount path (sent_password password))).
Definition read_open (tid : N) (p words : bytes) : option some_op :=
  let? n := u16_at words 5 in
  let? path := wide p 84 n in
  let? options := u32_at words 39 in
  Some (if options =? 1 then Some_op (OOpenDir tid path) else Some_op (OOpenFile tid path)).
Definition read_trans2 (tid : N) (p words : bytes) : option some_op :=
  let? n := u16_at words 18 in
  let? o := u16_at words 20 in
  let? sub := u16_at words 28 in
  let? sid := u16_at p o in
  let? name := wide p (o + 12) (n - 12) in
  Some (if sub =? 1 then Some_op (OFindFirst tid name) else Some_op (OFindNext tid sid name)).
Definition read_setup (p words : bytes) : option some_op :=
  let? n := u16_at words 14 in
  if len words =? 24 then let? blob := bytes_at p 59 n in Some (Some_op (OSetupBlob blob))
  else
    let? secret := bytes_at p 61 n in
    match parse_utf16le_0 (drop (62 + 2 * n) p) with
    | Ok (who, rest) =>
      match parse_utf16le_0 rest with
      | Ok (domain, _) => Some (Some_op (OSetupAuth who domain secret))
      | _ => None
      end
    | _ => None
    end.
Definition understand (p : bytes) : option some_op :=
  let? code := u8_at p 4 in
  let? flags2 := u16_at p 10 in
  let? tid := u16_at p 24 in
  let? count := u8_at p 32 in
  let? words := bytes_at p 33 (2 * count) in
  if code =? 0x75 then read_mount (N.testbit flags2 15) p words
  else if code =? 0x71 then Some (Some_op (OUmount tid))
  else if code =? 0xa2 then read_open tid p words
  else if code =? 0x04 then let? fid := u16_at words 0 in Some (Some_op (OClose tid fid))
  else if code =? 0x2e then
    let? fid := u16_at words 4 in let? low := u32_at words 6 in let? high := u32_at words 20 in
    Some (Some_op (ORead tid fid (low + 4294967296 * high)))
  else if code =? 0x06 then let? path := wide p 38 (len p - 38) in Some (Some_op (ODelete tid path))
  else if code =? 0x01 then let? path := wide p 36 (len p - 36) in Some (Some_op (ORmdir tid path))
  else if code =? 0xa0 then
    let? mode := u32_at words 38 in let? fid := u16_at words 42 in Some (Some_op (ONotify tid fid mode))
  else if code =? 0x32 then read_trans2 tid p words
  else if code =? 0x72 then Some (Some_op ONegotiate)
  else if code =? 0x73 then read_setup p words
  else None.

(** ** writing replies: words, bytes *)
Definition andx : bytes := [xff; x00; x00; x00].
Definition write_rights (r : option N) : bytes := match r with Some v => le 4 v | None => [] end.
Definition write_share (s : share) : bytes * bytes :=
  (andx ++ le 2 0 ++ write_rights (sh_access_rights s) ++ write_rights (sh_guest_rights s),
   utf8 (sh_service s) ++ [x00] ++ utf8 (sh_filesystem s) ++ [x00]).
Definition write_handle (h : handle) : bytes * bytes :=
  (andx ++ le 1 (h_oplock h) ++ le 2 (h_fid h) ++ le 4 (h_disposition h) ++ le 8 (h_create_time h)
   ++ le 8 (h_access_time h) ++ le 8 (h_write_time h) ++ le 8 (h_change_time h) ++ le 4 (h_attributes h)
   ++ le 8 (h_allocation_size h) ++ le 8 (h_size h) ++ le 2 (h_file_type h) ++ le 2 0
   ++ le 1 (if h_directory h then 1 else 0), []).
Definition write_read (v : bytes) : bytes * bytes :=
  (andx ++ le 2 0 ++ le 2 0 ++ le 2 0 ++ le 2 (len v) ++ le 2 59 ++ zeros 10, v).
Fixpoint write_changes (l : list (text * notify_action)) : bytes :=
  match l with
  | [] => []
  | c :: r =>
    let name := encode_utf16le (fst c) in
    le 4 (match r with [] => 0 | _ => 12 + len name end) ++ le 4 (action_number (snd c)) ++ le 4 (len name) ++ name
    ++ write_changes r
  end.
Definition write_notification (l : list (text * notify_action)) : bytes * bytes :=
  let b := write_changes l in
  (zeros 3 ++ le 4 (len b) ++ le 4 0 ++ le 4 (len b) ++ le 4 72 ++ le 4 0 ++ le 4 0 ++ le 4 0 ++ le 4 0 ++ le 1 0,
   [x00] ++ b).
Definition write_entry (d : dir_info) : bytes :=
  let name := encode_utf16le (d_filename d) in
  le 4 0 ++ le 8 (10 * d_creation d) ++ le 8 (10 * d_access d) ++ le 8 (10 * d_write d) ++ le 8 (10 * d_change d)
  ++ le 8 (d_filesize d) ++ le 8 0 ++ le 4 (d_attributes d) ++ le 4 (len name) ++ name.
Fixpoint write_entries (l : list dir_info) : bytes :=
  match l with
  | [] => []
  | d :: r =>
    let e := write_entry d in
    le 4 (match r with [] => 0 | _ => 4 + len e end) ++ e ++ write_entries r
  end.
Definition write_trans2 (parameter data : bytes) : bytes * bytes :=
  (le 2 (len parameter) ++ le 2 (len data) ++ le 2 0
   ++ le 2 (len parameter) ++ le 2 56 ++ le 2 0
   ++ le 2 (len data) ++ le 2 (56 + len parameter) ++ le 2 0 ++ le 2 0,
   [x00] ++ parameter ++ data).
Definition write_flag (b : bool) : N := if b then 1 else 0.
Definition write_found (f : found) : bytes * bytes :=
  write_trans2 (le 2 (ff_sid f) ++ le 2 (len (ff_info f)) ++ le 2 (write_flag (ff_end f)) ++ le 2 0 ++ le 2 0)
    (write_entries (ff_info f)).
Definition write_found_next (f : found_next) : bytes * bytes :=
  write_trans2 (le 2 (len (fn_info f)) ++ le 2 (write_flag (fn_end f)) ++ le 2 0 ++ le 2 0) (write_entries (fn_info f)).
Definition write_server (s : server_setup) : bytes * bytes :=
  (le 2 (s_dialect s) ++ le 1 (s_security_mode s) ++ le 2 (s_max_mpx_count s) ++ le 2 (s_max_number_vcs s)
   ++ le 4 (s_max_buffer_size s) ++ le 4 (s_max_raw_size s) ++ le 4 (s_session_key s) ++ le 4 (s_capabilities s)
   ++ le 8 (10 * s_system_time s) ++ le 2 (s_timezone s) ++ le 1 (len (s_challenge s)), s_challenge s).
Definition write_session (s : session_setup) : bytes * bytes :=
  (andx ++ le 2 (write_flag (ss_guest_mode s)) ++ le 2 (len (ss_blob s)), ss_blob s).
Definition write {R} (o : op R) : R -> bytes * bytes :=
  match o in op R return R -> bytes * bytes with
  | OMount _ _ => write_share
  | OOpenFile _ _ | OOpenDir _ _ => write_handle
  | ORead _ _ _ => write_read
  | ONotify _ _ _ => write_notification
  | OFindFirst _ _ => write_found
  | OFindNext _ _ _ => write_found_next
  | ONegotiate => write_server
  | OSetupAuth _ _ _ | OSetupBlob _ => write_session
  | OUmount _ | OClose _ _ | ODelete _ _ | ORmdir _ _ => fun _ => ([], [])
  end.
(** tree and user id of the reply *)
Definition reply_tid {R} (o : op R) (tid : N) : R -> N :=
  match o in op R return R -> N with
  | OMount _ _ => sh_tid
  | OOpenFile _ _ | OOpenDir _ _ => h_tid
  | _ => fun _ => tid
  end.
Definition reply_uid {R} (o : op R) (who : N) : R -> N :=
  match o in op R return R -> N with
  | OSetupAuth _ _ _ | OSetupBlob _ => ss_uid
  | _ => fun _ => who
  end.
Definition code_of {R} (o : op R) : N :=
  match o with
  | OMount _ _ => 0x75
  | OUmount _ => 0x71
  | OOpenFile _ _ | OOpenDir _ _ => 0xa2
  | OClose _ _ => 0x04
  | ORead _ _ _ => 0x2e
  | ODelete _ _ => 0x06
  | ORmdir _ _ => 0x01
  | ONotify _ _ _ => 0xa0
  | OFindFirst _ _ | OFindNext _ _ _ => 0x32
  | ONegotiate => 0x72
  | OSetupAuth _ _ _ | OSetupBlob _ => 0x73
  end.
Definition write_reply {R} (o : op R) (tid who id : N) (r : R + N) : bytes :=
  match r with
  | inl v => header (code_of o) 0 0x4801 (reply_tid o tid v) (reply_uid o who v) id
             ++ body (fst (write o v)) (snd (write o v))
  | inr st => header (code_of o) st 0x4801 tid who id ++ body [] []
  end.

(** ** the server *)
Definition ref_server {St} (B : service St) (s : St) (f : bytes) : reaction St :=
  let p := drop 4 f in
  match understand p, u16_at p 24, u16_at p 28, u16_at p 30 with
  | Some (Some_op o), Some tid, Some who, Some id =>
    let (r, s') := B _ who o s in Accept s' (session_message (write_reply o tid who id r)) Open
  | _, _, _, _ => Accept s [] Open
  end.

(** ** answers that can be written down *)
Definition within (mask f : N) : Prop := N.land f mask = f.
Definition u32 (n : N) : Prop := n < 4294967296.
Definition u64 (n : N) : Prop := n < 18446744073709551616.
Definition clean (s : text) : Prop := str s /\ ~ In 0 s.
Definition rights (r : option N) : Prop := match r with Some v => within DIR_ACCESS_BITS v | None => True end.
Definition proper_share (s : share) : Prop :=
  u16 (sh_tid s) /\ rights (sh_access_rights s) /\ rights (sh_guest_rights s)
  /\ (sh_access_rights s = None -> sh_guest_rights s = None)
  /\ clean (sh_service s) /\ clean (sh_filesystem s)
  /\ len (utf8 (sh_service s)) + len (utf8 (sh_filesystem s)) + 2 < 65536.
Definition proper_handle (h : handle) : Prop :=
  u16 (h_tid h) /\ u16 (h_fid h) /\ within OPLOCK_BITS (h_oplock h) /\ within DISPOSITION_BITS (h_disposition h)
  /\ u64 (h_create_time h) /\ u64 (h_access_time h) /\ u64 (h_write_time h) /\ u64 (h_change_time h)
  /\ within FILE_ATTR_BITS (h_attributes h) /\ u64 (h_allocation_size h) /\ u64 (h_size h)
  /\ within RESOURCE_BITS (h_file_type h).
Definition proper_notification (l : list (text * notify_action)) : Prop :=
  Forall (fun c => str (fst c)) l /\ len (write_changes l) < 65535.
Definition proper_entry (d : dir_info) : Prop :=
  u64 (10 * d_creation d) /\ u64 (10 * d_access d) /\ u64 (10 * d_write d) /\ u64 (10 * d_change d)
  /\ u64 (d_filesize d) /\ within FILE_ATTR_BITS (d_attributes d) /\ str (d_filename d).
Definition proper_found (f : found) : Prop :=
  u16 (ff_sid f) /\ Forall proper_entry (ff_info f) /\ (ff_info f = [] -> ff_end f = true)
  /\ len (write_entries (ff_info f)) < 65400.
(** find next: only the end of the search can be answered, see C26 *)
Definition proper_found_next (f : found_next) : Prop := fn_info f = [] /\ fn_end f = true.
Definition proper_server (s : server_setup) : Prop :=
  s_dialect s = 0 /\ s_security_mode s < 256 /\ u16 (s_max_mpx_count s) /\ u16 (s_max_number_vcs s)
  /\ u32 (s_max_buffer_size s) /\ u32 (s_max_raw_size s) /\ u32 (s_session_key s)
  /\ within CAPABILITY_BITS (s_capabilities s) /\ u64 (10 * s_system_time s) /\ u16 (s_timezone s)
  /\ len (s_challenge s) < 256.
Definition proper_session (s : session_setup) : Prop := u16 (ss_uid s) /\ len (ss_blob s) < 65536.
Definition proper_value {R} (o : op R) : R -> Prop :=
  match o in op R return R -> Prop with
  | OMount _ _ => proper_share
  | OOpenFile _ _ | OOpenDir _ _ => proper_handle
  | ORead _ _ _ => fun v => len v < 65536
  | ONotify _ _ _ => proper_notification
  | OFindFirst _ _ => proper_found
  | OFindNext _ _ _ => proper_found_next
  | ONegotiate => proper_server
  | OSetupAuth _ _ _ | OSetupBlob _ => proper_session
  | OUmount _ | OClose _ _ | ODelete _ _ | ORmdir _ _ => fun _ => True
  end.
Definition proper_status {R} (o : op R) (st : N) : Prop :=
  u32 st /\ st <> 0 /\ (code_of o = 0x73 -> st <> 0xc0000016).
Definition proper {St} (B : service St) : Prop :=
  forall R who (o : op R) s,
  match fst (B R who o s) with inl v => proper_value o v | inr st => proper_status o st end.
