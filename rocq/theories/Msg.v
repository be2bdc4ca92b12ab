(** * Msg: outgoing messages (smb/msg.rs, smb/trans.rs, smb/trans2/msg.rs,
    smb/trans2/subcmd/*.rs). *)
From Verif Require Import Base Text Utils Win Errors Info.
Open Scope N_scope.

(** smb/msg.rs:13-27 trait Msg.  [m_body info] returns the bytes appended to the
    parameter block (behind AndX) and the data block; [m_fix] is fix_header. *)
Record msg := mk_msg {
  m_cmd : cmd;
  m_andx : bool;
  m_fix : info -> info;
  m_body : info -> res smb_error (bytes * bytes)
}.

(** usize::MAX on a 64 bit target *)
Definition USIZE_MAX : N := 2 ^ 64 - 1.

(** bytes 1.x: BytesMut::remaining_mut() = usize::MAX - len (the buffer grows) *)
Definition remaining_mut (buflen : N) : N := USIZE_MAX - buflen.

(** smb/msg.rs:32-74 Msg::write.  [buflen] is the length already in the buffer;
    the result is what is appended. *)
Definition msg_write (m : msg) (i : info) (buflen : N) : res smb_error bytes :=
  let andx := if m_andx m then andx_write CNoCommand 0 else [] in
  let* (p, data) := m_body m i in
  let parameter := andx ++ p in
  let* parameter_len := try_into 8 (CreatePacket ParameterTooBig) (len parameter / 2) in
  if remaining_mut buflen <? len parameter then Err (CreatePacket BufferTooSmallParameter) else
  let out := le 1 parameter_len ++ parameter in
  let* data_len := try_into 16 (CreatePacket DataTooBig) (len data) in
  if remaining_mut (buflen + len out) <? len data then Err (CreatePacket BufferTooSmallData) else
  Ok (out ++ le 2 data_len ++ data).

Definition no_fix (i : info) : info := i.

(** smb/msg.rs:80-97 Negotiate *)
Definition msg_negotiate : msg :=
  mk_msg CNegotiate false no_fix
    (fun _ => Ok ([], flat_map (fun d => [x02] ++ d ++ [x00]) SMB_SUPPORTED_DIALECTS)).

(** smb/msg.rs:111-119 SessionSetupMode *)
Inductive setup_mode :=
| Classic (user domain : text) (secret : bytes)
| Extended (blob : bytes).

(** smb/msg.rs:122-158 with_auth, with_blob: the capabilities *)
Definition setup_caps (m : setup_mode) : N :=
  match m with
  | Classic _ _ _ => lor_all [CAP_UNICODE; CAP_LARGE_FILES; CAP_NT_SMBS; CAP_NTSTATUS]
  | Extended _ => lor_all [CAP_UNICODE; CAP_LARGE_FILES; CAP_NT_SMBS; CAP_NTSTATUS;
                           CAP_EXTENDED_SECURITY]
  end.

(** smb/msg.rs:165-228 SessionSetup::body *)
Definition session_setup_with (max_buffer_size max_mpx_count vc_number session_key capabilities : N)
  (m : setup_mode) (i : info) : res smb_error (bytes * bytes) :=
  let p1 := le 2 max_buffer_size ++ le 2 max_mpx_count ++ le 2 vc_number ++ le 4 session_key in
  let* p2 :=
    match m with
    | Classic _ _ secret =>
        let* n := try_into 16 (CreatePacket SecretTooBig) (len secret) in
        Ok (le 2 n ++ le 2 n)
    | Extended blob =>
        let* n := try_into 16 (CreatePacket BlobTooBig) (len blob) in
        Ok (le 2 n)
    end in
  let p3 := le 4 0 ++ le 4 capabilities in
  let d1 :=
    match m with
    | Classic user domain secret =>
        let d := secret ++ secret in
        let d := if len d mod 2 =? 0 then d ++ [x00] else d in
        d ++ encode_utf16le_0 user ++ encode_utf16le_0 domain
    | Extended blob =>
        blob ++ (if len blob mod 2 =? 0 then [x00] else [])
    end in
  let d2 := if contains (i_flags2 i) F2_UNICODE then le 2 0 ++ le 2 0 else zeros 2 in
  Ok (p1 ++ p2 ++ p3, d1 ++ d2).

(** with the constants of with_auth and with_blob (smb/msg.rs:131-138, 150-157) *)
Definition session_setup_body (m : setup_mode) : info -> res smb_error (bytes * bytes) :=
  session_setup_with 65535 0 0 0 (setup_caps m) m.
Definition msg_session_setup (m : setup_mode) : msg :=
  mk_msg CSessionSetup true no_fix (session_setup_body m).

(** smb/msg.rs:235-298 TreeConnect.  [String::len] counts UTF-8 bytes. *)
Definition tree_connect_body (path password : text) (i : info)
  : res smb_error (bytes * bytes) :=
  let password := if 0 <? len (utf8 password) then utf8 password else [x00] in
  let* password_length := try_into 16 (CreatePacket PasswordTooLong) (len password) in
  let p := le 2 TC_EXTENDED_RESPONSE ++ le 2 password_length in
  let d :=
    if contains (i_flags2 i) F2_UNICODE then
      (if len password mod 2 =? 0 then [x00] else [])
      ++ encode_utf16le path ++ le 2 0
    else utf8 path ++ [x00] in
  Ok (p, password ++ d ++ repeat x3f 5 ++ [x00]).

Definition msg_tree_connect (path password : text) : msg :=
  mk_msg CTreeConnect true no_fix (tree_connect_body path password).

(** smb/msg.rs:302-321 TreeDisconnect *)
Definition msg_tree_disconnect (tid : N) : msg :=
  mk_msg CTreeDisconnect false (set_tid tid) (fun _ => Ok ([], [])).

(** smb/msg.rs:326-339 Open *)
Record open_params := mk_open {
  o_filename : text;
  o_create_flags : N;
  o_directory : N;
  o_access : N;
  o_allocation_size : N;
  o_attributes : N;
  o_share_access : N;
  o_disposition : N;
  o_options : N;
  o_impersonation : N;
  o_security : N
}.

(** smb/msg.rs:342-357 Open::file_ro *)
Definition open_file_ro (filename : text) : open_params :=
  mk_open filename 0 0 (lor_all [ACC_READ; ACC_READ_EA; ACC_SYNCHRONIZE]) 0 0
    SHARE_READ DISP_OPEN OPT_NON_DIRECTORY IMPERSONATE 0.

(** smb/msg.rs:359-374 Open::dir *)
Definition open_dir (filename : text) : open_params :=
  mk_open filename 0 0 ACC_READ 0 0
    (lor_all [SHARE_READ; SHARE_WRITE; SHARE_DELETE]) DISP_OPEN OPT_DIRECTORY IMPERSONATE 0.

(** smb/msg.rs:385-413 Open::body *)
Definition open_body (o : open_params) (_ : info) : res smb_error (bytes * bytes) :=
  let encoded := encode_utf16le_0 (o_filename o) in
  let* filename_length := try_into 16 (CreatePacket FilenameTooLong) (len encoded) in
  Ok (le 1 0
      ++ le 2 filename_length
      ++ le 4 (o_create_flags o)
      ++ le 4 (o_directory o)
      ++ le 4 (o_access o)
      ++ le 8 (o_allocation_size o)
      ++ le 4 (o_attributes o)
      ++ le 4 (o_share_access o)
      ++ le 4 (o_disposition o)
      ++ le 4 (o_options o)
      ++ le 4 (o_impersonation o)
      ++ le 1 (o_security o),
      [x00] ++ encoded).

(** smb/msg.rs:377-383 *)
Definition msg_open (tid : N) (o : open_params) : msg :=
  mk_msg CCreate true (set_tid tid) (open_body o).

(** smb/msg.rs:418-453 Close *)
Definition msg_close (tid fid : N) : msg :=
  mk_msg CClose false (set_tid tid) (fun _ => Ok (le 2 fid ++ le 4 0, [])).

(** smb/msg.rs:457-505 Read *)
Definition msg_read (tid fid offset : N) : msg :=
  mk_msg CRead true (set_tid tid)
    (fun _ => Ok (le 2 fid
                  ++ le 4 (N.land offset 0xffffffff)
                  ++ le 2 SMB_READ_MAX
                  ++ le 2 SMB_READ_MIN
                  ++ le 4 0
                  ++ le 2 0
                  ++ le 4 (N.shiftr offset 32), [])).

(** smb/msg.rs:510-544 Delete *)
Definition msg_delete (tid : N) (filename : text) : msg :=
  mk_msg CDelete false (set_tid tid)
    (fun _ => Ok (le 2 (N.lor ATTR_HIDDEN ATTR_SYSTEM),
                  [x04] ++ encode_utf16le_0 filename)).

(** smb/msg.rs:547-574 Rmdir *)
Definition msg_rmdir (tid : N) (dirname : text) : msg :=
  mk_msg CRmdir false (set_tid tid)
    (fun _ => Ok ([], [x04] ++ encode_utf16le_0 dirname)).

(** smb/trans.rs:9-27 trait SubCmd (transact) *)
Record subcmd := mk_subcmd {
  t_id : N;
  t_max_setup : N;
  t_max_param : N;
  t_max_data : N;
  t_setup : bytes;
  t_parameter : bytes;
  t_data : bytes
}.

(** smb/trans.rs:66-90 NotifySetup *)
Definition notify_setup (fid mode : N) (recursive : bool) : subcmd :=
  mk_subcmd 4 0 1000 0
    (le 4 mode ++ le 2 fid ++ le 1 (if recursive then 1 else 0) ++ le 1 0) [] [].

(** [try_into().expect(..)] for u16/u32 ([k] bits) *)
Definition try_into_expect {E} (k v : N) : res E N :=
  if fits k v then Ok v else Panic.

(** smb/msg.rs:600-663 Transact::body *)
Definition transact_body (t : subcmd) (_ : info) : res smb_error (bytes * bytes) :=
  let sub_setup := t_setup t in
  let* sub_setup_words := try_into 8 (CreatePacket SetupTooLarge) (len sub_setup / 2) in
  let sub_parameter := t_parameter t in
  let* sub_parameter_len :=
    try_into 32 (CreatePacket TransParameterTooLarge) (len sub_parameter) in
  let sub_data := t_data t in
  let* sub_data_len := try_into 32 (CreatePacket TransDataTooLarge) (len sub_data) in
  let data_start := SMB_HEADER_LEN + 1 + 38 + len sub_setup + 2 in
  let sub_parameter_offset := 4 * ((data_start + 3) / 4) in
  let sub_data_offset := 4 * ((sub_parameter_offset + len sub_parameter + 3) / 4) in
  let* spo := try_into_expect 32 sub_parameter_offset in
  let* sdo := try_into_expect 32 sub_data_offset in
  let p := le 1 (t_max_setup t)
           ++ le 2 0
           ++ le 4 sub_parameter_len
           ++ le 4 sub_data_len
           ++ le 4 (t_max_param t)
           ++ le 4 (t_max_data t)
           ++ le 4 sub_parameter_len
           ++ le 4 spo
           ++ le 4 sub_data_len
           ++ le 4 sdo
           ++ le 1 sub_setup_words
           ++ le 2 (t_id t)
           ++ sub_setup in
  let d := zeros ((4 - data_start mod 4) mod 4) ++ sub_parameter in
  let d := d ++ zeros ((4 - (data_start + len d) mod 4) mod 4) ++ sub_data in
  Ok (p, d).

(** smb/msg.rs:592-598 *)
Definition msg_transact (tid : N) (t : subcmd) : msg :=
  mk_msg CTransact false (set_tid tid) (transact_body t).

(** smb/trans2.rs:10-23 trait SubCmd (transact2) *)
Record subcmd2 := mk_subcmd2 {
  t2_setup : N;
  t2_max_setup : N;
  t2_max_param : N;
  t2_max_data : N;
  t2_parameter : bytes;
  t2_data : bytes
}.

(** smb/trans2/subcmd/findfirst2.rs:22-63 *)
Definition find_first2 (filename : text) (search : N) : subcmd2 :=
  mk_subcmd2 1 0 10 65535
    (le 2 search ++ le 2 1024 ++ le 2 FIND_CLOSE_ON_EOS ++ le 2 FIND_DIRECTORY_INFO
     ++ le 4 0 ++ encode_utf16le_0 filename) [].

(** smb/trans2/subcmd/findnext2.rs:19-55 *)
Definition find_next2 (sid : N) (filename : text) : subcmd2 :=
  mk_subcmd2 2 0 10 65535
    (le 2 sid ++ le 2 1024 ++ le 2 FIND_DIRECTORY_INFO ++ le 4 0
     ++ le 2 FIND_CLOSE_ON_EOS ++ encode_utf16le_0 filename) [].

(** smb/trans2/msg.rs:34-96 Transact2::body *)
Definition transact2_body (t : subcmd2) (_ : info) : res smb_error (bytes * bytes) :=
  let sub_parameter := t2_parameter t in
  let* sub_parameter_len :=
    try_into 16 (CreatePacket Trans2ParameterTooLarge) (len sub_parameter) in
  let sub_data := t2_data t in
  let* sub_data_len := try_into 16 (CreatePacket Trans2DataTooLarge) (len sub_data) in
  let data_start := SMB_HEADER_LEN + 1 + 30 + 2 in
  let sub_parameter_offset := round_up_4n (data_start + 1) in
  let sub_data_offset := round_up_4n (sub_parameter_offset + len sub_parameter) in
  let p1 := le 2 sub_parameter_len
           ++ le 2 sub_data_len
           ++ le 2 (t2_max_param t)
           ++ le 2 (t2_max_data t)
           ++ le 1 (t2_max_setup t)
           ++ le 1 0
           ++ le 2 0
           ++ le 4 0
           ++ le 2 0
           ++ le 2 sub_parameter_len in
  let* spo := try_into_expect 16 sub_parameter_offset in
  let* sdo := try_into_expect 16 sub_data_offset in
  let p := p1
           ++ le 2 spo
           ++ le 2 sub_data_len
           ++ le 2 sdo
           ++ le 1 1
           ++ le 1 0
           ++ le 2 (t2_setup t) in
  let d := [x00] in
  let d := d ++ zeros (fill_up_4n (data_start + len d)) ++ sub_parameter in
  let d := d ++ zeros (fill_up_4n (data_start + len d)) ++ sub_data in
  Ok (p, d).

(** smb/trans2/msg.rs:26-32 *)
Definition msg_transact2 (tid : N) (t : subcmd2) : msg :=
  mk_msg CTransact2 false (set_tid tid) (transact2_body t).
