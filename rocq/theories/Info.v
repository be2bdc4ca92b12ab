(** * Info: the SMB header (smb/info.rs) and AndX (smb/common.rs). *)
From Verif Require Import Base Win Errors.
Open Scope N_scope.

(** smb/common.rs:12-16 *)
Definition SMB_HEADER_LEN : N := 32.
Definition SMB_MAGIC : bytes := [xff; x53; x4d; x42].
Definition SMB_READ_MIN : N := 32768.
Definition SMB_READ_MAX : N := 65534.
(** smb/common.rs:14 SMB_SUPPORTED_DIALECTS = ["NT LM 0.12"], as bytes *)
Definition DIALECT_NTLM : bytes :=
  [x4e; x54; x20; x4c; x4d; x20; x30; x2e; x31; x32].
Definition SMB_SUPPORTED_DIALECTS : list bytes := [DIALECT_NTLM].

(** smb/info.rs:13-22 Info *)
Record info := mk_info {
  i_cmd : cmd;
  i_status : status;
  i_flags1 : N;
  i_flags2 : N;
  i_pid : N;
  i_tid : N;
  i_uid : N;
  i_mid : N
}.

(** smb/info.rs:25-36 Info::default *)
Definition info_default (c : cmd) : info :=
  mk_info c (Known SUCCESS) Flags1_default Flags2_default 0xfeff 0xffff 0 0.

Definition set_tid (t : N) (i : info) : info :=
  mk_info (i_cmd i) (i_status i) (i_flags1 i) (i_flags2 i) (i_pid i) t (i_uid i) (i_mid i).

(** smb/info.rs:38-83 Info::parse.  Returns the info and the rest of the frame. *)
Definition info_parse (b : bytes) : res smb_error (info * bytes) :=
  if len b <? SMB_HEADER_LEN then Err InvalidHeader else
  let* (magic, b) := copy_to_bytes 4 b in
  if negb (if list_eq_dec Byte.byte_eq_dec magic SMB_MAGIC then true else false)
  then Err InvalidHeader else
  let* (c, b) := get_u8 b in
  let* cmd := ok_or (cmd_of_code c) (InvalidCommand c) in
  let* (st, b) := get_u32_le b in
  let status := status_of_code st in
  let* (f1, b) := get_u8 b in
  let flags1 := truncate_bits Flags1_all f1 in
  let* (f2, b) := get_u16_le b in
  let flags2 := truncate_bits Flags2_all f2 in
  let* (pid_high, b) := get_u16_le b in
  let* b := advance 8 b in
  let* b := advance 2 b in
  let* (tid, b) := get_u16_le b in
  let* (pid_low, b) := get_u16_le b in
  let* (uid, b) := get_u16_le b in
  let* (mid, b) := get_u16_le b in
  let pid := N.lor (N.shiftl pid_high 16) pid_low in
  if negb (contains flags1 F1_REPLY) then Err ReplyExpected else
  Ok (mk_info cmd status flags1 flags2 pid tid uid mid, b).

(** smb/info.rs:85-102 Info::write *)
Definition info_write (i : info) : bytes :=
  let pid_high := N.shiftr (i_pid i) 16 in
  let pid_low := N.land (i_pid i) 0xffff in
  SMB_MAGIC
  ++ le 1 (cmd_code (i_cmd i))
  ++ le 4 (status_code (i_status i))
  ++ le 1 (i_flags1 i)
  ++ le 2 (i_flags2 i)
  ++ le 2 pid_high
  ++ zeros 8
  ++ zeros 2
  ++ le 2 (i_tid i)
  ++ le 2 pid_low
  ++ le 2 (i_uid i)
  ++ le 2 (i_mid i).

(** smb/common.rs:46-49 AndX; 52-67 AndX::parse *)
Definition andx_parse (b : bytes) : res smb_error (option (cmd * N) * bytes) :=
  let* (c, b) := get_u8 b in
  let* b := advance 1 b in
  let* (offset, b) := get_u16_le b in
  if c =? 0xff then Ok (None, b)
  else let* cm := ok_or (cmd_of_code c) (InvalidCommand c) in
       Ok (Some (cm, offset), b).

(** smb/common.rs:69-73 AndX::write *)
Definition andx_write (c : cmd) (offset : N) : bytes :=
  le 1 (cmd_code c) ++ le 1 0 ++ le 2 offset.
