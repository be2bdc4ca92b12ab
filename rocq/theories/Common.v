(** * Common: directory entries (smb/common.rs). *)
From Verif Require Import Base Text Utils Win Errors.
Open Scope N_scope.

(** smb/common.rs:81-90 DirInfo; times as instants (microseconds since 1601) *)
Record dir_info := mk_dir {
  d_creation : N;
  d_access : N;
  d_write : N;
  d_change : N;
  d_filename : text;
  d_filesize : N;
  d_attributes : N
}.

(** smb/error.rs:52-56 *)
Definition of_utf16_error (_ : utf16_error) : smb_error := InvalidData.

(** smb/common.rs:93-133 DirInfo::parse *)
Definition dir_info_parse (data : bytes) : res smb_error dir_info :=
  if len data <? 60 then Err InvalidData else
  let* data := advance 4 data in
  let* (t, data) := get_u64_le data in
  let* creation := decode_windows_time t in
  let* (t, data) := get_u64_le data in
  let* access := decode_windows_time t in
  let* (t, data) := get_u64_le data in
  let* write := decode_windows_time t in
  let* (t, data) := get_u64_le data in
  let* change := decode_windows_time t in
  let* (filesize, data) := get_u64_le data in
  let* data := advance 8 data in
  let* (at_, data) := get_u32_le data in
  let attributes := truncate_bits ExtFileAttr_all at_ in
  let* (filename_length, data) := get_u32_le data in
  if len data <? filename_length then Err InvalidData else
  let* (raw, data) := copy_to_bytes filename_length data in
  let* filename := map_err of_utf16_error (decode_utf16le raw) in
  Ok (mk_dir creation access write change filename filesize attributes).
