(** * SpecReply: what a reply says, field by field (MS-CIFS 2.2.4, 2.2.7, 2.2.8).

    As Spec.v: relations between the bytes of a message and values, by offsets;
    no decoder of the model is used (only the types of the values). *)
From Coq Require Import Permutation.
From Verif Require Import Base Text Win Common Reply Spec.
Open Scope N_scope.

(** the body (after the header) ends before what its counts announce *)
Definition cut_short (p : bytes) : Prop :=
  32 <= len p /\ ~ exists words data rest, smb_parts p words data rest.

(** [f] has exactly those bits of [v] that are set in [known] *)
Definition flags_of (known v f : N) : Prop :=
  forall k, N.testbit f k = N.testbit v k && N.testbit known k.

(** the bits defined for each flag type *)
Definition FLAGS1_BITS : N := 0xff.
Definition FLAGS2_BITS : N := 0xf857.
Definition CAPABILITY_BITS : N := 0xe281f3ff.
Definition DIR_ACCESS_BITS : N := 0xf31f01ff.
Definition FILE_ATTR_BITS : N := 0xbf0009b7.
Definition DISPOSITION_BITS : N := 0x7.
Definition OPLOCK_BITS : N := 0x3.
Definition RESOURCE_BITS : N := 0x7.

(** the part of the data block of message [p] at offset [o] from the header, length [n] *)
Definition block (p words data : bytes) (o n : N) (b : bytes) : Prop :=
  35 + len words <= o /\ o + n <= 35 + len words + len data /\ bytes_at p o n = Some b.

(** ** create (open) reply, 2.2.4.64.2 *)
Definition handle_of (p : bytes) (h : handle) : Prop :=
  exists words data rest oplock disposition attributes file_type,
  smb_parts p words data rest /\ unchained words
  /\ u16_at p 24 = Some (h_tid h)
  /\ u8_at words 4 = Some oplock /\ flags_of OPLOCK_BITS oplock (h_oplock h)
  /\ u16_at words 5 = Some (h_fid h)
  /\ u32_at words 7 = Some disposition /\ flags_of DISPOSITION_BITS disposition (h_disposition h)
  /\ u64_at words 11 = Some (h_create_time h)
  /\ u64_at words 19 = Some (h_access_time h)
  /\ u64_at words 27 = Some (h_write_time h)
  /\ u64_at words 35 = Some (h_change_time h)
  /\ u32_at words 43 = Some attributes /\ flags_of FILE_ATTR_BITS attributes (h_attributes h)
  /\ u64_at words 47 = Some (h_allocation_size h)
  /\ u64_at words 55 = Some (h_size h)
  /\ u16_at words 63 = Some file_type /\ flags_of RESOURCE_BITS file_type (h_file_type h)
  /\ u8_at words 67 = Some (if h_directory h then 1 else 0).

(** ** read reply, 2.2.4.42.2: the announced number of bytes, after at most one byte
    of padding *)
Definition read_of (p : bytes) (v : bytes) : Prop :=
  exists words data rest,
  smb_parts p words data rest /\ unchained words
  /\ u16_at words 10 = Some (len v)
  /\ (data = v \/ exists pad, data = pad :: v).

(** ** tree connect reply, 2.2.4.55.2: service (ASCII/UTF-8), file system (UTF-16 if
    the header says unicode, at an even offset) *)
Definition rights_of (words : bytes) (o : N) (r : option N) : Prop :=
  match r with
  | Some f => exists v, u32_at words o = Some v /\ flags_of DIR_ACCESS_BITS v f
  | None => len words < o + 4
  end.
Definition share_of (p : bytes) (s : share) : Prop :=
  exists words data rest flags2 sv fs more,
  smb_parts p words data rest /\ unchained words
  /\ u16_at p 24 = Some (sh_tid s)
  /\ 6 <= len words
  /\ rights_of words 6 (sh_access_rights s)
  /\ rights_of words 10 (sh_guest_rights s)
  /\ u16_at p 10 = Some flags2
  /\ utf8_of (sh_service s) sv /\ ~ In x00 sv
  /\ (if N.testbit flags2 15 then
        (* one byte of padding to an even offset *)
        exists pad, len pad = len sv mod 2
        /\ data = sv ++ [x00] ++ pad ++ fs ++ [x00; x00] ++ more
        /\ utf16le_of (sh_filesystem s) fs /\ ~ In 0 (sh_filesystem s)
      else
        data = sv ++ [x00] ++ fs ++ [x00] ++ more
        /\ utf8_of (sh_filesystem s) fs /\ ~ In x00 fs).

(** ** session setup reply, 2.2.4.53.2 *)
Definition session_of (p : bytes) (s : session_setup) : Prop :=
  exists words data rest action n more,
  smb_parts p words data rest /\ unchained words
  /\ u16_at p 28 = Some (ss_uid s)
  /\ u16_at words 4 = Some action
  /\ ss_guest_mode s = N.testbit action 0
  /\ (if 8 <=? len words then u16_at words 6 = Some n else n = 0)
  /\ data = ss_blob s ++ more /\ len (ss_blob s) = n.

(** ** negotiate reply, 2.2.4.52.2; times in microseconds *)
Definition server_of (p : bytes) (s : server_setup) : Prop :=
  exists words data rest caps ticks n more,
  smb_parts p words data rest
  /\ u16_at words 0 = Some (s_dialect s) /\ s_dialect s = 0 (* the only one offered *)
  /\ u8_at words 2 = Some (s_security_mode s)
  /\ u16_at words 3 = Some (s_max_mpx_count s)
  /\ u16_at words 5 = Some (s_max_number_vcs s)
  /\ u32_at words 7 = Some (s_max_buffer_size s)
  /\ u32_at words 11 = Some (s_max_raw_size s)
  /\ u32_at words 15 = Some (s_session_key s)
  /\ u32_at words 19 = Some caps /\ flags_of CAPABILITY_BITS caps (s_capabilities s)
  /\ u64_at words 23 = Some ticks /\ s_system_time s = ticks / 10
  /\ u16_at words 31 = Some (s_timezone s)
  /\ u8_at words 33 = Some n
  /\ data = s_challenge s ++ more /\ len (s_challenge s) = n.

(** ** replies without content *)
Definition plain_reply (p : bytes) : Prop :=
  exists words data rest, smb_parts p words data rest.

(** ** NT transact reply in one message, 2.2.4.62.2: setup, parameter, data *)
Definition transact_of (p setup parameter data : bytes) : Prop :=
  exists words dat rest tp td np op nd od ns,
  smb_parts p words dat rest
  /\ u32_at words 3 = Some tp /\ u32_at words 7 = Some td
  /\ u32_at words 11 = Some np /\ u32_at words 15 = Some op
  /\ u32_at words 23 = Some nd /\ u32_at words 27 = Some od
  /\ u8_at words 35 = Some ns /\ bytes_at words 36 (2 * ns) = Some setup
  /\ tp <= np /\ td <= nd
  /\ (if np =? 0 then parameter = [] else block p words dat op np parameter)
  /\ (if nd =? 0 then data = [] else block p words dat od nd data).

(** MS-FSCC 2.7.1 *)
Definition action_number (a : notify_action) : N :=
  match a with
  | ADDED => 1 | REMOVED => 2 | MODIFIED => 3 | RENAMED_OLD => 4 | RENAMED_NEW => 5
  | ADDED_STREAM => 6 | REMOVED_STREAM => 7 | MODIFIED_STREAM => 8 | DELETED => 9
  | NOT_TUNNELLED => 10 | TUNNELLED_COLLISION => 11
  end.
(** ** change notification, 2.2.7.4.2 and FILE_NOTIFY_INFORMATION: entry at offset [o] of [b] *)
Definition notify_entry (b : bytes) (o : N) (c : text * notify_action) : Prop :=
  exists n raw,
  u32_at b (o + 4) = Some (action_number (snd c))
  /\ u32_at b (o + 8) = Some n
  /\ bytes_at b (o + 12) n = Some raw /\ utf16le_of (fst c) raw.
(** entries from offset [o] on: each says how far away the next one is, 0 in the last *)
Inductive notify_chain (b : bytes) : N -> list (text * notify_action) -> Prop :=
| chain_end : notify_chain b (len b) []
| chain_last o c : u32_at b o = Some 0 -> notify_entry b o c -> notify_chain b o [c]
| chain_more o next c l : u32_at b o = Some next -> next <> 0 -> notify_entry b o c ->
    notify_chain b (o + next) l -> notify_chain b o (c :: l).
Definition notification_of (p : bytes) (l : list (text * notify_action)) : Prop :=
  exists setup parameter data, transact_of p setup parameter data /\ notify_chain parameter 0 l.

(** ** transaction 2 reply fragment, 2.2.4.46.2 *)
Definition fragment_of (p : bytes) (f : trans2_reply) : Prop :=
  exists words data rest np op nd od,
  smb_parts p words data rest
  /\ u16_at words 0 = Some (f_parameter_total f)
  /\ u16_at words 2 = Some (f_data_total f)
  /\ u16_at words 6 = Some np /\ u16_at words 8 = Some op
  /\ u16_at words 10 = Some (f_parameter_offset f)
  /\ u16_at words 12 = Some nd /\ u16_at words 14 = Some od
  /\ u16_at words 16 = Some (f_data_offset f)
  /\ block p words data op np (f_parameter f)
  /\ block p words data od nd (f_data f).

(** ** pieces that tile a block: [(displacement, bytes)] *)
Inductive tiles : N -> list (N * bytes) -> bytes -> Prop :=
| tiles_nil o : tiles o [] []
| tiles_cons o d l b : tiles (o + len d) l b -> tiles o ((o, d) :: l) (d ++ b).
Definition nonempty (l : list (N * bytes)) : list (N * bytes) :=
  filter (fun e => negb (len (snd e) =? 0)) l.
(** in whatever order they come *)
Definition reassembles (pieces : list (N * bytes)) (b : bytes) : Prop :=
  exists l, Permutation l (nonempty pieces) /\ tiles 0 l b.

(** ** a directory entry (without its next-entry offset), 2.2.8.1.4 *)
Definition dir_of (e : bytes) (d : dir_info) : Prop :=
  exists tc ta tw th attr n raw,
  u64_at e 4 = Some tc /\ d_creation d = tc / 10
  /\ u64_at e 12 = Some ta /\ d_access d = ta / 10
  /\ u64_at e 20 = Some tw /\ d_write d = tw / 10
  /\ u64_at e 28 = Some th /\ d_change d = th / 10
  /\ u64_at e 36 = Some (d_filesize d)
  /\ u32_at e 52 = Some attr /\ flags_of FILE_ATTR_BITS attr (d_attributes d)
  /\ u32_at e 56 = Some n /\ bytes_at e 60 n = Some raw /\ utf16le_of (d_filename d) raw.

(** ** a batch of directory entries: each starts with the distance to the next one.
    [zero_ends]: a distance of 0 marks the last entry (MS-CIFS 2.2.8.1.4). *)
Inductive entries (zero_ends : bool) : bytes -> list dir_info -> Prop :=
| entries_none : entries zero_ends [] []
| entries_stop b n : u32_at b 0 = Some n -> n = 4 \/ (n = 0 /\ zero_ends = true /\ len b = 4) ->
    entries zero_ends b []
| entries_last b d : zero_ends = true -> u32_at b 0 = Some 0 -> dir_of (drop 4 b) d ->
    entries zero_ends b [d]
| entries_more b n e d l : u32_at b 0 = Some n -> 4 < n -> bytes_at b 4 (n - 4) = Some e ->
    dir_of e d -> entries zero_ends (drop n b) l -> entries zero_ends b (d :: l).

(** find first / find next, 2.2.6.2.2 and 2.2.6.3.2: what parameter and data block say *)
Definition first_of (parameter data : bytes) (sid : N) (over : bool) (l : list dir_info) : Prop :=
  10 <= len parameter
  /\ u16_at parameter 0 = Some sid
  /\ u16_at parameter 2 = Some (len l)
  /\ (exists e, u16_at parameter 4 = Some e /\ (over = true <-> e <> 0))
  /\ entries true data l
  /\ (l = [] -> over = true).
Definition next_of (parameter data : bytes) (over : bool) (l : list dir_info) : Prop :=
  u16_at parameter 0 = Some (len l)
  /\ (exists e, u16_at parameter 2 = Some e /\ (over = true <-> e <> 0))
  /\ entries false data l
  /\ (l = [] -> over = true).

(** status codes and their names ([MS-ERREF] 2.3.1, [MS-CIFS] 2.2.2.4) *)
Definition status_meaning : list (N * nt_status) :=
  [(0x00000000, SUCCESS);
   (0x00010002, INVALID_SMB);
   (0x00050002, BAD_TID);
   (0x00160002, BAD_COMMAND);
   (0x005b0002, BAD_UID);
   (0x00fb0002, NON_STANDARD);
   (0x80000005, BUFFER_OVERFLOW);
   (0x80000006, NO_MORE_FILES);
   (0x8000002d, STOPPED_ON_SYMLINK);
   (0xc0000002, NOT_IMPLEMENTED);
   (0xc000000d, INVALID_PARAMETER);
   (0xc000000e, NO_SUCH_DEVICE);
   (0xc000000f, NO_SUCH_FILE);
   (0xc0000010, INVALID_DEVICE_REQ);
   (0xc0000016, MORE_PROCESSING);
   (0xc0000022, ACCESS_DENIED);
   (0xc0000023, BUFFER_TOO_SMALL);
   (0xc0000034, NAME_NOT_FOUND);
   (0xc0000035, NAME_COLLISION);
   (0xc000003a, PATH_NOT_FOUND);
   (0xc000006d, LOGIN_FAILURE);
   (0xc00000a5, BAD_IMPERSONATION);
   (0xc00000b5, IO_TIMEOUT);
   (0xc00000ba, FILE_IS_DIRECTORY);
   (0xc00000bb, NOT_SUPPORTED);
   (0xc00000c9, NETWORK_NAME_DELETED);
   (0xc0000203, USER_SESSION_DELETED);
   (0xc000035c, NETWORK_SESSION_EXPIRED);
   (0xc000205a, TOO_MANY_UIDS);
   (0xc00000a2, MEDIA_WRITE_PROTECTED);
   (0xc00000cc, NETWORK_NAME_NOT_FOUND);
   (0xc0000101, DIRECTORY_NOT_EMPTY)].
