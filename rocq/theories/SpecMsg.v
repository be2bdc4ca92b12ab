(** * SpecMsg: what the arguments of a call need in a request, and what the requests
    contain. *)
From Verif Require Import Base Text Win Errors Common Reply Ntlm Prog Client Spec SpecReply Api.
Open Scope N_scope.

(** ** room for the arguments
    Name lengths and byte counts are 16 bit fields.  [unicode]: the connection uses
    UTF-16 for share names (tree connect). *)
Definition mount_size (unicode : bool) (path password : text) : N :=
  let p := N.max 1 (utf8_len password) in
  (if unicode then p + (p + 1) mod 2 + (2 * utf16_len path + 2) else p + (utf8_len path + 1)) + 6.
Definition fits_request {R} (unicode : bool) (c : call R) : Prop :=
  match c with
  | MountPassword path password => mount_size unicode path password < 65536
  | Mount path => mount_size unicode path [] < 65536
  | OpenFile _ path | OpenDir _ path | Delete _ path | Rmdir _ path => 1 + (2 * utf16_len path + 2) < 65536
  | FindFirst _ path | FindNext _ _ path =>
      (* header 32, word count 1, words 30, byte count 2, padding 3, fixed parameters 12; the
         offset behind it (rounded up to 4 bytes) is a 16 bit field, too *)
      80 + (2 * utf16_len path + 2) <= 65532
  | SetupAuth user domain secret =>
      2 * len secret + 1 + (2 * utf16_len user + 2) + (2 * utf16_len domain + 2) + (if unicode then 4 else 2) < 65536
  | SetupBlob blob => len blob + (len blob + 1) mod 2 + (if unicode then 4 else 2) < 65536
  | Umount _ | Close _ | ReadAt _ _ | NotifyAbout _ _ | Notify _ | Negotiate => True
  end.
(** why a request is refused: the argument does not fit its length field, or the whole does
    not fit *)
Definition refusal {R} (c : call R) : packet_msg :=
  match c with
  | MountPassword _ password => if utf8_len password <? 65536 then DataTooBig else PasswordTooLong
  | OpenFile _ path | OpenDir _ path => if 2 * utf16_len path + 2 <? 65536 then DataTooBig else FilenameTooLong
  | SetupAuth _ _ secret => if len secret <? 65536 then DataTooBig else SecretTooBig
  | SetupBlob blob => if len blob <? 65536 then DataTooBig else BlobTooBig
  | FindFirst _ _ | FindNext _ _ _ => Trans2ParameterTooLarge
  | _ => DataTooBig
  end.
(** search patterns that are too long but still pass the first check *)
Definition pattern_window {R} (c : call R) : Prop :=
  match c with
  | FindFirst _ path | FindNext _ _ path => 32726 <= utf16_len path <= 32760
  | _ => False
  end.

(** ** strings in a message *)
(** bytes [o .. o+n) of the message [p] are the zero-terminated UTF-16LE string [s];
    [o] is even *)
Definition wide_at (p : bytes) (o n : N) (s : text) : Prop :=
  o mod 2 = 0 /\ exists b, utf16le_of s b /\ bytes_at p o n = Some (b ++ [x00; x00]).
(** the same for a path: '/' has become '\' *)
Definition path_at (p : bytes) (o n : N) (path : text) : Prop :=
  exists q, windows_path path q /\ wide_at p o n q.
(** an AndX block that chains nothing *)
Definition last_command (words : bytes) : Prop := bytes_at words 0 4 = Some [xff; x00; x00; x00].

(** ** the requests, field by field (MS-CIFS 2.2.4) *)
(** NT create: [access], [sharing], [options]; always "open existing" (disposition 1) *)
Definition asks_open (access sharing options : N) (p words : bytes) (path : text) : Prop :=
  len words = 48 /\ last_command words
  /\ u8_at words 4 = Some 0
  /\ (exists n, u16_at words 5 = Some n /\ path_at p 84 n path /\ 84 + n = len p)
  /\ u32_at words 7 = Some 0 (* flags: no oplock *)
  /\ u32_at words 11 = Some 0 (* relative to the root of the share *)
  /\ u32_at words 15 = Some access
  /\ u64_at words 19 = Some 0 (* allocation size *)
  /\ u32_at words 27 = Some 0 (* attributes *)
  /\ u32_at words 31 = Some sharing
  /\ u32_at words 35 = Some 1
  /\ u32_at words 39 = Some options
  /\ u32_at words 43 = Some 2 (* impersonation *)
  /\ u8_at words 47 = Some 0.
(** tree connect *)
Definition QUESTION_MARKS : bytes := [x3f; x3f; x3f; x3f; x3f; x00].
Definition asks_mount (unicode : bool) (p words : bytes) (path password : text) : Prop :=
  len words = 8 /\ last_command words
  /\ u16_at words 4 = Some 8 (* extended response *)
  /\ exists pw, (if 0 <? len password then utf8_of password pw else pw = [x00])
    /\ u16_at words 6 = Some (len pw)
    /\ bytes_at p 43 (len pw) = Some pw
    /\ exists o n, bytes_at p (o + n) 6 = Some QUESTION_MARKS /\ o + n + 6 = len p
      /\ if unicode then 43 + len pw <= o <= 44 + len pw /\ path_at p o n path
         else o = 43 + len pw
              /\ exists q b, windows_path path q /\ utf8_of q b /\ bytes_at p o n = Some (b ++ [x00]).
(** TRANS2: one setup word, a parameter block, an empty data block *)
Definition asks_trans2 (sub : N) (p words parameter : bytes) : Prop :=
  len words = 30
  /\ u16_at words 0 = Some (len parameter) /\ u16_at words 2 = Some 0 (* totals *)
  /\ u16_at words 4 = Some 10 /\ u16_at words 6 = Some 65535 /\ u8_at words 8 = Some 0 (* limits for the reply *)
  /\ u16_at words 10 = Some 0 /\ u32_at words 12 = Some 0 (* flags, timeout *)
  /\ u16_at words 18 = Some (len parameter)
  /\ (exists o, u16_at words 20 = Some o /\ o mod 4 = 0 /\ bytes_at p o (len parameter) = Some parameter)
  /\ u16_at words 22 = Some 0
  /\ (exists o, u16_at words 24 = Some o /\ o mod 4 = 0 /\ bytes_at p o 0 = Some [])
  /\ u8_at words 26 = Some 1 /\ u16_at words 28 = Some sub.
(** NT TRANSACT notify change, function 4 *)
Definition asks_notify (p words : bytes) (fid mode : N) : Prop :=
  len words = 46
  /\ u8_at words 0 = Some 0
  /\ u32_at words 3 = Some 0 /\ u32_at words 7 = Some 0
  /\ u32_at words 11 = Some 1000 /\ u32_at words 15 = Some 0
  /\ u32_at words 19 = Some 0
  /\ (exists o, u32_at words 23 = Some o /\ o mod 4 = 0 /\ bytes_at p o 0 = Some [])
  /\ u32_at words 27 = Some 0
  /\ (exists o, u32_at words 31 = Some o /\ o mod 4 = 0 /\ bytes_at p o 0 = Some [])
  /\ u8_at words 35 = Some 4 /\ u16_at words 36 = Some 4
  /\ u32_at words 38 = Some mode /\ u16_at words 42 = Some fid
  /\ u8_at words 44 = Some 0 (* not recursive *)
  /\ u8_at words 45 = Some 0.
(** "NT LM 0.12" *)
Definition NT_LM : bytes := [x4e; x54; x20; x4c; x4d; x20; x30; x2e; x31; x32].
Definition asks_setup (words : bytes) : Prop :=
  last_command words
  /\ u16_at words 4 = Some 65535 (* the client's buffer *)
  /\ u16_at words 6 = Some 0 /\ u16_at words 8 = Some 0 /\ u32_at words 10 = Some 0.
(** all notification bits *)
Definition ALL_CHANGES : N := 0xfff.

(** the message [p] with these words and bytes asks for [c] *)
Definition asks {R} (unicode : bool) (c : call R) (p words data : bytes) : Prop :=
  match c with
  | MountPassword path password => asks_mount unicode p words path password
  | Mount path => asks_mount unicode p words path []
  | Umount _ => words = [] /\ data = []
  | OpenFile _ path => asks_open 0x00100009 1 0x40 p words path
  | OpenDir _ path => asks_open 0x00000001 7 0x01 p words path
  | Close h => len words = 6 /\ u16_at words 0 = Some (h_fid h) /\ u32_at words 2 = Some 0 /\ data = []
  | ReadAt h offset =>
      len words = 24 /\ last_command words /\ u16_at words 4 = Some (h_fid h)
      /\ (exists low high, u32_at words 6 = Some low /\ u32_at words 20 = Some high /\ offset = low + 4294967296 * high)
      /\ u16_at words 10 = Some 65534 /\ u16_at words 12 = Some 32768 (* most and least bytes *)
      /\ u32_at words 14 = Some 0 /\ u16_at words 18 = Some 0
      /\ data = []
  | Delete _ path => len words = 2 /\ u16_at words 0 = Some 6 (* hidden and system files, too *)
      /\ u8_at p 37 = Some 4 /\ exists n, path_at p 38 n path /\ 38 + n = len p
  | Rmdir _ path => words = [] /\ u8_at p 35 = Some 4 /\ exists n, path_at p 36 n path /\ 36 + n = len p
  | NotifyAbout h mode => asks_notify p words (h_fid h) mode
  | Notify h => asks_notify p words (h_fid h) ALL_CHANGES
  | FindFirst _ path => exists parameter o n,
      asks_trans2 1 p words parameter
      /\ u16_at parameter 0 = Some 0x16 (* hidden, system, directory *)
      /\ u16_at parameter 2 = Some 1024 /\ u16_at parameter 4 = Some 2 (* close at the end of the search *)
      /\ u16_at parameter 6 = Some 0x101 /\ u32_at parameter 8 = Some 0
      /\ u16_at words 20 = Some o /\ len parameter = 12 + n /\ path_at p (o + 12) n path
  | FindNext _ sid name => exists parameter o n,
      asks_trans2 2 p words parameter
      /\ u16_at parameter 0 = Some sid
      /\ u16_at parameter 2 = Some 1024 /\ u16_at parameter 4 = Some 0x101 /\ u32_at parameter 6 = Some 0
      /\ u16_at parameter 10 = Some 2
      /\ u16_at words 20 = Some o /\ len parameter = 12 + n /\ wide_at p (o + 12) n name
  | Negotiate => words = [] /\ data = [x02] ++ NT_LM ++ [x00]
  | SetupAuth user domain secret =>
      len words = 26 /\ asks_setup words
      /\ u16_at words 14 = Some (len secret) /\ u16_at words 16 = Some (len secret)
      /\ u32_at words 22 = Some 0x5c
      /\ bytes_at p 61 (len secret) = Some secret /\ bytes_at p (61 + len secret) (len secret) = Some secret
      /\ exists n m, wide_at p (62 + 2 * len secret) n user /\ wide_at p (62 + 2 * len secret + n) m domain
        /\ bytes_at p (62 + 2 * len secret + n + m) (if unicode then 4 else 2) = Some (zeros (if unicode then 4 else 2))
        /\ 62 + 2 * len secret + n + m + (if unicode then 4 else 2) = len p
  | SetupBlob blob =>
      len words = 24 /\ asks_setup words
      /\ u16_at words 14 = Some (len blob) /\ u32_at words 20 = Some 0x8000005c
      /\ bytes_at p 59 (len blob) = Some blob
      /\ exists o, o mod 2 = 0 /\ 59 + len blob <= o <= 60 + len blob
        /\ bytes_at p o (if unicode then 4 else 2) = Some (zeros (if unicode then 4 else 2))
        /\ o + (if unicode then 4 else 2) = len p
  end.

(** bits of an access mask that allow changes: write, append, write EA, delete child, write
    attributes, delete, write DAC, write owner, system security, maximum, generic all/write *)
Definition changing_bits : list N := [1; 2; 4; 6; 8; 16; 18; 19; 24; 25; 28; 30].
Definition opens_read_only (words : bytes) (directory : bool) : Prop :=
  exists access options, u32_at words 15 = Some access /\ u32_at words 39 = Some options
  /\ (forall b, In b changing_bits -> N.testbit access b = false)
  /\ u32_at words 35 = Some 1 (* open an existing file, fail if there is none *)
  /\ N.testbit options 12 = false (* not "delete on close" *)
  /\ N.testbit options 0 = directory /\ N.testbit options 6 = negb directory.
