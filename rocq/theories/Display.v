(** * Display: the messages of the errors (the Display instances of error.rs, smb/error.rs,
    ntlm/error.rs, netbios.rs and smb/info.rs). *)
From Coq Require Import String Ascii Decimal Hexadecimal.
From Verif Require Import Base Text Win Errors.
Open Scope N_scope.

Definition lit (s : string) : text := map N_of_ascii (list_ascii_of_string s).

(** std: decimal and hexadecimal numbers, [{}] and [{:02x}] *)
Fixpoint decimal (d : Decimal.uint) : text :=
  match d with
  | Decimal.Nil => []
  | Decimal.D0 d => 48 :: decimal d | Decimal.D1 d => 49 :: decimal d | Decimal.D2 d => 50 :: decimal d
  | Decimal.D3 d => 51 :: decimal d | Decimal.D4 d => 52 :: decimal d | Decimal.D5 d => 53 :: decimal d
  | Decimal.D6 d => 54 :: decimal d | Decimal.D7 d => 55 :: decimal d | Decimal.D8 d => 56 :: decimal d
  | Decimal.D9 d => 57 :: decimal d
  end.
Definition show (n : N) : text := decimal (N.to_uint n).
Fixpoint hexadecimal (d : Hexadecimal.uint) : text :=
  match d with
  | Nil => []
  | D0 d => 48 :: hexadecimal d | D1 d => 49 :: hexadecimal d | D2 d => 50 :: hexadecimal d
  | D3 d => 51 :: hexadecimal d | D4 d => 52 :: hexadecimal d | D5 d => 53 :: hexadecimal d
  | D6 d => 54 :: hexadecimal d | D7 d => 55 :: hexadecimal d | D8 d => 56 :: hexadecimal d
  | D9 d => 57 :: hexadecimal d | Da d => 97 :: hexadecimal d | Db d => 98 :: hexadecimal d
  | Dc d => 99 :: hexadecimal d | Dd d => 100 :: hexadecimal d | De d => 101 :: hexadecimal d
  | Df d => 102 :: hexadecimal d
  end.
Definition show_hex2 (n : N) : text :=
  let d := N.to_hex_uint n in
  hexadecimal (match Hexadecimal.nb_digits d with 1%nat => D0 d | _ => d end).

(** derived Debug of NTStatus (win.rs:9-45) *)
Definition nt_name (s : nt_status) : text :=
  lit match s with
  | SUCCESS => "SUCCESS" | INVALID_SMB => "INVALID_SMB" | BAD_TID => "BAD_TID" | BAD_COMMAND => "BAD_COMMAND"
  | BAD_UID => "BAD_UID" | NON_STANDARD => "NON_STANDARD" | BUFFER_OVERFLOW => "BUFFER_OVERFLOW"
  | NO_MORE_FILES => "NO_MORE_FILES" | STOPPED_ON_SYMLINK => "STOPPED_ON_SYMLINK"
  | NOT_IMPLEMENTED => "NOT_IMPLEMENTED" | INVALID_PARAMETER => "INVALID_PARAMETER"
  | NO_SUCH_DEVICE => "NO_SUCH_DEVICE" | NO_SUCH_FILE => "NO_SUCH_FILE" | INVALID_DEVICE_REQ => "INVALID_DEVICE_REQ"
  | MORE_PROCESSING => "MORE_PROCESSING" | ACCESS_DENIED => "ACCESS_DENIED" | BUFFER_TOO_SMALL => "BUFFER_TOO_SMALL"
  | NAME_NOT_FOUND => "NAME_NOT_FOUND" | NAME_COLLISION => "NAME_COLLISION" | PATH_NOT_FOUND => "PATH_NOT_FOUND"
  | LOGIN_FAILURE => "LOGIN_FAILURE" | BAD_IMPERSONATION => "BAD_IMPERSONATION" | IO_TIMEOUT => "IO_TIMEOUT"
  | FILE_IS_DIRECTORY => "FILE_IS_DIRECTORY" | NOT_SUPPORTED => "NOT_SUPPORTED"
  | NETWORK_NAME_DELETED => "NETWORK_NAME_DELETED" | USER_SESSION_DELETED => "USER_SESSION_DELETED"
  | NETWORK_SESSION_EXPIRED => "NETWORK_SESSION_EXPIRED" | TOO_MANY_UIDS => "TOO_MANY_UIDS"
  | MEDIA_WRITE_PROTECTED => "MEDIA_WRITE_PROTECTED" | NETWORK_NAME_NOT_FOUND => "NETWORK_NAME_NOT_FOUND"
  | DIRECTORY_NOT_EMPTY => "DIRECTORY_NOT_EMPTY"
  end.
(** smb/info.rs:174-181 *)
Definition display_status (s : status) : text :=
  match s with
  | Known x => nt_name x
  | Unknown x => lit "Unknown (" ++ show_hex2 x ++ lit ")"
  end.

(** derived Debug of Cmd (smb/info.rs:195-210) *)
Definition cmd_name (c : cmd) : text :=
  lit match c with
  | CRmdir => "Rmdir" | CClose => "Close" | CDelete => "Delete" | CRead => "Read" | CTransact2 => "Transact2"
  | CTreeDisconnect => "TreeDisconnect" | CNegotiate => "Negotiate" | CSessionSetup => "SessionSetup"
  | CTreeConnect => "TreeConnect" | CTransact => "Transact" | CCreate => "Create" | CNoCommand => "NoCommand"
  end.

(** the texts at the places named in Errors.v *)
Definition packet_text (m : packet_msg) : text :=
  lit match m with
  | ParameterTooBig => "parameter length too big"
  | BufferTooSmallParameter => "packet buffer too small for parameter"
  | DataTooBig => "data length too big"
  | BufferTooSmallData => "packet buffer too small for data"
  | SecretTooBig => "secret in SessionSetup too big"
  | BlobTooBig => "blob in SessionSetup too big"
  | PasswordTooLong => "password too long"
  | FilenameTooLong => "filename too long"
  | SetupTooLarge => "setup of transaction sub-command is too large"
  | TransParameterTooLarge => "parameter of transaction sub-command is too large"
  | TransDataTooLarge => "data of transaction sub-command is too large"
  | Trans2ParameterTooLarge => "parameter transaction2 sub-command is too large"
  | Trans2DataTooLarge => "data of transaction2 sub-command is too large"
  end.
Definition unsupported_text (m : unsupported_msg) : text :=
  lit match m with
  | AndXChaining => "AndX chaining is currently not supported"
  | TooFewParameter => "negotiate header with too few parameter"
  | SplitTransaction => "transaction message split to multiple packets"
  end.
Definition reassemble_text (m : reassemble_msg) : text :=
  match m with
  | TotalChanged saved total =>
    lit "server changed it's mind about total packet size: " ++ show saved ++ lit " vs " ++ show total
  | FragmentTwice offset => lit "got fragment at offset " ++ show offset ++ lit " twice"
  | LengthMismatch want got => lit "length does not match, want " ++ show want ++ lit ", but got " ++ show got
  | OffsetMismatch got expected => lit "offset mismatch, got: " ++ show got ++ lit ", expected: " ++ show expected
  end.

(** smb/error.rs:24-38 *)
Definition display_smb (e : smb_error) : text :=
  match e with
  | InvalidHeader => lit "invalid header"
  | InvalidData => lit "invalid packet data"
  | InvalidCommand c => lit "invalid command: " ++ show_hex2 c
  | NoDialect => lit "no supported dialect found"
  | ReplyExpected => lit "header is marked as request instead of reply"
  | CreatePacket m => lit "error creating packet: " ++ packet_text m
  | Reassemble m => lit "error reassembling transact2 reply: " ++ reassemble_text m
  | Unsupported m => lit "unsupported feature: " ++ unsupported_text m
  end.

(** ntlm/error.rs:11-20, 28-32 with the text of std's TryFromIntError *)
Definition display_ntlm (e : ntlm_error) : text :=
  match e with
  | InputParameter =>
    lit "invalid input paramater: " ++ lit "numeric conversion: out of range integral type conversion attempted"
  | InvalidPacket => lit "invalid packet data"
  end.

Section Io.
(** the texts of std::io::Error, which come from the system *)
Variable io_text : io_error -> text.

(** netbios.rs:28-40 *)
Definition display_nb (e : nb_error) : text :=
  match e with
  | IoError what => lit "io error: " ++ io_text what
  | CreateSession code => lit "can't create NBT session: error code 0x" ++ show_hex2 code
  | InvalidFrameType v => lit "invalid NetBIOS message type: 0x" ++ show_hex2 v
  | InvalidFrame => lit "invalid NetBIOS frame"
  | FrameTooBig => lit "frame exceeds maximal size"
  | UnexpectedFrame => lit "unexpected NetBIOS frame"
  | UnexpectedEOF => lit "unexpected end of stream"
  end.

(** error.rs:22-36 *)
Definition display (e : error) : text :=
  match e with
  | ENetBios e => lit "NetBios error: " ++ display_nb e
  | ESmb e => lit "protocol error: " ++ display_smb e
  | ENtlm e => lit "NTLM error: " ++ display_ntlm e
  | UnexpectedReply want got => lit "unexpected reply, want: " ++ cmd_name want ++ lit ", got: " ++ cmd_name got
  | ServerError s => lit "server error: " ++ display_status s
  | InvalidUri => lit "URI is invalid"
  end.
End Io.
