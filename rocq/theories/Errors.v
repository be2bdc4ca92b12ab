(** * Errors: the error types of the crate. *)
From Verif Require Import Base Win.
Open Scope N_scope.

(** The texts inside CreatePacket / Unsupported / Reassemble errors; one
    constructor for each message in the source (formatted numbers as arguments). *)
Inductive packet_msg :=
| ParameterTooBig          (* smb/msg.rs:51 *)
| BufferTooSmallParameter  (* smb/msg.rs:54 *)
| DataTooBig               (* smb/msg.rs:64 *)
| BufferTooSmallData       (* smb/msg.rs:67 *)
| SecretTooBig             (* smb/msg.rs:179 *)
| BlobTooBig               (* smb/msg.rs:189 *)
| PasswordTooLong          (* smb/msg.rs:270 *)
| FilenameTooLong          (* smb/msg.rs:392 *)
| SetupTooLarge            (* smb/msg.rs:607 *)
| TransParameterTooLarge   (* smb/msg.rs:612 *)
| TransDataTooLarge        (* smb/msg.rs:617 *)
| Trans2ParameterTooLarge  (* smb/trans2/msg.rs:41 *)
| Trans2DataTooLarge.      (* smb/trans2/msg.rs:46 *)

Inductive unsupported_msg :=
| AndXChaining             (* smb/reply.rs:42 *)
| TooFewParameter          (* smb/reply.rs:82 *)
| SplitTransaction.        (* smb/reply.rs:450 *)

Inductive reassemble_msg :=
| TotalChanged (saved total : N)     (* smb/trans2/collector.rs:64 *)
| FragmentTwice (offset : N)         (* smb/trans2/collector.rs:77 *)
| LengthMismatch (want got : N)      (* smb/trans2/collector.rs:99 *)
| OffsetMismatch (got expected : N). (* smb/trans2/collector.rs:106 *)

(** smb/error.rs:11-22 (NeedSecurityExt is never constructed) *)
Inductive smb_error :=
| InvalidHeader
| InvalidData
| InvalidCommand (code : N)
| NoDialect
| ReplyExpected
| CreatePacket (m : packet_msg)
| Reassemble (m : reassemble_msg)
| Unsupported (m : unsupported_msg).

(** ntlm/error.rs:3-9 (IO and NeedAuth are never constructed) *)
Inductive ntlm_error :=
| InputParameter
| InvalidPacket.

(** std::io::Error: end of file from read_u8/read_exact, or any other error *)
Inductive io_error := IoUnexpectedEof | IoOther (code : N).

(** netbios.rs:17-26 *)
Inductive nb_error :=
| IoError (e : io_error)
| CreateSession (code : N)
| InvalidFrameType (code : N)
| InvalidFrame
| FrameTooBig
| UnexpectedFrame
| UnexpectedEOF.

(** error.rs:9-20 (InternalError, TooManyReplies and Unsupported are never constructed) *)
Inductive error :=
| ENetBios (e : nb_error)
| ESmb (e : smb_error)
| ENtlm (e : ntlm_error)
| UnexpectedReply (want got : cmd)
| ServerError (s : status)
| InvalidUri.
