(** * Win: enums and flag types of win.rs, smb/info.rs, smb/common.rs, smb/trans.rs,
    ntlm/init.rs.  Flag words are [N]; [X_all] is bitflags' [all().bits()]. *)
From Verif Require Import Base.
Open Scope N_scope.

(** win.rs:9-45 NTStatus *)
Inductive nt_status :=
| SUCCESS | INVALID_SMB | BAD_TID | BAD_COMMAND | BAD_UID | NON_STANDARD
| BUFFER_OVERFLOW | NO_MORE_FILES | STOPPED_ON_SYMLINK | NOT_IMPLEMENTED
| INVALID_PARAMETER | NO_SUCH_DEVICE | NO_SUCH_FILE | INVALID_DEVICE_REQ
| MORE_PROCESSING | ACCESS_DENIED | BUFFER_TOO_SMALL | NAME_NOT_FOUND
| NAME_COLLISION | PATH_NOT_FOUND | LOGIN_FAILURE | BAD_IMPERSONATION
| IO_TIMEOUT | FILE_IS_DIRECTORY | NOT_SUPPORTED | NETWORK_NAME_DELETED
| USER_SESSION_DELETED | NETWORK_SESSION_EXPIRED | TOO_MANY_UIDS
| MEDIA_WRITE_PROTECTED | NETWORK_NAME_NOT_FOUND | DIRECTORY_NOT_EMPTY.

Definition nt_code (s : nt_status) : N :=
  match s with
  | SUCCESS => 0x00000000
  | INVALID_SMB => 0x00010002
  | BAD_TID => 0x00050002
  | BAD_COMMAND => 0x00160002
  | BAD_UID => 0x005b0002
  | NON_STANDARD => 0x00fb0002
  | BUFFER_OVERFLOW => 0x80000005
  | NO_MORE_FILES => 0x80000006
  | STOPPED_ON_SYMLINK => 0x8000002d
  | NOT_IMPLEMENTED => 0xc0000002
  | INVALID_PARAMETER => 0xc000000d
  | NO_SUCH_DEVICE => 0xc000000e
  | NO_SUCH_FILE => 0xc000000f
  | INVALID_DEVICE_REQ => 0xc0000010
  | MORE_PROCESSING => 0xc0000016
  | ACCESS_DENIED => 0xc0000022
  | BUFFER_TOO_SMALL => 0xc0000023
  | NAME_NOT_FOUND => 0xc0000034
  | NAME_COLLISION => 0xc0000035
  | PATH_NOT_FOUND => 0xc000003a
  | LOGIN_FAILURE => 0xc000006d
  | BAD_IMPERSONATION => 0xc00000a5
  | IO_TIMEOUT => 0xc00000b5
  | FILE_IS_DIRECTORY => 0xc00000ba
  | NOT_SUPPORTED => 0xc00000bb
  | NETWORK_NAME_DELETED => 0xc00000c9
  | USER_SESSION_DELETED => 0xc0000203
  | NETWORK_SESSION_EXPIRED => 0xc000035c
  | TOO_MANY_UIDS => 0xc000205a
  | MEDIA_WRITE_PROTECTED => 0xc00000a2
  | NETWORK_NAME_NOT_FOUND => 0xc00000cc
  | DIRECTORY_NOT_EMPTY => 0xc0000101
  end.

Definition all_nt : list nt_status :=
  [SUCCESS; INVALID_SMB; BAD_TID; BAD_COMMAND; BAD_UID; NON_STANDARD;
   BUFFER_OVERFLOW; NO_MORE_FILES; STOPPED_ON_SYMLINK; NOT_IMPLEMENTED;
   INVALID_PARAMETER; NO_SUCH_DEVICE; NO_SUCH_FILE; INVALID_DEVICE_REQ;
   MORE_PROCESSING; ACCESS_DENIED; BUFFER_TOO_SMALL; NAME_NOT_FOUND;
   NAME_COLLISION; PATH_NOT_FOUND; LOGIN_FAILURE; BAD_IMPERSONATION;
   IO_TIMEOUT; FILE_IS_DIRECTORY; NOT_SUPPORTED; NETWORK_NAME_DELETED;
   USER_SESSION_DELETED; NETWORK_SESSION_EXPIRED; TOO_MANY_UIDS;
   MEDIA_WRITE_PROTECTED; NETWORK_NAME_NOT_FOUND; DIRECTORY_NOT_EMPTY].

(** derived TryFromPrimitive of NTStatus *)
Definition nt_of_code (c : N) : option nt_status :=
  find (fun s => nt_code s =? c) all_nt.

(** win.rs:47-62 NotifyAction *)
Inductive notify_action :=
| ADDED | REMOVED | MODIFIED | RENAMED_OLD | RENAMED_NEW | ADDED_STREAM
| REMOVED_STREAM | MODIFIED_STREAM | DELETED | NOT_TUNNELLED | TUNNELLED_COLLISION.
Definition action_code (a : notify_action) : N :=
  match a with
  | ADDED => 1 | REMOVED => 2 | MODIFIED => 3 | RENAMED_OLD => 4 | RENAMED_NEW => 5
  | ADDED_STREAM => 6 | REMOVED_STREAM => 7 | MODIFIED_STREAM => 8 | DELETED => 9
  | NOT_TUNNELLED => 10 | TUNNELLED_COLLISION => 11
  end.
Definition all_actions : list notify_action :=
  [ADDED; REMOVED; MODIFIED; RENAMED_OLD; RENAMED_NEW; ADDED_STREAM;
   REMOVED_STREAM; MODIFIED_STREAM; DELETED; NOT_TUNNELLED; TUNNELLED_COLLISION].
(** derived TryFromPrimitive of NotifyAction *)
Definition action_of_code (c : N) : option notify_action :=
  find (fun a => action_code a =? c) all_actions.

(** smb/info.rs:194-210 Cmd *)
Inductive cmd :=
| CRmdir | CClose | CDelete | CRead | CTransact2 | CTreeDisconnect | CNegotiate
| CSessionSetup | CTreeConnect | CTransact | CCreate | CNoCommand.
Definition cmd_code (c : cmd) : N :=
  match c with
  | CRmdir => 0x01 | CClose => 0x04 | CDelete => 0x06 | CRead => 0x2e
  | CTransact2 => 0x32 | CTreeDisconnect => 0x71 | CNegotiate => 0x72
  | CSessionSetup => 0x73 | CTreeConnect => 0x75 | CTransact => 0xa0
  | CCreate => 0xa2 | CNoCommand => 0xff
  end.
Definition all_cmds : list cmd :=
  [CRmdir; CClose; CDelete; CRead; CTransact2; CTreeDisconnect; CNegotiate;
   CSessionSetup; CTreeConnect; CTransact; CCreate; CNoCommand].
(** derived TryFromPrimitive of Cmd *)
Definition cmd_of_code (c : N) : option cmd :=
  find (fun x => cmd_code x =? c) all_cmds.
(** derived PartialEq of Cmd *)
Definition cmd_eqb (a b : cmd) : bool := cmd_code a =? cmd_code b.

(** smb/info.rs:150-172 Status and its conversions *)
Inductive status := Known (s : nt_status) | Unknown (code : N).
Definition status_of_code (c : N) : status :=
  match nt_of_code c with Some s => Known s | None => Unknown c end.
Definition status_code (s : status) : N :=
  match s with Known n => nt_code n | Unknown c => c end.

Definition lor_all (l : list N) : N := fold_right N.lor 0 l.

(** smb/info.rs:107-116 Flags1 *)
Definition F1_REPLY : N := 0x80.
Definition Flags1_all : N := lor_all [0x01; 0x02; 0x04; 0x08; 0x10; 0x20; 0x40; 0x80].
(** smb/info.rs:132-136 Flags1::default *)
Definition Flags1_default : N := N.lor 0x08 0x10.

(** smb/info.rs:118-129 Flags2 *)
Definition F2_UNICODE : N := 0x8000.
Definition Flags2_all : N :=
  lor_all [0x0001; 0x0002; 0x0004; 0x0010; 0x0040; 0x0800; 0x1000; 0x2000; 0x4000; 0x8000].
(** smb/info.rs:138-147 Flags2::default *)
Definition Flags2_default : N :=
  lor_all [0x8000; 0x4000; 0x0800; 0x0040; 0x0002; 0x0001].

(** smb/common.rs:20-41 Capabilities *)
Definition CAP_UNICODE : N := 0x00000004.
Definition CAP_LARGE_FILES : N := 0x00000008.
Definition CAP_NT_SMBS : N := 0x00000010.
Definition CAP_NTSTATUS : N := 0x00000040.
Definition CAP_EXTENDED_SECURITY : N := 0x80000000.
Definition Capabilities_all : N :=
  lor_all [0x00000001; 0x00000002; 0x00000004; 0x00000008; 0x00000010; 0x00000020;
           0x00000040; 0x00000080; 0x00000100; 0x00000200; 0x00001000; 0x00002000;
           0x00004000; 0x00008000; 0x00010000; 0x00800000; 0x02000000; 0x20000000;
           0x40000000; 0x80000000].

(** smb/common.rs:136-154 FindFlags, FindInfoLevel *)
Definition FIND_CLOSE_ON_EOS : N := 0x0002.
Definition FIND_DIRECTORY_INFO : N := 0x0101.

(** win.rs:67-88 FileAccessMask *)
Definition ACC_READ : N := 0x00000001.
Definition ACC_READ_EA : N := 0x00000008.
Definition ACC_SYNCHRONIZE : N := 0x00100000.

(** win.rs:91-112 DirAccessMask *)
Definition DirAccessMask_all : N :=
  lor_all [0x00000001; 0x00000002; 0x00000004; 0x00000008; 0x00000010; 0x00000020;
           0x00000040; 0x00000080; 0x00000100; 0x00010000; 0x00020000; 0x00040000;
           0x00080000; 0x00100000; 0x01000000; 0x02000000; 0x10000000; 0x20000000;
           0x40000000; 0x80000000].

(** win.rs:115-128 FileAttr *)
Definition ATTR_HIDDEN : N := 0x0002.
Definition ATTR_SYSTEM : N := 0x0004.
Definition ATTR_DIRECTORY : N := 0x0010.

(** win.rs:131-147 ExtFileAttr *)
Definition ExtFileAttr_all : N :=
  lor_all [0x00000001; 0x00000002; 0x00000004; 0x00000010; 0x00000020; 0x00000080;
           0x00000100; 0x00000800; 0x01000000; 0x02000000; 0x04000000; 0x08000000;
           0x10000000; 0x20000000; 0x80000000].

(** win.rs:149-153 TreeConnectFlags *)
Definition TC_EXTENDED_RESPONSE : N := 0x0008.

(** win.rs:155-160 ShareAccess *)
Definition SHARE_READ : N := 1.
Definition SHARE_WRITE : N := 2.
Definition SHARE_DELETE : N := 4.

(** win.rs:168-175 CreateDisposition *)
Definition DISP_OPEN : N := 1.
Definition CreateDisposition_all : N := lor_all [0; 1; 2; N.lor 1 2; 4; N.lor 1 4].

(** win.rs:177-190 CreateOptions *)
Definition OPT_DIRECTORY : N := 0x00000001.
Definition OPT_NON_DIRECTORY : N := 0x00000040.

(** win.rs:192-196 ImpersonationLevel *)
Definition IMPERSONATE : N := 2.

(** win.rs:218-223 OpLockLevel, win.rs:225-231 ResourceType *)
Definition OpLockLevel_all : N := lor_all [0; 1; 2; N.lor 1 2].
Definition ResourceType_all : N := lor_all [0; 1; 2; N.lor 1 2; 4].

(** smb/trans.rs:47-63 NotifyMode *)
Definition NotifyMode_all : N :=
  lor_all [0x001; 0x002; 0x003; 0x004; 0x008; 0x010; 0x020; 0x040; 0x080; 0x100;
           0x200; 0x400; 0x800].

(** ntlm/init.rs:7-37 Flags *)
Definition NF_UNICODE : N := 0x00000001.
Definition NF_OEM : N := 0x00000002.
Definition NF_REQUEST_TARGET : N := 0x00000004.
Definition NF_NTLM : N := 0x00000200.
Definition NF_DOMAIN_SUPPLIED : N := 0x00001000.
Definition NF_WORKSTATION_SUPPLIED : N := 0x00002000.
Definition NtlmFlags_all : N :=
  lor_all [0x00000001; 0x00000002; 0x00000004; 0x00000010; 0x00000020; 0x00000040;
           0x00000080; 0x00000100; 0x00000200; 0x00000400; 0x00000800; 0x00001000;
           0x00002000; 0x00004000; 0x00008000; 0x00010000; 0x00020000; 0x00040000;
           0x00080000; 0x00100000; 0x00200000; 0x00400000; 0x00800000; 0x02000000;
           0x20000000; 0x40000000; 0x80000000].
