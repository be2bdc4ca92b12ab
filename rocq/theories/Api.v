(** * Api: the calls of the public interface (lib.rs, impl Cifs), as data, and what
    the specification says about each: operation code and addressed tree. *)
From Verif Require Import Base Text Win Errors Common Reply Ntlm Prog Client.
Open Scope N_scope.

(** the calls that send one request (lib.rs:70-197), and the requests of open *)
Inductive call : Type -> Type :=
| MountPassword (path password : text) : call share
| Mount (path : text) : call share
| Umount (s : share) : call unit
| OpenFile (s : share) (path : text) : call handle
| OpenDir (s : share) (path : text) : call handle
| Close (h : handle) : call unit
| ReadAt (h : handle) (offset : N) : call bytes
| Delete (s : share) (path : text) : call unit
| Rmdir (s : share) (path : text) : call unit
| NotifyAbout (h : handle) (mode : N) : call (list (text * notify_action))
| Notify (h : handle) : call (list (text * notify_action))
| FindFirst (s : share) (pattern : text) : call found
| FindNext (s : share) (sid : N) (lastfile : text) : call found_next
(* the requests sent during open (lib.rs:398-414) *)
| Negotiate : call server_setup
| SetupAuth (user domain : text) (secret : bytes) : call session_setup
| SetupBlob (blob : bytes) : call session_setup.

(** the model of each call *)
Definition exec (E : env) (fuel : nat) {R} (c : call R) : M R :=
  match c with
  | MountPassword path password => mount_password E fuel path password
  | Mount path => mount E fuel path
  | Umount s => umount E fuel s
  | OpenFile s path => openfile E fuel s path
  | OpenDir s path => opendir E fuel s path
  | Close h => close E fuel h
  | ReadAt h offset => read E fuel h offset
  | Delete s path => delete E fuel s path
  | Rmdir s path => rmdir E fuel s path
  | NotifyAbout h mode => notify_about E fuel h mode
  | Notify h => notify E fuel h
  | FindFirst s pattern => find_first E fuel s pattern
  | FindNext s sid lastfile => find_next E fuel s sid lastfile
  | Negotiate => negotiate E fuel
  | SetupAuth user domain secret => session_setup_auth E fuel user domain secret
  | SetupBlob blob => session_setup_blob E fuel blob
  end.

(** command codes, MS-CIFS 2.2.2.1 *)
Definition opcode {R} (c : call R) : N :=
  match c with
  | MountPassword _ _ | Mount _ => 0x75
  | Umount _ => 0x71
  | OpenFile _ _ | OpenDir _ _ => 0xa2
  | Close _ => 0x04
  | ReadAt _ _ => 0x2e
  | Delete _ _ => 0x06
  | Rmdir _ _ => 0x01
  | NotifyAbout _ _ | Notify _ => 0xa0
  | FindFirst _ _ | FindNext _ _ _ => 0x32
  | Negotiate => 0x72
  | SetupAuth _ _ _ | SetupBlob _ => 0x73
  end.

(** the tree an operation addresses; 0xffff for operations outside any tree *)
Definition op_tid {R} (c : call R) : N :=
  match c with
  | MountPassword _ _ | Mount _ | Negotiate | SetupAuth _ _ _ | SetupBlob _ => 0xffff
  | Umount s | OpenFile s _ | OpenDir s _ | Delete s _ | Rmdir s _
  | FindFirst s _ | FindNext s _ _ => sh_tid s
  | Close h | ReadAt h _ | NotifyAbout h _ | Notify h => h_tid h
  end.

(** the status codes on which an operation succeeds: SUCCESS, and for session setup
    also MORE_PROCESSING_REQUIRED *)
Definition op_status {R} (c : call R) (st : N) : Prop :=
  st = 0 \/ (opcode c = 0x73 /\ st = 0xc0000016).

(** calls answered by exactly one reply message (not the fragmented searches) *)
Definition single_reply {R} (c : call R) : Prop :=
  match c with FindFirst _ _ | FindNext _ _ _ => False | _ => True end.

(** ranges of the Rust argument types: tid, fid and sid are u16, offset is u64, the
    mode is a NotifyMode, strings are sequences of chars *)
Definition u16 (v : N) : Prop := v < 65536.
Definition is_str (s : text) : Prop := is_text s = true.
Definition typed {R} (c : call R) : Prop :=
  match c with
  | MountPassword path password => is_str path /\ is_str password
  | Mount path => is_str path
  | Umount s => u16 (sh_tid s)
  | OpenFile s path | OpenDir s path | Delete s path | Rmdir s path
  | FindFirst s path => u16 (sh_tid s) /\ is_str path
  | Close h | Notify h => u16 (h_tid h) /\ u16 (h_fid h)
  | ReadAt h offset => u16 (h_tid h) /\ u16 (h_fid h) /\ offset < 2 ^ 64
  | NotifyAbout h mode => u16 (h_tid h) /\ u16 (h_fid h) /\ mode < 2 ^ 32
  | FindNext s sid lastfile => u16 (sh_tid s) /\ u16 sid /\ is_str lastfile
  | Negotiate | SetupBlob _ => True
  | SetupAuth user domain _ => is_str user /\ is_str domain
  end.
(** ranges of the fields of Cifs (lib.rs:26-35): uid, mid are u16 *)
Definition typed_client (c : cifs) : Prop := u16 (uid c) /\ u16 (mid c).

(** the first thing a program writes, if it writes before reading; a function of the
    client's state only, no server involved *)
Fixpoint request {A} (p : prog cifs A) (c : cifs) : option bytes :=
  match p with
  | Get k => request (k c) c
  | Put c' k => request k c'
  | Write b _ => Some b
  | _ => None
  end.
