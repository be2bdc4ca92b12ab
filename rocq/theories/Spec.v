(** * Spec: the vocabulary in which the properties are stated.

    Nothing here refers to the encoders, decoders or programs of the model; it
    describes bytes on the wire the way the protocol documents do: fields at
    offsets, frames, headers. *)
From Verif Require Import Base Text.
Open Scope N_scope.

(** ** Fields of a byte string, little endian, at byte offset [o] *)
Definition u8_at (b : bytes) (o : N) : option N := option_map b2n (nth_error b (N.to_nat o)).
Definition u16_at (b : bytes) (o : N) : option N :=
  match u8_at b o, u8_at b (o + 1) with
  | Some x, Some y => Some (x + 256 * y)
  | _, _ => None
  end.
Definition u32_at (b : bytes) (o : N) : option N :=
  match u16_at b o, u16_at b (o + 2) with
  | Some x, Some y => Some (x + 65536 * y)
  | _, _ => None
  end.
Definition u64_at (b : bytes) (o : N) : option N :=
  match u32_at b o, u32_at b (o + 4) with
  | Some x, Some y => Some (x + 4294967296 * y)
  | _, _ => None
  end.
(** the [n] bytes at offset [o] *)
Definition bytes_at (b : bytes) (o n : N) : option bytes :=
  if o + n <=? len b then Some (take n (drop o b)) else None.

(** ** NetBIOS session service (RFC 1002, 4.3) *)
(** type, 24 bit big endian length, payload *)
Definition nb_frame (ty : N) (payload : bytes) : bytes :=
  [n2b ty; n2b (len payload / 65536); n2b (len payload / 256); n2b (len payload)] ++ payload.
(** the longest payload the length field of RFC 1002 can express *)
Definition NB_MAX : N := 0x1ffff.
Definition session_message (p : bytes) : bytes := nb_frame 0x00 p.
Definition keepalive : bytes := nb_frame 0x85 [].

(** ** SMB messages (MS-CIFS 2.2.3)
    header:  0 magic(4)  4 command(1)  5 status(4)  9 flags(1)  10 flags2(2)
            12 pid high(2)  14 signature(8)  22 reserved(2)  24 tid(2)
            26 pid low(2)  28 uid(2)  30 mid(2)
    then 32 word count(1)  33 words  33+2wc byte count(2)  35+2wc bytes *)
Definition magic : bytes := [xff; x53; x4d; x42].
Definition known_codes : list N :=
  [0x01; 0x04; 0x06; 0x2e; 0x32; 0x71; 0x72; 0x73; 0x75; 0xa0; 0xa2; 0xff].

(** [p] starts with a reply header of command [code] with [status] and [mid] *)
Definition smb_reply (p : bytes) (code status mid : N) : Prop :=
  32 <= len p
  /\ take 4 p = magic
  /\ u8_at p 4 = Some code /\ In code known_codes
  /\ u32_at p 5 = Some status
  /\ (exists f, u8_at p 9 = Some f /\ N.testbit f 7 = true)
  /\ u16_at p 30 = Some mid.

(** [p] starts with a request header: status 0, flags "case insensitive paths" and
    "canonical paths", process id 0xfeff, no signature *)
Record request_header (p : bytes) (code flags2 tid uid mid : N) : Prop := {
  rh_len : 32 <= len p;
  rh_magic : take 4 p = magic;
  rh_code : u8_at p 4 = Some code;
  rh_status : u32_at p 5 = Some 0;
  rh_flags1 : u8_at p 9 = Some 0x18;
  rh_flags2 : u16_at p 10 = Some flags2;
  rh_pid_high : u16_at p 12 = Some 0;
  rh_sig : bytes_at p 14 8 = Some (zeros 8);
  rh_tid : u16_at p 24 = Some tid;
  rh_pid_low : u16_at p 26 = Some 0xfeff;
  rh_uid : u16_at p 28 = Some uid;
  rh_mid : u16_at p 30 = Some mid
}.

(** [p] consists of a header, these words, these bytes, and [rest] *)
Definition smb_parts (p words data rest : bytes) : Prop :=
  exists header n,
    len header = 32 /\ len words = 2 * n /\ n < 256 /\ len data < 65536
    /\ p = header ++ [n2b n] ++ words ++ [n2b (len data); n2b (len data / 256)] ++ data ++ rest.

(** the words of [p] start with an AndX block that chains nothing *)
Definition unchained (words : bytes) : Prop := 4 <= len words /\ u8_at words 0 = Some 0xff.

(** ** What a client waiting for the reply to [mid] passes over: keep-alives and
    replies to other requests *)
Inductive skipped (mid : N) : bytes -> Prop :=
| skip_none : skipped mid []
| skip_keepalive b : skipped mid b -> skipped mid (keepalive ++ b)
| skip_reply p code status m b :
    smb_reply p code status m -> m <> mid -> len p <= NB_MAX ->
    skipped mid b -> skipped mid (session_message p ++ b).

(** ** Text *)
(** UTF-16 (RFC 2781): the code units of a text *)
Inductive utf16_of : text -> list N -> Prop :=
| utf16_nil : utf16_of [] []
| utf16_bmp c s u : c < 0xD800 \/ 0xE000 <= c < 0x10000 ->
    utf16_of s u -> utf16_of (c :: s) (c :: u)
| utf16_pair c h l s u : 0xD800 <= h < 0xDC00 -> 0xDC00 <= l < 0xE000 ->
    c = 0x10000 + (h - 0xD800) * 1024 + (l - 0xDC00) ->
    utf16_of s u -> utf16_of (c :: s) (h :: l :: u).
(** the bytes of code units, little endian *)
Fixpoint units_le (u : list N) : bytes :=
  match u with
  | [] => []
  | x :: r => n2b x :: n2b (x / 256) :: units_le r
  end.
(** [b] is the UTF-16LE encoding of [s] *)
Definition utf16le_of (s : text) (b : bytes) : Prop :=
  exists u, utf16_of s u /\ b = units_le u.

(** numbers of UTF-16 units and of UTF-8 bytes of a text *)
Fixpoint utf16_len (s : text) : N :=
  match s with [] => 0 | c :: r => (if c <? 0x10000 then 1 else 2) + utf16_len r end.
Fixpoint utf8_len (s : text) : N :=
  match s with
  | [] => 0
  | c :: r => (if c <? 0x80 then 1 else if c <? 0x800 then 2 else if c <? 0x10000 then 3 else 4)
              + utf8_len r
  end.

(** a Rust string: Unicode scalar values *)
Definition char (c : N) : Prop := c < 0xD800 \/ 0xE000 <= c < 0x110000.
Definition str (s : text) : Prop := Forall char s.

(** a two-byte terminator, at an even position *)
Definition terminated16 (b : bytes) : Prop := exists d r, b = d ++ [x00; x00] ++ r /\ Nat.even (length d) = true.

(** UTF-8 (RFC 3629): the bytes of a text *)
Inductive utf8_of : text -> bytes -> Prop :=
| utf8_nil : utf8_of [] []
| utf8_1 c s b : c < 0x80 -> utf8_of s b -> utf8_of (c :: s) (n2b c :: b)
| utf8_2 c s b : 0x80 <= c < 0x800 -> utf8_of s b ->
    utf8_of (c :: s) (n2b (0xC0 + c / 64) :: n2b (0x80 + c mod 64) :: b)
| utf8_3 c s b : 0x800 <= c < 0x10000 -> char c -> utf8_of s b ->
    utf8_of (c :: s) (n2b (0xE0 + c / 4096) :: n2b (0x80 + c / 64 mod 64) :: n2b (0x80 + c mod 64) :: b)
| utf8_4 c s b : 0x10000 <= c < 0x110000 -> utf8_of s b ->
    utf8_of (c :: s) (n2b (0xF0 + c / 262144) :: n2b (0x80 + c / 4096 mod 64)
                      :: n2b (0x80 + c / 64 mod 64) :: n2b (0x80 + c mod 64) :: b).

(** UTF-16LE text with half a code unit behind it, and nothing wrong before (an
    unfinished surrogate pair may precede the odd byte) *)
Definition cut_utf16 (b : bytes) : Prop :=
  exists s u h x, utf16_of s u /\ (h = [] \/ exists y, h = [y] /\ 0xD800 <= y < 0xDC00)
    /\ b = units_le (u ++ h) ++ [x].

(** the path the server shall see: every '/' (47) replaced by '\' (92) *)
Definition windows_path (p q : text) : Prop :=
  Forall2 (fun a b => (a = 47 /\ b = 92) \/ (a <> 47 /\ b = a)) p q.
