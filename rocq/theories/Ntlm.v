(** * Ntlm: ntlm.rs and ntlm/*.rs. *)
From Verif Require Import Base Text Utils Win Errors.
Open Scope N_scope.

(** What the crate takes from outside: MD4, HMAC-MD5 and DES (external crates,
    here arbitrary functions with the right output length), the Unicode
    upper-casing of std, the clock (nanoseconds since 1601-01-01 UTC), the
    system's random generator, and whether the crate is compiled with arithmetic
    overflow checks. *)
Record env := mk_env {
  md4 : bytes -> bytes;
  md4_len : forall b, length (md4 b) = 16%nat;
  hmac : bytes -> bytes -> bytes;
  hmac_len : forall k b, length (hmac k b) = 16%nat;
  des : bytes -> bytes -> bytes;
  des_len : forall k b, length (des k b) = 8%nat;
  upper : text -> text;
  upper_text : forall s, is_text s = true -> is_text (upper s) = true;
  now : Z;
  rnd : bytes;
  rnd_len : length rnd = 8%nat;
  overflow_checks : bool
}.

(** ntlm.rs:14-18 *)
Definition NTLMSSP_MAGIC : bytes := [x4e; x54; x4c; x4d; x53; x53; x50; x00].
Definition NTLM_MSG_INIT : N := 1.
Definition NTLM_MSG_CHALLENGE : N := 2.
Definition NTLM_MSG_RESPONSE : N := 3.
Definition NTLM_REVISION : N := 15.

(** ntlm/auth.rs:10-15 Auth *)
Record auth := mk_auth {
  a_user : text;
  a_workstation : text;
  a_domain : text;
  a_password : text
}.

(** ntlm/buffer.rs:6-10 Buffer *)
Record sec_buffer := mk_sec { sb_length : N; sb_capacity : N; sb_position : N }.

(** ntlm/buffer.rs:13-21 Buffer::parse *)
Definition sec_parse (b : bytes) : res ntlm_error (sec_buffer * bytes) :=
  let* (length, b) := get_u16_le b in
  let* (capacity, b) := get_u16_le b in
  let* (position, b) := get_u32_le b in
  Ok (mk_sec length capacity position, b).

(** ntlm/buffer.rs:23-30 Buffer::write *)
Definition sec_write (s : sec_buffer) (offset : N) : res ntlm_error bytes :=
  let position := offset + sb_position s in
  let* l := try_into 16 InputParameter (sb_length s) in
  let* c := try_into 16 InputParameter (sb_capacity s) in
  let* p := try_into 32 InputParameter position in
  Ok (le 2 l ++ le 2 c ++ le 4 p).

(** ntlm/buffer.rs:32-37 Buffer::extract *)
Definition sec_extract (s : sec_buffer) (b : bytes) : res ntlm_error bytes :=
  slice (sb_position s) (sb_position s + sb_length s) b.

(** ntlm/buffer.rs:39-52 Buffer::extract_string *)
Definition sec_extract_string (s : sec_buffer) (b : bytes) (unicode : bool)
  : res ntlm_error text :=
  let* raw := sec_extract s b in
  if unicode then map_err (fun _ => InvalidPacket) (decode_utf16le raw)
  else ok_or (utf8_decode raw) InvalidPacket.

(** ntlm/packet.rs:7-19 PacketEntry *)
Inductive packet_entry := PBinary (b : bytes) | PBuffer (s : sec_buffer).
Definition entry_len (e : packet_entry) : N :=
  match e with PBinary v => len v | PBuffer _ => 8 end.

(** ntlm/packet.rs:22-33 Packet *)
Record packet := mk_packet { p_entries : list packet_entry; p_extra : bytes }.
Definition packet_new : packet := mk_packet [] [].

(** ntlm/packet.rs:35-62 *)
Definition append_binary (d : bytes) (p : packet) : packet :=
  mk_packet (p_entries p ++ [PBinary d]) (p_extra p).
Definition append_u32 (v : N) (p : packet) : packet :=
  mk_packet (p_entries p ++ [PBinary (le 4 v)]) (p_extra p).
Definition append_buffer (d : bytes) (p : packet) : packet :=
  mk_packet (p_entries p ++ [PBuffer (mk_sec (len d) (len d) (len (p_extra p)))])
            (p_extra p ++ d).
Definition append_string (s : text) (unicode : bool) (p : packet) : packet :=
  if unicode then append_buffer (encode_utf16le s) p else append_buffer (utf8 s) p.

(** ntlm/packet.rs:80-85 base_len *)
Definition base_len (p : packet) : N :=
  fold_right (fun e n => entry_len e + n) 0 (p_entries p).

(** ntlm/packet.rs:68-73, the loop of to_bytes *)
Fixpoint write_entries (l : list packet_entry) (offset : N) : res ntlm_error bytes :=
  match l with
  | [] => Ok []
  | e :: r =>
    let* a := match e with PBinary d => Ok d | PBuffer s => sec_write s offset end in
    let* b := write_entries r offset in
    Ok (a ++ b)
  end.
(** ntlm/packet.rs:64-78 Packet::to_bytes *)
Definition packet_to_bytes (p : packet) : res ntlm_error bytes :=
  let* out := write_entries (p_entries p) (base_len p) in
  Ok (out ++ p_extra p).

(** ntlm/init.rs:46-62 Version::default, as_bytes *)
Definition version_bytes : bytes := le 1 5 ++ le 1 0 ++ le 2 2195 ++ zeros 3 ++ le 1 NTLM_REVISION.

(** ntlm/init.rs:77-121 InitMsg with the calls of lib.rs:264-277 (set_origin and
    set_default_version are always called, so both options are Some) *)
Definition init_flags : N :=
  lor_all [NF_UNICODE; NF_OEM; NF_REQUEST_TARGET; NF_NTLM; NF_DOMAIN_SUPPLIED;
           NF_WORKSTATION_SUPPLIED].
Definition init_msg (domain workstation : text) : res ntlm_error bytes :=
  packet_to_bytes
    (append_binary version_bytes
    (append_buffer (utf8 workstation)
    (append_buffer (utf8 domain)
    (append_u32 init_flags
    (append_u32 NTLM_MSG_INIT
    (append_binary NTLMSSP_MAGIC packet_new)))))).

(** ntlm/challenge.rs:9-14 ChallengeMsg *)
Record challenge_msg := mk_challenge {
  ch_target : text;
  ch_flags : N;
  ch_challenge : bytes;
  ch_info : bytes
}.

(** ntlm/challenge.rs:18-49 ChallengeMsg::parse *)
Definition challenge_parse (msg : bytes) : res ntlm_error challenge_msg :=
  let* (magic, parse) := copy_to_bytes (len NTLMSSP_MAGIC) msg in
  if negb (if list_eq_dec Byte.byte_eq_dec magic NTLMSSP_MAGIC then true else false)
  then Err InvalidPacket else
  let* (msgtype, parse) := get_u32_le parse in
  if negb (msgtype =? NTLM_MSG_CHALLENGE) then Err InvalidPacket else
  let* (target_buffer, parse) := sec_parse parse in
  let* (f, parse) := get_u32_le parse in
  let flags := truncate_bits NtlmFlags_all f in
  let* (challenge, parse) := copy_to_bytes 8 parse in
  let* parse := advance 8 parse in
  let* (info_buffer, parse) := sec_parse parse in
  let* target := sec_extract_string target_buffer msg (contains flags NF_UNICODE) in
  let* info := sec_extract info_buffer msg in
  Ok (mk_challenge target flags challenge info).

Section Env.
Variable E : env.

(** ntlm/auth.rs:67-70 ntlm_hash *)
Definition ntlm_hash (a : auth) : bytes := md4 E (encode_utf16le (a_password a)).

(** ntlm/auth.rs:72-77 ntlmv2_hash *)
Definition ntlmv2_hash (a : auth) : bytes :=
  hmac E (ntlm_hash a) (encode_utf16le (upper E (a_user a) ++ a_domain a)).

(** ntlm/auth.rs:27-36 ntlmv1_authenticate *)
Definition ntlmv1_authenticate {X} (a : auth) (challenge : bytes) : res X bytes :=
  let hash := ntlm_hash a in
  let* r1 := des_oneshot (des E) (take 7 hash) challenge in
  let* r2 := des_oneshot (des E) (take 7 (drop 7 hash)) challenge in
  let* r3 := des_oneshot (des E) (take 2 (drop 14 hash)) challenge in
  Ok (r1 ++ r2 ++ r3).

(** ntlm/auth.rs:38-65 ntlmv2_authenticate: the second component (the session key
    is not used, challenge.rs:52).  utils.rs:43-45 get_windows_time. *)
Definition ntlmv2_authenticate (a : auth) (c : challenge_msg) : res ntlm_error bytes :=
  let* t := encode_windows_time (overflow_checks E) (now E) in
  let blob := [x01; x01; x00; x00; x00; x00; x00; x00]
              ++ le 8 t ++ rnd E ++ le 4 0 ++ ch_info c ++ le 4 0 in
  let data := ch_challenge c ++ blob in
  let key := ntlmv2_hash a in
  let tag := hmac E key data in
  Ok (tag ++ blob).

(** ntlm/challenge.rs:51-73 ChallengeMsg::response *)
Definition challenge_response (c : challenge_msg) (a : auth) : res ntlm_error bytes :=
  let* response := ntlmv2_authenticate a c in
  let unicode := contains (ch_flags c) NF_UNICODE in
  packet_to_bytes
    (append_string (a_workstation a) unicode
    (append_string (a_user a) unicode
    (append_string (a_domain a) unicode
    (append_buffer response
    (append_buffer (zeros 24)
    (append_u32 NTLM_MSG_RESPONSE
    (append_binary NTLMSSP_MAGIC packet_new))))))).
End Env.
