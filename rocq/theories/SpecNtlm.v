(** * SpecNtlm: the NTLM messages and responses (MS-NLMP), DES keys, NetBIOS names *)
From Verif Require Import Base Text Win Errors Common Reply Ntlm Prog Client Spec SpecReply SpecCrash.
Open Scope N_scope.

(** ** messages, MS-NLMP 2.2.1 *)
Definition SIGNATURE : bytes := [x4e; x54; x4c; x4d; x53; x53; x50; x00]. (* NTLMSSP *)
(** the descriptor at offset [o] of [m] designates [payload], which is at offset [a] *)
Definition designates (m : bytes) (o a : N) (payload : bytes) : Prop :=
  u16_at m o = Some (len payload) /\ u16_at m (o + 2) = Some (len payload) /\ u32_at m (o + 4) = Some a
  /\ bytes_at m a (len payload) = Some payload.
(** type 1, NEGOTIATE_MESSAGE: names in the OEM character set (here: UTF-8), Windows version
    5.0 build 2195, NTLM revision 15 *)
Definition negotiate_message (domain workstation : text) (m : bytes) : Prop :=
  exists d w, utf8_of domain d /\ utf8_of workstation w
  /\ bytes_at m 0 8 = Some SIGNATURE /\ u32_at m 8 = Some 1
  /\ u32_at m 12 = Some 0x3207
  /\ designates m 16 40 d /\ designates m 24 (40 + len d) w
  /\ bytes_at m 32 8 = Some [x05; x00; x93; x08; x00; x00; x00; x0f]
  /\ len m = 40 + len d + len w.
(** the character set chosen by the server *)
Definition oem_or_wide (unicode : bool) (s : text) (b : bytes) : Prop :=
  if unicode then utf16le_of s b else utf8_of s b.
(** type 3, AUTHENTICATE_MESSAGE (without session key, flags and version) *)
Definition authenticate_message (unicode : bool) (domain user workstation : text) (nt m : bytes) : Prop :=
  exists d u w, oem_or_wide unicode domain d /\ oem_or_wide unicode user u /\ oem_or_wide unicode workstation w
  /\ bytes_at m 0 8 = Some SIGNATURE /\ u32_at m 8 = Some 3
  /\ designates m 12 52 (zeros 24) (* no LM response *)
  /\ designates m 20 76 nt
  /\ designates m 28 (76 + len nt) d
  /\ designates m 36 (76 + len nt + len d) u
  /\ designates m 44 (76 + len nt + len d + len u) w
  /\ len m = 76 + len nt + len d + len u + len w.
(** type 2, CHALLENGE_MESSAGE: payloads anywhere in the message *)
Definition NTLM_BITS : N := 0xe2fffff7.
Definition challenge_of (m : bytes) (c : challenge_msg) : Prop :=
  exists flags tl ta raw il ia, bytes_at m 0 8 = Some SIGNATURE /\ u32_at m 8 = Some 2
  /\ u16_at m 12 = Some tl /\ u32_at m 16 = Some ta
  /\ u32_at m 20 = Some flags /\ flags_of NTLM_BITS flags (ch_flags c)
  /\ bytes_at m 24 8 = Some (ch_challenge c)
  /\ u16_at m 40 = Some il /\ u32_at m 44 = Some ia
  /\ bytes_at m ta tl = Some raw /\ oem_or_wide (N.testbit flags 0) (ch_target c) raw
  /\ bytes_at m ia il = Some (ch_info c).
(** which of them crash the client *)
Definition crash_challenge (m : bytes) : Prop :=
  len m < 8
  \/ (bytes_at m 0 8 = Some SIGNATURE
      /\ (len m < 12
          \/ (u32_at m 8 = Some 2
              /\ (len m < 48
                  \/ exists flags tl ta il ia,
                     u16_at m 12 = Some tl /\ u32_at m 16 = Some ta /\ u32_at m 20 = Some flags
                     /\ u16_at m 40 = Some il /\ u32_at m 44 = Some ia
                     /\ (bytes_at m ta tl = None
                         \/ exists raw, bytes_at m ta tl = Some raw
                            /\ ((N.testbit flags 0 = true /\ cut_utf16 raw)
                                \/ ((exists s, oem_or_wide (N.testbit flags 0) s raw) /\ bytes_at m ia il = None))))))).

(** ** NTLMv2, MS-NLMP 3.3.2.  [time]: the clock, in ticks of 100 ns since 1601; the
    response for the server's [challenge] and target [info]. *)
Definition v2_blob (time : N) (nonce info : bytes) : bytes :=
  [x01; x01; x00; x00; x00; x00; x00; x00] ++ le 8 time ++ nonce ++ zeros 4 ++ info ++ zeros 4.
Definition v2_response (E : env) (password user domain : text) (time : N) (challenge info nt : bytes) : Prop :=
  exists pw name tag, utf16le_of password pw /\ utf16le_of (upper E user ++ domain) name
  /\ tag = hmac E (hmac E (md4 E pw) name) (challenge ++ v2_blob time (rnd E) info)
  /\ nt = tag ++ v2_blob time (rnd E) info.
(** the clock: [now] is in nanoseconds *)
Definition clock (E : env) (time : N) : Prop :=
  (0 <= now E)%Z /\ time = 10 * Z.to_N (now E / 1000)%Z /\ time < 18446744073709551616.

(** ** DES keys: bit [i] of a byte string, most significant bit of the first byte first *)
Definition bit (b : bytes) (i : N) : bool :=
  match nth_error b (N.to_nat (i / 8)) with
  | Some x => N.testbit (b2n x) (7 - i mod 8)
  | None => false
  end.
(** [key]: 8 bytes with the 56 bits of the 7 bytes [k] in the upper 7 bits of each byte *)
Definition des_key (k key : bytes) : Prop :=
  len k = 7 /\ len key = 8
  /\ (forall i, i < 56 -> bit key (i / 7 * 8 + i mod 7) = bit k i)
  /\ (forall j, j < 8 -> bit key (8 * j + 7) = false).
(** NTLMv1 response, MS-NLMP 3.3.1: DESL *)
Definition v1_response (E : env) (password : text) (challenge nt : bytes) : Prop :=
  exists pw h a b c k1 k2 k3, utf16le_of password pw /\ h = md4 E pw /\ h = a ++ b ++ c
  /\ des_key a k1 /\ des_key b k2 /\ des_key (c ++ zeros 5) k3
  /\ nt = des E k1 challenge ++ des E k2 challenge ++ des E k3 challenge.

(** ** NetBIOS names, RFC 1001 14.1: first-level encoding *)
(** two letters A..P per character, its upper and lower four bits *)
Inductive half_ascii : list N -> bytes -> Prop :=
| ha_nil : half_ascii [] []
| ha_cons c l x y b : c < 256 -> b2n x = 0x41 + c / 16 -> b2n y = 0x41 + c mod 16 -> half_ascii l b ->
    half_ascii (c :: l) (x :: y :: b).
(** the 16 characters of a name: its ASCII characters, cut or filled with blanks *)
Inductive ascii_part : text -> list N -> Prop :=
| ap_nil : ascii_part [] []
| ap_ascii c s l : c < 128 -> ascii_part s l -> ascii_part (c :: s) (c :: l)
| ap_other c s l : 128 <= c -> ascii_part s l -> ascii_part (c :: s) l.
Definition name16 (s : text) (l : list N) : Prop :=
  exists a, ascii_part s a /\ length l = 16%nat
  /\ ((exists cut, a = l ++ cut) \/ exists n, l = a ++ repeat 32 n).
(** a name in a session request: length, letters, no scope *)
Definition session_name (s : text) (b : bytes) : Prop :=
  exists l letters, name16 s l /\ half_ascii l letters /\ b = [x20] ++ letters ++ [x00].
(** RFC 1002 4.3.2 *)
Definition session_request (called calling : text) (f : bytes) : Prop :=
  exists a b, session_name called a /\ session_name calling b /\ f = nb_frame 0x81 (a ++ b) /\ len (a ++ b) = 68.
