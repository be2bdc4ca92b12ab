(** * NTLM: C34, C35, C37-C39 *)
From Verif Require Import Base Text Win Errors Info Common Reply Ntlm Prog Client Spec SpecReply SpecCrash SpecNtlm SpecMsg Utils
  Api SpecCall Flow Sample BaseFacts TextFacts RunFacts ClientFacts MsgFacts NtlmFacts SpecLogin AskFacts ReqFacts OpenFacts.
Open Scope N_scope.

(** C34: the type-1 message is the one of MS-NLMP 2.2.1.1: its two descriptors designate the
    names, which follow each other and fill the message. *)
Theorem C34_negotiate : forall domain workstation m, is_str domain -> is_str workstation ->
  init_msg domain workstation = Ok m -> negotiate_message domain workstation m.
Proof. exact init_good. Qed.
Print Assumptions C34_negotiate.
Theorem C34_negotiate_only : forall domain workstation m,
  negotiate_message domain workstation m -> init_msg domain workstation = Ok m.
Proof. exact init_complete. Qed.
Print Assumptions C34_negotiate_only.
Theorem C34_negotiate_too_long : forall domain workstation, 65536 <= len (utf8 domain) \/ 65536 <= len (utf8 workstation) ->
  init_msg domain workstation = Err InputParameter.
Proof. exact init_too_long. Qed.
Print Assumptions C34_negotiate_too_long.
Theorem C34_negotiate_fits : forall domain workstation, len (utf8 domain) < 65536 -> len (utf8 workstation) < 65536 ->
  exists m, init_msg domain workstation = Ok m.
Proof. exact init_fits. Qed.
Print Assumptions C34_negotiate_fits.
(** The type-3 message: five payloads, one behind the other. *)
Theorem C34_authenticate : forall E a c m, is_str (a_user a) -> is_str (a_domain a) -> is_str (a_workstation a) ->
  challenge_response E c a = Ok m ->
  exists nt, authenticate_message (N.testbit (ch_flags c) 0) (a_domain a) (a_user a) (a_workstation a) nt m.
Proof. exact authenticate_form. Qed.
Print Assumptions C34_authenticate.
Theorem C34_authenticate_fits : forall E a c t, clock E t -> len (ch_info c) < 65488 ->
  let u := N.testbit (ch_flags c) 0 in
  len (encoded u (a_domain a)) < 65536 -> len (encoded u (a_user a)) < 65536 -> len (encoded u (a_workstation a)) < 65536 ->
  exists m, challenge_response E c a = Ok m.
Proof. exact authenticate_fits. Qed.
Print Assumptions C34_authenticate_fits.
Theorem C34_authenticate_too_long : forall E a c t, clock E t ->
  let u := N.testbit (ch_flags c) 0 in
  65488 <= len (ch_info c) \/ 65536 <= len (encoded u (a_domain a)) \/ 65536 <= len (encoded u (a_user a))
  \/ 65536 <= len (encoded u (a_workstation a)) ->
  challenge_response E c a = Err InputParameter.
Proof. exact authenticate_too_long. Qed.
Print Assumptions C34_authenticate_too_long.
(** Everything written while logging in, whatever the server does: negotiation, these messages,
    or the classic session setup (or a beginning of such a frame, if the stream fails). *)
Theorem C34_sent : forall Sv (react : Sv -> bytes -> reaction Sv) E fuel t w, typed_auth (auth_of (cl w)) -> clock E t ->
  exists l, tx (final (run react (setup_connection E fuel) w)) = tx w ++ l
  /\ Forall (login_frame E (auth_of (cl w)) t) l.
Proof. exact setup_sends. Qed.
Print Assumptions C34_sent.

Definition challenge0 : bytes :=
  SIGNATURE ++ le 4 2 ++ (le 2 2 ++ le 2 2 ++ le 4 48) ++ le 4 0x1 ++ [x01; x02; x03; x04; x05; x06; x07; x08] ++ zeros 8
  ++ (le 2 4 ++ le 2 4 ++ le 4 50) ++ [x41; x00] ++ zeros 4.
Definition alice : auth := mk_auth [97; 108] [87; 83] [68] [112; 119].
Example C34_example : exists c m1 m3, challenge_parse challenge0 = Ok c
  /\ init_msg (a_domain alice) (a_workstation alice) = Ok m1 /\ len m1 = 43
  /\ challenge_response (env0 true) c alice = Ok m3 /\ len m3 = 76 + 52 + 2 + 4 + 4
  /\ clock (env0 true) 0 /\ typed_auth alice.
Proof.
  do 3 eexists. split; [runs|]. split; [runs|]. split; [reflexivity|]. split; [runs|]. split; [reflexivity|].
  split; [|repeat split]. split; [easy|]. split; [reflexivity|easy].
Qed.

(** names that are too long *)
Example C34_long_example : forall n, 65536 <= N.of_nat n -> 65536 <= len (utf8 (repeat 97 n))
  /\ exists c, challenge_parse challenge0 = Ok c /\ 65536 <= len (encoded (N.testbit (ch_flags c) 0) (repeat 97 n)).
Proof.
  intros n Hn. assert (H : len (utf8 (repeat 97 n)) = N.of_nat n).
  { clear. induction n as [|n IH]; [reflexivity|]. cbn [repeat utf8 flat_map]. rewrite len_app. unfold utf8 in IH. rewrite IH. change (len (utf8_char 97)) with 1. lia. }
  assert (H2 : len (encode_utf16le (repeat 97 n)) = 2 * N.of_nat n).
  { clear. induction n as [|n IH]; [reflexivity|]. change (encode_utf16le (repeat 97 (S n))) with (le 2 97 ++ encode_utf16le (repeat 97 n)). rewrite len_app, IH. change (len (le 2 97)) with 2. lia. }
  split; [lia|]. eexists. split; [runs|]. cbn [ch_flags N.testbit Pos.testbit]. unfold encoded. lia.
Qed.

(** C35: the response of the type-3 message. *)
Theorem C35_response : forall E a c t nt, is_str (a_password a) -> is_str (a_user a) -> is_str (a_domain a) -> clock E t ->
  (ntlmv2_authenticate E a c = Ok nt <-> v2_response E (a_password a) (a_user a) (a_domain a) t (ch_challenge c) (ch_info c) nt).
Proof. exact v2_good. Qed.
Print Assumptions C35_response.
Theorem C35_message : forall E a c t m, typed_auth a -> clock E t ->
  (challenge_response E c a = Ok m <->
   exists nt, v2_response E (a_password a) (a_user a) (a_domain a) t (ch_challenge c) (ch_info c) nt
   /\ authenticate_message (N.testbit (ch_flags c) 0) (a_domain a) (a_user a) (a_workstation a) nt m).
Proof. exact authenticate_iff. Qed.
Print Assumptions C35_message.
(** During a login the challenge is the one in the server's reply ([login_v2]), so the type-3
    message belongs to this login. *)
Theorem C35_login : forall Sv (react : Sv -> bytes -> reaction Sv) E fuel t w w', typed_auth (auth_of (cl w)) -> clock E t ->
  run react (setup_connection E fuel) w = Done (Good tt) w' ->
  exists s user last, login react E t w s user last w'.
Proof. exact login_good. Qed.
Print Assumptions C35_login.
Example C35_example : exists c nt, challenge_parse challenge0 = Ok c
  /\ ntlmv2_authenticate (env0 true) alice c = Ok nt
  /\ nt = repeat x22 16 ++ v2_blob 0 (repeat x44 8) (zeros 4) /\ ch_challenge c = [x01; x02; x03; x04; x05; x06; x07; x08].
Proof. do 2 eexists. split; [runs|]. split; [runs|]. split; reflexivity. Qed.

(** C37: the challenge is decoded iff it is one, to what it says; payloads may be anywhere. *)
Theorem C37_decoded : forall m c, challenge_parse m = Ok c <-> challenge_of m c.
Proof. exact challenge_ok. Qed.
Print Assumptions C37_decoded.
Theorem C37_wrong_partial : forall m, (8 <= len m /\ bytes_at m 0 8 <> Some SIGNATURE) \/ (12 <= len m /\ u32_at m 8 <> Some 2) ->
  challenge_parse m = Err InvalidPacket.
Proof. exact challenge_rejected. Qed.
Print Assumptions C37_wrong_partial.
(** shorter ones are no error but a crash *)
Theorem C37_short_refuted : exists m, bytes_at m 0 8 <> Some SIGNATURE /\ challenge_parse m = Panic.
Proof. exists []. split; [discriminate|]. reflexivity. Qed.
Print Assumptions C37_short_refuted.
Theorem C37_unique : forall m c c', challenge_of m c -> challenge_of m c' -> c = c'.
Proof. exact challenge_unique. Qed.
Print Assumptions C37_unique.
(** exactly the messages that crash it *)
Theorem C33_challenge : forall m, challenge_parse m = Panic <-> crash_challenge m.
Proof. exact challenge_crash. Qed.
Print Assumptions C33_challenge.
(** payloads in reverse order, with a gap *)
Example C37_example : exists c, challenge_parse
   (SIGNATURE ++ le 4 2 ++ (le 2 2 ++ le 2 2 ++ le 4 55) ++ le 4 0x1 ++ [x01; x02; x03; x04; x05; x06; x07; x08] ++ zeros 8
    ++ (le 2 4 ++ le 2 4 ++ le 4 50) ++ [xaa; xbb] ++ [x01; x02; x03; x04] ++ [xcc] ++ [x41; x00]) = Ok c
  /\ ch_target c = [65] /\ ch_info c = [x01; x02; x03; x04] /\ ch_flags c = 1.
Proof. eexists. split; [runs|]. repeat split. Qed.

(** a wrong signature; a wrong message type *)
Example C37_wrong_example : bytes_at (zeros 48) 0 8 <> Some SIGNATURE /\ challenge_parse (zeros 48) = Err InvalidPacket
  /\ u32_at (SIGNATURE ++ le 4 3 ++ zeros 36) 8 <> Some 2 /\ challenge_parse (SIGNATURE ++ le 4 3 ++ zeros 36) = Err InvalidPacket.
Proof. split; [discriminate|]. split; [runs|]. split; [discriminate|]. runs. Qed.

(** C38: keys of up to 7 bytes are expanded like the key filled up with zeros, ... *)
Theorem C38_expanded : forall X k e, @expand_des_key X k = Ok e -> len k <= 7 /\ des_key (k ++ zeros (7 - len k)) e.
Proof. exact expand_padded. Qed.
Print Assumptions C38_expanded.
Theorem C38_total : forall X k, len k <= 7 -> exists e, @expand_des_key X k = Ok e.
Proof. exact expand_total. Qed.
Print Assumptions C38_total.
(** ... this determines the result, and the key can be read from it. *)
Theorem C38_determined : forall k e e', des_key k e -> des_key k e' -> e = e'.
Proof. exact des_key_fun. Qed.
Print Assumptions C38_determined.
Theorem C38_injective : forall k k' e, des_key k e -> des_key k' e -> k = k'.
Proof. exact des_key_inj. Qed.
Print Assumptions C38_injective.
Example C38_example : @expand_des_key unit [xff; xff; xff; xff; xff; xff; xff] = Ok (repeat xfe 8)
  /\ @expand_des_key unit [x01; x23] = Ok [x00; x90; xc0; x00; x00; x00; x00; x00].
Proof. split; [runs|]. runs. Qed.

(** C39: the response, for every 8-byte challenge; others crash the client. *)
Theorem C39_response : forall E a challenge nt, is_str (a_password a) -> len challenge = 8 ->
  (ntlmv1_authenticate E (X := ntlm_error) a challenge = Ok nt <-> v1_response E (a_password a) challenge nt).
Proof. exact v1_good. Qed.
Print Assumptions C39_response.
Theorem C39_crash : forall E a challenge, ntlmv1_authenticate E (X := ntlm_error) a challenge = Panic <-> len challenge <> 8.
Proof. exact v1_crash. Qed.
Print Assumptions C39_crash.
(** It has 24 bytes and is sent twice, with user and domain ([asks], SpecMsg). *)
Theorem C39_length : forall E a challenge nt, ntlmv1_authenticate E (X := ntlm_error) a challenge = Ok nt -> len nt = 24.
Proof. exact v1_length. Qed.
Print Assumptions C39_length.
Theorem C39_message : forall E fuel st user domain nt f, typed_client st -> typed (SetupAuth user domain nt) ->
  request (exec E fuel (SetupAuth user domain nt)) st = Some f ->
  exists p words data, f = session_message p /\ len p <= 65618 /\ smb_parts p words data []
  /\ request_header p 0x73 (if use_unicode st then 0xc843 else 0x4843) 0xffff (uid st) (mid st)
  /\ asks (use_unicode st) (SetupAuth user domain nt) p words data.
Proof. intros E fuel st user domain nt f Hs Hc. exact (request_asks Hs Hc). Qed.
Print Assumptions C39_message.
(** What is sent for NTLMv1 in a successful login: [login_v1] in C35_login; in any: [C34_sent]. *)
Example C39_example : ntlmv1_authenticate (env0 true) (X := ntlm_error) alice (zeros 8) = Ok (repeat x33 24)
  /\ exists f, request (exec (env0 true) 5 (SetupAuth [97] [68] (repeat x33 24))) client0 = Some f /\ len f = 126.
Proof. split; [runs|]. eexists. split; [runs|]. reflexivity. Qed.
