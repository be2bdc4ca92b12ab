(** * SpecFault: what can be wrong with what arrives, before the contents of a reply are
    looked at (C88).

    By offsets and lengths, as Spec.v; of the model only the names of the errors
    (netbios.rs:12-38, smb/error.rs:10-62, error.rs:9-30) and commands are used. *)
From Verif Require Import Base Win Errors Common Reply Ntlm Prog Client Spec.
Open Scope N_scope.

(** a frame of the session layer that is neither a message nor a keep-alive:
    of an unknown type; of a known type with a wrong length; in order, but not expected here
    (session request and the three responses) *)
Inductive bad_frame (ty : N) (p : bytes) : nb_error -> Prop :=
| bad_type : ~ In ty [0x00; 0x81; 0x82; 0x83; 0x84; 0x85] -> bad_frame ty p (InvalidFrameType ty)
| bad_length : ((ty = 0x82 \/ ty = 0x85) /\ len p <> 0) \/ (ty = 0x83 /\ len p <> 1) \/ (ty = 0x84 /\ len p <> 6) ->
    bad_frame ty p InvalidFrame
| bad_place : ty = 0x81 \/ (ty = 0x82 /\ len p = 0) \/ (ty = 0x83 /\ len p = 1) \/ (ty = 0x84 /\ len p = 6) ->
    bad_frame ty p UnexpectedFrame.
(** a message that is no reply of a known command *)
Inductive bad_header (p : bytes) : smb_error -> Prop :=
| bad_magic : len p < 32 \/ take 4 p <> magic -> bad_header p InvalidHeader
| bad_command c : 32 <= len p -> take 4 p = magic -> u8_at p 4 = Some c -> ~ In c known_codes -> bad_header p (InvalidCommand c)
| bad_direction c f : 32 <= len p -> take 4 p = magic -> u8_at p 4 = Some c -> In c known_codes ->
    u8_at p 9 = Some f -> N.testbit f 7 = false -> bad_header p ReplyExpected.
(** success, or "more processing required" in a login *)
Definition fine_status (code st : N) : Prop := st = 0 \/ (code = 0x73 /\ st = 0xc0000016).

(** for a client that waits for the reply to the request [id] with the command [code]: the
    error, and the bytes after what it has read *)
Inductive faulty (id code : N) : bytes -> error -> bytes -> Prop :=
| faulty_skip s b e rest : skipped id s -> faulty id code b e rest -> faulty id code (s ++ b) e rest
| faulty_big t x y z rest : NB_MAX < b2n x * 65536 + b2n y * 256 + b2n z ->
    faulty id code ([t; x; y; z] ++ rest) (ENetBios FrameTooBig) rest
| faulty_frame ty p rest e : ty < 256 -> len p <= NB_MAX -> bad_frame ty p e -> faulty id code (nb_frame ty p ++ rest) (ENetBios e) rest
| faulty_header p rest e : len p <= NB_MAX -> bad_header p e -> faulty id code (session_message p ++ rest) (ESmb e) rest
| faulty_reply p want got st rest : len p <= NB_MAX -> smb_reply p (cmd_code got) st id -> cmd_code want = code -> want <> got ->
    faulty id code (session_message p ++ rest) (UnexpectedReply want got) rest
| faulty_status p st rest : len p <= NB_MAX -> smb_reply p code st id -> ~ fine_status code st ->
    faulty id code (session_message p ++ rest) (ServerError (status_of_code st)) rest.

(** not (yet) a whole frame *)
Definition incomplete (b : bytes) : Prop :=
  len b < 4 \/ exists t x y z r, b = [t; x; y; z] ++ r
    /\ b2n x * 65536 + b2n y * 256 + b2n z <= NB_MAX /\ len r < b2n x * 65536 + b2n y * 256 + b2n z.
(** the stream ends, with [b] read *)
Inductive cut (b : bytes) : tail -> nb_error -> Prop :=
| cut_header : len b < 4 -> cut b Closed (IoError IoUnexpectedEof)
| cut_frame : 4 <= len b -> cut b Closed UnexpectedEOF
| cut_broken e : cut b (Broken e) (IoError (IoOther e)).
