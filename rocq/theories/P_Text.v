(** * Properties C18, C19, C46: text on the wire. *)
From Verif Require Import Base Text Spec TextFacts.
Open Scope N_scope.

(** C18: decoding the encoding of any string gives the string back. *)
Theorem C18_roundtrip : forall s, str s -> decode_utf16le (encode_utf16le s) = Ok s.
Proof. exact decode_encode_utf16le. Qed.
Print Assumptions C18_roundtrip.

(** The encoder produces the UTF-16LE form (surrogate pairs beyond the BMP). *)
Theorem C18_encode : forall s, str s -> utf16le_of s (encode_utf16le s).
Proof. exact utf16le_encode. Qed.
Print Assumptions C18_encode.

(** Decoding accepts exactly well-formed UTF-16LE, with exactly its text. *)
Theorem C18_strict : forall b s, decode_utf16le b = Ok s <-> utf16le_of s b.
Proof. exact decode_utf16le_ok. Qed.
Print Assumptions C18_strict.

(** Non-vacuity: a string with a character outside the BMP and its four units. *)
Example C18_example : str [0x68; 0xe9; 0x1f600] /\
  encode_utf16le [0x68; 0xe9; 0x1f600] = [x68; x00; xe9; x00; x3d; xd8; x00; xde].
Proof. split; [apply is_text_str; reflexivity|reflexivity]. Qed.
(** An unpaired surrogate is an error. *)
Example C18_example_unpaired : decode_utf16le [x3d; xd8; x41; x00] = Err DecodeUtf16Error.
Proof. reflexivity. Qed.

(** C19: a zero-terminated string is the text before the first terminator, and
    exactly the bytes after it are left. *)
Theorem C19_utf8 : forall b s r, parse_str_0 b = Ok (s, r) <->
  exists d, b = d ++ x00 :: r /\ ~ In x00 d /\ utf8_of s d.
Proof. exact parse_str_0_ok. Qed.
Print Assumptions C19_utf8.

Theorem C19_utf16 : forall b s r, parse_utf16le_0 b = Ok (s, r) <->
  exists d, b = d ++ [x00; x00] ++ r /\ utf16le_of s d /\ ~ In 0 s.
Proof. exact parse_utf16le_0_ok. Qed.
Print Assumptions C19_utf16.

(** Everything else is an error, not a crash; and which error: no terminator or (otherwise)
    invalid text. *)
Theorem C19_missing : forall b, (parse_str_0 b = Err MissingTermination <-> ~ In x00 b)
  /\ (parse_utf16le_0 b = Err MissingTermination <-> ~ terminated16 b).
Proof. exact (fun b => conj (@parse_str_0_missing b) (@parse_utf16le_0_missing b)). Qed.
Print Assumptions C19_missing.
Theorem C19_no_panic : forall b, parse_str_0 b <> Panic /\ parse_utf16le_0 b <> Panic.
Proof. exact (fun b => conj (@parse_str_0_no_panic b) (@parse_utf16le_0_no_panic b)). Qed.
Print Assumptions C19_no_panic.

Example C19_example :
  parse_str_0 [x41; x3a; x00; x42; x00] = Ok ([65; 58], [x42; x00])
  /\ parse_utf16le_0 [x00; x01; x00; x00; x42] = Ok ([256], [x42])
  /\ parse_str_0 [x41] = Err MissingTermination
  /\ parse_str_0 [xff; x00] = Err InvalidUnicode
  /\ parse_utf16le_0 [x41; x00; x00; x01] = Err MissingTermination
  /\ parse_utf16le_0 [x00; xd8; x00; x00] = Err InvalidUnicode.
Proof. repeat split. Qed.

(** C46: the path sent has every '/' replaced by a backslash, nothing else changed
    (same length, character by character), contains no '/', and doing it twice is
    the same as once. *)
Theorem C46_separators : forall p,
  windows_path p (sanitize_path p) /\ ~ In 47 (sanitize_path p)
  /\ len (sanitize_path p) = len p /\ sanitize_path (sanitize_path p) = sanitize_path p.
Proof.
  exact (fun p => conj (sanitize_windows p) (conj (@sanitize_no_slash p)
    (conj (len_sanitize p) (sanitize_idem p)))).
Qed.
Print Assumptions C46_separators.

Example C46_example : sanitize_path [97; 47; 98; 92; 99] = [97; 92; 98; 92; 99].
Proof. reflexivity. Qed.
