(** * Text: Rust strings, UTF-8 and UTF-16, and the string helpers of utils.rs. *)
From Verif Require Import Base.
Open Scope N_scope.

(** A Rust [char] is a Unicode scalar value, a [String]/[&str] a sequence of them.
    (Rust stores UTF-8; [utf8] below is [as_bytes].) *)
Notation text := (list N).
Definition scalar (c : N) : bool :=
  (c <? 0xD800) || ((0xE000 <=? c) && (c <? 0x110000)).
(** "is a Rust string" *)
Definition is_text (s : text) : bool := forallb scalar s.

(** std: char::encode_utf8 *)
Definition utf8_char (c : N) : bytes :=
  if c <? 0x80 then [n2b c]
  else if c <? 0x800 then [n2b (0xC0 + c / 64); n2b (0x80 + c mod 64)]
  else if c <? 0x10000 then
    [n2b (0xE0 + c / 4096); n2b (0x80 + (c / 64) mod 64); n2b (0x80 + c mod 64)]
  else
    [n2b (0xF0 + c / 262144); n2b (0x80 + (c / 4096) mod 64);
     n2b (0x80 + (c / 64) mod 64); n2b (0x80 + c mod 64)].
(** std: str::as_bytes *)
Definition utf8 (s : text) : bytes := flat_map utf8_char s.

Definition is_cont (b : byte) : bool := (0x80 <=? b2n b) && (b2n b <? 0xC0).
Definition cont (b : byte) : N := b2n b - 0x80.

(** std: String::from_utf8 (strict: no overlong forms, no surrogates). *)
Fixpoint utf8_decode (b : bytes) : option text :=
  match b with
  | [] => Some []
  | b0 :: t0 =>
    if b2n b0 <? 0x80 then option_map (cons (b2n b0)) (utf8_decode t0)
    else if (0xC2 <=? b2n b0) && (b2n b0 <? 0xE0) then
      match t0 with
      | b1 :: t1 =>
        if is_cont b1
        then option_map (cons ((b2n b0 - 0xC0) * 64 + cont b1)) (utf8_decode t1)
        else None
      | _ => None
      end
    else if (0xE0 <=? b2n b0) && (b2n b0 <? 0xF0) then
      match t0 with
      | b1 :: b2 :: t2 =>
        let v := (b2n b0 - 0xE0) * 4096 + cont b1 * 64 + cont b2 in
        if is_cont b1 && is_cont b2 && (0x800 <=? v) && scalar v
        then option_map (cons v) (utf8_decode t2)
        else None
      | _ => None
      end
    else if (0xF0 <=? b2n b0) && (b2n b0 <? 0xF8) then
      match t0 with
      | b1 :: b2 :: b3 :: t3 =>
        let v := (b2n b0 - 0xF0) * 262144 + cont b1 * 4096 + cont b2 * 64 + cont b3 in
        if is_cont b1 && is_cont b2 && is_cont b3 && (0x10000 <=? v) && scalar v
        then option_map (cons v) (utf8_decode t3)
        else None
      | _ => None
      end
    else None
  end.

(** std: str::encode_utf16, per character *)
Definition utf16_char (c : N) : list N :=
  if c <? 0x10000 then [c]
  else [0xD800 + (c - 0x10000) / 1024; 0xDC00 + (c - 0x10000) mod 1024].
Definition utf16 (s : text) : list N := flat_map utf16_char s.

Definition is_high (u : N) : bool := (0xD800 <=? u) && (u <? 0xDC00).
Definition is_low (u : N) : bool := (0xDC00 <=? u) && (u <? 0xE000).
Definition pair_value (h l : N) : N := 0x10000 + (h - 0xD800) * 1024 + (l - 0xDC00).

(** std: char::decode_utf16(..).collect::<Result<String,_>>() *)
Fixpoint decode_utf16 (l : list N) : option text :=
  match l with
  | [] => Some []
  | u :: t =>
    if is_high u then
      match t with
      | u2 :: t2 => if is_low u2 then option_map (cons (pair_value u u2)) (decode_utf16 t2)
                    else None
      | [] => None
      end
    else if is_low u then None
    else option_map (cons u) (decode_utf16 t)
  end.

(** utils.rs:70-75 encode_utf16le *)
Definition encode_utf16le (s : text) : bytes := flat_map (le 2) (utf16 s).

(** utils.rs:77-82 encode_utf16le_0 *)
Definition encode_utf16le_0 (s : text) : bytes := encode_utf16le s ++ [x00; x00].

(** std::char::DecodeUtf16Error; the payload is never inspected by the crate. *)
Inductive utf16_error := DecodeUtf16Error.

Definition u16_of (a b : byte) : N := b2n a + 256 * b2n b.

(** utils.rs:62-68 decode_utf16le.  The iterator is lazy: [raw[i+1]] panics when
    the decoder asks for the last unit of an odd-length slice, unless an earlier
    unpaired surrogate already ended the collection with an error. *)
Fixpoint decode_utf16le (raw : bytes) : res utf16_error text :=
  match raw with
  | [] => Ok []
  | [_] => Panic
  | a :: b :: t =>
    let u := u16_of a b in
    if is_high u then
      match t with
      | [] => Err DecodeUtf16Error
      | [_] => Panic
      | c :: d :: t2 =>
        let u2 := u16_of c d in
        if is_low u2
        then let* r := decode_utf16le t2 in Ok (pair_value u u2 :: r)
        else Err DecodeUtf16Error
      end
    else if is_low u then Err DecodeUtf16Error
    else let* r := decode_utf16le t in Ok (u :: r)
  end.

(** utils.rs:84-87 *)
Inductive parse_str_error := MissingTermination | InvalidUnicode.

(** utils.rs:92-102, the loop of parse_str_0: bytes before and after the first 0. *)
Fixpoint split_str_0 (b : bytes) : option (bytes * bytes) :=
  match b with
  | [] => None
  | c :: t =>
    if b2n c =? 0 then Some ([], t)
    else match split_str_0 t with
         | Some (d, r) => Some (c :: d, r)
         | None => None
         end
  end.

(** utils.rs:89-103 parse_str_0 (returns the remaining buffer, too) *)
Definition parse_str_0 (b : bytes) : res parse_str_error (text * bytes) :=
  match split_str_0 b with
  | Some (d, r) => match utf8_decode d with
                   | Some s => Ok (s, r)
                   | None => Err InvalidUnicode
                   end
  | None => Err MissingTermination
  end.

(** utils.rs:108-117, the loop of parse_utf16le_0 *)
Fixpoint split_utf16_0 (b : bytes) : option (list N * bytes) :=
  match b with
  | a :: c :: t =>
    if u16_of a c =? 0 then Some ([], t)
    else match split_utf16_0 t with
         | Some (d, r) => Some (u16_of a c :: d, r)
         | None => None
         end
  | _ => None
  end.

(** utils.rs:105-120 parse_utf16le_0 *)
Definition parse_utf16le_0 (b : bytes) : res parse_str_error (text * bytes) :=
  match split_utf16_0 b with
  | Some (d, r) => match decode_utf16 d with
                   | Some s => Ok (s, r)
                   | None => Err InvalidUnicode
                   end
  | None => Err MissingTermination
  end.

(** utils.rs:125-127 sanitize_path: '/' (47) becomes '\' (92) *)
Definition sanitize_path (p : text) : text :=
  map (fun c => if c =? 47 then 92 else c) p.

(** utils.rs:10-21 encode_netbios_name.  [filter is_ascii], [chain(repeat(' '))],
    [take(16)]; both [char::from_u32(..).unwrap()] succeed since the argument is
    below 65+16. *)
Definition encode_netbios_name (name : text) : text :=
  flat_map (fun c => [65 + c / 16; 65 + c mod 16])
           (firstn 16 (filter (fun c => c <? 128) name ++ repeat 32 16)).
