(** * Base: bytes, integers in byte strings, results, and the [Buf]/[Bytes]
    operations of the external [bytes] crate that the code in /repo relies on. *)
From Coq Require Export List NArith ZArith Lia Bool.
From Coq Require Export Init.Byte Strings.Byte.
Export ListNotations.
Set Implicit Arguments.
Open Scope N_scope.

(** [&[u8]], [Bytes], [BytesMut], [Vec<u8>] *)
Notation bytes := (list byte).

(** u8 <-> integer.  [n2b] is Rust's truncating [as u8]. *)
Definition b2n (b : byte) : N := Byte.to_N b.
Definition n2b (n : N) : byte :=
  match Byte.of_N (n mod 256) with Some b => b | None => x00 end.

(** Lengths as [N]: numerals of the code are large. *)
Definition len {A} (l : list A) : N := N.of_nat (length l).
Definition take {A} (n : N) (l : list A) : list A := firstn (N.to_nat n) l.
Definition drop {A} (n : N) (l : list A) : list A := skipn (N.to_nat n) l.

(** [put_uXX_le] / [to_le_bytes]: the [k] low bytes of [v], least significant first. *)
Fixpoint le (k : nat) (v : N) : bytes :=
  match k with
  | O => []
  | S k' => n2b v :: le k' (v / 256)
  end.

(** [from_le_bytes] *)
Fixpoint unle (b : bytes) : N :=
  match b with
  | [] => 0
  | x :: r => b2n x + 256 * unle r
  end.

(** [to_be_bytes] / [from_be_bytes] *)
Definition be (k : nat) (v : N) : bytes := rev (le k v).
Definition unbe (b : bytes) : N := unle (rev b).

(** [put_bytes(v, n)] *)
Definition zeros (n : N) : bytes := repeat x00 (N.to_nat n).

(** Rust results, with the panic of any sub-expression made explicit. *)
Inductive res (E A : Type) : Type :=
| Ok (a : A)
| Err (e : E)
| Panic.
Arguments Ok {E A} a.
Arguments Err {E A} e.
Arguments Panic {E A}.

Definition rbind {E A B} (x : res E A) (f : A -> res E B) : res E B :=
  match x with
  | Ok a => f a
  | Err e => Err e
  | Panic => Panic
  end.
Notation "'let*' x ':=' c1 'in' c2" := (rbind c1 (fun x => c2))
  (at level 61, x pattern, c1 at next level, right associativity).

(** [map_err] *)
Definition map_err {E F A} (f : E -> F) (x : res E A) : res F A :=
  match x with Ok a => Ok a | Err e => Err (f e) | Panic => Panic end.

(** [Option::ok_or] *)
Definition ok_or {E A} (o : option A) (e : E) : res E A :=
  match o with Some a => Ok a | None => Err e end.

(** bytes::Buf for Bytes (external crate, documented behaviour: every read past
    the end panics). *)
Definition get_le {E} (k : nat) (b : bytes) : res E (N * bytes) :=
  if (length b <? k)%nat then Panic else Ok (unle (firstn k b), skipn k b).
Definition get_u8 {E} (b : bytes) : res E (N * bytes) := get_le 1 b.
Definition get_u16_le {E} (b : bytes) : res E (N * bytes) := get_le 2 b.
Definition get_u32_le {E} (b : bytes) : res E (N * bytes) := get_le 4 b.
Definition get_u64_le {E} (b : bytes) : res E (N * bytes) := get_le 8 b.
Definition advance {E} (n : N) (b : bytes) : res E bytes :=
  if len b <? n then Panic else Ok (drop n b).
Definition copy_to_bytes {E} (n : N) (b : bytes) : res E (bytes * bytes) :=
  if len b <? n then Panic else Ok (take n b, drop n b).
(** [Bytes::slice(a..e)]: panics unless a <= e <= len. *)
Definition slice {E} (a e : N) (b : bytes) : res E bytes :=
  if (a <=? e) && (e <=? len b) then Ok (take (e - a) (drop a b)) else Panic.
(** [Bytes::slice(a..)] *)
Definition slice_from {E} (a : N) (b : bytes) : res E bytes :=
  if a <=? len b then Ok (drop a b) else Panic.

(** bitflags 1.3: [from_bits_truncate], [contains], [set]. *)
Definition truncate_bits (all : N) (bits : N) : N := N.land bits all.
Definition contains (bits flag : N) : bool := N.land bits flag =? flag.
Definition set_flag (bits flag : N) (v : bool) : N :=
  if v then N.lor bits flag else N.ldiff bits flag.

(** [usize::try_into] for u8/u16/u32 ([k] bits). *)
Definition fits (k : N) (v : N) : bool := v <? 2 ^ k.
Definition try_into {E} (k : N) (e : E) (v : N) : res E N :=
  if fits k v then Ok v else Err e.
