(** * Crypto: MD4 (RFC 1320), MD5 (RFC 1321), HMAC (RFC 2104) and DES (FIPS 46-3), so that the
    model can be run on the test vectors of /repo.  Not part of the model: there these functions
    are arbitrary (record [env] in Ntlm.v). *)
From Verif Require Import Base.
Open Scope N_scope.

(** ** 32 bit words *)
Definition w32 (x : N) : N := N.land x 0xffffffff.
Definition not32 (x : N) : N := N.lxor x 0xffffffff.
Definition rotl (x s : N) : N := w32 (N.lor (N.shiftl x s) (N.shiftr x (32 - s))).
Fixpoint words (n : nat) (b : bytes) : list N :=
  match n with O => [] | S n => unle (firstn 4 b) :: words n (skipn 4 b) end.
Fixpoint blocks (n : nat) (b : bytes) : list (list N) :=
  match n with O => [] | S n => words 16 (firstn 64 b) :: blocks n (skipn 64 b) end.
Definition pad (b : bytes) : bytes :=
  b ++ [x80] ++ zeros ((119 - len b mod 64) mod 64) ++ le 8 (8 * len b).
Definition padded_blocks (b : bytes) : list (list N) := blocks (length (pad b) / 64) (pad b).

Definition state := (N * N * N * N)%type.
Definition init : state := (0x67452301, 0xefcdab89, 0x98badcfe, 0x10325476).
Definition add (s t : state) : state :=
  let '(a, b, c, d) := s in let '(a', b', c', d') := t in (w32 (a + a'), w32 (b + b'), w32 (c + c'), w32 (d + d')).
Definition output (s : state) : bytes := let '(a, b, c, d) := s in le 4 a ++ le 4 b ++ le 4 c ++ le 4 d.
Lemma output_len s : length (output s) = 16%nat.
Proof. destruct s as [[[a b] c] d]. reflexivity. Qed.

(** ** MD4 *)
Definition md4_step (f : N -> N -> N -> N) (k : N) (x : list N) (s : state) (is : nat * N) : state :=
  let '(a, b, c, d) := s in
  (d, rotl (w32 (a + f b c d + nth (fst is) x 0 + k)) (snd is), b, c).
Definition ff (x y z : N) : N := N.lor (N.land x y) (N.land (not32 x) z).
Definition gg (x y z : N) : N := N.lor (N.lor (N.land x y) (N.land x z)) (N.land y z).
Definition hh (x y z : N) : N := N.lxor (N.lxor x y) z.
Definition order1 : list nat := [0;1;2;3;4;5;6;7;8;9;10;11;12;13;14;15]%nat.
Definition order2 : list nat := [0;4;8;12;1;5;9;13;2;6;10;14;3;7;11;15]%nat.
Definition order3 : list nat := [0;8;4;12;2;10;6;14;1;9;5;13;3;11;7;15]%nat.
Definition four (s : list N) : list N := s ++ s ++ s ++ s.
Definition md4_block (s : state) (x : list N) : state :=
  let s1 := fold_left (md4_step ff 0 x) (combine order1 (four [3;7;11;19])) s in
  let s2 := fold_left (md4_step gg 0x5a827999 x) (combine order2 (four [3;5;9;13])) s1 in
  let s3 := fold_left (md4_step hh 0x6ed9eba1 x) (combine order3 (four [3;9;11;15])) s2 in
  add s s3.
Definition md4_hash (b : bytes) : bytes := output (fold_left md4_block (padded_blocks b) init).

(** ** MD5 *)
Definition md5_step (f : N -> N -> N -> N) (x : list N) (s : state) (iks : nat * (N * N)) : state :=
  let '(a, b, c, d) := s in
  (d, w32 (b + rotl (w32 (a + f b c d + nth (fst iks) x 0 + fst (snd iks))) (snd (snd iks))), b, c).
Definition g5 (x y z : N) : N := N.lor (N.land x z) (N.land y (not32 z)).
Definition i5 (x y z : N) : N := N.lxor y (N.lor x (not32 z)).
Definition k1 : list N :=
  [0xd76aa478; 0xe8c7b756; 0x242070db; 0xc1bdceee; 0xf57c0faf; 0x4787c62a; 0xa8304613; 0xfd469501;
   0x698098d8; 0x8b44f7af; 0xffff5bb1; 0x895cd7be; 0x6b901122; 0xfd987193; 0xa679438e; 0x49b40821].
Definition k2 : list N :=
  [0xf61e2562; 0xc040b340; 0x265e5a51; 0xe9b6c7aa; 0xd62f105d; 0x02441453; 0xd8a1e681; 0xe7d3fbc8;
   0x21e1cde6; 0xc33707d6; 0xf4d50d87; 0x455a14ed; 0xa9e3e905; 0xfcefa3f8; 0x676f02d9; 0x8d2a4c8a].
Definition k3 : list N :=
  [0xfffa3942; 0x8771f681; 0x6d9d6122; 0xfde5380c; 0xa4beea44; 0x4bdecfa9; 0xf6bb4b60; 0xbebfbc70;
   0x289b7ec6; 0xeaa127fa; 0xd4ef3085; 0x04881d05; 0xd9d4d039; 0xe6db99e5; 0x1fa27cf8; 0xc4ac5665].
Definition k4 : list N :=
  [0xf4292244; 0x432aff97; 0xab9423a7; 0xfc93a039; 0x655b59c3; 0x8f0ccc92; 0xffeff47d; 0x85845dd1;
   0x6fa87e4f; 0xfe2ce6e0; 0xa3014314; 0x4e0811a1; 0xf7537e82; 0xbd3af235; 0x2ad7d2bb; 0xeb86d391].
Definition order5_2 : list nat := [1;6;11;0;5;10;15;4;9;14;3;8;13;2;7;12]%nat.
Definition order5_3 : list nat := [5;8;11;14;1;4;7;10;13;0;3;6;9;12;15;2]%nat.
Definition order5_4 : list nat := [0;7;14;5;12;3;10;1;8;15;6;13;4;11;2;9]%nat.
Definition md5_block (s : state) (x : list N) : state :=
  let s1 := fold_left (md5_step ff x) (combine order1 (combine k1 (four [7;12;17;22]))) s in
  let s2 := fold_left (md5_step g5 x) (combine order5_2 (combine k2 (four [5;9;14;20]))) s1 in
  let s3 := fold_left (md5_step hh x) (combine order5_3 (combine k3 (four [4;11;16;23]))) s2 in
  let s4 := fold_left (md5_step i5 x) (combine order5_4 (combine k4 (four [6;10;15;21]))) s3 in
  add s s4.
Definition md5_hash (b : bytes) : bytes := output (fold_left md5_block (padded_blocks b) init).

(** ** HMAC-MD5 *)
Definition xor_with (v : N) (b : bytes) : bytes := map (fun x => n2b (N.lxor v (b2n x))) b.
Definition hmac_md5 (key data : bytes) : bytes :=
  let k := if 64 <? len key then md5_hash key else key in
  let k := k ++ zeros (64 - len k) in
  md5_hash (xor_with 0x5c k ++ md5_hash (xor_with 0x36 k ++ data)).

(** ** DES, on lists of bits, most significant bit first *)
Definition bits_of (b : bytes) : list bool :=
  flat_map (fun x => map (fun i => N.testbit (b2n x) i) [7;6;5;4;3;2;1;0]) b.
Definition byte_of (l : list bool) : byte := n2b (fold_left (fun a b => 2 * a + (if b : bool then 1 else 0)) l 0).
Definition bytes_of (l : list bool) : bytes :=
  map (fun i => byte_of (firstn 8 (skipn (8 * i) l))) [0;1;2;3;4;5;6;7]%nat.
Definition permute (table : list nat) (l : list bool) : list bool := map (fun i => nth (i - 1) l false) table.
Definition ip : list nat :=
  [58;50;42;34;26;18;10;2;60;52;44;36;28;20;12;4;62;54;46;38;30;22;14;6;64;56;48;40;32;24;16;8;
   57;49;41;33;25;17;9;1;59;51;43;35;27;19;11;3;61;53;45;37;29;21;13;5;63;55;47;39;31;23;15;7]%nat.
Definition fp : list nat :=
  [40;8;48;16;56;24;64;32;39;7;47;15;55;23;63;31;38;6;46;14;54;22;62;30;37;5;45;13;53;21;61;29;
   36;4;44;12;52;20;60;28;35;3;43;11;51;19;59;27;34;2;42;10;50;18;58;26;33;1;41;9;49;17;57;25]%nat.
Definition expansion : list nat :=
  [32;1;2;3;4;5;4;5;6;7;8;9;8;9;10;11;12;13;12;13;14;15;16;17;
   16;17;18;19;20;21;20;21;22;23;24;25;24;25;26;27;28;29;28;29;30;31;32;1]%nat.
Definition pbox : list nat :=
  [16;7;20;21;29;12;28;17;1;15;23;26;5;18;31;10;2;8;24;14;32;27;3;9;19;13;30;6;22;11;4;25]%nat.
Definition pc1 : list nat :=
  [57;49;41;33;25;17;9;1;58;50;42;34;26;18;10;2;59;51;43;35;27;19;11;3;60;52;44;36;
   63;55;47;39;31;23;15;7;62;54;46;38;30;22;14;6;61;53;45;37;29;21;13;5;28;20;12;4]%nat.
Definition pc2 : list nat :=
  [14;17;11;24;1;5;3;28;15;6;21;10;23;19;12;4;26;8;16;7;27;20;13;2;
   41;52;31;37;47;55;30;40;51;45;33;48;44;49;39;56;34;53;46;42;50;36;29;32]%nat.
Definition sboxes : list (list N) :=
 [[14;4;13;1;2;15;11;8;3;10;6;12;5;9;0;7;0;15;7;4;14;2;13;1;10;6;12;11;9;5;3;8;
   4;1;14;8;13;6;2;11;15;12;9;7;3;10;5;0;15;12;8;2;4;9;1;7;5;11;3;14;10;0;6;13];
  [15;1;8;14;6;11;3;4;9;7;2;13;12;0;5;10;3;13;4;7;15;2;8;14;12;0;1;10;6;9;11;5;
   0;14;7;11;10;4;13;1;5;8;12;6;9;3;2;15;13;8;10;1;3;15;4;2;11;6;7;12;0;5;14;9];
  [10;0;9;14;6;3;15;5;1;13;12;7;11;4;2;8;13;7;0;9;3;4;6;10;2;8;5;14;12;11;15;1;
   13;6;4;9;8;15;3;0;11;1;2;12;5;10;14;7;1;10;13;0;6;9;8;7;4;15;14;3;11;5;2;12];
  [7;13;14;3;0;6;9;10;1;2;8;5;11;12;4;15;13;8;11;5;6;15;0;3;4;7;2;12;1;10;14;9;
   10;6;9;0;12;11;7;13;15;1;3;14;5;2;8;4;3;15;0;6;10;1;13;8;9;4;5;11;12;7;2;14];
  [2;12;4;1;7;10;11;6;8;5;3;15;13;0;14;9;14;11;2;12;4;7;13;1;5;0;15;10;3;9;8;6;
   4;2;1;11;10;13;7;8;15;9;12;5;6;3;0;14;11;8;12;7;1;14;2;13;6;15;0;9;10;4;5;3];
  [12;1;10;15;9;2;6;8;0;13;3;4;14;7;5;11;10;15;4;2;7;12;9;5;6;1;13;14;0;11;3;8;
   9;14;15;5;2;8;12;3;7;0;4;10;1;13;11;6;4;3;2;12;9;5;15;10;11;14;1;7;6;0;8;13];
  [4;11;2;14;15;0;8;13;3;12;9;7;5;10;6;1;13;0;11;7;4;9;1;10;14;3;5;12;2;15;8;6;
   1;4;11;13;12;3;7;14;10;15;6;8;0;5;9;2;6;11;13;8;1;4;10;7;9;5;0;15;14;2;3;12];
  [13;2;8;4;6;15;11;1;10;9;3;14;5;0;12;7;1;15;13;8;10;3;7;4;12;5;6;11;0;14;9;2;
   7;11;4;1;9;12;14;2;0;6;10;13;15;3;5;8;2;1;14;7;4;10;8;13;15;12;9;0;3;5;6;11]].
Definition xor_bits (a b : list bool) : list bool := map (fun p => xorb (fst p) (snd p)) (combine a b).
Definition number (l : list bool) : nat := fold_left (fun a b => 2 * a + (if b : bool then 1 else 0))%nat l O.
Definition four_bits (v : N) : list bool := map (N.testbit v) [3;2;1;0].
Fixpoint substitute (boxes : list (list N)) (l : list bool) : list bool :=
  match boxes, l with
  | t :: boxes, a :: b :: c :: d :: e :: f :: l => four_bits (nth (number [a; f; b; c; d; e]) t 0) ++ substitute boxes l
  | _, _ => []
  end.
Definition round (r k : list bool) : list bool := permute pbox (substitute sboxes (xor_bits (permute expansion r) k)).
Definition rotate (n : nat) (l : list bool) : list bool := skipn n l ++ firstn n l.
Fixpoint schedule (shifts : list nat) (c d : list bool) : list (list bool) :=
  match shifts with
  | [] => []
  | n :: r => let c := rotate n c in let d := rotate n d in permute pc2 (c ++ d) :: schedule r c d
  end.
Definition des_encrypt (key block : bytes) : bytes :=
  let k := permute pc1 (bits_of key) in
  let b := permute ip (bits_of block) in
  let ks := schedule [1;1;2;2;2;2;2;2;1;2;2;2;2;2;2;1]%nat (firstn 28 k) (skipn 28 k) in
  let '(l, r) := fold_left (fun lr k => (snd lr, xor_bits (fst lr) (round (snd lr) k))) ks (firstn 32 b, skipn 32 b) in
  bytes_of (permute fp (r ++ l)).
Lemma des_encrypt_len k b : length (des_encrypt k b) = 8%nat.
Proof. unfold des_encrypt. destruct (fold_left _ _ _). reflexivity. Qed.
