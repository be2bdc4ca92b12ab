(** * SpecClear: what an eavesdropper reads in a tree connect, MS-CIFS 2.2.4.55.1 *)
From Verif Require Import Base Text Spec SpecReply.
Open Scope N_scope.

(** the frame [f] is a tree connect (header of 4 + 32 bytes, word count, AndX block, flags,
    length of the password, byte count, password), and this is its password *)
Definition shows_password (f : bytes) (password : text) : Prop :=
  u8_at f 8 = Some 0x75 /\ exists n b, u16_at f 43 = Some n /\ bytes_at f 47 n = Some b /\ utf8_of password b.
