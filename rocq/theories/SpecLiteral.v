(** * SpecLiteral: string literals of Rust (C92).

    The Rust Reference, Tokens: string literals, with the escapes that occur in debug output. *)
From Verif Require Import Base Text Ntlm Client SpecNumber.
Open Scope N_scope.

(** backslash and [e] stand for the character [c] *)
Definition simple_escape (e c : N) : Prop :=
  (e = 48 /\ c = 0) \/ (e = 116 /\ c = 9) \/ (e = 114 /\ c = 13) \/ (e = 110 /\ c = 10) \/ (e = 34 /\ c = 34) \/ (e = 92 /\ c = 92).
(** [between l s]: what is between the quotes of a literal for [s] *)
Inductive between : text -> text -> Prop :=
| bt_end : between [] []
| bt_char c l s : c <> 34 -> c <> 92 -> between l s -> between (c :: l) (c :: s)
| bt_simple e c l s : simple_escape e c -> between l s -> between (92 :: e :: l) (c :: s)
| bt_unicode t c l s : numeral 16 t c -> between l s -> between ([92; 117; 123] ++ t ++ [125] ++ l) (c :: s).
Definition literal (l s : text) : Prop := exists m, between m s /\ l = [34] ++ m ++ [34].
(** the connection of somebody with another password *)
Definition with_password (p : text) (c : cifs) : cifs :=
  mk_cifs (mk_auth (a_user (auth_of c)) (a_workstation (auth_of c)) (a_domain (auth_of c)) p) (max_smb_size c) (use_unicode c) (uid c) (mid c).
