(** * Property C92: the debug output of a connection. *)
From Coq Require Import String Ascii.
From Verif Require Import Base Text Ntlm Client Display SpecNumber SpecLiteral Debug DebugFacts.
Open Scope N_scope.
Open Scope list_scope.

(** C92, as far as it holds: the debug output depends on the password in one place only, where
    it is written as a string literal.
    Missing: that it does not depend on it at all (C92_refuted). *)
Theorem C92_partial : forall plain stream c, exists pre post, forall p, exists l, literal l p
  /\ debug_cifs plain stream (with_password p c) = pre ++ l ++ post.
Proof. exact debug_split. Qed.
Print Assumptions C92_partial.
(** The password can be read off, and so can the names: the output is different for different
    credentials, whatever characters they consist of. *)
Theorem C92_reveals : forall plain stream c d, debug_cifs plain stream c = debug_cifs plain stream d -> auth_of c = auth_of d.
Proof. exact debug_reveals. Qed.
Print Assumptions C92_reveals.
(** A literal stands for one text only. *)
Theorem C92_literal : forall l l' s s' r r', literal l s -> literal l' s' -> l ++ r = l' ++ r' -> l = l' /\ s = s' /\ r = r'.
Proof. exact literal_unique. Qed.
Print Assumptions C92_literal.
(** So the property is false, for every connection. *)
Theorem C92_refuted : forall plain stream c, exists p, debug_cifs plain stream (with_password p c) <> debug_cifs plain stream c.
Proof.
  intros plain stream c. exists (120 :: a_password (auth_of c)). intros H. apply debug_reveals in H.
  apply (f_equal (fun a => length (a_password a))) in H. cbn [with_password auth_of a_password length] in H. exact (PeanoNat.Nat.neq_succ_diag_l _ H).
Qed.
Print Assumptions C92_refuted.

(** examples *)
Definition ascii_plain (c : N) : bool := (32 <=? c) && (c <=? 126).
Definition conn : cifs := mk_cifs (mk_auth (lit "al") (lit "WS") (lit "D") (lit "s3cret")) 1024 true 2048 4.
Example C92_output : debug_cifs ascii_plain (lit "TcpStream") conn
  = lit "Cifs { netbios: NetBios { stream: TcpStream }, auth: Auth { user: " ++ [34] ++ lit "al" ++ [34] ++ lit ", workstation: " ++ [34] ++ lit "WS" ++ [34]
  ++ lit ", domain: " ++ [34] ++ lit "D" ++ [34] ++ lit ", password: " ++ [34] ++ lit "s3cret" ++ [34]
  ++ lit " }, max_smb_size: 1024, use_unicode: true, uid: 2048, mid: 4 }".
Proof. vm_compute. reflexivity. Qed.
(** a quote, a zero and a letter that the table does not have *)
Example C92_escapes : quoted ascii_plain [97; 34; 0; 228] = [34; 97; 92; 34] ++ lit "\0\u{e4}" ++ [34].
Proof. vm_compute. reflexivity. Qed.
Example C92_is_literal : literal (quoted ascii_plain [97; 34; 0; 228]) [97; 34; 0; 228].
Proof. apply quoted_literal. Qed.
