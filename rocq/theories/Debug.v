(** * Debug: the debug output of a connection (derive(Debug)). *)
From Coq Require Import String Ascii Hexadecimal.
From Verif Require Import Base Text Ntlm Client Display.
Open Scope N_scope.

Section Debug.
(** std's tables: the characters that Debug of str prints as they are (printable and not
    extending a grapheme) *)
Variable plain : N -> bool.
(** what Debug of tokio's TcpStream prints *)
Variable stream : text.

(** std, char::escape_debug_ext as called by Debug of str (no escape for single quotes) *)
Definition escape (c : N) : text :=
  if c =? 0 then lit "\0" else
  if c =? 9 then lit "\t" else
  if c =? 13 then lit "\r" else
  if c =? 10 then lit "\n" else
  if c =? 34 then [92; 34] else
  if c =? 92 then [92; 92] else
  if plain c then [c] else lit "\u{" ++ hexadecimal (N.to_hex_uint c) ++ lit "}".
Definition quoted (s : text) : text := [34] ++ flat_map escape s ++ [34].
(** ntlm/auth.rs:9-15, derive(Debug) of Auth *)
Definition debug_auth (a : auth) : text :=
  lit "Auth { user: " ++ quoted (a_user a) ++ lit ", workstation: " ++ quoted (a_workstation a)
  ++ lit ", domain: " ++ quoted (a_domain a) ++ lit ", password: " ++ quoted (a_password a) ++ lit " }".
Definition debug_bool (b : bool) : text := if b then lit "true" else lit "false".
(** lib.rs:26-35, derive(Debug) of Cifs; netbios.rs:12-15, of NetBios *)
Definition debug_cifs (c : cifs) : text :=
  lit "Cifs { netbios: NetBios { stream: " ++ stream ++ lit " }, auth: " ++ debug_auth (auth_of c)
  ++ lit ", max_smb_size: " ++ show (max_smb_size c) ++ lit ", use_unicode: " ++ debug_bool (use_unicode c)
  ++ lit ", uid: " ++ show (uid c) ++ lit ", mid: " ++ show (mid c) ++ lit " }".
End Debug.
