(** * SpecUri: what an smb URI is (only the result type [config] is taken from Uri.v) *)
From Coq Require Import String Ascii.
From Verif Require Import Base Uri.
Open Scope N_scope.
Open Scope list_scope.

Definition txt (s : string) : list N := map N_of_ascii (list_ascii_of_string s).

(** Letters, digits and underscore; beyond ASCII whatever [more] says. *)
Definition word_char (more : N -> bool) (c : N) : Prop :=
  48 <= c <= 57 \/ 65 <= c <= 90 \/ 97 <= c <= 122 \/ c = 95 \/ (128 <= c /\ more c = true).
Definition one_of (s : string) (c : N) : Prop := In c (txt s).
Definition digit_char (c : N) : Prop := 48 <= c <= 57.

(** the components as written; the port as a string of digits *)
Record parts := mk_parts {
  u_domain : option (list N); u_user : option (list N); u_password : option (list N);
  u_host : list N; u_port : option (list N); u_share : list N; u_path : option (list N)
}.
Definition given (o : option (list N)) (P : list N -> Prop) : Prop := match o with Some x => P x | None => True end.
Definition nonempty (x : list N) : Prop := x <> [].

Section Unicode.
Variable more : N -> bool.
Variable numeral : N -> Prop.
(** valid components *)
Definition valid (u : parts) : Prop :=
  given (u_domain u) (fun x => nonempty x /\ Forall (word_char more) x)
  /\ given (u_user u) (fun x => nonempty x /\ Forall (fun c => word_char more c \/ one_of ".+-" c) x)
  /\ (u_user u = None -> u_password u = None)
  /\ given (u_password u) (fun x => ~ In 64 x)
  /\ (exists c r, u_host u = c :: r /\ word_char more c /\ Forall (fun c => word_char more c \/ one_of ".-" c) r)
  /\ given (u_port u) (fun x => nonempty x /\ Forall numeral x)
  /\ nonempty (u_share u) /\ Forall (fun c => word_char more c \/ one_of ".-" c) (u_share u)
  /\ given (u_path u) (fun x => ~ In 10 x).
End Unicode.

(** the URI *)
Definition part (before : string) (o : option (list N)) (after : string) : list N :=
  match o with None => [] | Some x => txt before ++ x ++ txt after end.
Definition written (u : parts) : list N :=
  txt "smb://" ++ part "" (u_domain u) ";"
  ++ match u_user u with None => [] | Some x => x ++ part ":" (u_password u) "" ++ txt "@" end
  ++ u_host u ++ part ":" (u_port u) "" ++ txt "/" ++ u_share u ++ part "/" (u_path u) "".

(** a URI ends before the first character that cannot be read as part of it *)
Definition ends (more : N -> bool) (u : parts) (rest : list N) : Prop :=
  match rest with
  | [] => True
  | c :: _ => match u_path u with
              | Some _ => c = 10
              | None => ~ (word_char more c \/ one_of ".-/" c)
              end
  end.

(** the value of decimal digits *)
Fixpoint value (acc : N) (digits : list N) : N :=
  match digits with [] => acc | c :: r => value (10 * acc + (c - 48)) r end.

(** [cfg] is [u] with the port as a number *)
Definition config_of (u : parts) (cfg : config) : Prop :=
  cf_domain cfg = u_domain u /\ cf_user cfg = u_user u /\ cf_password cfg = u_password u /\ cf_hostname cfg = u_host u
  /\ cf_share cfg = u_share u /\ cf_path cfg = u_path u
  /\ match u_port u, cf_port cfg with
     | None, None => True
     | Some p, Some v => Forall digit_char p /\ v = value 0 p /\ v < 65536
     | _, _ => False
     end.

(** with the digits of other scripts *)
Definition any_digit (more : N -> bool) (c : N) : Prop := digit_char c \/ (128 <= c /\ more c = true).

(** Without user but with port, a path in which the first @ is followed by what looks like
    host/share can be read as user:password@host/share. *)
Definition ambiguous (more digits : N -> bool) (u : parts) : Prop :=
  u_user u = None /\ exists port path before after v rest,
  u_port u = Some port /\ u_path u = Some path /\ path = before ++ [64] ++ after /\ ~ In 64 before
  /\ valid more (any_digit digits) v /\ u_domain v = None /\ u_user v = None /\ written v ++ rest = txt "smb://" ++ after.
