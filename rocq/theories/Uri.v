(** * Uri: resolve_smb_uri (lib.rs:417-461) with a matcher for the regular
    expression it uses. *)
From Verif Require Import Base Text Errors.
Open Scope N_scope.

(** The fragment of the regex crate's syntax that occurs in lib.rs:434.  All
    repetitions are over single characters.  [Opt] and the repetitions are greedy;
    the regex crate returns the leftmost-first match, i.e. what a backtracking
    matcher finds first. *)
Inductive name := Domain | User | Passwd | Host | Port | Share | Path.
Inductive re :=
| Chr (p : N -> bool)        (* one character of a class *)
| Star (p : N -> bool)
| Plus (p : N -> bool)
| Opt (r : re)
| Seq (a b : re)
| Cap (n : name) (r : re).

Definition caps := name -> option text.
Definition no_caps : caps := fun _ => None.
Definition name_eqb (a b : name) : bool :=
  match a, b with
  | Domain, Domain | User, User | Passwd, Passwd | Host, Host | Port, Port
  | Share, Share | Path, Path => true
  | _, _ => false
  end.
Definition set_cap (n : name) (v : text) (c : caps) : caps :=
  fun m => if name_eqb n m then Some v else c m.

(** greedy repetition of one class, longest first; [k] is what must follow *)
Fixpoint star (p : N -> bool) (s : text) (k : text -> option caps) : option caps :=
  match s with
  | x :: r =>
    if p x then
      match star p r k with
      | Some c => Some c
      | None => k s
      end
    else k s
  | [] => k s
  end.

Fixpoint matches (r : re) (c : caps) (s : text) (k : caps -> text -> option caps)
  : option caps :=
  match r with
  | Chr p => match s with x :: t => if p x then k c t else None | [] => None end
  | Star p => star p s (k c)
  | Plus p => match s with x :: t => if p x then star p t (k c) else None | [] => None end
  | Opt r => match matches r c s k with Some c' => Some c' | None => k c s end
  | Seq a b => matches a c s (fun c t => matches b c t k)
  | Cap n r => matches r c s (fun c t => k (set_cap n (firstn (length s - length t) s) c) t)
  end.

(** Regex::captures: the first position at which there is a match *)
Fixpoint captures (r : re) (s : text) : option caps :=
  match matches r no_caps s (fun c _ => Some c) with
  | Some c => Some c
  | None => match s with [] => None | _ :: t => captures r t end
  end.

Section Unicode.
(** \w and \d beyond ASCII (tables of the regex crate) *)
Variables word digit : N -> bool.

Definition is_digit (c : N) : bool := if c <? 128 then (48 <=? c) && (c <=? 57) else digit c.
Definition is_word (c : N) : bool :=
  if c <? 128 then
    ((48 <=? c) && (c <=? 57)) || ((65 <=? c) && (c <=? 90))
    || ((97 <=? c) && (c <=? 122)) || (c =? 95)
  else word c.
Definition lit (x : N) : re := Chr (fun c => c =? x).
(** [\w\.\+_-]  [\w\.-]  [\w\._-]  [^@]  . *)
Definition user_char (c : N) : bool := is_word c || (c =? 46) || (c =? 43) || (c =? 95) || (c =? 45).
Definition host_char (c : N) : bool := is_word c || (c =? 46) || (c =? 45).
Definition share_char (c : N) : bool := is_word c || (c =? 46) || (c =? 95) || (c =? 45).
Definition not_at (c : N) : bool := negb (c =? 64).
Definition any (c : N) : bool := negb (c =? 10).

(** lib.rs:434
    smb://((?P<domain>\w+);)?((?P<user>[\w\.\+_-]+)(:(?P<passwd>[^@]* ))?@)?
    (?P<host>\w[\w\.-]* )(:(?P<port>\d+))?/(?P<share>[\w\._-]+)(/(?P<path>.* ))? *)
Notation "a ;; b" := (Seq a b) (at level 62, right associativity).
Definition uri_regex : re :=
  lit 115 ;; lit 109 ;; lit 98 ;; lit 58 ;; lit 47 ;; lit 47 ;;
  Opt (Cap Domain (Plus is_word) ;; lit 59) ;;
  Opt (Cap User (Plus user_char) ;; Opt (lit 58 ;; Cap Passwd (Star not_at)) ;; lit 64) ;;
  Cap Host (Chr is_word ;; Star host_char) ;;
  Opt (lit 58 ;; Cap Port (Plus is_digit)) ;;
  lit 47 ;;
  Cap Share (Plus share_char) ;;
  Opt (lit 47 ;; Cap Path (Star any)).

(** lib.rs:418-426 CifsConfig *)
Record config := mk_config {
  cf_domain : option text;
  cf_user : option text;
  cf_password : option text;
  cf_hostname : text;
  cf_port : option N;
  cf_share : text;
  cf_path : option text
}.

(** std: u16::from_str_radix(s, 10) on a string without sign ([digits] is never
    empty here; a sign cannot match \d) *)
Fixpoint parse_dec (acc : N) (s : text) : option N :=
  match s with
  | [] => Some acc
  | c :: r =>
    if (48 <=? c) && (c <=? 57) then
      let v := 10 * acc + (c - 48) in
      if v <? 65536 then parse_dec v r else None
    else None
  end.
Definition u16_from_str (s : text) : option N :=
  match s with [] => None | _ => parse_dec 0 s end.

(** lib.rs:431-461 resolve_smb_uri *)
Definition resolve_smb_uri (uri : text) : res error config :=
  let* m := ok_or (captures uri_regex uri) InvalidUri in
  let* host := ok_or (m Host) InvalidUri in
  let* port := match m Port with
               | None => Ok None
               | Some p => let* v := ok_or (u16_from_str p) InvalidUri in Ok (Some v)
               end in
  let* share := ok_or (m Share) InvalidUri in
  Ok (mk_config (m Domain) (m User) (m Passwd) host port share (m Path)).
End Unicode.
