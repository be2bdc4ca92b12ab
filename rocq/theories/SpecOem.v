(** * SpecOem: strings for a server without Unicode.

    A server that does not announce Unicode reads and writes strings of single bytes in a code
    page of its own, ended by a zero byte (MS-CIFS 2.2.1.1.1, 3.2.4.1.2).  All code pages agree on the
    characters below 128.  Such strings are not aligned: the padding bytes of the requests are
    there for Unicode only. *)
From Verif Require Import Base Text Spec SpecReply SpecMsg Api.
Open Scope N_scope.

(** at [o] of the message [p] is the string of the bytes [b] *)
Definition oem_at (p : bytes) (o : N) (b : bytes) : Prop :=
  exists rest, drop o p = b ++ [x00] ++ rest /\ ~ In x00 b.
(** characters that are the same in all code pages, and their bytes *)
Definition plain (s : text) : Prop := Forall (fun c => 0 < c < 128) s.
Definition plain_bytes (s : text) : bytes := map n2b s.

(** ** names in requests *)
(** what a call names: a path with '\' for '/', a file (the continuation of a search), a user *)
Definition names {R} (c : call R) (s : text) : Prop :=
  match c with
  | OpenFile _ path | OpenDir _ path | Delete _ path | Rmdir _ path | FindFirst _ path | Mount path | MountPassword path _ =>
      windows_path path s
  | FindNext _ _ name => s = name
  | SetupAuth user _ _ => s = user
  | _ => False
  end.
(** where a server without Unicode finds it (MS-CIFS 2.2.4) *)
Definition name_at {R} (c : call R) (words : bytes) (o : N) : Prop :=
  match c with
  | OpenFile _ _ | OpenDir _ _ => o = 83 (* first of the bytes: header 32, word count 1, words 48, byte count 2 *)
  | Delete _ _ => o = 38 (* behind the format byte *)
  | Rmdir _ _ => o = 36
  | FindFirst _ _ | FindNext _ _ _ => exists po, u16_at words 20 = Some po /\ o = po + 12
  | Mount _ | MountPassword _ _ => exists n, u16_at words 6 = Some n /\ o = 43 + n (* behind the password *)
  | SetupAuth _ _ _ => exists n m, u16_at words 14 = Some n /\ u16_at words 16 = Some m /\ o = 61 + n + m (* behind two responses *)
  | _ => False
  end.
(** the server finds the name [s] *)
Definition finds {R} (c : call R) (p words : bytes) (b : bytes) : Prop :=
  exists o, name_at c words o /\ oem_at p o b.

(** what it finds in the requests of this client, if [s] is named *)
Definition found_name {R} (c : call R) (s : text) : text :=
  match c with
  | Mount _ | MountPassword _ _ => s
  | OpenFile _ _ | OpenDir _ _ | SetupAuth _ _ _ => []
  | _ => firstn 1 s
  end.
(** calls whose name arrives *)
Definition arrives {R} (c : call R) (s : text) : Prop :=
  match c with
  | Mount _ | MountPassword _ _ => True
  | OpenFile _ _ | OpenDir _ _ | SetupAuth _ _ _ => s = []
  | _ => len s <= 1
  end.

(** ** names in replies: a directory entry with such a name, and the same for a notification *)
Definition oem_entry (e : bytes) (s : text) : Prop :=
  u32_at e 56 = Some (len s) /\ bytes_at e 60 (len s) = Some (plain_bytes s).
Definition oem_change (b : bytes) (o : N) (s : text) : Prop :=
  u32_at b (o + 8) = Some (len s) /\ bytes_at b (o + 12) (len s) = Some (plain_bytes s).
