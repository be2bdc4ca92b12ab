(** * SpecListing: directory batches with a name that is no text. *)
From Verif Require Import Base Text Win Errors Common Reply Ntlm Prog Client Spec SpecReply Api.
Open Scope N_scope.

(** the name of the entry is not UTF-16: it contains half of a surrogate pair.  (File systems
    whose names are sequences of 16 bit units have such names.) *)
Definition unreadable_entry (e : bytes) : Prop :=
  exists n raw, u32_at e 56 = Some n /\ bytes_at e 60 n = Some raw /\ forall s, ~ utf16le_of s raw.
(** a batch with such an entry, reached over others *)
Inductive unreadable (zero_ends : bool) : bytes -> Prop :=
| un_last b : zero_ends = true -> u32_at b 0 = Some 0 -> unreadable_entry (drop 4 b) -> unreadable zero_ends b
| un_here b n e : u32_at b 0 = Some n -> 4 < n -> bytes_at b 4 (n - 4) = Some e -> unreadable_entry e -> unreadable zero_ends b
| un_later b n e d : u32_at b 0 = Some n -> 4 < n -> bytes_at b 4 (n - 4) = Some e -> dir_of e d ->
    unreadable zero_ends (drop n b) -> unreadable zero_ends b.
Definition unreadable_batch {R} (c : call R) (b : bytes) : Prop :=
  match c with FindFirst _ _ => unreadable true b | FindNext _ _ _ => unreadable false b | _ => False end.
(** the status by which a server says that a search is over (MS-CIFS 2.2.6.3.2) *)
Definition SEARCH_OVER : N := 0x80000006.
