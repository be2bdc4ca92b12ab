(** * SpecCrash: for each kind of reply, the messages (with a valid header) whose body
    makes the decoder panic.  Like SpecReply: by offsets and lengths only. *)
From Verif Require Import Base Text Win Common Reply Spec SpecReply.
Open Scope N_scope.

(** the counts of the body announce more than there is; or (kinds with an AndX block)
    there are fewer than two words *)
Definition no_body (andx : bool) (p : bytes) : Prop :=
  cut_short p \/ (andx = true /\ exists w d r, smb_parts p w d r /\ len w < 4).

Definition crash_plain (p : bytes) : Prop := no_body false p.

Definition crash_handle (p : bytes) : Prop :=
  no_body true p
  \/ exists w d r, smb_parts p w d r /\ unchained w /\ len w < 68.

Definition crash_read (p : bytes) : Prop :=
  no_body true p
  \/ exists w d r, smb_parts p w d r /\ unchained w /\ len w < 12.

(** the service name has odd length and its terminator ends the data of a Unicode message *)
Definition crash_share (p : bytes) : Prop :=
  no_body true p
  \/ exists w d r, smb_parts p w d r /\ unchained w
     /\ (len w < 6
         \/ exists f2 s sv, u16_at p 10 = Some f2 /\ N.testbit f2 15 = true
            /\ d = sv ++ [x00] /\ utf8_of s sv /\ ~ In x00 sv /\ len sv mod 2 = 1).

(** no action word, or a blob longer than the data *)
Definition crash_session (p : bytes) : Prop :=
  no_body true p
  \/ exists w d r, smb_parts p w d r /\ unchained w
     /\ (len w < 6 \/ exists n, u16_at w 6 = Some n /\ len d < n).

(** between 17 and 33 bytes of words, offering our dialect *)
Definition crash_server (p : bytes) : Prop :=
  no_body false p
  \/ exists w d r, smb_parts p w d r /\ 17 <= len w < 34 /\ u16_at w 0 = Some 0.

(** a block that starts behind the beginning of the data and ends behind its end *)
Definition overrun (w d : bytes) (o n : N) : Prop :=
  35 + len w <= o /\ 35 + len w + len d < o + n.

(** NT transact, before its content is looked at *)
Definition crash_transact (p : bytes) : Prop :=
  no_body false p
  \/ exists w d r, smb_parts p w d r /\
     (len w < 36
      \/ (exists ns, u8_at w 35 = Some ns /\ len w < 36 + 2 * ns)
      \/ exists tp td np op nd od ns, u8_at w 35 = Some ns /\ 36 + 2 * ns <= len w
         /\ u32_at w 3 = Some tp /\ u32_at w 7 = Some td
         /\ u32_at w 11 = Some np /\ u32_at w 15 = Some op
         /\ u32_at w 23 = Some nd /\ u32_at w 27 = Some od
         /\ tp <= np /\ td <= nd
         /\ ((0 < np /\ overrun w d op np)
             \/ ((np = 0 \/ exists b, block p w d op np b) /\ 0 < nd /\ overrun w d od nd))).

(** a chain of notifications: an entry leads behind the end, or an entry's name has an
    odd number of bytes *)
Inductive crash_chain (b : bytes) : N -> Prop :=
| crash_behind o : len b < o -> crash_chain b o
| crash_name o next a n raw : u32_at b o = Some next ->
    u32_at b (o + 4) = Some (action_number a) ->
    u32_at b (o + 8) = Some n -> bytes_at b (o + 12) n = Some raw -> cut_utf16 raw ->
    crash_chain b o
| crash_next o next c : u32_at b o = Some next -> next <> 0 -> notify_entry b o c ->
    crash_chain b (o + next) -> crash_chain b o.
Definition crash_notification (p : bytes) : Prop :=
  crash_transact p
  \/ exists setup parameter data, transact_of p setup parameter data /\ crash_chain parameter 0.

(** transaction 2 fragment: the offsets are checked while the words are read *)
Definition crash_fragment (p : bytes) : Prop :=
  no_body false p
  \/ exists w d r, smb_parts p w d r /\
     (len w < 10
      \/ exists op, u16_at w 8 = Some op /\ 35 + len w <= op /\
         (len w < 16
          \/ exists np nd od, u16_at w 6 = Some np /\ u16_at w 12 = Some nd /\ u16_at w 14 = Some od
             /\ 35 + len w <= od /\
             (len w < 18 \/ overrun w d op np \/ overrun w d od nd))).

(** a directory entry with a name of an odd number of bytes *)
Definition crash_dir (e : bytes) : Prop :=
  exists n raw, u32_at e 56 = Some n /\ bytes_at e 60 n = Some raw /\ cut_utf16 raw.
(** a batch with such an entry, reached over acceptable ones *)
Inductive crash_entries (zero_ends : bool) : bytes -> Prop :=
| crash_last b : zero_ends = true -> u32_at b 0 = Some 0 -> crash_dir (drop 4 b) ->
    crash_entries zero_ends b
| crash_here b n e : u32_at b 0 = Some n -> 4 < n -> bytes_at b 4 (n - 4) = Some e ->
    crash_dir e -> crash_entries zero_ends b
| crash_later b n e d : u32_at b 0 = Some n -> 4 < n -> bytes_at b 4 (n - 4) = Some e ->
    dir_of e d -> crash_entries zero_ends (drop n b) -> crash_entries zero_ends b.
