(** * SpecReading: requests that change nothing on the server (C93) *)
From Verif Require Import Base Text Win Errors Common Reply Ntlm Prog Client Spec Api SpecCall SpecMsg Flow.
Open Scope N_scope.

(** [MS-CIFS] 2.2.4: negotiation, session setup, tree connect and disconnect; reads; closing
    without setting the time of the file; opening an existing file for reading; the searches
    among the TRANS2 requests; notifications among the NT TRANSACT requests.  Nothing is chained. *)
Definition changes_nothing (p words : bytes) : Prop :=
  u8_at p 4 = Some 0x72
  \/ u8_at p 4 = Some 0x71
  \/ (u8_at p 4 = Some 0x73 /\ unchained words)
  \/ (u8_at p 4 = Some 0x75 /\ unchained words)
  \/ (u8_at p 4 = Some 0x2e /\ unchained words)
  \/ (u8_at p 4 = Some 0x04 /\ u32_at words 2 = Some 0)
  \/ (u8_at p 4 = Some 0xa2 /\ unchained words /\ exists directory, opens_read_only words directory)
  \/ (u8_at p 4 = Some 0x32 /\ u8_at words 26 = Some 1 /\ (u16_at words 28 = Some 1 \/ u16_at words 28 = Some 2))
  \/ (u8_at p 4 = Some 0xa0 /\ u16_at words 36 = Some 4).
Definition harmless (f : bytes) : Prop :=
  exists p words data, f = session_message p /\ smb_parts p words data [] /\ changes_nothing p words.
(** if writing fails, the beginning of a frame *)
Definition harmless_part (b : bytes) : Prop := exists f, harmless f /\ (b = f \/ exists n, b = take n f).

(** programs without delete and rmdir *)
Definition removes {R} (c : call R) : bool := match c with Delete _ _ | Rmdir _ _ => true | _ => false end.
Fixpoint reading {A} (f : flow A) : Prop :=
  match f with
  | FRet _ | FPanic | FFuel => True
  | FCall c k => removes c = false /\ forall r, reading (k r)
  | FState k => forall c, reading (k c)
  | FUid _ k => reading k
  | FOptions _ _ k => reading k
  end.
