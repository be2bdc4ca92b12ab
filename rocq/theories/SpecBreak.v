(** * SpecBreak: opportunistic locks.  A server asks for a lock back with a message of its
    own, which has the message id 0xffff (MS-CIFS 2.2.3.1, 3.3.4.2). *)
From Verif Require Import Base Spec.
Open Scope N_scope.

Definition NOT_A_CALL : N := 0xffff.
(** LOCKING_ANDX, not a reply *)
Definition oplock_break (p : bytes) : Prop :=
  32 <= len p /\ len p <= NB_MAX /\ take 4 p = magic /\ u8_at p 4 = Some 0x24
  /\ (exists f, u8_at p 9 = Some f /\ N.testbit f 7 = false) /\ u16_at p 30 = Some NOT_A_CALL.
(** header flags 0x20 and 0x40 ask for a lock (OPEN, CREATE); in NT_CREATE_ANDX the flags 2 and 4 do *)
Definition asks_no_oplock (code : N) (p words : bytes) : Prop :=
  (exists f, u8_at p 9 = Some f /\ N.testbit f 5 = false /\ N.testbit f 6 = false)
  /\ (code = 0xa2 -> exists g, u32_at words 7 = Some g /\ N.testbit g 1 = false /\ N.testbit g 2 = false).
