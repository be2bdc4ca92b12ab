(** * Utils: the remaining functions of utils.rs. *)
From Verif Require Import Base.
Open Scope N_scope.

(** utils.rs:26-30 decode_windows_time.  An instant is modelled as the number of
    microseconds since 1601-01-01 00:00 UTC; chrono's calendar representation and
    the conversion to the local zone (same instant) are not modelled.  chrono's
    addition panics beyond the end of year 262143. [time/10] always fits i64. *)
Definition chrono_max_us : N := 95161376 * 86400000000.
Definition decode_windows_time {E} (time : N) : res E N :=
  let us := time / 10 in
  if us <? chrono_max_us then Ok us else Panic.

(** utils.rs:32-41 encode_windows_time.  The argument is the instant in
    nanoseconds relative to 1601 (negative before).  [num_microseconds] truncates
    towards zero and the [expect] fails outside i64; [as u64] wraps;
    the multiplication overflows: panic with overflow checks, else wraps. *)
Definition encode_windows_time {E} (overflow_checks : bool) (ns : Z) : res E N :=
  let us := Z.quot ns 1000 in
  if ((- 2 ^ 63 <=? us) && (us <? 2 ^ 63))%Z then
    let v := Z.to_N (us mod 2 ^ 64) in
    let p := 10 * v in
    if p <? 2 ^ 64 then Ok p
    else if overflow_checks then Panic else Ok (p mod 2 ^ 64)
  else Panic.

(** utils.rs:130-132 round_up_4n *)
Definition round_up_4n (n : N) : N := 4 * ((n + 3) / 4).

(** utils.rs:135-137 fill_up_4n *)
Definition fill_up_4n (n : N) : N := (4 - n mod 4) mod 4.

(** utils.rs:140-146 try_sub *)
Definition try_sub (a b : N) : option N := if a <? b then None else Some (a - b).

(** utils.rs:149-162 expand_des_key.  [padded[1..1+data.len()]] panics for more
    than 7 bytes.  The loop body (lines 156-159) runs for i = 0..7. *)
Definition expand_step (st : N * N) (i : N) : N * N :=
  let '(value, result) := st in
  (N.shiftr value 7,
   N.lor result (N.shiftl (N.land value 0x7f) (i * 8 + 1))).
Definition expand_des_value (value : N) : N :=
  snd (fold_left expand_step [0;1;2;3;4;5;6;7] (value, 0)).
Definition expand_des_key {E} (data : bytes) : res E bytes :=
  if 7 <? len data then Panic
  else
    let padded := x00 :: data ++ zeros (7 - len data) in
    Ok (be 8 (expand_des_value (unbe padded))).

(** utils.rs:164-170 des_oneshot.  [des] is the external block cipher (key of 8
    bytes, block of 8 bytes); [GenericArray::from_slice] panics on any other
    input length.  The output slice always has 8 bytes (ntlm/auth.rs:31-33). *)
Definition des_oneshot {E} (des : bytes -> bytes -> bytes) (secret input : bytes)
  : res E bytes :=
  let* key := expand_des_key secret in
  if len input =? 8 then Ok (des key input) else Panic.
