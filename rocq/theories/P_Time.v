(** * File times: C43.  Calendar times are nanoseconds since 1601 (an integer); file times are
    counts of 100 ns. *)
From Verif Require Import Base BaseFacts Utils ReplyFacts.
Open Scope N_scope.

(** from file time to calendar and back: never a panic, less than a microsecond lost *)
Theorem C43_file_time : forall E checks t, t < 2 ^ 64 -> exists us, @decode_windows_time E t = Ok us
  /\ 10 * us <= t < 10 * us + 10 /\ @encode_windows_time E checks (1000 * Z.of_N us) = Ok (10 * us).
Proof.
  intros E checks t H. exists (t / 10). split; [now apply time_ok|]. change (2 ^ 64) with 18446744073709551616 in *. split; [lia|].
  unfold encode_windows_time. rewrite Z.mul_comm, Z.quot_mul by discriminate.
  change (- 2 ^ 63)%Z with (-9223372036854775808)%Z. change (2 ^ 63)%Z with 9223372036854775808%Z. change (2 ^ 64)%Z with 18446744073709551616%Z.
  change (2 ^ 64) with 18446744073709551616. rewrite Z.mod_small by lia. rewrite N2Z.id.
  destruct ((-9223372036854775808 <=? Z.of_N (t / 10)) && (Z.of_N (t / 10) <? 9223372036854775808))%Z eqn:G; [|lia].
  destruct (N.ltb_spec (10 * (t / 10)) 18446744073709551616); [reflexivity|lia].
Qed.
Print Assumptions C43_file_time.
(** from calendar to file time and back: exact to the microsecond, if there is such a file time.
    (Missing: times after the year 60056, which have none.) *)
Theorem C43_calendar_partial : forall E checks ns, (0 <= ns)%Z -> (ns / 100 < 2 ^ 64)%Z -> exists t us,
  @encode_windows_time E checks ns = Ok t /\ t < 2 ^ 64 /\ @decode_windows_time E t = Ok us
  /\ (1000 * Z.of_N us <= ns < 1000 * Z.of_N us + 1000)%Z.
Proof.
  intros E checks ns H0 H. change (2 ^ 64)%Z with 18446744073709551616%Z in H.
  exists (10 * Z.to_N (ns / 1000)), (Z.to_N (ns / 1000)). change (2 ^ 64) with 18446744073709551616.
  split; [|split; [lia|split; [|lia]]].
  - unfold encode_windows_time. rewrite Z.quot_div_nonneg by lia.
    change (- 2 ^ 63)%Z with (-9223372036854775808)%Z. change (2 ^ 63)%Z with 9223372036854775808%Z. change (2 ^ 64)%Z with 18446744073709551616%Z.
    change (2 ^ 64) with 18446744073709551616. rewrite Z.mod_small by lia.
    destruct ((-9223372036854775808 <=? ns / 1000) && (ns / 1000 <? 9223372036854775808))%Z eqn:G; [|lia].
    destruct (N.ltb_spec (10 * Z.to_N (ns / 1000)) 18446744073709551616); [reflexivity|lia].
  - rewrite time_ok by (change (2 ^ 64) with 18446744073709551616; lia). f_equal. lia.
Qed.
Print Assumptions C43_calendar_partial.
(** All later times panic, or silently become another time in a build without overflow checks. *)
Theorem C43_beyond : forall E ns, (2 ^ 64 <= 10 * (ns / 1000))%Z -> @encode_windows_time E true ns = Panic
  /\ (@encode_windows_time E false ns = Panic \/ exists t us, @encode_windows_time E false ns = Ok t
      /\ @decode_windows_time E t = Ok us /\ (1000 * Z.of_N us + 1000 <= ns)%Z).
Proof.
  intros E ns H. change (2 ^ 64)%Z with 18446744073709551616%Z in H. unfold encode_windows_time. rewrite Z.quot_div_nonneg by lia.
  change (- 2 ^ 63)%Z with (-9223372036854775808)%Z. change (2 ^ 63)%Z with 9223372036854775808%Z. change (2 ^ 64)%Z with 18446744073709551616%Z.
  change (2 ^ 64) with 18446744073709551616.
  destruct ((-9223372036854775808 <=? ns / 1000) && (ns / 1000 <? 9223372036854775808))%Z eqn:G; [|auto].
  rewrite Z.mod_small by lia. destruct (N.ltb_spec (10 * Z.to_N (ns / 1000)) 18446744073709551616) as [L|L]; [lia|].
  split; [reflexivity|]. right. set (m := (10 * Z.to_N (ns / 1000)) mod 18446744073709551616). assert (m < 18446744073709551616) by (unfold m; lia).
  exists m, (m / 10). split; [reflexivity|]. split; [now apply time_ok|]. lia.
Qed.
Print Assumptions C43_beyond.
(** there are such times: the first day of the year 60057 *)
Theorem C43_refuted : exists ns, (0 <= ns < 1000 * Z.of_N chrono_max_us)%Z
  /\ @encode_windows_time unit true ns = Panic
  /\ exists t us, @encode_windows_time unit false ns = Ok t /\ @decode_windows_time unit t = Ok us
     /\ (1000 * Z.of_N us + 1000 <= ns)%Z.
Proof.
  exists (21350399 * 86400000000000)%Z. split; [vm_compute; split; [discriminate|reflexivity]|]. split; [vm_compute; reflexivity|].
  do 2 eexists. split; [vm_compute; reflexivity|]. split; [vm_compute; reflexivity|]. vm_compute. discriminate.
Qed.
Print Assumptions C43_refuted.
(** Unix time 0 *)
Example C43_example : @encode_windows_time unit true (134774 * 86400000000000) = Ok 116444736000000000
  /\ @decode_windows_time unit 116444736000000000 = Ok 11644473600000000.
Proof. split; vm_compute; reflexivity. Qed.
