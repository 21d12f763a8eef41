(** C63, C68, C69 and C72: clocks and signalling. *)
From Coq Require Import ZArith NArith List Bool Lia.
From Verif Require Import Base Hw SpecHw ProofsHw.
Import ListNotations.
Open Scope N_scope.

(** ** C63 Differences of time stamps *)

Theorem C63_difference : forall a b, normal a -> normal b -> normal (timespec_diff a b) /\ nanoseconds (timespec_diff a b) = (nanoseconds b - nanoseconds a)%Z.
Proof. exact diff_thm. Qed.
Print Assumptions C63_difference.

Example C63_case : normal (mkTs 5 999999999) /\ normal (mkTs 7 1) /\ timespec_diff (mkTs 5 999999999) (mkTs 7 1) = mkTs 1 2.
Proof. repeat split; discriminate. Qed.

(** ** C68 The clocks for Linux *)

(** The clock in milliseconds is right; ... *)
Theorem C68_ms : forall a b e, passed a b e -> linux_timer_ms a b = counter 4 (e / 1000000).
Proof. exact linux_ms. Qed.
Print Assumptions C68_ms.

(** ... the clock for DAQ ignores the unit: with any other unit than 1 ns it is
    wrong from the second nanosecond on, ... *)
Theorem C68_units_refuted : forall a b e ps size, passed a b e -> 1 <= size -> size <= 4 -> 2 <= ps -> 1 <= e -> e < ps -> e < 2 ^ (8 * size) -> e < 2 ^ 32 - 1 ->
  linux_timer ps size a b = e /\ counter size (e / ps) = 0.
Proof. exact linux_units. Qed.
Print Assumptions C68_units_refuted.

(** ... and with 1 ns it is right for 4.29 seconds only, because it counts modulo 2^32 - 1. *)
Theorem C68_ns_refuted : forall a b e size, passed a b e -> 1 <= size -> size <= 4 ->
  (linux_timer 1 size a b = counter size e <-> (e / (2 ^ 32 - 1)) mod 2 ^ (8 * size) = 0).
Proof. exact linux_ns. Qed.
Print Assumptions C68_ns_refuted.

Theorem C68_exact : forall ps size a b e, passed a b e -> size <= 4 -> linux_timer ps size a b = counter size (e mod (2 ^ 32 - 1)).
Proof. exact linux_timer_exact. Qed.
Print Assumptions C68_exact.

(** 5 s after the start, in units of 1 us: 5000000 are expected. *)
Example C68_case :
  let a := mkTs 100 999999999 in let b := mkTs 106 0 in
  passed a b 5000000001 /\ linux_timer_ms a b = 5000 /\ counter 4 (5000000001 / 1000) = 5000000 /\ linux_timer 1000 4 a b = 705032706 /\
  counter 4 5000000001 = 705032705.
Proof. cbv zeta. split; [repeat split; discriminate|]. vm_compute. repeat split. Qed.

(** ** C69 The clock for Windows *)

(** It is right if the unit is a multiple of the tick; ... *)
Theorem C69_exact : forall ps size tps start e k, size <= 4 -> 0 < ps -> 0 < k -> tps = k * ps ->
  win_timer ps size tps start (start + e) = Ok (counter size (e * ps / tps)) /\
  (ps = 1000 -> win_timer_ms tps start (start + e) = Ok (counter 4 (e * ps / tps))).
Proof. exact win_exact. Qed.
Print Assumptions C69_exact.

(** ... otherwise it goes wrong, ... *)
Theorem C69_drift_refuted : forall ps tps start, 0 < ps -> ps <= tps -> tps < 2 ^ 32 -> tps mod ps <> 0 ->
  exists e, win_timer ps 4 tps start (start + e) = Ok tps /\ counter 4 (e * ps / tps) = tps - tps mod ps.
Proof. exact win_drift. Qed.
Print Assumptions C69_drift_refuted.

(** ... and with ticks longer than the unit there is a division by zero. *)
Theorem C69_div_refuted : forall ps size tps start now, tps < ps -> win_timer ps size tps start now = UB DivZero.
Proof. exact win_div0. Qed.
Print Assumptions C69_div_refuted.

(** 10 MHz, 3579545 Hz (the ACPI timer) and 1 s in units of 1 us, 32768 Hz. *)
Example C69_case :
  win_timer 1000000 4 10000000 77 (77 + 10000000) = Ok 1000000 /\ win_timer 1000000 4 3579545 77 (77 + 3579545) = Ok 1193181 /\
  3579545 mod 1000000 <> 0 /\ win_timer 1000000 4 32768 0 5 = UB DivZero.
Proof. repeat split; discriminate. Qed.

(** ** C72 Transmit requests *)

(** Whoever signals, after any history: the next signal blocks. *)
Theorem C72_signal_refuted : forall m t u m1, call_monitor t Signal m = Done m1 -> call_monitor u Signal m1 = Blocks.
Proof. exact second_signal. Qed.
Print Assumptions C72_signal_refuted.

(** A thread that only waits never owns the mutex, as pthread_cond_wait() demands. *)
Theorem C72_wait_refuted : forall l m t, calls_monitor l monitor0 = Done m -> ~ In (t, Signal) l -> call_monitor t Wait m = NotOwner.
Proof. exact waiter_never_owner. Qed.
Print Assumptions C72_wait_refuted.

(** Thread 1 signals, waits, thread 2 signals, and waits, which wakes up thread 1. *)
Example C72_case :
  calls_monitor [(1, Signal); (1, Wait); (2, Signal); (2, Wait)] monitor0 = Done (mkMon (Some 1) [2] []) /\
  call_monitor 3 Wait (mkMon (Some 1) [2] []) = NotOwner /\ calls_monitor [(1, Signal); (2, Signal)] monitor0 = Blocks.
Proof. repeat split. Qed.
