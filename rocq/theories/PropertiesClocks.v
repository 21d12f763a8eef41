(** C163: the clocks of Linux. *)
From Coq Require Import ZArith NArith List Bool Lia.
From Verif Require Import Base Hw SpecHw Clocks SpecClocks ProofsClocks.
Open Scope N_scope.

(** If both clocks of the system show the same when the slave starts, the clock in
    milliseconds is right from then on, however they differ later (and C68 holds). *)
Theorem C163_same : forall k ahead t0 e, running k ahead -> ahead t0 = 0%Z -> e < 2 ^ 64 -> ms_clock k t0 (t0 + e) = counter 4 (e / 1000000).
Proof. intros k ahead t0 e R. exact (ms_same k ahead R t0 e). Qed.
Print Assumptions C163_same.

(** If CLOCK_MONOTONIC is [d] ns behind, all readings are ahead by as much ... *)
Theorem C163_behind_refuted : forall k ahead t0 e d, running k ahead -> ahead t0 = (- Z.of_N d)%Z ->
  (e + d < 2 ^ 64 -> ms_clock k t0 (t0 + e) = counter 4 ((e + d) / 1000000)) /\
  forall ps, e + d < 2 ^ 32 - 1 -> daq_clock ps 4 k t0 (t0 + e) = e + d.
Proof. intros k ahead t0 e d R H. split; [exact (ms_behind k ahead R t0 e d H)|intros ps; exact (daq_behind k ahead R ps t0 e d H)]. Qed.
Print Assumptions C163_behind_refuted.

(** ... if it is ahead, later readings are behind by as much ... *)
Theorem C163_ahead_refuted : forall k ahead t0 e d, running k ahead -> ahead t0 = Z.of_N d -> d <= e -> e < 2 ^ 64 ->
  ms_clock k t0 (t0 + e) = counter 4 ((e - d) / 1000000).
Proof. intros k ahead t0 e d R. exact (ms_ahead k ahead R t0 e d). Qed.
Print Assumptions C163_ahead_refuted.

(** ... but the first readings are those of a time before the start: the clocks do not start near
    zero (for differences of up to 11 days and 4 s) ... *)
Theorem C163_start_refuted : forall k ahead t0 d, running k ahead -> ahead t0 = Z.of_N d ->
  (1 <= d -> d <= 10 ^ 15 -> 3154504685 <= ms_clock k t0 t0) /\
  forall ps, 2 <= d -> d < 2 ^ 32 -> daq_clock ps 4 k t0 t0 = 2 ^ 32 - d.
Proof. intros k ahead t0 d R H. split; [exact (ms_start k ahead R t0 d H)|intros ps; exact (daq_start k ahead R ps t0 d H)]. Qed.
Print Assumptions C163_start_refuted.

(** ... and within one nanosecond the clock in milliseconds falls back by 48 days. *)
Theorem C163_falls_refuted : forall k ahead t0 d, running k ahead -> ahead t0 = Z.of_N d -> 1 <= d -> d < 2 ^ 64 ->
  ms_clock k t0 (t0 + (d - 1)) = 4154504685 /\ ms_clock k t0 (t0 + d) = 0.
Proof. intros k ahead t0 d R. exact (ms_falls k ahead R t0 d). Qed.
Print Assumptions C163_falls_refuted.

(** Clocks 20 ms apart: the slave starts after one hour; readings at once, 10 ms, 20 ms and
    1 s later. *)
Example C163_case : let h := 3600000000000 in
  running (drifted 20000000) (fun _ => 20000000%Z) /\ running (drifted 0) (fun _ => 0%Z) /\
  map (fun e => ms_clock (drifted 20000000) h (h + e)) (0 :: 10000000 :: 20000000 :: 1000000000 :: nil) = 4154504665 :: 4154504675 :: 0 :: 980 :: nil /\
  map (fun e => ms_clock (drifted (-20000000)) h (h + e)) (0 :: 1000000000 :: nil) = 20 :: 1020 :: nil /\
  map (fun e => ms_clock (drifted 0) h (h + e)) (0 :: 1000000000 :: nil) = 0 :: 1000 :: nil /\
  daq_clock 1000 4 (drifted 20000000) h h = 4274967296.
Proof. split; [apply drifted_runs|split; [apply drifted_runs|vm_compute; repeat split; reflexivity]]. Qed.
