(** The two clocks the hardware layer for Linux uses: XcpHw_Init takes the starting time
    from CLOCK_MONOTONIC, all later readings are from CLOCK_MONOTONIC_RAW. *)
From Coq Require Import ZArith NArith.
From Verif Require Import Base Hw.
Open Scope N_scope.

(** The readings of both clocks at a moment, which is given by a number of nanoseconds. *)
Record clocks := mkClocks { monotonic : N -> timespec; monotonic_raw : N -> timespec }.

(** src/hw/linux/hw.c 193-195: XcpHw_Init at the moment [t0] stores the starting time.
    Simplification: clock_gettime does not fail. *)
Definition starting_time (k : clocks) (t0 : N) : timespec := monotonic k t0.

(** src/hw/linux/hw.c 256-269, 271-287, 289-293: the clock for DAQ and the clock in
    milliseconds, read at [t] after XcpHw_Init at [t0]. *)
Definition daq_clock (ps size : N) (k : clocks) (t0 t : N) : N := linux_timer ps size (starting_time k t0) (monotonic_raw k t).
Definition ms_clock (k : clocks) (t0 t : N) : N := linux_timer_ms (starting_time k t0) (monotonic_raw k t).
