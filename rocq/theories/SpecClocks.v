(** Vocabulary for the two clocks of Linux. *)
From Coq Require Import ZArith NArith.
From Verif Require Import Base Hw SpecHw Clocks.
Open Scope N_scope.

(** CLOCK_MONOTONIC_RAW counts nanoseconds; CLOCK_MONOTONIC is slewed, so that it is
    [ahead t] nanoseconds ahead at [t] (or behind, if negative). *)
Record running (k : clocks) (ahead : N -> Z) : Prop := {
  r_normal : forall t, normal (monotonic k t) /\ normal (monotonic_raw k t);
  r_raw : forall t, nanoseconds (monotonic_raw k t) = Z.of_N t;
  r_mono : forall t, nanoseconds (monotonic k t) = (Z.of_N t + ahead t)%Z
}.
