(** Vocabulary for the clocks (C63, C68, C69). *)
From Coq Require Import ZArith NArith.
From Verif Require Import Base Hw.
Open Scope N_scope.

(** A time stamp of the operating system, and its value in nanoseconds. *)
Definition normal (t : timespec) : Prop := (0 <= tv_nsec t < 1000000000)%Z.
Definition nanoseconds (t : timespec) : Z := (tv_sec t * 1000000000 + tv_nsec t)%Z.

(** [e] nanoseconds have passed since the start (less than 584 years). *)
Definition passed (start now : timespec) (e : N) : Prop :=
  normal start /\ normal now /\ nanoseconds now = (nanoseconds start + Z.of_N e)%Z /\ e < 2 ^ 64.

(** A counter of [size] bytes that counts units. *)
Definition counter (size units : N) : N := units mod 2 ^ (8 * size).
