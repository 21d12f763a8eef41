(** Vocabulary for the utility functions (C54, C55, C64). *)
From Coq Require Import NArith List Bool.
From Verif Require Import Base.
Import ListNotations.
Open Scope N_scope.

(** Value of the digits [ds], most significant first, in base [b]. *)
Fixpoint numeral_value (b : N) (ds : list N) : N :=
  match ds with [] => 0 | d :: t => d * b ^ lenN t + numeral_value b t end.

(** [ds] is the shortest base-[b] numeral of [v]: proper digits, at least one, no
    leading zero unless it is the only digit. *)
Definition numeral (b : N) (ds : list N) (v : N) : Prop :=
  numeral_value b ds = v /\ Forall (fun d => d < b) ds /\
  match ds with [] => False | d :: t => t <> [] -> 0 < d end.

(** ASCII: '0'..'9', 'A'..'Z'. *)
Definition digit_char (d : N) : N := if d <? 10 then 48 + d else 55 + d.
Definition minus : N := 45.

(** The text expected for a value of type uint32_t, read as signed in base 10. *)
Definition text (v b : N) (t : list N) : Prop :=
  if (2 ^ 31 <=? v) && (b =? 10)
  then exists ds, numeral b ds (2 ^ 32 - v) /\ t = minus :: map digit_char ds
  else exists ds, numeral b ds v /\ t = map digit_char ds.

(** The [n] bytes from [s] on have been moved to [d]; nothing else has changed. *)
Definition moved (m m' : mem) (d s n : N) : Prop :=
  forall x, m' x = if (d <=? x) && (x <? d + n) then m (s + (x - d)) else m x.

(** Neither range wraps around the end of the address space. *)
Definition in_range (aspace d s n : N) : Prop := d + n <= aspace /\ s + n <= aspace.
