(** Vocabulary for C153. *)
From Coq Require Import NArith List Bool.
From Verif Require Import Base Posix.
Import ListNotations.
Open Scope N_scope.

(** How often lock [k] was acquired and released. *)
Fixpoint acquired (k : N) (l : list use) : N :=
  match l with [] => 0 | Acquire j :: t => (if j =? k then 1 else 0) + acquired k t | _ :: t => acquired k t end.
Fixpoint released (k : N) (l : list use) : N :=
  match l with [] => 0 | Release j :: t => (if j =? k then 1 else 0) + released k t | _ :: t => released k t end.

(** The program was started with [n] locks and initialised, and made the calls [l]. *)
Definition after (n : nat) (l : list use) (s : posix) : Prop :=
  exists s0, posix_init (posix_start n) = Ok s0 /\ uses l s0 = Ok s.
