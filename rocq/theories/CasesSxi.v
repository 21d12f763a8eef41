(** Definitions for the examples of PropertiesSxi. *)
From Coq Require Import NArith List Bool Lia.
From Verif Require Import Base Sxi SpecSxi ProofsSxi.
Import ListNotations.
Open Scope N_scope.

Definition at_ms (t : N) (b : N) : poll := mkPoll (Some b) t (t + 1).
Definition nothing (t : N) : poll := mkPoll None t t.
