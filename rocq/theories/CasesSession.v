(** Definitions for the examples of PropertiesSession. *)
From Coq Require Import NArith List Bool Lia.
From Verif Require Import Base Config Codec State Core Spec Demo Steps ProofsSession.
Import ListNotations.
Open Scope N_scope.

Definition ex_quiet : list op := [ORecv [0xFD]; OMain; OTrigger 1; ORecv [0xF5; 4]; ORecv [0xD2]].
Definition ex_busy : list op :=
  [ORecv [0xFF; 0]; ORecv [0xF6; 0; 0; 0; 0; 1; 0; 0]; ORecv [0xF3; 0; 0; 0; 200; 0; 0; 0]; OMain].
Definition ex_conn : list op := [ORecv [0xFF; 0]].
