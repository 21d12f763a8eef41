(** Definitions for the examples of PropertiesProt. *)
From Coq Require Import NArith List Bool Lia.
From Verif Require Import Base Config Codec State Core Spec Demo ProofsSession SpecProt ProofsProt.
Import ListNotations.
Open Scope N_scope.

Definition ex_locked : list op :=
  [ORecv [0xFF; 0]; ORecv [0xD6]; ORecv [0xD5; 0; 1; 0]; ORecv [0xDD; 1]; OTrigger 0; ORecv [0xE0; 0; 0; 0; 0; 0; 1; 0]].
Definition ex_seed : list op := [ORecv [0xFF; 0]; ORecv [0xF8; 0; 4]].
Definition ex_key : list N := [0xF7; 1; 0x42].
Definition ex_open : list op := ex_seed ++ [ORecv ex_key; ORecv [0xD6]; ORecv [0xD5; 0; 1; 0]; ORecv [0xF8; 0; 1]].
