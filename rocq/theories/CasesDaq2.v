(** Definitions for the examples of PropertiesDaq2. *)
From Coq Require Import NArith List Bool Lia.
From Verif Require Import Base Config Cfgs Codec State Daq Core Spec Demo SpecMem SpecDaq ProofsFrames ProofsDaqC ProofsDaqD ProofsDaqE ProofsDaqF ProofsDaqG ProofsDaqH ProofsDaqI ProofsDaqJ DemoDaq.
Import ListNotations.
Open Scope N_scope.

Definition ex_run : list op := ex_write ++ [ORecv [0xE0; 0x10; 0; 0; 1; 0; 1]; ORecv [0xDE; 2; 0; 0]; ORecv [0xDD; 1]].
Definition ex_unassigned : list op := ex_write ++ [ORecv [0xDD; 1]].
