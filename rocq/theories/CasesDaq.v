(** Definitions for the examples of PropertiesDaq. *)
From Coq Require Import NArith List Bool Lia.
From Verif Require Import Base Config Cfgs State Daq Core Spec Demo SpecMem SpecDaq ProofsDaqA ProofsDaqC ProofsDaqD ProofsDaqE ProofsDaqG ProofsDaqH DemoDaq Steps.
Import ListNotations.
Open Scope N_scope.

Definition ex_two : list op := [ORecv [0xFF; 0]; ORecv [0xD6]; ORecv [0xD5; 0; 2; 0]].
Definition ex_ptr : list op := ex_alloc ++ [ORecv [0xE2; 0; 0; 0; 0; 0]].
Definition ex_third : list op := ex_alloc ++ [ORecv [0xE2; 0; 0; 0; 0; 0]; ORecv [0xE1; 0xFF; 4; 0; 0; 0x10; 0; 0]; ORecv [0xE1; 0xFF; 2; 0; 0x20; 0x10; 0; 0]].
Definition cfg_nine : cfg := w_max_ent 9 cfg_daq.
Definition cfg_many : cfg := w_max_ent 600 cfg_daq.
Definition ex_many : list op := [ORecv [0xFF; 0]; ORecv [0xD6]; ORecv [0xD5; 0; 2; 0]; ORecv [0xD4; 0; 0; 0; 252]; ORecv [0xD4; 0; 1; 0; 10]].
