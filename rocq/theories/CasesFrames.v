(** Definitions for the examples of PropertiesFrames. *)
From Coq Require Import NArith List Bool Lia.
From Verif Require Import Base Config Cfgs Codec State Core Spec SpecFrames Demo Steps Exec ProofsSession ProofsFrames.
Import ListNotations.
Open Scope N_scope.

Definition ex_daq : list op :=
  [ORecv [0xFF; 0]; OEvent 7 [1; 2; 3]; ORecv [0xD6]; ORecv [0xD5; 0; 1; 0]; ORecv [0xD4; 0; 0; 0; 1];
   ORecv [0xD3; 0; 0; 0; 0; 1]; ORecv [0xE2; 0; 0; 0; 0; 0]; ORecv [0xE1; 0xFF; 2; 0; 0; 0x10; 0; 0];
   ORecv [0xE0; 0; 0; 0; 1; 0; 1; 0]; ORecv [0xDE; 2; 0; 0]; ORecv [0xDD; 1]; OTrigger 1; OTrigger 1].
Definition ex_eth : list op := [ORecv [0xFF; 0]; OEvent 7 [1; 2; 3]; ORecv [0xFD]].
