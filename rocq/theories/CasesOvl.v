(** Cases for PropertiesOvl.v. *)
From Coq Require Import NArith List Bool.
From Verif Require Import Base Config Cfgs Codec State Daq Core Spec Demo SpecMem SpecDaq DemoDaq CasesDaq2.
Import ListNotations.
Open Scope N_scope.

(** One list of five ODTs of one byte each, assigned to event 1, DAQ started. *)
Definition five_run : list op := [ORecv [0xFF; 0]; ORecv [0xD6]; ORecv [0xD5; 0; 1; 0]; ORecv [0xD4; 0; 0; 0; 5]] ++
  map (fun i => ORecv [0xD3; 0; 0; 0; i; 1]) [0; 1; 2; 3; 4] ++
  flat_map (fun i => [ORecv [0xE2; 0; 0; 0; i; 0]; ORecv [0xE1; 0xFF; 1; 0; 0x10 + i; 0x10; 0; 0]]) [0; 1; 2; 3; 4] ++
  [ORecv [0xE0; 0; 0; 0; 1; 0; 1]; ORecv [0xDE; 2; 0; 0]; ORecv [0xDD; 1]].
Definition five_odts : list (list (N * N)) := [[(0x1010, 1)]; [(0x1011, 1)]; [(0x1012, 1)]; [(0x1013, 1)]; [(0x1014, 1)]].
