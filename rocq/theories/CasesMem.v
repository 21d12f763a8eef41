(** Definitions for the examples of PropertiesMem. *)
From Coq Require Import NArith List Bool Lia.
From Verif Require Import Base Config Cfgs Codec State Core Spec Demo SpecMem ProofsMem ProofsBlock ProofsWrite ProofsModify ProofsMem2 ProofsRx.
Import ListNotations.
Open Scope N_scope.

Definition ex_mta : list op := [ORecv [0xFF; 0]; ORecv [0xF6; 0; 0; 1; 0; 0x20; 0; 0]].
Definition cfg_sbm : cfg := w_sbm true cfg_can.
Lemma wf_sbm : wf_cfg cfg_sbm. Proof. wf_cfg_tac. Qed.
Definition ex_short : list N := [0xF4; 4; 0; 3; 0x10; 0x30; 0; 0].
Definition ex_between : list op := [ORecv [0xFD]; OMain; OTrigger 0; OEvent 1 [7]].
Definition ex_d : list N := [10; 11; 12; 13; 14; 15].
Definition ex_rest : list N := [20; 21; 22; 23; 24; 25; 30; 31].
Definition ex_next : list (list N) := [[0xEF; 8; 20; 21; 22; 23; 24; 25]; [0xEF; 2; 30; 31]].
Definition ex_nine : list op := ex_mta ++ [ORecv [0xF0; 9; 1; 2; 3; 4; 5; 6]].
Definition ex_sdown : list N := [0xED; 2; 0; 1; 0; 0x50; 0; 0; 0x77; 0x78].
Definition ex_reads : list op := [ORecv [0xFF; 0]; ORecv [0xF6; 0; 0; 1; 0; 0x20; 0; 0]; ORecv [0xF5; 5]; OMain; OTrigger 0; OEvent 1 [2];
  ORecv [0xF3; 0; 0; 0; 200; 0; 0; 0]; OMain; OMain; ORecv [0xD2]; ORecv [0xD0; 2; 9; 9]; ODisconnect].
Definition ex_prog : list op := ex_mta ++ [ORecv [0xD2]].
