(** A displayed configuration. *)
From Coq Require Import NArith List Bool.
From Verif Require Import Base Config State Core Spec SpecDaq Demo DemoDaq Show SpecShow ProofsShow.
Import ListNotations.
Open Scope N_scope.

(** SET_DAQ_LIST_MODE (time stamps, event 0) for list 0, START_STOP_DAQ_LIST
    (select) for list 0, START_STOP_SYNCH (start selected). *)
Definition ex_shown : list op := ex_write ++ [ORecv [0xE0; 0x10; 0; 0; 0; 0; 1; 0]; ORecv [0xDE; 2; 0; 0]; ORecv [0xDD; 1]].

Lemma shown_case :
  let s := demo_st cfg_daq env_yes ex_shown in
  (exists s0, boot cfg_daq mem0 = Ok s0 /\ builds cfg_daq s0 [] (map (pair env_yes) ex_shown) s ex_tree) /\
  show_daq cfg_daq s = Ok
    [LList 0 0 [FDaq; FStarted; FTimestamp]; LOdt 0; LEntry 0 0x1000 4; LEntry 1 0x1020 2; LOdt 1; LEntry 0 0x1030 1; LTotal 7;
     LList 1 2 [FDaq; FStarted; FTimestamp]; LOdt 0; LEntry 0 0x1040 3; LTotal 3] /\
  daq_info cfg_daq s = (true, 9, 100).
Proof.
  cbv zeta. split; [|split; vm_compute; reflexivity].
  destruct (boot cfg_daq mem0) as [s0|] eqn:B; [|vm_compute in B; discriminate]. exists s0. split; [reflexivity|].
  apply track_ok. vm_compute in B. injection B as <-. vm_compute. reflexivity.
Qed.
