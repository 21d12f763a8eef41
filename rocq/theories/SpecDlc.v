(** Configurations and commands of the examples in PropertiesDlc.v. *)
From Coq Require Import NArith List Bool.
From Verif Require Import Base Config Cfgs State Core Spec Demo.
Import ListNotations.
Open Scope N_scope.

(** CAN FD and classic CAN with frames of always full length. *)
Definition cfg_fd : cfg := w_max_dlc true (w_max_cto 64 cfg_can).
Lemma wf_fd : wf_cfg cfg_fd. Proof. wf_cfg_tac. Qed.
Definition cfg_dlc : cfg := w_max_dlc true cfg_can.
Lemma wf_dlc8 : wf_cfg cfg_dlc. Proof. wf_cfg_tac. Qed.

(** CONNECT, SHORT_UPLOAD; CONNECT, unlock DAQ, FREE_DAQ. *)
Definition ex_fd : list op := [ORecv [0xFF; 0]; ORecv [0xF4; 3; 0; 0; 0x42; 0; 0; 0]].
Definition ex_free : list op := [ORecv [0xFF; 0]; ORecv [0xF8; 0; 4]; ORecv [0xF7; 1; 0x42]; ORecv [0xD6]].
