(** Definitions for the examples of PropertiesMisc. *)
From Coq Require Import NArith List Bool Lia.
From Verif Require Import Base Config Cfgs Codec State Core Spec Demo SpecMem SpecCks ProofsCks2 SpecMisc ProofsMisc.
Import ListNotations.
Open Scope N_scope.

Lemma wf_normal : wf_cfg (w_lock LockNormal cfg_eth). Proof. wf_cfg_tac. Qed.
Lemma wf_normal_sbm : wf_cfg (w_sbm true (w_lock LockNormal cfg_eth)). Proof. wf_cfg_tac. Qed.
Lemma wf_flat : wf_cfg (w_chunked false (w_lock LockNormal cfg_eth)). Proof. wf_cfg_tac. Qed.
Lemma wf_dlc : wf_cfg (w_max_dlc true cfg_can). Proof. wf_cfg_tac. Qed.
