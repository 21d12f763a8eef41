(** Definitions for the examples of PropertiesChecksum. *)
From Coq Require Import NArith List Bool Lia.
From Verif Require Import Base Config Cfgs Codec Checksum State Core Spec Demo SpecMem SpecCks ProofsCrc ProofsCks ProofsCks2.
Import ListNotations.
Open Scope N_scope.

Definition digits : list N := [0x31; 0x32; 0x33; 0x34; 0x35; 0x36; 0x37; 0x38; 0x39].
Definition cks_case (c : cfg) (n : N) : Prop :=
  let s := demo_st c env_yes ex_cks in
  reachable c mem0 (map (pair env_yes) ex_cks) s (demo_out c env_yes ex_cks) /\ dlc_ok c /\ may_sum c env_yes s n /\
  within_limit c n /\ at_once c n /\ in_space c (s_maddr s) n /\ 8 <= c_ctobuf c.
Ltac cks_tac W := split; [apply demo_at; [exact W|apply wf_yes; exact W|vm_compute; reflexivity]|];
  repeat split; try (vm_compute; congruence || reflexivity); first [right; vm_compute; congruence | left; reflexivity | idtac].
Lemma wf_crc16 : wf_cfg (w_cks CRC16 cfg_eth). Proof. wf_cfg_tac. Qed.
Lemma wf_crc32 : wf_cfg (w_cks CRC32 cfg_can). Proof. wf_cfg_tac. Qed.
Lemma wf_add : forall k, In k [ADD11; ADD12; ADD14; ADD22; ADD24; ADD44] -> wf_cfg (w_cks k cfg_eth).
Proof. intros k H. wf_cfg_tac. Qed.
Definition ex_bg (k : nat) : list op := concat (repeat [ORecv [0xFD]; OMain; OTrigger 0; OEvent 1 [7]] k).
Definition bg_case (c : cfg) (n : N) (f : list N) (k : nat) : Prop :=
  let s := demo_st c env_yes ex_cks in let l' := map (pair env_yes) (ex_bg k) in
  reachable c mem0 (map (pair env_yes) ex_cks) s (demo_out c env_yes ex_cks) /\ dlc_ok c /\ background c env_yes s n /\ lenN f <= c_ctobuf c /\
  is_ok (run c ((env_yes, ORecv f) :: l') s) = true /\
  in_space c (s_maddr s) n /\ wf_run c ((env_yes, ORecv f) :: l') /\ Forall may_interleave l' /\ mains l' = N.of_nat k.
Ltac bg_tac W := split; [apply demo_at; [exact W|apply wf_yes; exact W|vm_compute; reflexivity]|];
  split; [vm_compute; congruence|]; split; [constructor; [constructor|..]; vm_compute; try (split; reflexivity); try (left; reflexivity); congruence || reflexivity|];
  do 3 (split; [vm_compute; congruence || reflexivity|]);
  split; [match goal with |- wf_run ?c ((?e, ?x) :: map _ ?y) => apply (wf_run_b c e (x :: y)); [apply wf_yes; exact W|vm_compute; reflexivity] end|];
  split; [repeat constructor|vm_compute; reflexivity].
Definition ex_end : list op := [ORecv [0xFF; 0]; ORecv [0xF6; 0; 0; 1; 0x90; 0xFF; 0xFF; 0xFF]].
