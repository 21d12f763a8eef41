(** C130: when operations of the build with predefined DAQ lists are defined. *)
From Coq Require Import NArith List Bool.
From Verif Require Import Base Config Cfgs State Core Spec Demo SpecMem SpecDaq DemoDaq SpecInfo SpecSafe Predef SpecPre DemoPre SpecPreSafe CasesPreSafe ProofsPreSafe.
Import ListNotations.
Open Scope N_scope.

(** ** C130 *)

(** Most commands are defined for all parameters, in all states. *)
Theorem C130_harmless : forall c p es m l z o t e k r,
  sreachable c p es m l z o -> c_max_ent c < 65536 -> ready (z_st z) -> describes c p es t -> In k pre_harmless -> lenN (k :: r) <= c_ctobuf c ->
  sdefined c p e (ORecv (k :: r)) z.
Proof. intros c p es m l z o t e k r R Sm RD Ds. exact (pre_harmless_thm c p es m l z o t e R Sm RD Ds k r). Qed.
Print Assumptions C130_harmless.
Theorem C130_unready : forall c p es m l z o e f,
  sreachable c p es m l z o -> lenN f <= c_ctobuf c -> ~ ready (z_st z) -> sdefined c p e (ORecv f) z.
Proof. intros c p es m l z o e f R. exact (pre_unready_thm c p es m l z o e R f). Qed.
Print Assumptions C130_unready.
(** Codes below 0xC7 lead outside of the table. *)
Theorem C130_code_refuted : forall c p es m l z o e k r,
  sreachable c p es m l z o -> ready (z_st z) -> lenN (k :: r) <= c_ctobuf c -> k < 0xC7 -> ~ sdefined c p e (ORecv (k :: r)) z.
Proof. intros c p es m l z o e k r R RD. exact (pre_code_thm c p es m l z o e R RD k r). Qed.
Print Assumptions C130_code_refuted.

(** Memory access, GET_SEED and the main function keep the rules of C86. *)
Theorem C130_shared : forall c p es m l z o e k r,
  sreachable c p es m l z o -> ready (z_st z) -> c_lock c = LockRecursive -> In k shared_codes -> lenN (k :: r) <= c_ctobuf c ->
  (sdefined c p e (ORecv (k :: r)) z <-> command_rule c e (z_st z) (k :: r) k).
Proof. intros c p es m l z o e k r R RD K. exact (pre_shared_thm c p es m l z o e R RD K k r). Qed.
Print Assumptions C130_shared.
Theorem C130_main : forall c p es m l z o e,
  sreachable c p es m l z o -> c_lock c = LockRecursive -> (sdefined c p e OMain z <-> main_rule c e (z_st z)).
Proof. intros c p es m l z o e R. exact (pre_main_thm c p es m l z o e R). Qed.
Print Assumptions C130_main.

(** DAQ commands. *)
Theorem C130_write : forall c p es m l z o e r, let f := 0xE1 :: r in
  sreachable c p es m l z o -> ready (z_st z) -> lenN f <= c_ctobuf c -> (sdefined c p e (ORecv f) z <-> pre_write_rule c p (z_st z)).
Proof. intros c p es m l z o e r f R RD. exact (pre_write_thm c p es m l z o e R RD r). Qed.
Print Assumptions C130_write.
Theorem C130_write_multiple : forall c p es m l z o e r, let f := 0xC7 :: r in
  sreachable c p es m l z o -> ready (z_st z) -> c_opt c 0xC7 = true -> lenN f <= c_ctobuf c ->
  (sdefined c p e (ORecv f) z <-> pre_multiple_rule c p (z_st z) f).
Proof. intros c p es m l z o e r f R RD O. exact (pre_multiple_thm c p es m l z o e R RD O r). Qed.
Print Assumptions C130_write_multiple.
Theorem C130_mode : forall c p es m l z o e r, let f := 0xE0 :: r in
  sreachable c p es m l z o -> c_max_ent c < 65536 -> ready (z_st z) -> lenN f <= c_ctobuf c -> bytes f ->
  (sdefined c p e (ORecv f) z <-> pre_mode_rule c p (z_st z) f).
Proof. intros c p es m l z o e r f R Sm RD. exact (pre_mode_thm c p es m l z o e R Sm RD r). Qed.
Print Assumptions C130_mode.
Theorem C130_select : forall c p es m l z o e r, let f := 0xDE :: r in
  sreachable c p es m l z o -> c_max_ent c < 65536 -> ready (z_st z) -> lenN f <= c_ctobuf c -> bytes f ->
  (sdefined c p e (ORecv f) z <-> pre_select_rule c p (z_st z) f).
Proof. intros c p es m l z o e r f R Sm RD. exact (pre_select_thm c p es m l z o e R Sm RD r). Qed.
Print Assumptions C130_select.
Theorem C130_info : forall c p es m l z o e r, let f := 0xD8 :: r in
  sreachable c p es m l z o -> c_max_ent c < 65536 -> ready (z_st z) -> c_opt c 0xD8 = true -> lenN f <= c_ctobuf c -> bytes f ->
  (sdefined c p e (ORecv f) z <-> pre_info_rule c p (z_st z) f).
Proof. intros c p es m l z o e r f R Sm RD O. exact (pre_info_thm c p es m l z o e R Sm RD O r). Qed.
Print Assumptions C130_info.

(** With two lists, and with none: frames that are defined and frames that are not. *)
Example C130_case :
  let l := [ORecv [0xFF; 0]; ORecv [0xF6; 0; 0; 0; 0; 0x20; 0; 0]] in let z := sdemo_st cfg_pre pre_tables pre_entries l in let z0 := sdemo_st cfg_pre no_tables [] l in
  sreachable cfg_pre pre_tables pre_entries mem0 (map (pair env_yes) l) z (sdemo_out cfg_pre pre_tables pre_entries l) /\ ready (z_st z) /\
  sreachable cfg_pre no_tables [] mem0 (map (pair env_yes) l) z0 (sdemo_out cfg_pre no_tables [] l) /\ ready (z_st z0) /\
  c_lock cfg_pre = LockRecursive /\ c_max_ent cfg_pre < 65536 /\ forallb (c_opt cfg_pre) [0xD8; 0xC7] = true /\ describes cfg_pre pre_tables pre_entries pre_tree /\
  map (pre_ends pre_tables pre_entries z) [[0xE2; 0; 7; 0; 9; 9]; [0xE1; 0xFF; 4]; [0xC7; 1]; [0xE0; 0; 1; 0; 1; 0; 1; 0]; [0xDE; 2; 1; 0]; [0xDE; 1; 7; 0]; [0xD8; 0; 1; 0]; [0xF5; 4]; [0xD5; 0; 1; 0]] = repeat true 9 /\
  map (pre_ends pre_tables pre_entries z) [[0xE0; 0; 2; 0; 1; 0; 1; 0]; [0xE0; 0; 1; 0; 99; 0; 1; 0]; [0xDE; 2; 2; 0]; [0xD8; 0; 2; 0]; [0xF5; 0]; [0xC6]] = repeat false 6 /\
  map (pre_ends no_tables [] z0) [[0xE2; 0; 0; 0; 0; 0]; [0xC7; 0]; [0xDD; 1]] = repeat true 3 /\
  map (pre_ends no_tables [] z0) [[0xE1; 0xFF; 4]; [0xC7; 1]; [0xD8; 0; 0; 0]] = repeat false 3.
Proof.
  cbv zeta. split; [apply pre_at; vm_compute; reflexivity|]. split; [vm_compute; split; reflexivity|].
  split; [apply no_at; vm_compute; reflexivity|]. split; [vm_compute; split; reflexivity|]. do 3 (split; [vm_compute; reflexivity|]). split; [exact pre_describes|].
  do 3 (split; [vm_compute; reflexivity|]). vm_compute. reflexivity.
Qed.

(** An event that finds entries in order and room in the queue. *)
Theorem C130_trigger : forall c p es m l z o t e ev,
  sreachable c p es m l z o -> c_max_ent c < 65536 -> wf_env c e -> stamp_ok c -> describes c p es t -> pre_trigger_rule c e t z ev ->
  sdefined c p e (OTrigger ev) z.
Proof. intros c p es m l z o t e ev R Sm We So Ds. exact (pre_trigger_thm c p es m l z o t e R Sm We So Ds ev). Qed.
Print Assumptions C130_trigger.

(** Any run that keeps to the rules is defined to its end. *)
Theorem C130_run : forall c p es m t l' l z o,
  sreachable c p es m l z o -> wf_run c l' -> c_lock c = LockRecursive -> c_max_ent c < 65536 -> stamp_ok c -> describes c p es t ->
  pre_abides c p t l' z -> exists z' o', srun c p l' z = Ok (z', o').
Proof. exact pre_run_thm. Qed.
Print Assumptions C130_run.

(** Selecting, starting and sampling a list, by the rules. *)
Example C130_run_case :
  c_lock cfg_pre = LockRecursive /\ c_max_ent cfg_pre < 65536 /\ stamp_ok cfg_pre /\ describes cfg_pre pre_tables pre_entries pre_tree /\
  wf_run cfg_pre (map (pair env_yes) ex_pre_safe) /\ sreachable cfg_pre pre_tables pre_entries mem0 [] (sdemo_st cfg_pre pre_tables pre_entries []) [] /\
  pre_abides cfg_pre pre_tables pre_tree (map (pair env_yes) ex_pre_safe) (sdemo_st cfg_pre pre_tables pre_entries []) /\
  lenN (sdemo_out cfg_pre pre_tables pre_entries ex_pre_safe) = 15.
Proof.
  do 2 (split; [vm_compute; reflexivity|]). split; [intro H; discriminate H|]. split; [exact pre_describes|]. split; [apply wf_run_b; [apply wf_yes, wf_pre_cfg|vm_compute; reflexivity]|].
  split; [exact (pre_at [] eq_refl)|]. split; [exact pre_safe_abides|vm_compute; reflexivity].
Qed.
