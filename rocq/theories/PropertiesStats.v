(** Properties of the statistics; each theorem is followed by its assumptions. *)
From Coq Require Import NArith ZArith List Bool.
From Verif Require Import Base Config Codec State Core Spec Demo Steps Stats SpecStats ProofsStats CasesStats.
Import ListNotations.
Open Scope N_scope.

(** ** C113 The statistics count what they say *)

(** Between two calls of Xcp_Init every frame handed to the transport layer counts as sent, every ERR_CMD_BUSY response
    as busy, and every other command that arrived as received; nothing else moves the counters. *)
Theorem C113_counts : forall c m l s o l' s' o',
  reachable c m l s o -> wf_run c l' -> no_init l' -> run c l' s = Ok (s', o') -> c_stats c = true -> dlc_ok c ->
  s_cros s' = (s_cros s + lenN o') mod 2 ^ 32 /\
  s_crosb s' = (s_crosb s + busy_answers o') mod 2 ^ 32 /\
  (s_ctos s' = (s_ctos s + (commands l' - busy_answers o')) mod 2 ^ 32 /\ busy_answers o' <= commands l').
Proof. exact counts_thm. Qed.
Print Assumptions C113_counts.

(** The numbers shown count from power-on ... *)
Theorem C113_start : forall c m l s o, reachable c m l s o -> no_init l -> c_stats c = true -> dlc_ok c ->
  system_information s = info_of (commands l - busy_answers o) (busy_answers o) (lenN o) /\ busy_answers o <= commands l.
Proof. exact start_thm. Qed.
Print Assumptions C113_start.
(** ... and from each later call of Xcp_Init. *)
Theorem C113_init : forall c m l s o e l' s' o',
  reachable c m l s o -> wf_env c e -> wf_run c l' -> no_init l' ->
  run c ((e, OInit) :: l') s = Ok (s', o') -> c_stats c = true -> dlc_ok c ->
  system_information s' = info_of (commands l' - busy_answers o') (busy_answers o') (lenN o') /\ busy_answers o' <= commands l'.
Proof. exact init_thm. Qed.
Print Assumptions C113_init.

(** "CTOs rec'd" is less than the number of commands received once one was answered busy. *)
Theorem C113_received_refuted : forall c m l s o, reachable c m l s o -> no_init l -> c_stats c = true -> dlc_ok c ->
  commands l < 2 ^ 31 -> busy_answers o <> 0 -> (sh_ctos (system_information s) < Z.of_N (commands l))%Z.
Proof. exact received_thm. Qed.
Print Assumptions C113_received_refuted.
(** "CROs send" is more than the number of responses once a sample, event or service request was sent. *)
Theorem C113_sent_refuted : forall c m l s o p, reachable c m l s o -> no_init l -> c_stats c = true -> dlc_ok c ->
  lenN o < 2 ^ 31 -> In p o -> is_response p = false ->
  (Z.of_N (lenN (filter is_response o)) < sh_send (system_information s))%Z.
Proof. exact sent_thm. Qed.
Print Assumptions C113_sent_refuted.
(** From 2^31 frames on the number shown is negative. *)
Theorem C113_negative_refuted : forall c m l s o, reachable c m l s o -> no_init l -> c_stats c = true -> dlc_ok c ->
  2 ^ 31 <= lenN o < 2 ^ 32 -> (sh_send (system_information s) < 0)%Z.
Proof. exact negative_thm. Qed.
Print Assumptions C113_negative_refuted.

Example C113_case :
  reachable cfg_eth mem0 (map (pair env_yes) ex_stats) (demo_st cfg_eth env_yes ex_stats) (demo_out cfg_eth env_yes ex_stats) /\
  no_init (map (pair env_yes) ex_stats) /\ c_stats cfg_eth = true /\ dlc_ok cfg_eth /\
  commands (map (pair env_yes) ex_stats) = 3 /\ busy_answers (demo_out cfg_eth env_yes ex_stats) = 1 /\
  map is_response (demo_out cfg_eth env_yes ex_stats) = [true; true; false; true] /\
  system_information (demo_st cfg_eth env_yes ex_stats) = mkShown 2 1 4 /\
  exists l s o, reachable cfg_eth mem0 l s o /\ no_init l /\ lenN o = 2 ^ 31.
Proof.
  split; [apply eth_at; vm_compute; reflexivity|]. split; [repeat constructor; discriminate|]. split; [reflexivity|]. split; [discriminate|].
  do 4 (split; [vm_compute; reflexivity|]). exact (any_frames (2 ^ 31)).
Qed.
