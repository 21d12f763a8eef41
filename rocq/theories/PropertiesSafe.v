(** C86: which operations stay clear of undefined behaviour and failed assertions. *)
From Coq Require Import NArith List Bool Lia.
From Verif Require Import Base Config Cfgs Codec State Core Spec Demo SpecMem SpecDaq DemoDaq SpecInfo SpecSafe ProofsSafe ProofsSafe2 DemoSafe.
Import ListNotations.
Open Scope N_scope.

(** Commands that touch neither memory, nor seeds, nor the DAQ tables are defined
    in every state, whatever their parameters are and however few they are. *)
Theorem C86_harmless : forall c m l s o e k t, reachable c m l s o -> lenN (k :: t) <= c_ctobuf c -> In k harmless -> defined c e (ORecv (k :: t)) s.
Proof. exact safe_harmless. Qed.
Print Assumptions C86_harmless.
(** Any frame is defined while the slave is not connected or busy. *)
Theorem C86_unready : forall c m l s o e f, reachable c m l s o -> lenN f <= c_ctobuf c -> ~ ready s -> defined c e (ORecv f) s.
Proof. exact safe_unready. Qed.
Print Assumptions C86_unready.
(** Codes below those of the command table never are, otherwise. *)
Theorem C86_low_codes_refuted : forall c m l s o e k t, reachable c m l s o -> ready s -> lenN (k :: t) <= c_ctobuf c -> k < 0xC7 ->
  ~ defined c e (ORecv (k :: t)) s.
Proof. exact unsafe_code. Qed.
Print Assumptions C86_low_codes_refuted.
Theorem C86_long_frame_refuted : forall c s e f, c_ctobuf c < lenN f -> ~ defined c e (ORecv f) s.
Proof. exact unsafe_long. Qed.
Print Assumptions C86_long_frame_refuted.

Example C86_harmless_case : let l := [ORecv [0xFF; 0]] in let s := demo_st cfg_eth env_yes l in
  reachable cfg_eth mem0 (map (pair env_yes) l) s (demo_out cfg_eth env_yes l) /\ ready s /\ ~ ready (demo_st cfg_eth env_yes []) /\
  c_ctobuf cfg_eth < lenN (repeat 0 300) /\
  map (ends cfg_eth env_yes s) [[0xD0]; [0xF7; 200]; [0xD7; 0; 255; 255]; [0xC6]; [0x00]; repeat 0xFF 300] = [true; true; true; false; false; false] /\
  ends cfg_eth env_yes (demo_st cfg_eth env_yes []) [0xC6] = true.
Proof.
  cbv zeta. split; [apply eth_at; vm_compute; reflexivity|]. split; [vm_compute; split; reflexivity|]. split; [vm_compute; intros (H & _); discriminate H|].
  split; [vm_compute; reflexivity|]. split; vm_compute; reflexivity.
Qed.

(** Memory commands: exactly when the range that the code accesses can be
    accessed; the rules of SpecSafe.v say which one that is. *)
Theorem C86_upload : forall c m l s o e t, let f := 0xF5 :: t in reachable c m l s o -> ready s -> c_lock c = LockRecursive -> lenN f <= c_ctobuf c ->
  c_opt c 0xF5 = true -> (defined c e (ORecv f) s <-> upload_rule c e s f).
Proof. intros c m l s o e t f R RD K. exact (iff_upload c s (reach_valid _ _ _ _ _ R) RD K e t). Qed.
Print Assumptions C86_upload.
Theorem C86_short_upload : forall c m l s o e t, let f := 0xF4 :: t in reachable c m l s o -> ready s -> c_lock c = LockRecursive -> lenN f <= c_ctobuf c ->
  c_opt c 0xF4 = true -> (defined c e (ORecv f) s <-> short_upload_rule c e s f).
Proof. intros c m l s o e t f R RD K. exact (iff_short_upload c s (reach_valid _ _ _ _ _ R) RD K e t). Qed.
Print Assumptions C86_short_upload.
Theorem C86_checksum : forall c m l s o e t, let f := 0xF3 :: t in reachable c m l s o -> ready s -> c_lock c = LockRecursive -> lenN f <= c_ctobuf c ->
  c_opt c 0xF3 = true -> (defined c e (ORecv f) s <-> checksum_rule c e s f).
Proof. intros c m l s o e t f R RD K. exact (iff_checksum c s (reach_valid _ _ _ _ _ R) RD K e t). Qed.
Print Assumptions C86_checksum.
Theorem C86_download : forall c m l s o e t, let f := 0xF0 :: t in reachable c m l s o -> ready s -> lenN f <= c_ctobuf c -> c_cal c = true ->
  (defined c e (ORecv f) s <-> download_rule c e s f).
Proof. intros c m l s o e t f R RD. exact (iff_download c s (reach_valid _ _ _ _ _ R) RD e t). Qed.
Print Assumptions C86_download.
Theorem C86_download_next : forall c m l s o e t, let f := 0xEF :: t in reachable c m l s o -> ready s -> lenN f <= c_ctobuf c -> c_cal c = true ->
  c_opt c 0xEF = true -> (defined c e (ORecv f) s <-> download_next_rule c e s f).
Proof. intros c m l s o e t f R RD. exact (iff_download_next c s (reach_valid _ _ _ _ _ R) RD e t). Qed.
Print Assumptions C86_download_next.
Theorem C86_download_max : forall c m l s o e t, let f := 0xEE :: t in reachable c m l s o -> ready s -> lenN f <= c_ctobuf c -> c_cal c = true ->
  c_opt c 0xEE = true -> (defined c e (ORecv f) s <-> download_max_rule c e s).
Proof. intros c m l s o e t f R RD. exact (iff_download_max c s (reach_valid _ _ _ _ _ R) RD e t). Qed.
Print Assumptions C86_download_max.
Theorem C86_short_download : forall c m l s o e t, let f := 0xED :: t in reachable c m l s o -> ready s -> lenN f <= c_ctobuf c -> c_cal c = true ->
  c_opt c 0xED = true -> (defined c e (ORecv f) s <-> short_download_rule c e s f).
Proof. intros c m l s o e t f R RD. exact (iff_short_download c s (reach_valid _ _ _ _ _ R) RD e t). Qed.
Print Assumptions C86_short_download.
Theorem C86_modify_bits : forall c m l s o e t, let f := 0xEC :: t in reachable c m l s o -> ready s -> lenN f <= c_ctobuf c -> c_cal c = true ->
  c_opt c 0xEC = true -> (defined c e (ORecv f) s <-> modify_rule c e s f).
Proof. intros c m l s o e t f R RD. exact (iff_modify c s (reach_valid _ _ _ _ _ R) RD e t). Qed.
Print Assumptions C86_modify_bits.
Theorem C86_seed : forall c m l s o e t, let f := 0xF8 :: t in reachable c m l s o -> ready s -> lenN f <= c_ctobuf c -> c_opt c 0xF8 = true ->
  (defined c e (ORecv f) s <-> seed_rule c e s f).
Proof. intros c m l s o e t f R RD. exact (iff_seed c s (reach_valid _ _ _ _ _ R) RD e t). Qed.
Print Assumptions C86_seed.
Theorem C86_list_mode : forall c m l s o e t, let f := 0xE0 :: t in reachable c m l s o -> ready s -> c_daq c = true -> lenN f <= c_ctobuf c ->
  (defined c e (ORecv f) s <-> mode_rule c s f).
Proof. intros c m l s o e t f R RD H. exact (iff_mode c m l s o R RD H e t). Qed.
Print Assumptions C86_list_mode.
(** The main function: exactly when the next piece of a block upload and the next
    chunk of a checksum can be read. *)
Theorem C86_main : forall c m l s o e, reachable c m l s o -> c_lock c = LockRecursive -> (defined c e OMain s <-> main_rule c e s).
Proof. exact iff_main. Qed.
Print Assumptions C86_main.

(** One frame of each kind that is defined, and one that is not. *)
Example C86_memory_case : let l := [ORecv [0xFF; 0]; ORecv [0xF6; 0; 0; 0; 0; 0x20; 0; 0]] in let s := demo_st cfg_all env_yes l in
  reachable cfg_all mem0 (map (pair env_yes) l) s (demo_out cfg_all env_yes l) /\ ready s /\ c_lock cfg_all = LockRecursive /\
  c_cal cfg_all = true /\ c_daq cfg_all = true /\ forallb (c_opt cfg_all) [0xF5; 0xF4; 0xF3; 0xEF; 0xEE; 0xED; 0xEC; 0xF8] = true /\
  map (ends cfg_all env_yes s) [[0xF5; 4]; [0xF4; 4; 0; 0; 0; 0x20; 0; 0]; [0xF3; 0; 0; 0; 16; 0; 0; 0]; [0xF0; 1; 9]; [0xEE]; [0xED; 1; 0; 0; 0; 0x20; 0; 0; 9];
    [0xEC; 8; 0xFF; 0xFF; 1; 0]; [0xF8; 0; 1]; [0xE0; 0; 0; 0; 1; 0; 1]] = repeat true 9 /\
  map (ends cfg_all env_yes s) [[0xF5; 0]; [0xF4; 0; 0; 0; 0; 0x20; 0; 0]; [0xF0; 0; 9]; [0xED; 1; 0; 0; 0; 0; 0; 0; 9];
    [0xEC; 32; 0xFF; 0xFF; 1; 0]; [0xE0; 0; 0; 0; 99; 0; 1]] = repeat false 6.
Proof.
  cbv zeta. split; [apply all_at; vm_compute; reflexivity|]. split; [vm_compute; split; reflexivity|]. do 4 (split; [vm_compute; reflexivity|]).
  split; vm_compute; reflexivity.
Qed.

(** DAQ commands, as long as the tables are those of a configuration and the
    command addresses a part of it. *)
Theorem C86_daq : forall c m l s o e k t, let f := k :: t in reachable c m l s o -> ready s -> c_daq c = true -> lenN f <= c_ctobuf c -> bytes f ->
  c_max_ent c < 65536 -> In k daq_codes -> (k = 0xE2 \/ k = 0xE1 \/ k = 0xDE \/ c_opt c k = true) -> daq_rule c s f k -> defined c e (ORecv f) s.
Proof. intros c m l s o e k t f R RD H. exact (daq_fine c m l s o R RD H e k t). Qed.
Print Assumptions C86_daq.
Theorem C86_trigger : forall c m l s o e ev, reachable c m l s o -> wf_env c e -> c_max_ent c < 65536 -> stamp_ok c ->
  trigger_rule c e s ev -> defined c e (OTrigger ev) s.
Proof. exact trigger_fine. Qed.
Print Assumptions C86_trigger.

(** Any run that keeps to the rules is defined to its end. *)
Theorem C86_run : forall c m l' l s o, reachable c m l s o -> wf_run c l' -> c_lock c = LockRecursive -> c_max_ent c < 65536 -> stamp_ok c ->
  abides c l' s -> exists s' o', run c l' s = Ok (s', o').
Proof. exact run_fine. Qed.
Print Assumptions C86_run.

(** Configuring, starting and sampling a list, by the rules. *)
Example C86_run_case :
  c_lock cfg_daq = LockRecursive /\ c_max_ent cfg_daq < 65536 /\ stamp_ok cfg_daq /\ wf_run cfg_daq (map (pair env_yes) ex_safe) /\
  reachable cfg_daq mem0 [] (demo_st cfg_daq env_yes []) [] /\ abides cfg_daq (map (pair env_yes) ex_safe) (demo_st cfg_daq env_yes []) /\
  lenN (demo_out cfg_daq env_yes ex_safe) = 14.
Proof.
  do 2 (split; [vm_compute; reflexivity|]). split; [intro H; discriminate H|]. split; [apply wf_run_b; [apply wf_yes, wf_daq|vm_compute; reflexivity]|].
  split; [exact (daq_at [] eq_refl)|]. split; [exact safe_abides|vm_compute; reflexivity].
Qed.
