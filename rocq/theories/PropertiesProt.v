(** C12 - C19: protection, access control, programming mode. *)
From Coq Require Import NArith List Bool Lia.
From Verif Require Import Base Config Codec State Core Spec Demo ProofsSession SpecProt ProofsProt CasesProt.
Import ListNotations.
Open Scope N_scope.

(** ** C12 A locked DAQ resource cannot be configured or started *)

(** Over any stretch of operations during which DAQ stays locked, the DAQ
    configuration stays what it was or has been reset. *)
Theorem C12_locked_daq : forall c l s s' o,
  wf_run c l -> c_daq c = true -> throughout c (locked c 4) l s -> run c l s = Ok (s', o) ->
  same_config (s_daq s) (s_daq s') \/ empty_config (s_daq s').
Proof. exact locked_run. Qed.
Print Assumptions C12_locked_daq.

Theorem C12_no_start : forall c l s s' o,
  wf_run c l -> c_daq c = true -> throughout c (locked c 4) l s -> run c l s = Ok (s', o) ->
  ~ measuring s -> ~ measuring s'.
Proof. exact locked_no_start. Qed.
Print Assumptions C12_no_start.

Example C12_case :
  let s := demo_st cfg_eth env_yes [ORecv [0xFF; 0]] in
  reachable cfg_eth mem0 (map (pair env_yes) [ORecv [0xFF; 0]]) s (demo_out cfg_eth env_yes [ORecv [0xFF; 0]]) /\
  wf_run cfg_eth (map (pair env_yes) ex_locked) /\ throughout cfg_eth (locked cfg_eth 4) (map (pair env_yes) ex_locked) s /\
  is_ok (run cfg_eth (map (pair env_yes) ex_locked) s) = true.
Proof.
  cbv zeta. split; [apply eth_at; vm_compute; reflexivity|].
  split; [apply wf_run_b; [apply wf_yes, wf_eth|reflexivity]|]. split; vm_compute; repeat split.
Qed.

(** ** C13 Protection is lifted only by an accepted key for a requested resource *)

(** A protection bit is cleared only by an UNLOCK whose key the hook accepted,
    for a resource whose seed is pending. *)
Theorem C13_only_by_key : forall c m l s o e x s' o' i,
  reachable c m l s o -> wf_op c (e, x) -> step c e x s = Ok (s', o') ->
  protected_bit s i -> ~ protected_bit s' i ->
  exists t, x = ORecv (0xF7 :: t) /\ ready s /\ pending_bit s i /\ key_accepted e s (rxbuf s (0xF7 :: t)) /\ s_seed s' = 0.
Proof. exact bit_cleared. Qed.
Print Assumptions C13_only_by_key.

(** A pending bit was requested by an earlier GET_SEED that was answered
    positively, and it has been pending in every state since. *)
Theorem C13_pending_origin : forall c m i l s o,
  reachable c m l s o -> pending_bit s i ->
  exists l1 e t l2 s1 o1 s2 o2,
    l = l1 ++ (e, ORecv (0xF8 :: t)) :: l2 /\ reachable c m l1 s1 o1 /\ ready s1 /\
    step c e (ORecv (0xF8 :: t)) s1 = Ok (s2, o2) /\ N.testbit (nth 2 (rxbuf s1 (0xF8 :: t)) 0) i = true /\
    (exists p, o2 = [p] /\ p_dto p = false /\ hd_error (p_data p) = Some 0xFF) /\
    throughout c (fun s => pending_bit s i) l2 s2.
Proof. exact pending_origin. Qed.
Print Assumptions C13_pending_origin.

(** Only configured resources are ever protected; without GET_SEED and UNLOCK
    nothing is. *)
Theorem C13_default_bits : forall c m l s o,
  reachable c m l s o ->
  (forall i, protected_bit s i -> N.testbit (default_status c) i = true) /\ (c_protect c = false -> s_prot s = 0 /\ s_seed s = 0).
Proof. exact default_bits. Qed.
Print Assumptions C13_default_bits.

(** An accepted key clears exactly the bits whose seed is pending and reports the
    remaining ones. *)
Theorem C13_accepted : forall c m l s o e t,
  reachable c m l s o -> dlc_ok c -> ready s -> c_opt c 0xF7 = true -> ~ programming s ->
  lenN (0xF7 :: t) <= c_ctobuf c -> s_seed s <> 0 -> key_accepted e s (rxbuf s (0xF7 :: t)) ->
  exists v, (forall i, N.testbit v i = N.testbit (s_prot s) i && negb (N.testbit (s_seed s) i)) /\
  answers c e (0xF7 :: t) s [0xFF; v] (set_s_seed 0 (set_s_prot v s)).
Proof. exact unlock_thm. Qed.
Print Assumptions C13_accepted.

(** Seed for DAQ requested; the key 0x42 then clears bit 2 of 0x1D. *)
Example C13_case :
  let s := demo_st cfg_eth env_yes ex_seed in
  reachable cfg_eth mem0 (map (pair env_yes) ex_seed) s (demo_out cfg_eth env_yes ex_seed) /\
  pending_bit s 2 /\ protected_bit s 2 /\ ready s /\ s_seed s <> 0 /\ key_accepted env_yes s (rxbuf s ex_key) /\
  ~ programming s /\ c_opt cfg_eth 0xF7 = true /\ lenN ex_key <= c_ctobuf cfg_eth /\
  exists s' o, step cfg_eth env_yes (ORecv ex_key) s = Ok (s', o) /\ ~ protected_bit s' 2 /\ protected_bit s' 4.
Proof.
  cbv zeta. split; [apply eth_at; vm_compute; reflexivity|].
  repeat (split; [vm_compute; repeat split; discriminate || reflexivity|]).
  eexists _, _. split; [vm_compute; reflexivity|]. split; vm_compute; congruence.
Qed.

(** ** C14 Disconnect and failed UNLOCK re-lock everything *)
Theorem C14_disconnect : forall c m l s o e f,
  reachable c m l s o -> dlc_ok c -> ready s -> ~ programming s -> is_cmd 0xFE f -> lenN f <= c_ctobuf c ->
  exists s' o', step c e (ORecv f) s = Ok (s', o') /\ sends o' (padded c [0xFF]) /\ relocked_st c s' /\ same_rest s s'.
Proof. exact disconnect_thm. Qed.
Print Assumptions C14_disconnect.

Theorem C14_rejected_key : forall c m l s o e f,
  reachable c m l s o -> dlc_ok c -> ready s -> c_opt c 0xF7 = true -> ~ programming s -> is_cmd 0xF7 f ->
  lenN f <= c_ctobuf c -> s_seed s <> 0 -> ~ key_accepted e s (rxbuf s f) ->
  exists s' o', step c e (ORecv f) s = Ok (s', o') /\ sends o' (padded c [0xFE; 0x25]) /\ relocked_st c s' /\ same_rest s s'.
Proof. exact rejected_thm. Qed.
Print Assumptions C14_rejected_key.

Theorem C14_api : forall c m l s o e,
  reachable c m l s o -> exists s', step c e ODisconnect s = Ok (s', []) /\ relocked_st c s' /\ same_rest s s'.
Proof. exact api_disconnect_thm. Qed.
Print Assumptions C14_api.

(** DAQ unlocked, one list allocated, seed for CAL pending. *)
Example C14_case :
  let s := demo_st cfg_eth env_yes ex_open in
  reachable cfg_eth mem0 (map (pair env_yes) ex_open) s (demo_out cfg_eth env_yes ex_open) /\
  ready s /\ ~ programming s /\ s_prot s = 0x19 /\ s_seed s = 1 /\ d_lcnt (s_daq s) = 1 /\ default_status cfg_eth = 0x1D /\
  ~ key_accepted env_yes s (rxbuf s [0xF7; 1; 0x43]).
Proof.
  cbv zeta. split; [apply eth_at; vm_compute; reflexivity|].
  repeat (split; [vm_compute; repeat split; discriminate || reflexivity|]). vm_compute. discriminate.
Qed.

(** ** C15 A locked CAL resource cannot be written: false *)

(** CAL locked; DOWNLOAD writes nevertheless (C23_download holds without any
    condition on the protection status). *)
Theorem C15_refuted : exists c m l s o e f s' o',
  reachable c m l s o /\ locked c 1 s /\ bytes f /\ step c e (ORecv f) s = Ok (s', o') /\ s_mem s' 0x100 <> s_mem s 0x100.
Proof. exact cal_refuted. Qed.
Print Assumptions C15_refuted.

(** ** C16 Programming and measurement exclude each other *)
Theorem C16_exclusion : forall c m l s o, reachable c m l s o -> ~ (programming s /\ measuring s).
Proof. exact exclusion_thm. Qed.
Print Assumptions C16_exclusion.

Theorem C16_programming_entry : forall c m l s o e x s' o',
  reachable c m l s o -> wf_op c (e, x) -> step c e x s = Ok (s', o') -> ~ programming s -> programming s' ->
  exists t, x = ORecv (0xD2 :: t) /\ ready s /\ ~ locked c 16 s /\ ~ measuring s.
Proof. exact pgm_entry_thm. Qed.
Print Assumptions C16_programming_entry.

Theorem C16_measurement_entry : forall c m l s o e x s' o',
  reachable c m l s o -> wf_op c (e, x) -> step c e x s = Ok (s', o') -> ~ measuring s -> measuring s' ->
  exists t, x = ORecv (0xDD :: t) /\ ready s /\ nth 1 (rxbuf s (0xDD :: t)) 0 = 1 /\ ~ locked c 4 s /\ ~ programming s.
Proof. exact daq_entry_thm. Qed.
Print Assumptions C16_measurement_entry.

(** Both modes are entered in some run. *)
Example C16_case :
  (let s := demo_st cfg_can env_yes [ORecv [0xFF; 0]] in
   ~ programming s /\ ~ measuring s /\
   (exists s' o, step cfg_can env_yes (ORecv [0xD2]) s = Ok (s', o) /\ programming s') /\
   (exists s' o, step cfg_can env_yes (ORecv [0xDD; 1]) s = Ok (s', o) /\ measuring s')) /\
  reachable cfg_can mem0 (map (pair env_yes) [ORecv [0xFF; 0]]) (demo_st cfg_can env_yes [ORecv [0xFF; 0]])
    (demo_out cfg_can env_yes [ORecv [0xFF; 0]]).
Proof.
  cbv zeta. split; [|apply can_at; vm_compute; reflexivity].
  split; [vm_compute; discriminate|]. split; [vm_compute; discriminate|].
  split; eexists _, _; (split; [vm_compute; reflexivity|vm_compute; reflexivity]).
Qed.

(** ** C17 Calibration writes are refused while programming: false for MODIFY_BITS *)
Theorem C17_other_commands : forall c m l s o e f s' o',
  reachable c m l s o -> bytes f -> step c e (ORecv f) s = Ok (s', o') ->
  programming s -> ~ is_cmd 0xEC f -> s_mem s' = s_mem s.
Proof. exact pgm_write_thm. Qed.
Print Assumptions C17_other_commands.

Theorem C17_refuted : exists c m l s o e f s' o',
  reachable c m l s o /\ programming s /\ bytes f /\ step c e (ORecv f) s = Ok (s', o') /\ s_mem s' 0x101 <> s_mem s 0x101.
Proof. exact pgm_refuted. Qed.
Print Assumptions C17_refuted.

Example C17_case :
  let s := demo_st cfg_can env_yes pgm_run in
  reachable cfg_can mem0 (map (pair env_yes) pgm_run) s (demo_out cfg_can env_yes pgm_run) /\ programming s /\
  exists s' o, step cfg_can env_yes (ORecv [0xF0; 1; 0x55]) s = Ok (s', o) /\ map p_data o = [[0xFE; 0x12]].
Proof.
  cbv zeta. split; [apply can_at; vm_compute; reflexivity|]. split; [vm_compute; reflexivity|].
  eexists _, _. split; vm_compute; reflexivity.
Qed.

(** ** C18 Memory access hook guards every write: false for DOWNLOAD_MAX and DOWNLOAD_NEXT *)
Theorem C18_other_commands : forall c m l s o e f s' o',
  reachable c m l s o -> bytes f -> step c e (ORecv f) s = Ok (s', o') -> c_chkmem c = true ->
  (forall x a n p, e_access e x a n true p = false) -> ~ is_cmd 0xEE f -> ~ is_cmd 0xEF f -> s_mem s' = s_mem s.
Proof. exact deny_write_thm. Qed.
Print Assumptions C18_other_commands.

Theorem C18_refuted_download_max : exists c m l s o e f s' o',
  reachable c m l s o /\ c_chkmem c = true /\ wf_env c e /\ (forall x a n w p, e_access e x a n w p = false) /\ bytes f /\
  is_cmd 0xEE f /\ step c e (ORecv f) s = Ok (s', o') /\ s_mem s' 0x100 <> s_mem s 0x100.
Proof. exact deny_refuted_max. Qed.
Print Assumptions C18_refuted_download_max.

Theorem C18_refuted_download_next : exists c m l s o e f s' o',
  reachable c m l s o /\ c_chkmem c = true /\ wf_env c e /\ (forall x a n w p, e_access e x a n w p = false) /\ bytes f /\
  is_cmd 0xEF f /\ step c e (ORecv f) s = Ok (s', o') /\ s_mem s' 0x106 <> s_mem s 0x106.
Proof. exact deny_refuted_next. Qed.
Print Assumptions C18_refuted_download_next.

Example C18_case :
  let s := demo_st cfg_eth env_no cal_locked_run in
  reachable cfg_eth mem0 (map (pair env_no) cal_locked_run) s (demo_out cfg_eth env_no cal_locked_run) /\
  exists s' o, step cfg_eth env_no (ORecv [0xF0; 1; 0x55]) s = Ok (s', o) /\ map p_data o = [[0xFE; 0x24]].
Proof.
  cbv zeta. split; [apply demo_at; [apply wf_eth|apply wf_no, wf_eth|vm_compute; reflexivity]|].
  eexists _, _. split; vm_compute; reflexivity.
Qed.

(** ** C19 Memory access hook guards every read: false for SHORT_UPLOAD *)

(** A positive answer to UPLOAD means that the hook agreed to the very range read
    (what the answer contains: C20, C22). *)
Theorem C19_upload : forall c m l s o e t s' o' p,
  reachable c m l s o -> dlc_ok c -> ready s -> c_opt c 0xF5 = true -> bytes t -> lenN (0xF5 :: t) <= c_ctobuf c ->
  step c e (ORecv (0xF5 :: t)) s = Ok (s', o') -> In p o' -> hd_error (p_data p) = Some 0xFF ->
  granted c e (s_mext s) (s_maddr s) (nth 1 (rxbuf s (0xF5 :: t)) 0) false false.
Proof. exact read_granted_thm. Qed.
Print Assumptions C19_upload.

(** SHORT_UPLOAD returns four bytes from 0x2000 although the hook denies them. *)
Theorem C19_refuted : exists c m l s o e s' o' p,
  reachable c m l s o /\ c_chkmem c = true /\ e_access e 0 0x2000 4 false false = false /\
  step c e (ORecv [0xF4; 4; 0; 0; 0; 0x20; 0; 0]) s = Ok (s', o') /\ o' = [p] /\ p_data p = 0xFF :: mread (s_mem s) 0x2000 4.
Proof. exact short_upload_refuted. Qed.
Print Assumptions C19_refuted.

Example C19_case :
  let s := demo_st cfg_eth env_yes cal_locked_run in
  reachable cfg_eth mem0 (map (pair env_yes) cal_locked_run) s (demo_out cfg_eth env_yes cal_locked_run) /\
  exists s' o p, step cfg_eth env_low (ORecv [0xF5; 4]) s = Ok (s', o) /\ In p o /\ p_data p = [0xFF; 0; 1; 2; 3].
Proof.
  cbv zeta. split; [apply eth_at; vm_compute; reflexivity|].
  eexists _, _, _. split; [vm_compute; reflexivity|]. split; [left; reflexivity|vm_compute; reflexivity].
Qed.
