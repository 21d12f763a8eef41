(** C144 - C145: measurements of predefined DAQ lists from end to end. *)
From Coq Require Import NArith List Bool Lia.
From Verif Require Import Base Config Cfgs Codec State Core Spec Demo SpecMem SpecDaq DemoDaq SpecE2e Predef SpecPre DemoPre SpecPreE2e CasesPreE2e ProofsPre4 ProofsPreE2e.
Import ListNotations.
Open Scope N_scope.

(** ** C144 A measurement of predefined lists can be started, run and stopped *)

(** The master assigns events, selects and starts; events happen, the master stops,
    more events happen.  Every command is answered as expected, the first events
    send exactly the frames expected, the others nothing. *)
Theorem C144_measurement : forall c p tb m l z o t asg md l1 es fs l2 es',
  sreachable c p tb m l z o -> ready (z_st z) -> dlc_ok c -> daq_open c (z_st z) -> stamp_ok c -> ~ measuring (z_st z) -> describes c p tb t ->
  asg_ok c t asg -> modes_ok md asg -> performs c (start_own c t md asg) l1 ->
  expected_own c (s_mem (z_st z)) t md asg es fs -> used (z_st z) + lenN fs <= 4 -> performs c [ok [0xDD; 0]] l2 ->
  exists z' o1 o2 o3, srun c p (l1 ++ triggers es ++ l2 ++ triggers es') z = Ok (z', o1 ++ o2 ++ o3) /\
    as_expected c (start_own c t md asg) o1 /\ emits o2 fs /\ as_expected c [ok [0xDD; 0]] o3 /\ ~ measuring (z_st z').
Proof. exact pre_measurement. Qed.
Print Assumptions C144_measurement.
(** With one mode for all lists the master sends, and gets, what it does where it
    allocates the same lists itself (C109). *)
Theorem C144_like_dynamic : forall c m t mode asg es fs,
  start_own c t (fun _ => mode) asg = start c t mode asg /\
  (expected_own c m t (fun _ => mode) asg es fs -> expected c m t (c_ts c && N.testbit mode 4) asg es fs).
Proof. intros. split; [reflexivity|apply own_expected]. Qed.
Print Assumptions C144_like_dynamic.

Example C144_case :
  let c := cfg_pre in let l := [ORecv [0xFF; 0]] in let z := sdemo_st c pre_tables pre_entries l in let d := start_own c pre_tree pre_modes pre_asg in
  sreachable c pre_tables pre_entries mem0 (map (pair env_yes) l) z (sdemo_out c pre_tables pre_entries l) /\ ready (z_st z) /\ dlc_ok c /\
  daq_open c (z_st z) /\ stamp_ok c /\ ~ measuring (z_st z) /\ describes c pre_tables pre_entries pre_tree /\
  (asg_ok c pre_tree pre_asg /\ modes_ok pre_modes pre_asg) /\ performs c d (map (fun x => (env_yes, ORecv (fst x))) d) /\
  expected_own c (s_mem (z_st z)) pre_tree pre_modes pre_asg [(env_yes, 1); (env_yes, 2)] pre_frames /\ used (z_st z) = 0 /\
  performs c [ok [0xDD; 0]] [(env_yes, ORecv [0xDD; 0])] /\
  map fst d = [[0xE0; 0x10; 0; 0; 1; 0; 1; 0]; [0xE0; 0; 1; 0; 2; 0; 1; 0]; [0xDE; 2; 0; 0]; [0xDE; 2; 1; 0]; [0xDD; 1]] /\
  map snd d = [[0xFF]; [0xFF]; [0xFF; 0; 0; 0; 0; 0; 0; 0]; [0xFF; 2; 0; 0; 0; 0; 0; 0]; [0xFF]].
Proof.
  cbv zeta. split; [apply pre_at; vm_compute; reflexivity|]. split; [vm_compute; repeat split|]. split; [vm_compute; congruence|].
  split; [apply daq_open_b; vm_compute; reflexivity|]. split; [vm_compute; congruence|]. split; [vm_compute; congruence|]. split; [exact pre_describes|].
  split; [exact pre_asg_ok|]. split; [apply performs_yes|]. split; [apply pre_expected; vm_compute; reflexivity|]. split; [reflexivity|].
  split; [apply (performs_yes [ok [0xDD; 0]])|]. split; vm_compute; reflexivity.
Qed.

(** ** C145 What becomes of predefined lists that do not fit in the queue *)

(** A first sample of more than four frames: four are sent, the others are lost. *)
Theorem C145_drop_refuted : forall c p es m l z o e t ev l' os,
  sreachable c p es m l z o -> wf_env c e -> stamp_ok c -> describes c p es t -> measuring (z_st z) -> assigned (z_st z) ev l' ->
  getN t l' = Some os -> sampleable c (list_stamp c e z l') os -> used (z_st z) = 0 -> 4 < lenN os ->
  exists z' o', sstep c p e (OTrigger ev) z = Ok (z', o') /\
    emits o' (dtos (s_mem (z_st z)) (list_stamp c e z l') (odts_before t l') (firstn 4 os)) /\
    same_but_queue (z_st z) (z_st z') /\ z_entries z' = z_entries z /\ z_modes z' = z_modes z /\ used (z_st z') = 4.
Proof. exact pre_drop. Qed.
Print Assumptions C145_drop_refuted.
(** The fifth frame since power-on is stored behind the queue, whatever lists the
    frames are of and however long ago the others were sent. *)
Theorem C145_event_refuted : forall c p es m l z o e t ev l' os,
  sreachable c p es m l z o -> wf_env c e -> stamp_ok c -> describes c p es t -> measuring (z_st z) -> assigned (z_st z) ev l' ->
  getN t l' = Some os -> sampleable c (list_stamp c e z l') os -> 0 < used (z_st z) -> 4 < used (z_st z) + lenN os ->
  sstep c p e (OTrigger ev) z = UB OobQueue.
Proof. exact pre_overflow. Qed.
Print Assumptions C145_event_refuted.
(** So does a whole measurement, also one that was preceded by shorter ones. *)
Theorem C145_measurement_refuted : forall c p tb m l z o t asg md l1 es fs,
  sreachable c p tb m l z o -> ready (z_st z) -> dlc_ok c -> daq_open c (z_st z) -> stamp_ok c -> ~ measuring (z_st z) -> describes c p tb t ->
  asg_ok c t asg -> modes_ok md asg -> performs c (start_own c t md asg) l1 ->
  expected_own c (s_mem (z_st z)) t md asg es fs -> 0 < used (z_st z) -> 4 < used (z_st z) + lenN fs ->
  srun c p (l1 ++ triggers es) z = UB OobQueue.
Proof. exact pre_exhausted. Qed.
Print Assumptions C145_measurement_refuted.

(** A list of five ODTs; and the second of two measurements of three frames. *)
Example C145_case :
  let c := cfg_pre in
  let l := [ORecv [0xFF; 0]; ORecv [0xE0; 0; 0; 0; 1; 0; 1; 0]; ORecv [0xDE; 2; 0; 0]; ORecv [0xDD; 1]] in let z := sdemo_st c big_tables big_entries l in
  let l2 := pre_run ++ [OTrigger 1; OTrigger 2; ORecv [0xDD; 0]] in let z2 := sdemo_st c pre_tables pre_entries l2 in
  let l3 := pre_run ++ [OTrigger 1; OTrigger 2] in let z3 := sdemo_st c pre_tables pre_entries l3 in
  let d := start_own c pre_tree pre_modes pre_asg in
  (sreachable c big_tables big_entries mem0 (map (pair env_yes) l) z (sdemo_out c big_tables big_entries l) /\
   describes c big_tables big_entries big_tree /\ measuring (z_st z) /\ assigned (z_st z) 1 0 /\ used (z_st z) = 0 /\
   exists os, getN big_tree 0 = Some os /\ sampleable c (list_stamp c env_yes z 0) os /\ lenN os = 5) /\
  (sreachable c pre_tables pre_entries mem0 (map (pair env_yes) l3) z3 (sdemo_out c pre_tables pre_entries l3) /\
   measuring (z_st z3) /\ assigned (z_st z3) 1 0 /\ used (z_st z3) = 3 /\
   exists os, getN pre_tree 0 = Some os /\ sampleable c (list_stamp c env_yes z3 0) os /\ lenN os = 2) /\
  (sreachable c pre_tables pre_entries mem0 (map (pair env_yes) l2) z2 (sdemo_out c pre_tables pre_entries l2) /\ ready (z_st z2) /\
   daq_open c (z_st z2) /\ ~ measuring (z_st z2) /\ performs c d (map (fun x => (env_yes, ORecv (fst x))) d) /\
   expected_own c (s_mem (z_st z2)) pre_tree pre_modes pre_asg [(env_yes, 1); (env_yes, 2)] pre_frames /\ used (z_st z2) = 3 /\ lenN pre_frames = 3).
Proof.
  cbv zeta. split; [|split].
  - split; [apply sdemo_at; [exact big_wf|vm_compute; reflexivity]|]. split; [exact big_describes|]. do 3 (split; [vm_compute; reflexivity|]).
    eexists. split; [reflexivity|]. split; [apply sampleable_b; vm_compute; reflexivity|reflexivity].
  - split; [apply pre_at; vm_compute; reflexivity|]. do 3 (split; [vm_compute; reflexivity|]).
    eexists. split; [reflexivity|]. split; [apply sampleable_b; vm_compute; reflexivity|reflexivity].
  - split; [apply pre_at; vm_compute; reflexivity|]. split; [vm_compute; repeat split|]. split; [apply daq_open_b; vm_compute; reflexivity|].
    split; [vm_compute; congruence|]. split; [apply performs_yes|]. split; [apply pre_expected; vm_compute; reflexivity|]. split; vm_compute; reflexivity.
Qed.
