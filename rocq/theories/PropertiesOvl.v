(** C43, the overload flag of the transmit queue (see PropertiesDaq2.v for the frames). *)
From Coq Require Import NArith List Bool Lia.
From Verif Require Import Base Config Cfgs Codec State Daq Core Spec Demo SpecMem SpecDaq ProofsFrames DemoDaq CasesDaq2 ProofsOvl CasesOvl.
Import ListNotations.
Open Scope N_scope.

(** Events that are delivered completely (C43_fifo) leave the flag as it is ... *)
Theorem C43_flag_kept : forall c t es fs m l s o,
  reachable c m l s o -> c_max_ent c < 65536 -> stamp_ok c -> represents c s t -> measuring s -> samples c s t es fs ->
  used s + lenN fs <= 4 ->
  exists s' o', run c (triggers es) s = Ok (s', o') /\ q_ovl (d_q (s_daq s')) = q_ovl (d_q (s_daq s)).
Proof. exact flag_fifo. Qed.
Print Assumptions C43_flag_kept.

(** ... an event of which frames are dropped (C43_overload) raises it ... *)
Theorem C43_flag_raised : forall c m l s o e t ev l' os,
  reachable c m l s o -> wf_env c e -> c_max_ent c < 65536 -> stamp_ok c ->
  represents c s t -> measuring s -> assigned s ev l' -> getN t l' = Some os -> sampleable c (time_stamp c e s) os ->
  used s = 0 -> 4 < lenN os ->
  exists s' o', step c e (OTrigger ev) s = Ok (s', o') /\ q_ovl (d_q (s_daq s')) = true.
Proof. exact flag_drop. Qed.
Print Assumptions C43_flag_raised.

(** ... and nothing else does: where the flag is up, some earlier event sampled a
    list of more than four ODTs into the unused queue. *)
Theorem C43_flag_origin : forall c m l s o, reachable c m l s o -> c_daq c = true -> q_ovl (d_q (s_daq s)) = true ->
  exists l1 e ev l2 s1 o1 l', l = l1 ++ (e, OTrigger ev) :: l2 /\ reachable c m l1 s1 o1 /\ measuring s1 /\ used s1 = 0 /\ assigned s1 ev l' /\
    forall t os, represents c s1 t -> getN t l' = Some os -> 4 < lenN os.
Proof. exact flag_origin. Qed.
Print Assumptions C43_flag_origin.

(** Five ODTs: four frames are sent, the flag is down before and up afterwards. *)
Example C43_flag_case :
  let s := demo_st cfg_daq env_yes five_run in let s1 := demo_st cfg_daq env_yes (five_run ++ [OTrigger 1]) in
  reachable cfg_daq mem0 (map (pair env_yes) five_run) s (demo_out cfg_daq env_yes five_run) /\ represents cfg_daq s [five_odts] /\ measuring s /\ used s = 0 /\
  assigned s 1 0 /\ sampleable cfg_daq (time_stamp cfg_daq env_yes s) five_odts /\ q_ovl (d_q (s_daq s)) = false /\
  reachable cfg_daq mem0 (map (pair env_yes) (five_run ++ [OTrigger 1])) s1 (demo_out cfg_daq env_yes (five_run ++ [OTrigger 1])) /\
  q_ovl (d_q (s_daq s1)) = true.
Proof.
  cbv zeta. split; [apply daq_at; vm_compute; reflexivity|]. split; [apply daq_rep; vm_compute; reflexivity|]. do 3 fact.
  split; [apply sampleable_b; vm_compute; reflexivity|]. split; [vm_compute; reflexivity|]. split; [apply daq_at; vm_compute; reflexivity|]. vm_compute; reflexivity.
Qed.
