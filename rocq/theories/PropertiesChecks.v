(** C158-C160: what the checks in inc/xcp.h guarantee about a configuration. *)
From Coq Require Import ZArith NArith List Bool.
From Verif Require Import Base Config Codec State Core Spec Demo SpecMem SpecDaq Checks SpecChecks CasesChecks ProofsChecks ProofsChecks2 ProofsChecks3.
Import ListNotations.
Open Scope Z_scope.

(** C158: a configuration is accepted if and only if it meets these conditions, in terms of
    the values the user has written ... *)
Theorem C158_accepted : forall e, (exists e', checks e = Some e') <-> acceptable e.
Proof. exact accepted_thm. Qed.
Print Assumptions C158_accepted.
Example C158_accepted_case :
  outcome (user 5 64 3 1) = Some [64; 64; 2; 2; 1; 8] /\   (* Ethernet *)
  outcome (user 1 64 3 0) = Some [8; 8; 0; 0; 1; 8] /\     (* CAN *)
  outcome (user 1 64 3 1) = None /\                         (* CAN, WRITE_DAQ_MULTIPLE *)
  outcome (user 1 256 3 0) = None /\                        (* CAN, though MAX_CTO is not used *)
  outcome (user 5 64 0 1) = None.                           (* no event *)
Proof. vm_compute. repeat split; reflexivity. Qed.

(** ... the checks themselves then change these macros and no others ... *)
Theorem C158_redefined : forall e e', checks e = Some e' -> forall m, value_of e' m = redefined e m.
Proof. exact redefined_thm. Qed.
Print Assumptions C158_redefined.
Example C158_redefined_case :
  let can := fun m => match m with GetDaqId => Some 1 | ConfigType => Some 0 | Entities => Some 300 | _ => user 1 64 3 0 m end in
  (exists e', checks can = Some e') /\
  map (redefined can) [MaxCto; MaxDto; LengthSize; TransportCmd; DynamicLists; FreeDaq; AllocOdtEntry; EntityBits; Events]
  = [8; 8; 0; 1; 0; 0; 0; 16; 3].
Proof. split; [eexists; vm_compute; reflexivity|vm_compute; reflexivity]. Qed.

(** ... and then the slave compiled has these properties, on which the other theorems
    rely. *)
Theorem C158_guarantees : forall e e' c, checks e = Some e' -> switches e -> describes e' c ->
  (c_max_cto c <= 255 /\ c_len_size c <= 2 /\ c_ctr_size c <= 2)%N /\
  (c_max_dlc c = true -> c_len_size c = 0 /\ c_ctr_size c = 0)%N /\
  c_opt c 0xF8 = c_opt c 0xF7 /\ (c_mbm c = true -> c_opt c 0xEF = true) /\
  (c_opt c 0xC7 = true -> 10 <= c_max_cto c)%N /\ (c_daq c = true -> 1 <= lenN (c_events c))%N /\
  (value_of e Layer = 1 -> (8 <= c_max_cto c <= 64 /\ 8 <= c_max_dto c <= 64)%N).
Proof. exact guarantees_thm. Qed.
Print Assumptions C158_guarantees.
Example C158_guarantees_case :
  checks (user 5 64 3 1) = Some (checked (user 5 64 3 1)) /\ switches (user 5 64 3 1) /\ describes (checked (user 5 64 3 1)) cfg_eth.
Proof. split; [reflexivity|split; [exact user_switches|exact eth_described]]. Qed.

(** C159, refuted: the checks do not guarantee that responses fit.  Except on CAN every
    configuration is still accepted with a smaller XCP_MAX_CTO ... *)
Theorem C159_accepted : forall e z, acceptable e -> value_of e Layer <> 1 -> value_of e WriteMultiple <> 1 -> z < 8 ->
  exists e', checks (fun m => match m with MaxCto => Some z | _ => e m end) = Some e'.
Proof. exact small_accepted. Qed.
Print Assumptions C159_accepted.
Example C159_accepted_case : outcome (user 5 4 3 0) = Some [4; 64; 2; 2; 1; 8].
Proof. vm_compute. reflexivity. Qed.

(** ... and then the first CONNECT leaves defined behaviour. *)
Theorem C159_refuted : forall e e' c m s en f, checks e = Some e' -> describes e' c ->
  value_of e Layer <> 1 -> value_of e MaxCto < 8 -> boot c m = Ok s -> hd_error f = Some 0xFF%N ->
  exists w, step c en (ORecv f) s = UB w.
Proof. exact small_thm. Qed.
Print Assumptions C159_refuted.
Example C159_refuted_case :
  checks (user 5 4 3 0) = Some (checked (user 5 4 3 0)) /\ describes (checked (user 5 4 3 0)) small_cfg /\
  (exists s, boot small_cfg mem0 = Ok s) /\
  forall en, match boot small_cfg mem0 with Ok s => step small_cfg en (ORecv [0xFF; 0]%N) s | UB w => UB w end = UB OobBuffer.
Proof. split; [reflexivity|split; [exact small_described|split; [eexists; vm_compute; reflexivity|intros en; vm_compute; reflexivity]]]. Qed.

(** C160, refuted: any number of events is accepted ... *)
Theorem C160_accepted : forall e z, acceptable e -> 1 <= z ->
  exists e', checks (fun m => match m with Events => Some z | _ => e m end) = Some e'.
Proof. exact events_accepted. Qed.
Print Assumptions C160_accepted.
Example C160_accepted_case : outcome (user 5 64 300 1) = Some [64; 64; 2; 2; 1; 8].
Proof. vm_compute. reflexivity. Qed.

(** ... but triggering one whose number is not below the number of events modulo 256 does
    nothing in any state; with 256 events, none can be measured. *)
Theorem C160_refuted : forall e e' c en s ev, checks e = Some e' -> describes e' c ->
  value_of e Events mod 256 <= Z.of_N ev -> step c en (OTrigger ev) s = Ok (s, []).
Proof. exact events_thm. Qed.
Print Assumptions C160_refuted.
Example C160_refuted_case :
  checks (user 5 64 300 1) = Some (checked (user 5 64 300 1)) /\ describes (checked (user 5 64 300 1)) many_cfg /\
  value_of (user 5 64 300 1) Events mod 256 <= Z.of_N 44 /\ (44 < lenN (c_events many_cfg))%N.
Proof. split; [reflexivity|split; [exact many_described|split; [vm_compute; discriminate|vm_compute; reflexivity]]]. Qed.

(** GET_DAQ_PROCESSOR_INFO announces all of them ... *)
Theorem C160_announced : forall e e' c en s t,
  checks e = Some e' -> describes e' c -> (8 <= c_max_cto c)%N -> dlc_ok c -> ready s -> sized c s ->
  c_daq c = true -> c_opt c 0xDA = true -> ~ programming s -> ~ locked c 4 s -> (lenN (0xDA :: t) <= c_ctobuf c)%N ->
  value_of e Events < 65536 ->
  exists s' p, step c en (ORecv (0xDA%N :: t)) s = Ok (s', [p]) /\ at_ (p_data p) 4 2 = le_bytes 2 (Z.to_N (value_of e Events)).
Proof. exact info_announced. Qed.
Print Assumptions C160_announced.

(** ... but GET_DAQ_EVENT_INFO denies the existence of those that cannot be triggered. *)
Theorem C160_denied_refuted : forall e e' c en s r a b tl, let f := (0xD7 :: r :: a :: b :: tl)%N in
  checks e = Some e' -> describes e' c -> (8 <= c_max_cto c)%N -> dlc_ok c -> ready s -> sized c s ->
  c_daq c = true -> c_opt c 0xD7 = true -> ~ locked c 4 s -> bytes f -> (lenN f <= c_ctobuf c)%N ->
  value_of e Events mod 256 <= Z.of_N (field c [a; b]) -> refuses c en f s 0x22.
Proof. exact info_refused. Qed.
Print Assumptions C160_denied_refuted.
Example C160_told_case : let s := demo_st many_cfg env_yes (map ORecv [[0xFF; 0]; [0xF8; 0; 4]; [0xF7; 1; 0x42]]%N) in
  ready s /\ sized many_cfg s /\ ~ programming s /\ ~ locked many_cfg 4 s /\ dlc_ok many_cfg /\
  (8 <= c_max_cto many_cfg)%N /\ c_daq many_cfg = true /\ c_opt many_cfg 0xDA = true /\ c_opt many_cfg 0xD7 = true /\
  match run many_cfg (map (pair env_yes) (map ORecv [[0xDA]; [0xD7; 0; 43; 0]; [0xD7; 0; 44; 0]]%N)) s with Ok (_, o) => map p_data o | UB _ => [] end
  = [[0xFF; 0x13; 0; 0; 44; 1; 0; 0]; [0xFF; 4; 1; 0; 10; 6; 0]; [0xFE; 0x22]]%N.
Proof. vm_compute. intuition discriminate. Qed.
