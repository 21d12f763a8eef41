(** C50 and C53: critical sections; event and service request packets. *)
From Coq Require Import NArith List Bool Lia.
From Verif Require Import Base Config Cfgs Codec State Core Spec Demo SpecMem SpecCks ProofsCks2 SpecMisc ProofsMisc CasesMisc.
Import ListNotations.
Open Scope N_scope.

(** ** C50 Critical sections nest safely *)

(** Every call has released, when it returns, what it acquired. *)
Theorem C50_released : forall c m l s o, reachable c m l s o -> s_held s = [].
Proof. exact released_thm. Qed.
Print Assumptions C50_released.

(** With recursive locks no call dead-locks. *)
Theorem C50_recursive : forall c m l s o e x, reachable c m l s o -> c_lock c = LockRecursive -> step c e x s <> UB Deadlock.
Proof. exact recursive_thm. Qed.
Print Assumptions C50_recursive.

(** With any locks no call dead-locks if slave block mode and background checksums
    are left out of the build. *)
Theorem C50_no_nesting : forall c m l s o e x, reachable c m l s o -> no_nesting c -> step c e x s <> UB Deadlock.
Proof. exact normal_thm. Qed.
Print Assumptions C50_no_nesting.

(** With non-recursive mutexes (POSIX: PTHREAD_MUTEX_INITIALIZER) every UPLOAD in
    slave block mode dead-locks, and so does every BUILD_CHECKSUM that starts a
    background calculation. *)
Theorem C50_upload_refuted : forall c m l s o e n t,
  reachable c m l s o -> ready s -> c_sbm c = true -> c_lock c = LockNormal -> ~ programming s ->
  c_opt c 0xF5 = true -> lenN (0xF5 :: n :: t) <= c_ctobuf c -> granted c e (s_mext s) (s_maddr s) n false false ->
  step c e (ORecv (0xF5 :: n :: t)) s = UB Deadlock.
Proof. exact dead_upload. Qed.
Print Assumptions C50_upload_refuted.

Theorem C50_checksum_refuted : forall c m l s o e r1 r2 r3 n0 n1 n2 n3 t,
  let f := checksum_cmd r1 r2 r3 n0 n1 n2 n3 t in let n := field c [n0; n1; n2; n3] in
  reachable c m l s o -> may_sum c e s n -> lenN f <= c_ctobuf c -> within_limit c n -> no_job s ->
  c_chunked c = true -> c_chunk c < n -> c_lock c = LockNormal -> step c e (ORecv f) s = UB Deadlock.
Proof. exact dead_checksum. Qed.
Print Assumptions C50_checksum_refuted.


Example C50_case :
  (let c := w_sbm true (w_lock LockNormal cfg_eth) in let s := demo_st c env_yes ex_cks in
   reachable c mem0 (map (pair env_yes) ex_cks) s (demo_out c env_yes ex_cks) /\ ready s /\ ~ programming s /\
   c_opt c 0xF5 = true /\ granted c env_yes (s_mext s) (s_maddr s) 4 false false /\ lenN [0xF5; 4] <= c_ctobuf c) /\
  (let c := w_lock LockNormal cfg_eth in let s := demo_st c env_yes ex_cks in
   reachable c mem0 (map (pair env_yes) ex_cks) s (demo_out c env_yes ex_cks) /\ may_sum c env_yes s 200 /\
   within_limit c 200 /\ no_job s /\ c_chunk c < 200 /\ c_chunked c = true) /\
  (let c := w_chunked false (w_lock LockNormal cfg_eth) in let s := demo_st c env_yes ex_cks in
   reachable c mem0 (map (pair env_yes) ex_cks) s (demo_out c env_yes ex_cks) /\ no_nesting c /\
   is_ok (step c env_yes (ORecv [0xF5; 4]) s) = true /\ is_ok (step c env_yes (OSetBusy true) s) = true).
Proof.
  split; [|split]; cbv zeta.
  - split; [apply demo_at; [exact wf_normal_sbm|apply wf_yes; exact wf_normal_sbm|vm_compute; reflexivity]|].
    repeat split; try (vm_compute; congruence || reflexivity).
  - split; [apply demo_at; [exact wf_normal|apply wf_yes; exact wf_normal|vm_compute; reflexivity]|].
    repeat split; try (vm_compute; congruence || reflexivity). left. reflexivity.
  - split; [apply demo_at; [exact wf_flat|apply wf_yes; exact wf_flat|vm_compute; reflexivity]|].
    repeat split; vm_compute; reflexivity.
Qed.

(** ** C53 Event and service request packets *)

(** One frame: identifier, code, and as much of the data as fits; the session, the
    data acquisition and the receive buffer are as before. *)
Theorem C53_event : forall c m l s o e code info, reachable c m l s o -> c_ev_api c = true -> code < 256 -> lenN info < 256 ->
  exists s' o', step c e (OEvent code info) s = Ok (s', o') /\ sends_data c o' (packet c 0xFD code info) /\
    same_session s s' /\ s_in s' = s_in s.
Proof. exact event_thm. Qed.
Print Assumptions C53_event.

Theorem C53_service : forall c m l s o e code info, reachable c m l s o -> c_srv_api c = true -> code < 256 -> lenN info < 256 ->
  exists s' o', step c e (OService code info) s = Ok (s', o') /\ sends_data c o' (packet c 0xFC code info) /\
    same_session s s' /\ s_in s' = s_in s.
Proof. exact service_thm. Qed.
Print Assumptions C53_service.

(** Ten bytes on CAN, with and without full-length frames. *)
Example C53_case :
  (let c := cfg_can in let s := demo_st c env_yes ex_cks in
   reachable c mem0 (map (pair env_yes) ex_cks) s (demo_out c env_yes ex_cks) /\ c_ev_api c = true) /\
  (let c := w_max_dlc true cfg_can in let s := demo_st c env_yes ex_cks in
   reachable c mem0 (map (pair env_yes) ex_cks) s (demo_out c env_yes ex_cks) /\ c_srv_api c = true) /\
  packet cfg_can 0xFD 5 [1; 2; 3; 4; 5; 6; 7; 8; 9; 10] = [0xFD; 5; 1; 2; 3; 4; 5; 6].
Proof.
  split; [|split]; cbv zeta; [| |reflexivity].
  - split; [apply demo_at; [exact wf_can|apply wf_yes; exact wf_can|vm_compute; reflexivity]|reflexivity].
  - split; [apply demo_at; [exact wf_dlc|apply wf_yes; exact wf_dlc|vm_compute; reflexivity]|reflexivity].
Qed.
