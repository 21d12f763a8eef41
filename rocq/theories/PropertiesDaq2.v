(** C40 - C45, C51, C52: measurement. *)
From Coq Require Import NArith List Bool Lia.
From Verif Require Import Base Config Cfgs Codec State Daq Core Spec Demo SpecMem SpecDaq ProofsFrames ProofsDaqC ProofsDaqD ProofsDaqE ProofsDaqF ProofsDaqG ProofsDaqH ProofsDaqI ProofsDaqJ DemoDaq CasesDaq2.
Import ListNotations.
Open Scope N_scope.

(** ** C40 An event samples exactly the assigned list *)

(** One frame per ODT as long as the transmit queue has unused slots (see C43);
    nothing but the queue changes. *)
Theorem C40_event : forall c m l s o e t ev l' os,
  reachable c m l s o -> wf_env c e -> c_max_ent c < 65536 -> stamp_ok c ->
  represents c s t -> measuring s -> assigned s ev l' -> getN t l' = Some os -> sampleable c (time_stamp c e s) os ->
  used s + lenN os <= 4 ->
  exists s' o', step c e (OTrigger ev) s = Ok (s', o') /\ emits o' (dtos (s_mem s) (time_stamp c e s) (odts_before t l') os) /\
    same_but_queue s s' /\ used s' = used s + lenN os.
Proof. exact event_thm. Qed.
Print Assumptions C40_event.

(** The two-list configuration of C34, event 1 assigned to list 0 with time stamps, DAQ started. *)
Example C40_case :
  let s := demo_st cfg_daq env_yes ex_run in
  reachable cfg_daq mem0 (map (pair env_yes) ex_run) s (demo_out cfg_daq env_yes ex_run) /\ represents cfg_daq s ex_tree /\
  measuring s /\ assigned s 1 0 /\ getN ex_tree 0 = Some [[(0x1000, 4); (0x1020, 2)]; [(0x1030, 1)]] /\ used s = 0 /\
  time_stamp cfg_daq env_yes s = [4; 3; 2; 1] /\
  sampleable cfg_daq (time_stamp cfg_daq env_yes s) [[(0x1000, 4); (0x1020, 2)]; [(0x1030, 1)]] /\
  dtos (s_mem s) (time_stamp cfg_daq env_yes s) (odts_before ex_tree 0) [[(0x1000, 4); (0x1020, 2)]; [(0x1030, 1)]] =
    [[0; 4; 3; 2; 1; 0; 1; 2; 3; 0x20; 0x21]; [1; 0x30]].
Proof.
  cbv zeta. split; [apply daq_at; vm_compute; reflexivity|]. split; [apply daq_rep; vm_compute; reflexivity|]. do 5 fact.
  split; [apply sampleable_b; vm_compute; reflexivity|]. vm_compute. reflexivity.
Qed.

(** ** C41 No DAQ frames unless running *)
Theorem C41_idle : forall c e ev s, ~ measuring s -> step c e (OTrigger ev) s = Ok (s, []).
Proof. exact idle_thm. Qed.
Print Assumptions C41_idle.

(** Measurement does not run before a START_STOP_SYNCH command was received ... *)
Theorem C41_before_start : forall c m l s o e ev,
  reachable c m l s o -> (forall e f, In (e, ORecv (0xDD :: f)) l -> False) -> step c e (OTrigger ev) s = Ok (s, []).
Proof. exact never_samples. Qed.
Print Assumptions C41_before_start.

(** ... nor after stop-all, DISCONNECT, Xcp_Disconnect and Xcp_Init. *)
Theorem C41_stop_all : forall c m l s o e tl,
  reachable c m l s o -> ready s -> dlc_ok c -> daq_open c s -> lenN (0xDD :: 0 :: tl) <= c_ctobuf c ->
  exists d, answers c e (0xDD :: 0 :: tl) s [0xFF] (with_daq d s) /\ ~ measuring (with_daq d s).
Proof. exact stop_all. Qed.
Print Assumptions C41_stop_all.
Theorem C41_disconnect : forall c m l s o e f s' o',
  reachable c m l s o -> dlc_ok c -> c_daq c = true -> c_max_ent c < 65536 ->
  step c e (ORecv (0xFE :: f)) s = Ok (s', o') -> accepted o' -> ~ measuring s'.
Proof. exact stop_disconnect. Qed.
Print Assumptions C41_disconnect.
Theorem C41_calls : forall c e x s s' o, c_daq c = true -> (x = ODisconnect \/ x = OInit) -> step c e x s = Ok (s', o) -> ~ measuring s'.
Proof. exact stop_call. Qed.
Print Assumptions C41_calls.

Example C41_case :
  let s := demo_st cfg_daq env_yes ex_run in
  reachable cfg_daq mem0 (map (pair env_yes) ex_run) s (demo_out cfg_daq env_yes ex_run) /\ measuring s /\ ready s /\ daq_open cfg_daq s /\
  (exists s' o, step cfg_daq env_yes (ORecv [0xFE]) s = Ok (s', o) /\ accepted o) /\
  (exists s' o, step cfg_daq env_yes OInit s = Ok (s', o)).
Proof.
  cbv zeta. split; [apply daq_at; vm_compute; reflexivity|]. fact. split; [vm_compute; repeat split; congruence|].
  split; [apply daq_open_b; vm_compute; reflexivity|]. split; [|do 2 eexists; vm_compute; reflexivity].
  do 2 eexists. split; [vm_compute; reflexivity|]. apply acceptedb_ok. vm_compute. reflexivity.
Qed.

(** ** C42 Only started lists with an assigned event are sampled: refuted *)

(** Without any SET_DAQ_LIST_MODE or START_STOP_DAQ_LIST every event samples list 0. *)
Theorem C42_refuted : forall c m l s o e t ev os,
  reachable c m l s o -> wf_env c e -> c_max_ent c < 65536 -> stamp_ok c ->
  (forall e k f, In (e, ORecv (k :: f)) l -> k <> 0xE0 /\ k <> 0xDE) ->
  represents c s t -> measuring s -> ev < c_nevents c -> getN t 0 = Some os ->
  sampleable c (time_stamp c e s) os -> used s + lenN os <= 4 ->
  exists s' o', step c e (OTrigger ev) s = Ok (s', o') /\ emits o' (dtos (s_mem s) (time_stamp c e s) 0 os).
Proof. exact unstarted_sampled. Qed.
Print Assumptions C42_refuted.

(** The mode is shared by all lists: SET_DAQ_LIST_MODE for one list decides about
    the time stamps of every list. *)
Theorem C42_shared_mode_refuted : forall c m l s o e mode a b v w pre tl, let f := 0xE0 :: mode :: a :: b :: v :: w :: pre :: tl in
  reachable c m l s o -> ready s -> dlc_ok c -> daq_open c s ->
  bytes f -> lenN f <= c_ctobuf c -> ~ measuring s -> fits c (field c [a; b]) ->
  N.land mode 3 = 0 -> pre <= 1 -> field c [v; w] < c_nevents c ->
  exists d, answers c e f s [0xFF] (with_daq d s) /\
    forall e', time_stamp c e' (with_daq d s) = if c_ts c && N.testbit mode 4 then stamp c (e_timer e') else [].
Proof. exact shared_mode. Qed.
Print Assumptions C42_shared_mode_refuted.

(** The configuration of C34, no list started or assigned, DAQ started: event 2. *)
Example C42_case :
  let s := demo_st cfg_daq env_yes ex_unassigned in
  reachable cfg_daq mem0 (map (pair env_yes) ex_unassigned) s (demo_out cfg_daq env_yes ex_unassigned) /\
  represents cfg_daq s ex_tree /\
  (forall e k f, In (e, ORecv (k :: f)) (map (pair env_yes) ex_unassigned) -> k <> 0xE0 /\ k <> 0xDE) /\
  measuring s /\ c_nevents cfg_daq = 3 /\ used s = 0 /\ time_stamp cfg_daq env_yes s = [] /\
  sampleable cfg_daq (time_stamp cfg_daq env_yes s) [[(0x1000, 4); (0x1020, 2)]; [(0x1030, 1)]] /\
  (exists s' o, step cfg_daq env_yes (OTrigger 2) s = Ok (s', o) /\ map p_data o = [[0; 0; 1; 2; 3; 0x20; 0x21]; [1; 0x30]]).
Proof.
  cbv zeta. split; [apply daq_at; vm_compute; reflexivity|]. split; [apply daq_rep; vm_compute; reflexivity|].
  split. { intros e k f H. cbn in H. intuition; match goal with H : (_, _) = (_, _) |- _ => injection H; intros; subst; discriminate end. }
  do 4 fact. split; [apply sampleable_b; vm_compute; reflexivity|]. do 2 eexists. split; vm_compute; reflexivity.
Qed.

(** ** C43 DAQ transmit queue is a bounded FIFO *)

(** Any series of events is delivered completely and in order as long as no more
    than four frames are sent in all since the last initialisation ... *)
Theorem C43_fifo : forall c t es fs m l s o,
  reachable c m l s o -> c_max_ent c < 65536 -> stamp_ok c -> represents c s t -> measuring s -> samples c s t es fs ->
  used s + lenN fs <= 4 ->
  exists s' o', run c (triggers es) s = Ok (s', o') /\ emits o' fs /\ same_but_queue s s' /\ used s' = used s + lenN fs.
Proof. exact fifo. Qed.
Print Assumptions C43_fifo.

(** ... and the queue is empty between operations. *)
Theorem C43_drained : forall c m l s o, reachable c m l s o -> c_daq c = true -> q_head (d_q (s_daq s)) = q_tail (d_q (s_daq s)).
Proof. exact queue_rest. Qed.
Print Assumptions C43_drained.

(** A first sample of more than four frames: the first four are sent, the rest dropped. *)
Theorem C43_overload : forall c m l s o e t ev l' os,
  reachable c m l s o -> wf_env c e -> c_max_ent c < 65536 -> stamp_ok c ->
  represents c s t -> measuring s -> assigned s ev l' -> getN t l' = Some os -> sampleable c (time_stamp c e s) os ->
  used s = 0 -> 4 < lenN os ->
  exists s' o', step c e (OTrigger ev) s = Ok (s', o') /\ emits o' (dtos (s_mem s) (time_stamp c e s) (odts_before t l') (firstn 4 os)) /\
    same_but_queue s s' /\ used s' = 4.
Proof. exact event_drop. Qed.
Print Assumptions C43_overload.

(** Refuted for the long run: the fifth frame is written behind the queue. *)
Theorem C43_refuted : forall c t es fs m l s o,
  reachable c m l s o -> c_max_ent c < 65536 -> stamp_ok c -> represents c s t -> measuring s -> samples c s t es fs ->
  0 < used s -> 4 < used s + lenN fs -> run c (triggers es) s = UB OobQueue.
Proof. exact fifo_ub. Qed.
Print Assumptions C43_refuted.

(** Two frames per event: two events are delivered, the third one leaves the queue. *)
Example C43_case :
  let s := demo_st cfg_daq env_yes ex_run in let fs := [[0; 4; 3; 2; 1; 0; 1; 2; 3; 0x20; 0x21]; [1; 0x30]] in
  reachable cfg_daq mem0 (map (pair env_yes) ex_run) s (demo_out cfg_daq env_yes ex_run) /\ represents cfg_daq s ex_tree /\ measuring s /\ used s = 0 /\
  samples cfg_daq s ex_tree [(env_yes, 1); (env_yes, 1)] (fs ++ fs) /\
  (let s1 := demo_st cfg_daq env_yes (ex_run ++ [OTrigger 1]) in
   reachable cfg_daq mem0 (map (pair env_yes) (ex_run ++ [OTrigger 1])) s1 (demo_out cfg_daq env_yes (ex_run ++ [OTrigger 1])) /\
   represents cfg_daq s1 ex_tree /\ measuring s1 /\ used s1 = 2 /\ samples cfg_daq s1 ex_tree [(env_yes, 1); (env_yes, 1)] (fs ++ fs)).
Proof.
  cbv zeta. split; [apply daq_at; vm_compute; reflexivity|]. split; [apply daq_rep; vm_compute; reflexivity|]. do 2 fact.
  split; [apply samples_b; [repeat first [apply (wf_yes _ wf_daq)|apply Forall_cons|apply Forall_nil]|vm_compute; reflexivity]|].
  split; [apply daq_at; vm_compute; reflexivity|]. split; [apply daq_rep; vm_compute; reflexivity|]. do 2 fact.
  apply samples_b; [repeat first [apply (wf_yes _ wf_daq)|apply Forall_cons|apply Forall_nil]|vm_compute; reflexivity].
Qed.

(** ** C44 DAQ configuration is frozen while running *)

(** No command but DISCONNECT, UNLOCK (with a wrong key), the start and stop
    commands and the allocation commands touches the DAQ state ... *)
Theorem C44_frozen : forall c m l s o e k f s' o',
  reachable c m l s o -> measuring s -> bytes (k :: f) ->
  step c e (ORecv (k :: f)) s = Ok (s', o') -> ~ In k [0xFE; 0xF7; 0xDE; 0xDD; 0xD6; 0xD5; 0xD4; 0xD3] -> s_daq s' = s_daq s.
Proof. exact frozen_thm. Qed.
Print Assumptions C44_frozen.

(** ... and SET_DAQ_PTR, WRITE_DAQ, SET_DAQ_LIST_MODE, WRITE_DAQ_MULTIPLE are answered ERR_DAQ_ACTIVE. *)
Theorem C44_active : forall c m l s o e k f,
  reachable c m l s o -> ready s -> dlc_ok c -> measuring s -> lenN (k :: f) <= c_ctobuf c ->
  In k [0xE2; 0xE1; 0xE0] \/ (k = 0xC7 /\ c_opt c 0xC7 = true /\ exists n tl, f = n :: tl /\ n * 8 + 2 <= c_max_cto c) ->
  refuses c e (k :: f) s 0x11.
Proof. exact active_thm. Qed.
Print Assumptions C44_active.

(** Refuted for FREE_DAQ, which empties the running configuration, and ALLOC_DAQ. *)
Theorem C44_refuted : forall c m l s o e t,
  reachable c m l s o -> ready s -> dlc_ok c -> daq_open c s -> c_opt c 0xD6 = true -> lenN (0xD6 :: t) <= c_ctobuf c -> measuring s ->
  exists d, answers c e (0xD6 :: t) s [0xFF] (with_daq d s) /\ emptied d /\ measuring (with_daq d s).
Proof. exact free_running. Qed.
Print Assumptions C44_refuted.
Theorem C44_alloc_refuted : forall c m l s o e t r a b tl, let f := 0xD5 :: r :: a :: b :: tl in let n := field c [a; b] in
  reachable c m l s o -> ready s -> dlc_ok c -> daq_open c s -> c_max_ent c < 65536 -> measuring s ->
  represents c s t -> bytes f -> lenN f <= c_ctobuf c -> c_opt c 0xD5 = true -> fits c n ->
  (d_alloc (s_daq s) = AFree \/ d_alloc (s_daq s) = ADaq) -> d_ecnt (s_daq s) + n <= c_max_ent c ->
  exists d, answers c e f s [0xFF] (with_daq d s) /\ represents c (with_daq d s) (t ++ repeat [] (N.to_nat n)) /\ measuring (with_daq d s).
Proof. exact alloc_running. Qed.
Print Assumptions C44_alloc_refuted.

Example C44_case :
  let s := demo_st cfg_daq env_yes ex_run in
  reachable cfg_daq mem0 (map (pair env_yes) ex_run) s (demo_out cfg_daq env_yes ex_run) /\ ready s /\ dlc_ok cfg_daq /\ daq_open cfg_daq s /\
  represents cfg_daq s ex_tree /\ measuring s /\ c_opt cfg_daq 0xD6 = true /\
  (let ops := ex_run ++ [ORecv [0xD6]] in let s1 := demo_st cfg_daq env_yes ops in
   reachable cfg_daq mem0 (map (pair env_yes) ops) s1 (demo_out cfg_daq env_yes ops) /\ ready s1 /\ dlc_ok cfg_daq /\ daq_open cfg_daq s1 /\
   represents cfg_daq s1 [] /\ measuring s1 /\ d_alloc (s_daq s1) = AFree /\ d_ecnt (s_daq s1) = 0).
Proof. daq_case. do 2 fact. daq_case. facts. vm_compute. reflexivity. Qed.

(** ** C45 SET_DAQ_LIST_MODE only accepts existing lists and events: refuted *)

(** Any list number is accepted and assigned (one byte of it) to the event ... *)
Theorem C45_refuted : forall c m l s o e mode a b v w pre tl, let f := 0xE0 :: mode :: a :: b :: v :: w :: pre :: tl in
  reachable c m l s o -> ready s -> dlc_ok c -> daq_open c s ->
  bytes f -> lenN f <= c_ctobuf c -> ~ measuring s -> fits c (field c [a; b]) ->
  N.land mode 3 = 0 -> pre <= 1 -> field c [v; w] < c_nevents c ->
  exists d, answers c e f s [0xFF] (with_daq d s) /\
    d = set_d_mode (d_mode d) (set_d_lfe (put (field c [v; w]) (field c [a; b] mod 256) (d_lfe (s_daq s))) (s_daq s)) /\
    N.testbit (d_mode d) 4 = N.testbit mode 4.
Proof. intros c m l s o e mode a b v w pre tl f R RD D Op. exact (set_mode_thm c m l s o e R RD D Op mode a b v w pre tl). Qed.
Print Assumptions C45_refuted.

(** ... and an event number that does not exist is written outside the table. *)
Theorem C45_event_refuted : forall c m l s o e mode a b v w pre tl, let f := 0xE0 :: mode :: a :: b :: v :: w :: pre :: tl in
  reachable c m l s o -> ready s -> daq_open c s ->
  bytes f -> lenN f <= c_ctobuf c -> ~ measuring s -> fits c (field c [a; b]) ->
  N.land mode 3 = 0 -> pre <= 1 -> c_nevents c <= field c [v; w] -> step c e (ORecv f) s = UB OobEvent.
Proof. intros c m l s o e mode a b v w pre tl f R RD Op. exact (set_mode_oob c m l s o e R RD Op mode a b v w pre tl). Qed.
Print Assumptions C45_event_refuted.

Example C45_case :
  let s := demo_st cfg_daq env_yes ex_write in
  reachable cfg_daq mem0 (map (pair env_yes) ex_write) s (demo_out cfg_daq env_yes ex_write) /\ ready s /\ dlc_ok cfg_daq /\ daq_open cfg_daq s /\
  represents cfg_daq s ex_tree /\ ~ measuring s /\ c_nevents cfg_daq = 3 /\
  (exists s' o, step cfg_daq env_yes (ORecv [0xE0; 0; 77; 0; 1; 0; 1; 0]) s = Ok (s', o) /\ map p_data o = [[0xFF]] /\ d_lfe (s_daq s') = [0; 77; 0]) /\
  step cfg_daq env_yes (ORecv [0xE0; 0; 0; 0; 3; 0; 1; 0]) s = UB OobEvent.
Proof. daq_case. do 2 fact. split; [|vm_compute; reflexivity]. do 2 eexists. split; [vm_compute; reflexivity|]. vm_compute. split; reflexivity. Qed.

(** ** C51 GET_DAQ_CLOCK honours clock-access-always: refuted *)

(** The clock of an unlocked slave. *)
Theorem C51_clock : forall c m l s o e t,
  reachable c m l s o -> dlc_ok c -> ready s -> wf_env c e ->
  c_daq c = true -> c_opt c 0xDC = true -> ~ programming s -> ~ locked c 4 s -> lenN (0xDC :: t) <= c_ctobuf c ->
  answers c e (0xDC :: t) s ([0xFF; 0; 0; 0] ++ le_bytes 4 (e_timer e)) s.
Proof. exact clock_thm. Qed.
Print Assumptions C51_clock.

(** A locked slave refuses with or without the option. *)
Theorem C51_refuted : forall c m l s o e f,
  reachable c m l s o -> ready s -> dlc_ok c -> c_daq c = true -> c_opt c 0xDC = true ->
  ~ programming s -> locked c 4 s -> lenN (0xDC :: f) <= c_ctobuf c -> refuses c e (0xDC :: f) s 0x25.
Proof. exact clock_locked. Qed.
Print Assumptions C51_refuted.

Example C51_case :
  let s := demo_st cfg_eth env_yes [ORecv [0xFF; 0]] in
  reachable cfg_eth mem0 (map (pair env_yes) [ORecv [0xFF; 0]]) s (demo_out cfg_eth env_yes [ORecv [0xFF; 0]]) /\
  ready s /\ c_clock_always cfg_eth = true /\ c_opt cfg_eth 0xDC = true /\ ~ programming s /\ locked cfg_eth 4 s /\
  (let s1 := demo_st cfg_daq env_yes [ORecv [0xFF; 0]] in
   reachable cfg_daq mem0 (map (pair env_yes) [ORecv [0xFF; 0]]) s1 (demo_out cfg_daq env_yes [ORecv [0xFF; 0]]) /\ ready s1 /\ daq_open cfg_daq s1).
Proof.
  cbv zeta. split; [apply eth_at; vm_compute; reflexivity|]. do 5 fact. split; [apply daq_at; vm_compute; reflexivity|].
  fact. apply daq_open_b. vm_compute. reflexivity.
Qed.

(** ** C52 GET_DAQ_PROCESSOR_INFO describes the real capabilities *)

(** List and event counts are exact; the properties byte is 3 (dynamic
    configuration, prescaler supported), plus 0x10 with time stamps ... *)
Theorem C52_info : forall c m l s o e t,
  reachable c m l s o -> dlc_ok c -> ready s ->
  c_daq c = true -> c_opt c 0xDA = true -> ~ programming s -> ~ locked c 4 s -> lenN (0xDA :: t) <= c_ctobuf c ->
  answers c e (0xDA :: t) s ([0xFF; (if c_ts c then 0x13 else 3)] ++ le_bytes 2 (d_lcnt (s_daq s)) ++ le_bytes 2 (c_nevents c) ++ [0; 0]) s.
Proof. exact processor_info_thm. Qed.
Print Assumptions C52_info.

(** ... but a prescaler above one is never accepted. *)
Theorem C52_refuted : forall c m l s o e mode a b v w pre tl, let f := 0xE0 :: mode :: a :: b :: v :: w :: pre :: tl in
  reachable c m l s o -> ready s -> dlc_ok c -> daq_open c s ->
  bytes f -> lenN f <= c_ctobuf c -> ~ measuring s -> fits c (field c [a; b]) ->
  1 < pre -> refuses c e f s (if N.land mode 3 =? 0 then 0x22 else 0x21).
Proof. intros c m l s o e mode a b v w pre tl f R RD D Op. exact (prescaler_thm c m l s o e R RD D Op mode a b v w pre tl). Qed.
Print Assumptions C52_refuted.

Example C52_case :
  let s := demo_st cfg_daq env_yes ex_write in
  reachable cfg_daq mem0 (map (pair env_yes) ex_write) s (demo_out cfg_daq env_yes ex_write) /\ ready s /\ dlc_ok cfg_daq /\ daq_open cfg_daq s /\
  represents cfg_daq s ex_tree /\ ~ measuring s /\ d_lcnt (s_daq s) = 2 /\ c_opt cfg_daq 0xDA = true /\
  map p_data (match step cfg_daq env_yes (ORecv [0xDA]) s with Ok (_, o) => o | UB _ => [] end) = [[0xFF; 0x13; 2; 0; 3; 0; 0; 0]].
Proof. daq_case. facts. vm_compute. reflexivity. Qed.
