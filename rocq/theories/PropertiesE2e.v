(** Measurements from the first command to the last frame: C109. *)
From Coq Require Import NArith List Bool Lia.
From Verif Require Import Base Config Cfgs State Core Spec Demo SpecMem SpecDaq DemoDaq CasesDaq CasesDaq2 SpecE2e ProofsE2e.
Import ListNotations.
Open Scope N_scope.

(** ** C109 A configuration arrives in the slave, and is measured *)

(** Whatever was configured before: the commands for any configuration that fits in the pool are
    all answered positively, and afterwards the slave has this configuration.  Nothing
    but the DAQ state of the session changes. *)
Theorem C109_configure : forall c m l s o t l1,
  reachable c m l s o -> ready s -> dlc_ok c -> daq_open c s -> c_max_ent c < 65536 -> dynamic c -> ~ measuring s ->
  tree_ok c t -> performs c (allocate c t ++ fill c t) l1 ->
  exists s' o', run c l1 s = Ok (s', o') /\ as_expected c (allocate c t ++ fill c t) o' /\
    represents c s' t /\ ~ measuring s' /\ used s' = used s /\ same_session (with_daq (s_daq s') s) s'.
Proof. exact configure_thm. Qed.
Print Assumptions C109_configure.

(** Started with any assignment of events to its lists, each event makes the slave send the
    frames of its list: identifiers, time stamp and the bytes of the memory in the order configured. *)
Theorem C109_measurement : forall c m l s o t asg mode l1 es fs, let d := allocate c t ++ fill c t ++ start c t mode asg in
  reachable c m l s o -> ready s -> dlc_ok c -> daq_open c s -> c_max_ent c < 65536 -> dynamic c -> stamp_ok c -> ~ measuring s ->
  tree_ok c t -> asg_ok c t asg -> mode < 256 -> N.land mode 3 = 0 -> performs c d l1 ->
  expected c (s_mem s) t (c_ts c && N.testbit mode 4) asg es fs -> used s + lenN fs <= 4 ->
  exists s' o1 o2, run c (l1 ++ triggers es) s = Ok (s', o1 ++ o2) /\ as_expected c d o1 /\ emits o2 fs.
Proof. exact measurement_thm. Qed.
Print Assumptions C109_measurement.

(** Refuted for longer measurements, of every configuration: as soon as a frame was sent, events with more
    frames than there are places left in the queue of four make the slave write behind the queue. *)
Theorem C109_longer_refuted : forall c m l s o t asg mode l1 es fs es' fs', let d := allocate c t ++ fill c t ++ start c t mode asg in
  reachable c m l s o -> ready s -> dlc_ok c -> daq_open c s -> c_max_ent c < 65536 -> dynamic c -> stamp_ok c -> ~ measuring s ->
  tree_ok c t -> asg_ok c t asg -> mode < 256 -> N.land mode 3 = 0 -> performs c d l1 ->
  expected c (s_mem s) t (c_ts c && N.testbit mode 4) asg es fs -> 1 <= used s + lenN fs <= 4 ->
  expected c (s_mem s) t (c_ts c && N.testbit mode 4) asg es' fs' -> 4 < used s + lenN fs + lenN fs' ->
  run c (l1 ++ triggers (es ++ es')) s = UB OobQueue.
Proof. exact breaks_thm. Qed.
Print Assumptions C109_longer_refuted.

(** The slave has the configuration of C34.  The new one has three lists, the second of them without
    ODTs, the third with one ODT without entries; event 2 belongs to list 0, event 0 to list 2. *)
Example C109_case :
  let c := cfg_daq in let s := demo_st c env_yes ex_write in let t := [[[(0x1040, 3)]]; []; [[(0x1000, 4); (0x1020, 2)]; []]] in
  let asg := [(2, 0); (0, 2)] in let d := allocate c t ++ fill c t ++ start c t 0x10 asg in
  let fs := [[1; 4; 3; 2; 1; 0; 1; 2; 3; 0x20; 0x21]; [2]; [0; 4; 3; 2; 1; 0x40; 0x41; 0x42]] in
  reachable c mem0 (map (pair env_yes) ex_write) s (demo_out c env_yes ex_write) /\ ready s /\ dlc_ok c /\ daq_open c s /\
  c_max_ent c < 65536 /\ dynamic c /\ stamp_ok c /\ ~ measuring s /\ tree_ok c t /\ asg_ok c t asg /\
  performs c d (map (fun x => (env_yes, ORecv (fst x))) d) /\
  expected c (s_mem s) t (c_ts c && N.testbit 0x10 4) asg [(env_yes, 0); (env_yes, 2)] fs /\ used s = 0 /\
  expected c (s_mem s) t (c_ts c && N.testbit 0x10 4) asg [(env_yes, 0); (env_yes, 0)] (firstn 2 fs ++ firstn 2 fs) /\
  map fst d = [[0xD6]; [0xD5; 0; 3; 0]; [0xD4; 0; 0; 0; 1]; [0xD4; 0; 1; 0; 0]; [0xD4; 0; 2; 0; 2]; [0xD3; 0; 0; 0; 0; 1];
    [0xD3; 0; 2; 0; 0; 2]; [0xD3; 0; 2; 0; 1; 0]; [0xE2; 0; 0; 0; 0; 0]; [0xE1; 0xFF; 3; 0; 0x40; 0x10; 0; 0];
    [0xE2; 0; 2; 0; 0; 0]; [0xE1; 0xFF; 4; 0; 0; 0x10; 0; 0]; [0xE1; 0xFF; 2; 0; 0x20; 0x10; 0; 0];
    [0xE0; 0x10; 0; 0; 2; 0; 1; 0]; [0xE0; 0x10; 2; 0; 0; 0; 1; 0]; [0xDE; 2; 0; 0]; [0xDE; 2; 2; 0]; [0xDD; 1]].
Proof.
  cbv zeta. split; [apply daq_at; vm_compute; reflexivity|]. split; [vm_compute; repeat split|]. split; [vm_compute; congruence|].
  split; [apply daq_open_b; vm_compute; reflexivity|]. split; [reflexivity|].
  split; [intros k H; cbn [In] in H; repeat (destruct H as [<-|H]; [reflexivity|]); destruct H|].
  split; [vm_compute; congruence|]. split; [vm_compute; congruence|].
  split; [split; [vm_compute; congruence|repeat constructor]|].
  split; [split; [repeat constructor; cbn; intuition discriminate|repeat constructor]|].
  split; [split; [rewrite map_map; reflexivity|apply Forall_forall; intros x H; apply in_map_iff in H; destruct H as (y & <- & _); apply (wf_yes _ wf_daq)]|].
  pose proof (wf_yes _ wf_daq) as We.
  split; [|split; [reflexivity|split; [|vm_compute; reflexivity]]].
  - set (m := s_mem _). set (t := [_; _; _]). change (c_ts cfg_daq && N.testbit 0x10 4) with true.
    replace [_; _; _] with (dtos m (stamp cfg_daq (e_timer env_yes)) (odts_before t 2) [[(0x1000, 4); (0x1020, 2)]; []] ++
      dtos m (stamp cfg_daq (e_timer env_yes)) (odts_before t 0) [[(0x1040, 3)]] ++ []) by (vm_compute; reflexivity).
    apply (ex_cons cfg_daq m t true _ env_yes 0 2); [exact We|cbn; auto|reflexivity|apply sampleable_b; vm_compute; reflexivity|].
    apply (ex_cons cfg_daq m t true _ env_yes 2 0); [exact We|cbn; auto|reflexivity|apply sampleable_b; vm_compute; reflexivity|]. constructor.
  - set (m := s_mem _). set (t := [_; _; _]). change (c_ts cfg_daq && N.testbit 0x10 4) with true.
    match goal with |- expected _ _ _ _ _ _ ?x => replace x with (dtos m (stamp cfg_daq (e_timer env_yes)) (odts_before t 2) [[(0x1000, 4); (0x1020, 2)]; []] ++
      dtos m (stamp cfg_daq (e_timer env_yes)) (odts_before t 2) [[(0x1000, 4); (0x1020, 2)]; []] ++ []) by (vm_compute; reflexivity) end.
    apply (ex_cons cfg_daq m t true _ env_yes 0 2); [exact We|cbn; auto|reflexivity|apply sampleable_b; vm_compute; reflexivity|].
    apply (ex_cons cfg_daq m t true _ env_yes 0 2); [exact We|cbn; auto|reflexivity|apply sampleable_b; vm_compute; reflexivity|]. constructor.
Qed.
