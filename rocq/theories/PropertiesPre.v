(** C87 - C90: predefined DAQ lists. *)
From Coq Require Import NArith List Bool Lia.
From Verif Require Import Base Config Cfgs Codec State Core Spec Demo SpecMem SpecDaq DemoDaq Predef SpecPre ProofsPre3 DemoPre.
Import ListNotations.
Open Scope N_scope.

(** ** C87 The predefined ODT entries cannot be changed *)

(** Whatever is received or called, the entries stay those of the build. *)
Theorem C87_entries : forall c p es m l z o, sreachable c p es m l z o -> z_entries z = es.
Proof. exact entries_kept. Qed.
Print Assumptions C87_entries.
(** WRITE_DAQ and WRITE_DAQ_MULTIPLE are refused with ERR_WRITE_PROTECTED. *)
Theorem C87_write : forall c p es m l z o e t,
  sreachable c p es m l z o -> ready (z_st z) -> dlc_ok c -> daq_open c (z_st z) -> count_of p <> 0 -> ~ measuring (z_st z) ->
  lenN (0xE1 :: t) <= c_ctobuf c -> srefuses c p e (0xE1 :: t) z 0x23.
Proof. exact write_p. Qed.
Print Assumptions C87_write.
Theorem C87_write_multiple : forall c p es m l z o e n t,
  sreachable c p es m l z o -> ready (z_st z) -> dlc_ok c -> daq_open c (z_st z) -> count_of p <> 0 -> ~ measuring (z_st z) ->
  c_opt c 0xC7 = true -> n * 8 + 2 <= c_max_cto c -> lenN (0xC7 :: n :: t) <= c_ctobuf c -> srefuses c p e (0xC7 :: n :: t) z 0x23.
Proof. exact writes_p. Qed.
Print Assumptions C87_write_multiple.
(** Without any predefined list the check itself leaves the table. *)
Theorem C87_no_list_refuted : forall c p es m l z o e t,
  sreachable c p es m l z o -> ready (z_st z) -> daq_open c (z_st z) -> count_of p = 0 -> ~ measuring (z_st z) ->
  lenN (0xE1 :: t) <= c_ctobuf c -> sstep c p e (ORecv (0xE1 :: t)) z = UB OobEntity.
Proof. exact write_wild_p. Qed.
Print Assumptions C87_no_list_refuted.

Example C87_case :
  let l := [ORecv [0xFF; 0]; ORecv [0xE2; 0; 1; 0; 0; 0]; ORecv [0xE1; 0xFF; 4; 0; 0; 0x20; 0; 0]; ORecv [0xE3; 0; 1; 0]] in
  let z := sdemo_st cfg_pre pre_tables pre_entries l in
  sreachable cfg_pre pre_tables pre_entries mem0 (map (pair env_yes) l) z (sdemo_out cfg_pre pre_tables pre_entries l) /\ ready (z_st z) /\
  dlc_ok cfg_pre /\ daq_open cfg_pre (z_st z) /\ count_of pre_tables = 2 /\ ~ measuring (z_st z) /\ c_opt cfg_pre 0xC7 = true /\
  2 * 8 + 2 <= c_max_cto cfg_pre /\ lenN [0xE1; 0xFF; 4; 0; 0; 0x20; 0; 0] <= c_ctobuf cfg_pre.
Proof. pre_case. fact. split; [vm_compute; discriminate|]. fact. split; vm_compute; discriminate. Qed.
Example C87_no_list_case :
  let l := [ORecv [0xFF; 0]] in let z := sdemo_st cfg_pre (mkPre [] []) [] l in
  sreachable cfg_pre (mkPre [] []) [] mem0 (map (pair env_yes) l) z (sdemo_out cfg_pre (mkPre [] []) [] l) /\ ready (z_st z) /\
  daq_open cfg_pre (z_st z) /\ ~ measuring (z_st z).
Proof.
  cbv zeta. split; [apply sdemo_at; [constructor; repeat constructor|vm_compute; reflexivity]|]. split; [apply sready; vm_compute; reflexivity|].
  split; [apply daq_open_b; vm_compute; reflexivity|]. vm_compute. discriminate.
Qed.

(** ** C88 An event samples the assigned predefined list *)

(** The list's own mode decides about the time stamp. *)
Theorem C88_event : forall c p es m l z o e t ev l' os,
  sreachable c p es m l z o -> wf_env c e -> stamp_ok c -> describes c p es t -> measuring (z_st z) -> assigned (z_st z) ev l' ->
  getN t l' = Some os -> sampleable c (list_stamp c e z l') os -> used (z_st z) + lenN os <= 4 ->
  exists z' o', sstep c p e (OTrigger ev) z = Ok (z', o') /\
    emits o' (dtos (s_mem (z_st z)) (list_stamp c e z l') (odts_before t l') os) /\ same_but_queue (z_st z) (z_st z') /\
    z_entries z' = z_entries z /\ z_modes z' = z_modes z /\ used (z_st z') = used (z_st z) + lenN os.
Proof. exact pre_event. Qed.
Print Assumptions C88_event.
Theorem C88_idle : forall c p e ev z, ~ measuring (z_st z) -> sstep c p e (OTrigger ev) z = Ok (z, []).
Proof. exact pre_idle. Qed.
Print Assumptions C88_idle.
(** A list that was neither selected nor started is sampled as well. *)
Theorem C88_stopped_refuted : exists c p es m l z o e t ev l' md z' o' q,
  sreachable c p es m l z o /\ wf_env c e /\ describes c p es t /\ measuring (z_st z) /\ assigned (z_st z) ev l' /\
  mode_of z l' = Some md /\ started md = false /\ selected md = false /\ sstep c p e (OTrigger ev) z = Ok (z', o' ++ [q]).
Proof. exact stopped_list. Qed.
Print Assumptions C88_stopped_refuted.
(** Events that nobody assigned sample list 0. *)
Theorem C88_unassigned_refuted : forall c p es m l z o,
  sreachable c p es m l z o -> (forall e t, ~ In (e, ORecv (0xE0 :: t)) l) ->
  forall ev, ev < c_nevents c -> assigned (z_st z) ev 0.
Proof. exact assign_none. Qed.
Print Assumptions C88_unassigned_refuted.
(** The tables hold 16-bit positions, but entries are looked up with 8 bits of them. *)
Theorem C88_far_refuted : exists c p es m l z o e ev z' q bs,
  sreachable c p es m l z o /\ wf_env c e /\ measuring (z_st z) /\ assigned (z_st z) ev 0 /\ getN (pr_lists p) 0 = Some (1, 0) /\
  getN (pr_odts p) 0 = Some (1, 256) /\ getN es 256 = Some (0x1020, 1) /\ getN es 0 = Some (0x1000, 1) /\
  sstep c p e (OTrigger ev) z = Ok (z', [q]) /\ emits [q] [[0; bs]] /\ bs = s_mem (z_st z) 0x1000 /\ bs <> s_mem (z_st z) 0x1020.
Proof. exact far_entry. Qed.
Print Assumptions C88_far_refuted.

Example C88_case :
  let z := sdemo_st cfg_pre pre_tables pre_entries pre_run in
  sreachable cfg_pre pre_tables pre_entries mem0 (map (pair env_yes) pre_run) z (sdemo_out cfg_pre pre_tables pre_entries pre_run) /\
  describes cfg_pre pre_tables pre_entries pre_tree /\ measuring (z_st z) /\ assigned (z_st z) 1 0 /\ assigned (z_st z) 2 1 /\ used (z_st z) = 0 /\
  list_stamp cfg_pre env_yes z 0 = [4; 3; 2; 1] /\ list_stamp cfg_pre env_yes z 1 = [] /\
  sampleable cfg_pre [4; 3; 2; 1] [[(0x1000, 4); (0x1020, 2)]; [(0x1030, 1)]] /\ sampleable cfg_pre [] [[(0x1040, 2)]] /\
  dtos (s_mem (z_st z)) [4; 3; 2; 1] (odts_before pre_tree 0) [[(0x1000, 4); (0x1020, 2)]; [(0x1030, 1)]] =
    [[0; 4; 3; 2; 1; 0; 1; 2; 3; 0x20; 0x21]; [1; 0x30]] /\
  dtos (s_mem (z_st z)) [] (odts_before pre_tree 1) [[(0x1040, 2)]] = [[2; 0x40; 0x41]].
Proof.
  cbv zeta. split; [apply pre_at; vm_compute; reflexivity|]. split; [exact pre_describes|]. do 6 fact.
  do 2 (split; [apply sampleable_b; vm_compute; reflexivity|]). split; vm_compute; reflexivity.
Qed.

(** ** C89 Mode commands change only the lists they name *)

(** SET_DAQ_LIST_MODE: the mode of the list and the assignment of the event. *)
Theorem C89_set_mode : forall c p es m l z o e mode a b v w pre tl,
  let f := 0xE0 :: mode :: a :: b :: v :: w :: pre :: tl in let l' := field c [a; b] in let ev := field c [v; w] in
  sreachable c p es m l z o -> ready (z_st z) -> dlc_ok c -> daq_open c (z_st z) -> ~ measuring (z_st z) -> bytes f -> lenN f <= c_ctobuf c ->
  l' < count_of p -> N.land mode 3 = 0 -> pre <= 1 -> ev < c_nevents c ->
  exists md, sanswers c p e f z [0xFF] (put_mode l' md (zdaq (set_d_lfe (put ev (l' mod 256) (d_lfe (s_daq (z_st z)))) (s_daq (z_st z))) z)) /\
    stamped md = N.testbit mode 4 /\ selected md = N.testbit mode 6 /\ started md = N.testbit mode 7.
Proof. exact setmode_p. Qed.
Print Assumptions C89_set_mode.
(** A list number behind the last list is not refused but written to. *)
Theorem C89_set_mode_refuted : forall c p es m l z o e mode a b v w pre tl,
  let f := 0xE0 :: mode :: a :: b :: v :: w :: pre :: tl in let l' := field c [a; b] in let ev := field c [v; w] in
  sreachable c p es m l z o -> ready (z_st z) -> daq_open c (z_st z) -> ~ measuring (z_st z) -> bytes f -> lenN f <= c_ctobuf c ->
  fits c l' -> count_of p <= l' -> N.land mode 3 = 0 -> pre <= 1 -> ev < c_nevents c -> sstep c p e (ORecv f) z = UB OobEntity.
Proof. exact setmode_wild_p. Qed.
Print Assumptions C89_set_mode_refuted.
(** START_STOP_DAQ_LIST announces the first PID and selects in mode 2; modes 0 and
    1 change nothing. *)
Theorem C89_list : forall c p es m l z o e t mode a b tl os,
  let f := 0xDE :: mode :: a :: b :: tl in let l' := field c [a; b] in
  sreachable c p es m l z o -> ready (z_st z) -> dlc_ok c -> daq_open c (z_st z) -> describes c p es t -> getN t l' = Some os ->
  bytes f -> lenN f <= c_ctobuf c -> mode <= 2 ->
  exists md, mode_of z l' = Some md /\
    sanswers c p e f z [0xFF; odts_before t l' mod 256; 0; 0; 0; 0; 0; 0] (if mode =? 2 then put_mode l' (N.setbit md 6) z else z).
Proof. exact sslist_p. Qed.
Print Assumptions C89_list.
Theorem C89_list_refuted : forall c p es m l z o e a b tl,
  let f := 0xDE :: 2 :: a :: b :: tl in let l' := field c [a; b] in
  sreachable c p es m l z o -> ready (z_st z) -> dlc_ok c -> daq_open c (z_st z) -> bytes f -> lenN f <= c_ctobuf c ->
  fits c l' -> count_of p <= l' -> sstep c p e (ORecv f) z = UB OobEntity.
Proof. exact sslist_wild_p. Qed.
Print Assumptions C89_list_refuted.
(** START_STOP_SYNCH changes exactly the selected lists. *)
Theorem C89_synch : forall c p es m l z o e mode tl,
  let f := 0xDD :: mode :: tl in
  sreachable c p es m l z o -> ready (z_st z) -> dlc_ok c -> daq_open c (z_st z) -> lenN f <= c_ctobuf c -> mode <= 2 ->
  sanswers c p e f z [0xFF] (with_modes (map (synched mode) (z_modes z))
    (zdaq (if mode =? 2 then s_daq (z_st z) else set_d_run (mode =? 1) (s_daq (z_st z))) z)).
Proof. exact synch_p. Qed.
Print Assumptions C89_synch.
(** Assignments outlive everything but SET_DAQ_LIST_MODE, also DISCONNECT and
    Xcp_Init. *)
Theorem C89_kept_refuted : forall c p es m l1 l2 z1 o1 z2 o2,
  sreachable c p es m l1 z1 o1 -> sreachable c p es m (l1 ++ l2) z2 o2 -> (forall e t, ~ In (e, ORecv (0xE0 :: t)) l2) ->
  forall ev l', assigned (z_st z2) ev l' <-> assigned (z_st z1) ev l'.
Proof. exact assign_kept. Qed.
Print Assumptions C89_kept_refuted.

(** List 1 exists and is assigned to event 2; list 5 does not exist. *)
Example C89_case :
  let l := [ORecv [0xFF; 0]; ORecv [0xE0; 0; 1; 0; 2; 0; 1; 0]; ORecv [0xDE; 2; 0; 0]] in
  let z := sdemo_st cfg_pre pre_tables pre_entries l in
  sreachable cfg_pre pre_tables pre_entries mem0 (map (pair env_yes) l) z (sdemo_out cfg_pre pre_tables pre_entries l) /\ ready (z_st z) /\
  dlc_ok cfg_pre /\ daq_open cfg_pre (z_st z) /\ ~ measuring (z_st z) /\ field cfg_pre [1; 0] = 1 /\ count_of pre_tables = 2 /\
  N.land 0x10 3 = 0 /\ 2 < c_nevents cfg_pre /\ fits cfg_pre (field cfg_pre [5; 0]) /\ count_of pre_tables <= field cfg_pre [5; 0] /\
  describes cfg_pre pre_tables pre_entries pre_tree /\ getN pre_tree 1 = Some [[(0x1040, 2)]] /\ odts_before pre_tree 1 = 2 /\
  map selected (z_modes z) = [true; false] /\ map started (map (synched 1) (z_modes z)) = [true; false].
Proof.
  pre_case. split; [vm_compute; discriminate|]. do 4 fact. split; [vm_compute; reflexivity|]. split; [vm_compute; discriminate|].
  split; [exact pre_describes|]. do 3 fact. vm_compute. reflexivity.
Qed.
Example C89_kept_case :
  let l2 := [ORecv [0xFE]; OInit; ORecv [0xFF; 0]] in
  let z1 := sdemo_st cfg_pre pre_tables pre_entries pre_run in let z2 := sdemo_st cfg_pre pre_tables pre_entries (pre_run ++ l2) in
  sreachable cfg_pre pre_tables pre_entries mem0 (map (pair env_yes) pre_run) z1 (sdemo_out cfg_pre pre_tables pre_entries pre_run) /\
  sreachable cfg_pre pre_tables pre_entries mem0 (map (pair env_yes) pre_run ++ map (pair env_yes) l2) z2 (sdemo_out cfg_pre pre_tables pre_entries (pre_run ++ l2)) /\
  (forall e t, ~ In (e, ORecv (0xE0 :: t)) (map (pair env_yes) l2)) /\ assigned (z_st z2) 2 1.
Proof.
  cbv zeta. split; [apply pre_at; vm_compute; reflexivity|]. split; [rewrite <- map_app; apply pre_at; vm_compute; reflexivity|].
  split; [|vm_compute; reflexivity]. intros e t H. cbn in H. intuition discriminate.
Qed.

(** ** C90 The information commands describe the tables *)
Theorem C90_processor : forall c p es m l z o e t,
  sreachable c p es m l z o -> ready (z_st z) -> dlc_ok c -> daq_open c (z_st z) -> c_opt c 0xDA = true -> lenN (0xDA :: t) <= c_ctobuf c ->
  sanswers c p e (0xDA :: t) z
    [0xFF; N.lor (if c_prescaler c then 2 else 0) (if c_ts c then 0x10 else 0); count_of p mod 256; count_of p / 256 mod 256;
     c_nevents c mod 256; c_nevents c / 256 mod 256; count_of p mod 256; 0] z.
Proof. exact pinfo_p. Qed.
Print Assumptions C90_processor.
(** GET_DAQ_LIST_INFO: number of ODTs. The fourth byte, MAX_ODT_ENTRIES, is 0 for
    every list, whatever its ODTs hold. *)
Theorem C90_list_refuted : forall c p es m l z o e t r a b tl os,
  let f := 0xD8 :: r :: a :: b :: tl in let l' := field c [a; b] in
  sreachable c p es m l z o -> ready (z_st z) -> dlc_ok c -> daq_open c (z_st z) -> describes c p es t -> getN t l' = Some os ->
  c_opt c 0xD8 = true -> bytes f -> lenN f <= c_ctobuf c ->
  sanswers c p e f z [0xFF; 7; lenN os mod 256; 0; 0; 0; 0; 0] z.
Proof. exact linfo_p. Qed.
Print Assumptions C90_list_refuted.
(** A list number behind the last list is not refused. *)
Theorem C90_no_list_refuted : forall c p es m l z o e r a b tl,
  let f := 0xD8 :: r :: a :: b :: tl in let l' := field c [a; b] in
  sreachable c p es m l z o -> ready (z_st z) -> dlc_ok c -> daq_open c (z_st z) -> c_opt c 0xD8 = true -> bytes f -> lenN f <= c_ctobuf c ->
  fits c l' -> count_of p <= l' -> sstep c p e (ORecv f) z = UB OobEntity.
Proof. exact linfo_wild_p. Qed.
Print Assumptions C90_no_list_refuted.

Example C90_case :
  let l := [ORecv [0xFF; 0]] in let z := sdemo_st cfg_pre pre_tables pre_entries l in
  sreachable cfg_pre pre_tables pre_entries mem0 (map (pair env_yes) l) z (sdemo_out cfg_pre pre_tables pre_entries l) /\ ready (z_st z) /\
  dlc_ok cfg_pre /\ daq_open cfg_pre (z_st z) /\ c_opt cfg_pre 0xDA = true /\ c_opt cfg_pre 0xD8 = true /\
  describes cfg_pre pre_tables pre_entries pre_tree /\ getN pre_tree (field cfg_pre [0; 0]) = Some [[(0x1000, 4); (0x1020, 2)]; [(0x1030, 1)]] /\
  fits cfg_pre (field cfg_pre [2; 0]) /\ count_of pre_tables <= field cfg_pre [2; 0].
Proof.
  pre_case. do 2 fact. split; [exact pre_describes|]. fact. split; [vm_compute; reflexivity|]. vm_compute. discriminate.
Qed.
