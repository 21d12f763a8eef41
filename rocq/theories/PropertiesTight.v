(** Theorems added after trials with wrong programs. *)
From Coq Require Import NArith List Bool Lia.
From Verif Require Import Base Config Cfgs Codec State Core Spec Demo SpecMem SpecDaq DemoDaq ProofsTight ProofsTight2.
Import ListNotations.
Open Scope N_scope.

(** ** C18 The hook is asked for the bytes that are written *)

(** Every byte that a command changes lies in a range for which the hook agreed.
    (DOWNLOAD_MAX and DOWNLOAD_NEXT do not ask, see C18_refuted_*.) *)
Theorem C18_range : forall c m l s o e f s' o' y,
  reachable c m l s o -> bytes f -> step c e (ORecv f) s = Ok (s', o') -> ~ is_cmd 0xEE f -> ~ is_cmd 0xEF f -> ~ is_cmd 0xEC f ->
  s_mem s' y <> s_mem s y ->
  exists x a n, granted c e x a n true false /\ target c e x a <= y < target c e x a + n.
Proof. exact range_thm. Qed.
Print Assumptions C18_range.
(** MODIFY_BITS asks for two bytes and changes the fourth. *)
Theorem C18_modify_bits_refuted : exists c m l s o e f s' o' y,
  reachable c m l s o /\ c_chkmem c = true /\ wf_env c e /\ bytes f /\ is_cmd 0xEC f /\ step c e (ORecv f) s = Ok (s', o') /\
  s_mem s' y <> s_mem s y /\ forall x a n p, e_access e x a n true p = true -> ~ (target c e x a <= y < target c e x a + n).
Proof. exact modify_range. Qed.
Print Assumptions C18_modify_bits_refuted.

(** SHORT_DOWNLOAD of two bytes to 0x1000, all that the hook allows. *)
Example C18_range_case :
  let s := demo_st cfg_eth env_yes two_run in let f := [0xED; 2; 0; 0; 0; 0x10; 0; 0; 0x77; 0x78] in
  reachable cfg_eth mem0 (map (pair env_yes) two_run) s (demo_out cfg_eth env_yes two_run) /\ bytes f /\ ~ is_cmd 0xEC f /\
  exists s' o', step cfg_eth env_two (ORecv f) s = Ok (s', o') /\ s_mem s' 0x1001 <> s_mem s 0x1001.
Proof.
  cbv zeta. split; [apply eth_at; vm_compute; reflexivity|]. split; [repeat constructor|]. split; [discriminate|].
  eexists _, _. split; [vm_compute; reflexivity|]. vm_compute. discriminate.
Qed.

(** ** C40 Which event samples which list *)

(** SET_DAQ_LIST_MODE assigns the event to the list, and decides about time stamps; the other events, the tables, the queue stay. *)
Theorem C40_assign : forall c m l s o e, reachable c m l s o -> ready s -> dlc_ok c -> daq_open c s ->
  forall t mode a b v w pre tl os, let f := 0xE0 :: mode :: a :: b :: v :: w :: pre :: tl in let l' := field c [a; b] in let ev := field c [v; w] in
  bytes f -> lenN f <= c_ctobuf c -> ~ measuring s -> represents c s t -> getN t l' = Some os -> l' < 256 ->
  N.land mode 3 = 0 -> pre <= 1 -> ev < c_nevents c ->
  exists d, answers c e f s [0xFF] (with_daq d s) /\ represents c (with_daq d s) t /\
    (forall x k, assigned (with_daq d s) x k <-> if x =? ev then k = l' else assigned s x k) /\
    (forall e', time_stamp c e' (with_daq d s) = if c_ts c && N.testbit mode 4 then stamp c (e_timer e') else []) /\
    used (with_daq d s) = used s /\ ~ measuring (with_daq d s).
Proof. exact assign_thm. Qed.
Print Assumptions C40_assign.

(** START_STOP_SYNCH starts measurement (mode 1), stops it (0) or leaves it as it is (2), and changes
    neither tables nor assignments nor the queue; other modes are refused. *)
Theorem C40_synch : forall c m l s o e, reachable c m l s o -> ready s -> dlc_ok c -> daq_open c s ->
  forall t mode tl, let f := 0xDD :: mode :: tl in lenN f <= c_ctobuf c -> represents c s t -> mode <= 2 ->
  exists d, answers c e f s [0xFF] (with_daq d s) /\ represents c (with_daq d s) t /\
    (forall x k, assigned (with_daq d s) x k <-> assigned s x k) /\ (forall e', time_stamp c e' (with_daq d s) = time_stamp c e' s) /\
    used (with_daq d s) = used s /\ (measuring (with_daq d s) <-> mode = 1 \/ mode = 2 /\ measuring s).
Proof. exact synch_full. Qed.
Print Assumptions C40_synch.
Theorem C40_synch_refuse : forall c m l s o e, reachable c m l s o -> ready s -> dlc_ok c -> daq_open c s ->
  forall mode tl, lenN (0xDD :: mode :: tl) <= c_ctobuf c -> 2 < mode -> refuses c e (0xDD :: mode :: tl) s 0x22.
Proof. exact synch_refuse. Qed.
Print Assumptions C40_synch_refuse.

(** All together: assign, start, trigger. *)
Theorem C40_session : forall c m l s o e1 e2 e3 t mode a b v w pre tl tl2 os, let f := 0xE0 :: mode :: a :: b :: v :: w :: pre :: tl in let l' := field c [a; b] in let ev := field c [v; w] in
  let ts := if c_ts c && N.testbit mode 4 then stamp c (e_timer e3) else [] in
  reachable c m l s o -> ready s -> dlc_ok c -> daq_open c s -> c_max_ent c < 65536 -> stamp_ok c -> wf_env c e1 -> wf_env c e2 -> wf_env c e3 ->
  bytes f -> bytes tl2 -> lenN f <= c_ctobuf c -> lenN (0xDD :: 1 :: tl2) <= c_ctobuf c -> ~ measuring s -> represents c s t -> getN t l' = Some os -> l' < 256 ->
  N.land mode 3 = 0 -> pre <= 1 -> ev < c_nevents c -> sampleable c ts os -> used s + lenN os <= 4 ->
  exists s' p1 p2 o', run c [(e1, ORecv f); (e2, ORecv (0xDD :: 1 :: tl2)); (e3, OTrigger ev)] s = Ok (s', p1 ++ p2 ++ o') /\
    accepted p1 /\ accepted p2 /\ emits o' (dtos (s_mem s) ts (odts_before t l') os).
Proof. exact session_thm. Qed.
Print Assumptions C40_session.

(** The configuration of C34; event 2, list 1, time stamps. *)
Example C40_session_case :
  let s := demo_st cfg_daq env_yes ex_write in
  reachable cfg_daq mem0 (map (pair env_yes) ex_write) s (demo_out cfg_daq env_yes ex_write) /\ ready s /\ dlc_ok cfg_daq /\ daq_open cfg_daq s /\
  represents cfg_daq s ex_tree /\ ~ measuring s /\ getN ex_tree (field cfg_daq [1; 0]) = Some [[(0x1040, 3)]] /\ field cfg_daq [2; 0] < c_nevents cfg_daq /\
  N.land 0x10 3 = 0 /\ used s = 0 /\ sampleable cfg_daq [4; 3; 2; 1] [[(0x1040, 3)]] /\
  match run cfg_daq [(env_yes, ORecv [0xE0; 0x10; 1; 0; 2; 0; 1]); (env_yes, ORecv [0xDD; 1]); (env_yes, OTrigger 2)] s with
  | Ok (_, o) => map p_data o = [[0xFF]; [0xFF]; [2; 4; 3; 2; 1; 0x40; 0x41; 0x42]] | UB _ => False end.
Proof.
  cbv zeta. split; [apply daq_at; vm_compute; reflexivity|]. split; [vm_compute; repeat split; congruence|]. split; [vm_compute; congruence|].
  split; [apply daq_open_b; vm_compute; reflexivity|]. split; [apply daq_rep; vm_compute; reflexivity|]. split; [vm_compute; discriminate|].
  do 4 (split; [vm_compute; reflexivity|]). split; [apply sampleable_b; vm_compute; reflexivity|]. vm_compute. reflexivity.
Qed.

(** ** C06 START_STOP_DAQ_LIST for a list that does not exist *)

(** Always two responses, an error and a positive one. *)
Theorem C06_list_refuted : forall c m l s o e, reachable c m l s o -> ready s -> dlc_ok c -> daq_open c s ->
  forall t mode a b tl, let f := 0xDE :: mode :: a :: b :: tl in let l' := field c [a; b] in
  c_max_ent c < 65536 -> represents c s t -> bytes f -> lenN f <= c_ctobuf c -> fits c l' -> lenN t <= l' -> mode <= 2 ->
  exists d s' o1 o2, step c e (ORecv f) s = Ok (s', o1 ++ o2) /\ sends o1 (padded c [0xFE; 0x22]) /\ sends o2 (padded c [0xFF; 0; 0; 0; 0; 0; 0; 0]) /\
    same_session (with_daq d s) s' /\ represents c (with_daq d s) t.
Proof. exact list_two. Qed.
Print Assumptions C06_list_refuted.

(** For a list that exists, modes other than stop, start and select are refused. *)
Theorem C06_list_mode : forall c m l s o e, reachable c m l s o -> ready s -> dlc_ok c -> daq_open c s ->
  forall t mode a b tl os, let f := 0xDE :: mode :: a :: b :: tl in let l' := field c [a; b] in
  represents c s t -> getN t l' = Some os -> bytes f -> lenN f <= c_ctobuf c -> 2 < mode -> refuses c e f s 0x22.
Proof. exact list_refuse. Qed.
Print Assumptions C06_list_mode.

Example C06_list_case :
  let s := demo_st cfg_daq env_yes ex_write in
  reachable cfg_daq mem0 (map (pair env_yes) ex_write) s (demo_out cfg_daq env_yes ex_write) /\ ready s /\ dlc_ok cfg_daq /\ daq_open cfg_daq s /\
  represents cfg_daq s ex_tree /\ c_max_ent cfg_daq < 65536 /\ fits cfg_daq 2 /\ lenN ex_tree = 2 /\
  match step cfg_daq env_yes (ORecv [0xDE; 1; 2; 0]) s with Ok (_, o) => map p_data o = [[0xFE; 0x22]; [0xFF; 0; 0; 0; 0; 0; 0; 0]] | UB _ => False end /\
  match step cfg_daq env_yes (ORecv [0xDE; 3; 1; 0]) s with Ok (_, o) => map p_data o = [[0xFE; 0x22]] | UB _ => False end.
Proof.
  cbv zeta. split; [apply daq_at; vm_compute; reflexivity|]. split; [vm_compute; repeat split; congruence|]. split; [vm_compute; congruence|].
  split; [apply daq_open_b; vm_compute; reflexivity|]. split; [apply daq_rep; vm_compute; reflexivity|]. vm_compute. repeat split; reflexivity.
Qed.
