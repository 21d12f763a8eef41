(** C134 - C136: an event is sampled while other threads execute operations of the slave. *)
From Coq Require Import NArith List Bool Lia.
From Verif Require Import Base Config State Core Spec Demo SpecMem SpecDaq ProofsFrames DemoDaq CasesDaq2 Sampler SpecSampler
  ProofsSampler2 ProofsSampler3 ProofsSampler4 CasesSampler.
Import ListNotations.
Open Scope N_scope.

(** ** C134 An event sampled while commands are processed *)

(** Whatever commands that leave the measurement alone are processed between the
    accesses of XcpDaq_TriggerEvent: one frame for each ODT, in order, each with
    its identifier and the entries of its ODT, each byte of them as it was in
    memory at some moment of the run; nothing of the DAQ configuration changes. *)
Theorem C134_event : forall c m l s o e t ev l' os,
  reachable c m l s o -> wf_env c e -> c_max_ent c < 65536 -> stamp_ok c ->
  represents c s t -> measuring s -> assigned s ev l' -> getN t l' = Some os -> sampleable c (time_stamp c e s) os ->
  used s + lenN os <= 4 ->
  forall w x s' o', Forall (harmless c) w -> take_all c w (Called ev (e_timer e)) s = Ok (x, s', o') ->
  (exists q, s_daq s' = set_d_q q (s_daq s)) /\
  (x = Rest -> captures (fun m' => In m' (moments c w (Called ev (e_timer e)) s)) (time_stamp c e s) (odts_before t l') os (daq_frames o') /\
               used s' = used s + lenN os).
Proof. exact event_conc. Qed.
Print Assumptions C134_event.

(** It needs a limited number of accesses ... *)
Theorem C134_ends : forall c m l s o e t ev l' os,
  reachable c m l s o -> wf_env c e -> c_max_ent c < 65536 -> stamp_ok c ->
  represents c s t -> measuring s -> assigned s ev l' -> getN t l' = Some os -> sampleable c (time_stamp c e s) os ->
  used s + lenN os <= 4 ->
  exists n, forall w x s' o', Forall (harmless c) w -> n <= accesses w -> take_all c w (Called ev (e_timer e)) s = Ok (x, s', o') -> x = Rest.
Proof. exact event_ends. Qed.
Print Assumptions C134_ends.

(** ... all of which are defined: undefined behaviour is that of an operation of another thread. *)
Theorem C134_safe : forall c m l s o e t ev l' os,
  reachable c m l s o -> wf_env c e -> c_max_ent c < 65536 -> stamp_ok c ->
  represents c s t -> measuring s -> assigned s ev l' -> getN t l' = Some os -> sampleable c (time_stamp c e s) os ->
  used s + lenN os <= 4 ->
  forall w y, Forall (harmless c) w -> take_all c w (Called ev (e_timer e)) s = UB y ->
  exists w1 e1 o1 w2 x1 s1 p1, w = w1 ++ Other e1 o1 :: w2 /\ take_all c w1 (Called ev (e_timer e)) s = Ok (x1, s1, p1) /\ step c e1 o1 s1 = UB y.
Proof. exact event_safe. Qed.
Print Assumptions C134_safe.

(** If nobody writes to the sampled addresses meanwhile, the frames are those of C40. *)
Theorem C134_stable : forall c m l s o e t ev l' os,
  reachable c m l s o -> wf_env c e -> c_max_ent c < 65536 -> stamp_ok c ->
  represents c s t -> measuring s -> assigned s ev l' -> getN t l' = Some os -> sampleable c (time_stamp c e s) os ->
  used s + lenN os <= 4 ->
  forall w s' o', Forall (harmless c) w -> take_all c w (Called ev (e_timer e)) s = Ok (Rest, s', o') ->
  (forall m' es x j, In m' (moments c w (Called ev (e_timer e)) s) -> In es os -> In x es -> j < snd x -> m' (fst x + j) = s_mem s (fst x + j)) ->
  daq_frames o' = dtos (s_mem s) (time_stamp c e s) (odts_before t l') os.
Proof. exact event_stable. Qed.
Print Assumptions C134_stable.

(** Without other threads the accesses make up the event of C40 - C43, undefined behaviour included. *)
Theorem C134_alone : forall c m l s o e ev, reachable c m l s o -> c_daq c = true ->
  exists n, take_all c (repeat Go n) (Called ev (e_timer e)) s = match step c e (OTrigger ev) s with Ok (s', o') => Ok (Rest, s', o') | UB y => UB y end.
Proof. exact alone_thm. Qed.
Print Assumptions C134_alone.

(** Refuted for commands that touch the measurement: FREE_DAQ at a bad moment, and a
    frame is sent that ends behind the first entry of its ODT. *)
Theorem C134_free_refuted : forall c m l s o e t ev l' os,
  reachable c m l s o -> wf_env c e -> c_max_ent c < 65536 -> stamp_ok c ->
  represents c s t -> measuring s -> assigned s ev l' -> getN t l' = Some os -> sampleable c (time_stamp c e s) os ->
  used s + lenN os <= 4 ->
  forall e1 a len es, ready s -> dlc_ok c -> daq_open c s -> wf_env c e1 -> c_opt c 0xD6 = true -> getN os 0 = Some ((a, len) :: es) ->
  exists w s' r p, others w = [(e1, ORecv [0xD6])] /\ take_all c w (Called ev (e_timer e)) s = Ok (Rest, s', [r; p]) /\
    p_dto r = false /\ p_data r = padded c [0xFF] /\
    p_dto p = true /\ p_data p = odts_before t l' mod 256 :: time_stamp c e s ++ mem_at (s_mem s) a len.
Proof. exact cut_free. Qed.
Print Assumptions C134_free_refuted.

(** The state of C40_case; the application changes a variable while it is copied,
    the master reads it and writes another one. *)
Example C134_case :
  reachable cfg_daq mem0 (map (pair env_yes) ex_run) smp_st (demo_out cfg_daq env_yes ex_run) /\ wf_env cfg_daq env_yes /\
  c_max_ent cfg_daq < 65536 /\ stamp_ok cfg_daq /\ represents cfg_daq smp_st ex_tree /\ measuring smp_st /\ assigned smp_st 1 0 /\
  getN ex_tree 0 = Some smp_os /\ sampleable cfg_daq (time_stamp cfg_daq env_yes smp_st) smp_os /\ used smp_st + lenN smp_os <= 4 /\
  Forall (harmless cfg_daq) smp_w /\
  (exists s' o', take_all cfg_daq smp_w (Called 1 (e_timer env_yes)) smp_st = Ok (Rest, s', o') /\
     daq_frames o' = [[0; 4; 3; 2; 1; 0; 1; 0xA2; 0xA3; 0x20; 0x21]; [1; 0x77]] /\
     map p_data (filter (fun p => negb (p_dto p)) o') = [[0xFF; 0xA0; 0xA1]; [0xFF]]).
Proof.
  split; [apply daq_at; vm_compute; reflexivity|]. split; [apply wf_yes, wf_daq|]. split; [vm_compute; reflexivity|]. split; [intro H; vm_compute in H; discriminate|].
  split; [apply daq_rep; vm_compute; reflexivity|]. do 3 fact. split; [apply sampleable_b; vm_compute; reflexivity|]. split; [vm_compute; discriminate|].
  split.
  - repeat (apply Forall_cons || apply Forall_nil); cbn [harmless]; auto; split; try (repeat constructor; reflexivity); cbn [In]; intuition discriminate.
  - apply smp_done. vm_compute. reflexivity.
Qed.

(** ** C135 No frame after the end of the measurement was acknowledged: refuted *)

(** All frames of an event can follow the positive response to START_STOP_SYNCH (stop all) ... *)
Theorem C135_stop_refuted : forall c m l s o e t ev l' os,
  reachable c m l s o -> wf_env c e -> c_max_ent c < 65536 -> stamp_ok c ->
  represents c s t -> measuring s -> assigned s ev l' -> getN t l' = Some os -> sampleable c (time_stamp c e s) os ->
  used s + lenN os <= 4 ->
  forall e1, ready s -> dlc_ok c -> daq_open c s -> wf_env c e1 ->
  exists w s' r o', others w = [(e1, ORecv [0xDD; 0])] /\ take_all c w (Called ev (e_timer e)) s = Ok (Rest, s', r :: o') /\
    p_dto r = false /\ p_data r = padded c [0xFF] /\ ~ measuring s' /\
    emits o' (dtos (s_mem s) (time_stamp c e s) (odts_before t l') os).
Proof. exact late_stop. Qed.
Print Assumptions C135_stop_refuted.

(** ... and the beginning of a frame that to DISCONNECT. *)
Theorem C135_disconnect_refuted : forall c m l s o e t ev l' os,
  reachable c m l s o -> wf_env c e -> c_max_ent c < 65536 -> stamp_ok c ->
  represents c s t -> measuring s -> assigned s ev l' -> getN t l' = Some os -> sampleable c (time_stamp c e s) os ->
  used s + lenN os <= 4 ->
  forall e1 a len es, ready s -> dlc_ok c -> ~ programming s -> wf_env c e1 -> getN os 0 = Some ((a, len) :: es) ->
  exists w s' r p, others w = [(e1, ORecv [0xFE])] /\ take_all c w (Called ev (e_timer e)) s = Ok (Rest, s', [r; p]) /\
    p_dto r = false /\ p_data r = padded c [0xFF] /\
    p_dto p = true /\ p_data p = odts_before t l' mod 256 :: time_stamp c e s ++ mem_at (s_mem s) a len.
Proof. exact cut_disconnect. Qed.
Print Assumptions C135_disconnect_refuted.

(** Both runs, and that of C134_free_refuted, in the state of C134_case. *)
Example C135_case :
  ready smp_st /\ dlc_ok cfg_daq /\ daq_open cfg_daq smp_st /\ ~ programming smp_st /\ c_opt cfg_daq 0xD6 = true /\
  getN smp_os 0 = Some [(0x1000, 4); (0x1020, 2)] /\
  smp_frames (repeat Go 2 ++ [Other env_yes (ORecv [0xDD; 0])] ++ repeat Go 40) =
    Some ([[0; 4; 3; 2; 1; 0; 1; 2; 3; 0x20; 0x21]; [1; 0x30]], [[0xFF]]) /\
  smp_frames (repeat Go 9 ++ [Other env_yes (ORecv [0xFE])] ++ repeat Go 40) = Some ([[0; 4; 3; 2; 1; 0; 1; 2; 3]], [[0xFF]]) /\
  smp_frames (repeat Go 9 ++ [Other env_yes (ORecv [0xD6])] ++ repeat Go 40) = Some ([[0; 4; 3; 2; 1; 0; 1; 2; 3]], [[0xFF]]).
Proof.
  split; [vm_compute; repeat split; congruence|]. split; [discriminate|]. split; [apply daq_open_b; vm_compute; reflexivity|]. split; [vm_compute; discriminate|].
  repeat split; vm_compute; reflexivity.
Qed.

(** ** C136 A value of several bytes is sampled as it was at one moment: refuted *)

(** The application assigns a new value while the first entry is copied: the
    frame holds the first byte of the old value and the others of the new one. *)
Theorem C136_refuted : forall c m l s o e t ev l' os,
  reachable c m l s o -> wf_env c e -> c_max_ent c < 65536 -> stamp_ok c ->
  represents c s t -> measuring s -> assigned s ev l' -> getN t l' = Some os -> sampleable c (time_stamp c e s) os ->
  used s + lenN os <= 4 ->
  forall e1 a len es bs, getN os 0 = Some ((a, len) :: es) -> lenN bs = len ->
  exists w s' o' f fs, others w = [(e1, OAppWrite a bs)] /\ take_all c w (Called ev (e_timer e)) s = Ok (Rest, s', o') /\ emits o' (f :: fs) /\
    exists tl, f = odts_before t l' mod 256 :: time_stamp c e s ++ (s_mem s a :: List.tl bs) ++ tl.
Proof. exact torn_thm. Qed.
Print Assumptions C136_refuted.

(** 0x01FF becomes 0x0200 (big endian: 1, 0xFF and 2, 0 in the bytes 0x1020, 0x1021):
    sampled after its first byte was copied it is 0x0100. *)
Example C136_case :
  smp_frames (Other env_yes (OAppWrite 0x1020 [1; 0xFF]) :: repeat Go 11 ++ [Other env_yes (OAppWrite 0x1020 [2; 0])] ++ repeat Go 40) =
    Some ([[0; 4; 3; 2; 1; 0; 1; 2; 3; 1; 0]; [1; 0x30]], []).
Proof. vm_compute. reflexivity. Qed.
