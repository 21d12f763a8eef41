(** C07 - C11: frames and encodings. *)
From Coq Require Import NArith List Bool Lia.
From Verif Require Import Base Config Cfgs Codec State Core Spec SpecFrames Demo Steps Exec ProofsSession ProofsFrames CasesFrames.
Import ListNotations.
Open Scope N_scope.

(** ** C07 Frames respect MAX_CTO / MAX_DTO and are well formed *)
Theorem C07_frames : forall c m l s o p,
  reachable c m l s o -> In p o -> (exists n, frame_ok c n p) /\ lenN (p_data p) <= 255.
Proof. exact frames_thm. Qed.
Print Assumptions C07_frames.

(** A run with responses, an event packet and DAQ frames: one list, one ODT, one
    entry (2 bytes at address 0x1000), sampled twice. *)
Example C07_case :
  reachable cfg_can mem0 (map (pair env_yes) ex_daq) (demo_st cfg_can env_yes ex_daq) (demo_out cfg_can env_yes ex_daq) /\
  map (fun p => (p_dto p, p_data p)) (skipn 10 (demo_out cfg_can env_yes ex_daq)) =
    [(false, [0xFF]); (true, [0; 0; 1]); (true, [0; 0; 1])].
Proof. split; [apply can_at; vm_compute; reflexivity|vm_compute; reflexivity]. Qed.

(** ** C08 Frame counters are consecutive across both channels *)
Theorem C08_counters : forall c m l s o l' s' o',
  reachable c m l s o -> wf_run c l' -> no_init l' -> run c l' s = Ok (s', o') ->
  frames_from c (s_ctr s) o' /\
  s_ctr s' = (if c_ctr_size c =? 0 then s_ctr s else (s_ctr s + lenN o') mod 2 ^ 16) /\
  (c_stats c = true -> s_cros s' = (s_cros s + lenN o') mod 2 ^ 32).
Proof. exact counters_thm. Qed.
Print Assumptions C08_counters.

(** From power-on the frames are numbered 0, 1, 2, ... *)
Theorem C08_from_power_on : forall c m l s o, reachable c m l s o -> no_init l -> frames_from c 0 o.
Proof. exact first_counters_thm. Qed.
Print Assumptions C08_from_power_on.

Example C08_case :
  reachable cfg_eth mem0 (map (pair env_yes) ex_eth) (demo_st cfg_eth env_yes ex_eth) (demo_out cfg_eth env_yes ex_eth) /\
  no_init (map (pair env_yes) ex_eth) /\
  map p_hdr (demo_out cfg_eth env_yes ex_eth) = [[8; 0; 0; 0]; [5; 0; 1; 0]; [6; 0; 2; 0]] /\
  s_ctr (demo_st cfg_eth env_yes ex_eth) = 3.
Proof.
  split; [apply eth_at; vm_compute; reflexivity|]. split; [repeat constructor; discriminate|]. split; vm_compute; reflexivity.
Qed.

(** ** C09 The byte stream can be split into the original packets *)
Theorem C09_stream : forall c m l s o l' s' o',
  reachable c m l s o -> wf_run c l' -> no_init l' -> run c l' s = Ok (s', o') -> c_len_size c <> 0 ->
  decode c (length o') (concat (map wire o')) = Some (numbered c (s_ctr s) o').
Proof. exact stream_thm. Qed.
Print Assumptions C09_stream.

Example C09_case :
  c_len_size cfg_eth <> 0 /\
  concat (map wire (demo_out cfg_eth env_yes ex_eth)) =
    [8; 0; 0; 0; 255; 21; 128; 64; 64; 0; 1; 1; 5; 0; 1; 0; 253; 7; 1; 2; 3; 6; 0; 2; 0; 255; 0; 29; 0; 0; 0] /\
  numbered cfg_eth 0 (demo_out cfg_eth env_yes ex_eth) =
    [(0, [255; 21; 128; 64; 64; 0; 1; 1]); (1, [253; 7; 1; 2; 3]); (2, [255; 0; 29; 0; 0; 0])].
Proof. split; [discriminate|]. split; vm_compute; reflexivity. Qed.

(** ** C10 The parameter codec is lossless in both byte orders *)
Theorem C10_word : forall c b i v, i + 2 <= lenN b -> v < 2 ^ 16 ->
  gw c (sw c b i v) i = v /\ lenN (sw c b i v) = lenN b /\
  (forall j, j < i \/ i + 2 <= j -> gb (sw c b i v) j = gb b j).
Proof. exact word_thm. Qed.
Print Assumptions C10_word.

Theorem C10_dword : forall c b i v, i + 4 <= lenN b -> v < 2 ^ 32 ->
  gd c (sd c b i v) i = v /\ lenN (sd c b i v) = lenN b /\
  (forall j, j < i \/ i + 4 <= j -> gb (sd c b i v) j = gb b j).
Proof. exact dword_thm. Qed.
Print Assumptions C10_dword.

(** The values read are those of the documented layouts (least significant byte
    first for Intel, last for Motorola). *)
Theorem C10_layout_word : forall c b i, gw c b i = field c [gb b i; gb b (i + 1)].
Proof. exact gw_eq. Qed.
Print Assumptions C10_layout_word.
Theorem C10_layout_dword : forall c b i, gd c b i = field c [gb b i; gb b (i + 1); gb b (i + 2); gb b (i + 3)].
Proof. exact gd_eq. Qed.
Print Assumptions C10_layout_dword.

Example C10_case :
  sd cfg_eth [9; 9; 9; 9; 9; 9] 1 0x01020304 = [9; 4; 3; 2; 1; 9] /\
  sd (w_motorola true cfg_eth) [9; 9; 9; 9; 9; 9] 1 0x01020304 = [9; 1; 2; 3; 4; 9].
Proof. split; vm_compute; reflexivity. Qed.

(** ** C11 Multi-byte response fields use the advertised byte order: Intel only *)

(** The fields are always sent least significant byte first ... *)
Theorem C11_connect : forall c, wf_cfg c -> at_ (connect_response c) 4 2 = le_bytes 2 (c_max_dto c).
Proof. exact connect_dto. Qed.
Print Assumptions C11_connect.
Theorem C11_get_id : forall c m l s o e t,
  reachable c m l s o -> dlc_ok c -> ready s -> wf_env c e -> c_opt c 0xFA = true -> lenN (0xFA :: t) <= c_ctobuf c ->
  match ident c e (gb (rxbuf s (0xFA :: t)) 1) with
  | Some (a, len) => answers c e (0xFA :: t) s ([0xFF; 0; 0; 0] ++ le_bytes 4 len) (set_mta 0 a s)
  | None => answers c e (0xFA :: t) s ([0xFF; 0; 0; 0] ++ le_bytes 4 0) s
  end.
Proof. exact get_id_thm. Qed.
Print Assumptions C11_get_id.
Theorem C11_daq_clock : forall c m l s o e t,
  reachable c m l s o -> dlc_ok c -> ready s -> wf_env c e -> c_daq c = true -> c_opt c 0xDC = true ->
  ~ programming s -> ~ locked c 4 s -> lenN (0xDC :: t) <= c_ctobuf c ->
  answers c e (0xDC :: t) s ([0xFF; 0; 0; 0] ++ le_bytes 4 (e_timer e)) s.
Proof. exact clock_thm. Qed.
Print Assumptions C11_daq_clock.
Theorem C11_processor_info : forall c m l s o e t,
  reachable c m l s o -> dlc_ok c -> ready s -> c_daq c = true -> c_opt c 0xDA = true ->
  ~ programming s -> ~ locked c 4 s -> lenN (0xDA :: t) <= c_ctobuf c ->
  answers c e (0xDA :: t) s
    ([0xFF; if c_ts c then 0x13 else 3] ++ le_bytes 2 (d_lcnt (s_daq s)) ++ le_bytes 2 (c_nevents c) ++ [0; 0]) s.
Proof. exact processor_info_thm. Qed.
Print Assumptions C11_processor_info.

(** ... which is the advertised order of Intel builds ... *)
Theorem C11_intel : forall c k v, c_motorola c = false -> v < 256 ^ N.of_nat k -> field c (le_bytes k v) = v.
Proof. exact intel_thm. Qed.
Print Assumptions C11_intel.

(** ... but not of Motorola builds, whose master misreads MAX_DTO unless its two
    bytes are equal. *)
Theorem C11_refuted : forall c, c_motorola c = true -> wf_cfg c -> c_max_dto c mod 256 <> c_max_dto c / 256 ->
  field c (at_ (connect_response c) 4 2) <> c_max_dto c.
Proof. exact motorola_connect. Qed.
Print Assumptions C11_refuted.

Example C11_case :
  reachable cfg_can mem0 (map (pair env_yes) ex_daq) (demo_st cfg_can env_yes ex_daq) (demo_out cfg_can env_yes ex_daq) /\
  ready (demo_st cfg_can env_yes ex_daq) /\ ~ programming (demo_st cfg_can env_yes ex_daq) /\
  ~ locked cfg_can 4 (demo_st cfg_can env_yes ex_daq) /\ d_lcnt (s_daq (demo_st cfg_can env_yes ex_daq)) = 1 /\
  ident cfg_can env_yes 4 = Some (8300, 5) /\ e_timer env_yes = 0x01020304 /\
  wf_cfg (w_motorola true cfg_eth) /\ field (w_motorola true cfg_eth) (at_ (connect_response (w_motorola true cfg_eth)) 4 2) = 16384.
Proof.
  split; [apply can_at; vm_compute; reflexivity|]. split; [split; vm_compute; reflexivity|].
  split; [vm_compute; discriminate|]. split; [intros (_ & H); vm_compute in H; discriminate|].
  split; [vm_compute; reflexivity|]. split; [reflexivity|]. split; [reflexivity|]. split; [wf_cfg_tac|vm_compute; reflexivity].
Qed.
