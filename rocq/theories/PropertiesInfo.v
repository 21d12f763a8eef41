(** C78 - C84: information commands, programming mode, seeds, transport layer
    commands. *)
From Coq Require Import NArith List Bool Lia.
From Verif Require Import Base Config Cfgs Codec State Core Spec Demo SpecMem SpecDaq DemoDaq SpecInfo ProofsWrite ProofsInfo ProofsInfo2 ProofsInfo3.
Import ListNotations.
Open Scope N_scope.

(** ** C78 GET_STATUS and SYNCH *)

(** The protection status in byte 2; nothing changes. *)
Theorem C78_status : forall c m l s o e t, reachable c m l s o -> ready s -> dlc_ok c -> lenN (0xFD :: t) <= c_ctobuf c ->
  answers c e (0xFD :: t) s [0xFF; 0; (if c_protect c then s_prot s else 0); 0; 0; 0] s.
Proof. intros c m l s o e t R RD D. exact (status_thm c m l s o e R RD D t). Qed.
Print Assumptions C78_status.

(** A running measurement is not announced: bit 6 of the session status stays 0. *)
Theorem C78_running_refuted : forall c m l s o e t, reachable c m l s o -> ready s -> dlc_ok c -> measuring s -> lenN (0xFD :: t) <= c_ctobuf c ->
  exists s' p, step c e (ORecv (0xFD :: t)) s = Ok (s', [p]) /\ p_dto p = false /\ N.testbit (nth 1 (p_data p) 0) 6 = false.
Proof. exact status_running. Qed.
Print Assumptions C78_running_refuted.

(** SYNCH answers ERR_CMD_SYNCH in every connected state. *)
Theorem C78_synch : forall c m l s o e t, reachable c m l s o -> ready s -> dlc_ok c -> lenN (0xFC :: t) <= c_ctobuf c -> refuses c e (0xFC :: t) s 0.
Proof. intros c m l s o e t R RD D. exact (synch_thm c m l s o e R RD D t). Qed.
Print Assumptions C78_synch.

Example C78_case : let s := demo_st cfg_daq env_yes ex_max_entry in
  reachable cfg_daq mem0 (map (pair env_yes) ex_max_entry) s (demo_out cfg_daq env_yes ex_max_entry) /\ ready s /\ dlc_ok cfg_daq /\ measuring s /\
  match step cfg_daq env_yes (ORecv [0xFD]) s with Ok (_, o) => map p_data o | UB _ => [] end = [[0xFF; 0; 25; 0; 0; 0]].
Proof.
  cbv zeta. split; [apply demo_at; [apply wf_daq|apply wf_yes, wf_daq|vm_compute; reflexivity]|].
  split; [vm_compute; split; reflexivity|]. split; [intro H; discriminate H|]. split; [vm_compute; reflexivity|vm_compute; reflexivity].
Qed.

(** ** C79 The identification announced by GET_ID can be uploaded *)

(** Length of the text, little-endian; the MTA points to it. *)
Theorem C79_announced : forall c m l s o e t tl a n, reachable c m l s o -> ready s -> dlc_ok c -> c_opt c 0xFA = true ->
  lenN (0xFA :: t :: tl) <= c_ctobuf c -> wf_env c e -> identification c e t = Some (a, n) ->
  answers c e (0xFA :: t :: tl) s ([0xFF; 0; 0; 0] ++ le_bytes 4 n) (set_s_maddr a (set_s_mext 0 s)).
Proof. intros c m l s o e t tl a n R RD D. exact (get_id_known c m l s o e R RD D t tl a n). Qed.
Print Assumptions C79_announced.

(** A following UPLOAD delivers the text from its first byte on. *)
Theorem C79_uploaded : forall c m l s o e t tl a n, reachable c m l s o -> ready s -> dlc_ok c -> c_opt c 0xFA = true -> bytes (0xFA :: t :: tl) ->
  lenN (0xFA :: t :: tl) <= c_ctobuf c -> wf_env c e -> identification c e t = Some (a, n) ->
  exists s1 o1, step c e (ORecv (0xFA :: t :: tl)) s = Ok (s1, o1) /\
    forall e' k tl', c_opt c 0xF5 = true -> c_sbm c = false -> ~ programming s -> lenN (0xF5 :: k :: tl') <= c_ctobuf c ->
      granted c e' 0 a k false false -> 1 <= k < c_max_cto c -> in_space c (target c e' 0 a) k ->
      delivers c e' (0xF5 :: k :: tl') s1 (0xFF :: mem_at (s_mem s) (target c e' 0 a) k) (mta_at c 0 (a + k) s).
Proof. exact id_uploadable. Qed.
Print Assumptions C79_uploaded.

(** Unknown types: length zero, the MTA stays. *)
Theorem C79_unknown : forall c m l s o e t tl, reachable c m l s o -> ready s -> dlc_ok c -> c_opt c 0xFA = true ->
  lenN (0xFA :: t :: tl) <= c_ctobuf c -> identification c e t = None -> answers c e (0xFA :: t :: tl) s [0xFF; 0; 0; 0; 0; 0; 0; 0] s.
Proof. exact get_id_none. Qed.
Print Assumptions C79_unknown.

Example C79_case : let l := [ORecv [0xFF; 0]] in let s := demo_st cfg_eth env_yes l in
  reachable cfg_eth mem0 (map (pair env_yes) l) s (demo_out cfg_eth env_yes l) /\ ready s /\ dlc_ok cfg_eth /\ c_opt cfg_eth 0xFA = true /\ c_sbm cfg_eth = false /\
  identification cfg_eth env_yes 1 = Some (8208, 7) /\ identification cfg_eth env_yes 77 = None /\ ~ programming s /\
  granted cfg_eth env_yes 0 8208 7 false false /\ in_space cfg_eth 8208 7 /\
  match run cfg_eth (map (pair env_yes) [ORecv [0xFA; 1]; ORecv [0xF5; 7]]) s with Ok (_, o) => map p_data o | UB _ => [] end
  = [[0xFF; 0; 0; 0; 7; 0; 0; 0]; 0xFF :: mem_at mem0 8208 7].
Proof.
  cbv zeta. split; [apply eth_at; vm_compute; reflexivity|].
  split; [vm_compute; split; reflexivity|]. split; [intro H; discriminate H|]. do 5 (split; [vm_compute; first [reflexivity|congruence]|]).
  split; [intros _; vm_compute; reflexivity|]. split; [unfold in_space; vm_compute; discriminate|]. vm_compute. reflexivity.
Qed.

(** ** C80 The announced capabilities are the compiled ones *)

Theorem C80_comm_mode : forall c m l s o e t, reachable c m l s o -> ready s -> dlc_ok c -> c_opt c 0xFB = true -> lenN (0xFB :: t) <= c_ctobuf c ->
  answers c e (0xFB :: t) s [0xFF; 0; (if c_mbm c then 1 else 0); 0; c_max_bs c; c_min_st c; c_queue_size c; 10] s.
Proof. intros c m l s o e t R RD D. exact (comm_mode_thm c m l s o e R RD D t). Qed.
Print Assumptions C80_comm_mode.

(** Event channels: properties, one DAQ list, name length, cycle, unit, priority
    0.  The MTA points to the name if there is one. *)
Theorem C80_event : forall c m l s o e r a b tl x, let f := 0xD7 :: r :: a :: b :: tl in
  let named := negb ((ev_name x =? 0) || (ev_nlen x =? 0)) in
  reachable c m l s o -> ready s -> dlc_ok c -> c_daq c = true -> c_opt c 0xD7 = true -> ~ locked c 4 s -> bytes f -> lenN f <= c_ctobuf c ->
  getN (c_events c) (field c [a; b]) = Some x ->
  answers c e f s [0xFF; ev_props x; 1; (if named then ev_nlen x else 0); ev_cycle x; ev_unit x; 0]
    (if named then set_s_maddr (ev_name x) (set_s_mext 0 s) else s).
Proof. intros c m l s o e r a b tl x f named R RD D. exact (ev_info_thm c m l s o e R RD D r a b tl x). Qed.
Print Assumptions C80_event.
Theorem C80_no_event : forall c m l s o e r a b tl, let f := 0xD7 :: r :: a :: b :: tl in
  reachable c m l s o -> ready s -> dlc_ok c -> c_daq c = true -> c_opt c 0xD7 = true -> ~ locked c 4 s -> bytes f -> lenN f <= c_ctobuf c ->
  lenN (c_events c) <= field c [a; b] -> refuses c e f s 0x22.
Proof. intros c m l s o e r a b tl f R RD D. exact (ev_info_bad c m l s o e R RD D r a b tl). Qed.
Print Assumptions C80_no_event.

(** ODT entries of any size up to MAX_DTO - 1, time stamps of 4 bytes counting
    microseconds: for builds with up to 256-byte DTOs and 4-byte time stamps this
    is so. *)
Theorem C80_resolution : forall c m l s o e t, reachable c m l s o -> ready s -> dlc_ok c -> daq_open c s -> c_opt c 0xD9 = true ->
  lenN (0xD9 :: t) <= c_ctobuf c -> c_max_dto c <= 256 ->
  answers c e (0xD9 :: t) s [0xFF; 1; c_max_dto c - 1; 1; c_max_dto c - 1; 0x34; 1; 0] s.
Proof. exact resolution_small. Qed.
Print Assumptions C80_resolution.
(** Other time stamps are announced as 4-byte ones just the same. *)
Theorem C80_time_stamp_refuted : forall c m l s o e t, reachable c m l s o -> ready s -> dlc_ok c -> daq_open c s -> c_opt c 0xD9 = true ->
  lenN (0xD9 :: t) <= c_ctobuf c -> c_ts_size c <> 4 ->
  exists p s', step c e (ORecv (0xD9 :: t)) s = Ok (s', [p]) /\ forall v, N.land (nth 5 (p_data p) 0) 7 <> lenN (stamp c v).
Proof. exact resolution_ts. Qed.
Print Assumptions C80_time_stamp_refuted.
(** Longer DTOs: the announced size is the real one modulo 256, possibly 0. *)
Theorem C80_size_refuted : forall c m l s o e t, reachable c m l s o -> ready s -> dlc_ok c -> daq_open c s -> c_opt c 0xD9 = true ->
  lenN (0xD9 :: t) <= c_ctobuf c -> 256 < c_max_dto c ->
  exists p s', step c e (ORecv (0xD9 :: t)) s = Ok (s', [p]) /\ nth 4 (p_data p) 0 <> c_max_dto c - 1.
Proof. exact resolution_wide. Qed.
Print Assumptions C80_size_refuted.
(** An entry of the announced size does not fit beside a time stamp: sampling it
    fails an assertion. *)
Theorem C80_entry_refuted : exists m l s o e, reachable cfg_daq m l s o /\ measuring s /\
  (exists s1 p, step cfg_daq e (ORecv [0xD9]) s = Ok (s1, [p]) /\ nth 4 (p_data p) 0 = 63) /\
  represents cfg_daq s [[[(0x1000, 63)]]] /\ step cfg_daq e (OTrigger 0) s = UB Assert.
Proof. exact entry_too_long. Qed.
Print Assumptions C80_entry_refuted.

Theorem C80_pgm : forall c m l s o e t, reachable c m l s o -> ready s -> dlc_ok c -> c_pgm c = true -> c_opt c 0xCE = true -> lenN (0xCE :: t) <= c_ctobuf c ->
  answers c e (0xCE :: t) s [0xFF; c_pgm_props c; c_max_sector c] s.
Proof. intros c m l s o e t R RD D. exact (pgm_info_thm c m l s o e R RD D t). Qed.
Print Assumptions C80_pgm.
(** GET_SECTOR_INFO checks sector and mode ... *)
Theorem C80_no_sector : forall c m l s o e md n tl, let f := 0xCD :: md :: n :: tl in reachable c m l s o -> ready s -> dlc_ok c -> c_pgm c = true -> c_opt c 0xCD = true ->
  lenN f <= c_ctobuf c -> c_max_sector c <= n \/ 1 < md -> refuses c e f s (if c_max_sector c <=? n then 0x28 else 0x27).
Proof. intros c m l s o e md n tl f R RD D. exact (sector_bad c m l s o e R RD D md n tl). Qed.
Print Assumptions C80_no_sector.
(** ... but gives neither start address (mode 0) nor length (mode 1): the answer is
    the same for both and depends on the sector number only. *)
Theorem C80_sector_refuted : forall c m l s o e md n tl, let f := 0xCD :: md :: n :: tl in reachable c m l s o -> ready s -> dlc_ok c -> c_pgm c = true -> c_opt c 0xCD = true ->
  lenN f <= c_ctobuf c -> n < c_max_sector c -> md <= 1 -> answers c e f s [0xFF; 2 * n mod 256; (2 * n + 1) mod 256; 0; 0; 0; 0; 0] s.
Proof. intros c m l s o e md n tl f R RD D. exact (sector_thm c m l s o e R RD D md n tl). Qed.
Print Assumptions C80_sector_refuted.

Example C80_case : let l := [ORecv [0xFF; 0]] in let s := demo_st cfg_daq env_yes l in
  reachable cfg_daq mem0 (map (pair env_yes) l) s (demo_out cfg_daq env_yes l) /\ ready s /\ dlc_ok cfg_daq /\ daq_open cfg_daq s /\ ~ locked cfg_daq 4 s /\
  (forall k, In k [0xFB; 0xD7; 0xD9; 0xCE; 0xCD] -> c_opt cfg_daq k = true) /\
  getN (c_events cfg_daq) (field cfg_daq [1; 0]) = Some (mkEvent 4100 3 4 6 100) /\ lenN (c_events cfg_daq) <= field cfg_daq [3; 0] /\ 5 < c_max_sector cfg_daq /\
  match run cfg_daq (map (pair env_yes) (map ORecv [[0xFB]; [0xD7; 0; 1; 0]; [0xD7; 0; 3; 0]; [0xD9]; [0xCE]; [0xCD; 0; 5]; [0xCD; 1; 5]; [0xCD; 2; 5]; [0xCD; 0; 32]])) s with Ok (_, o) => map p_data o | UB _ => [] end
  = [[0xFF; 0; 0; 0; 8; 0; 0; 10]; [0xFF; 4; 1; 3; 100; 6; 0]; [0xFE; 0x22]; [0xFF; 1; 63; 1; 63; 0x34; 1; 0]; [0xFF; 1; 32];
     [0xFF; 10; 11; 0; 0; 0; 0; 0]; [0xFF; 10; 11; 0; 0; 0; 0; 0]; [0xFE; 0x27]; [0xFE; 0x28]].
Proof.
  cbv zeta. split; [apply daq_at; vm_compute; reflexivity|]. split; [vm_compute; split; reflexivity|]. split; [intro H; discriminate H|].
  split; [apply daq_open_b; vm_compute; reflexivity|]. split; [apply (daq_open_b cfg_daq); vm_compute; reflexivity|].
  split; [intros k H; repeat (destruct H as [<-|H]; [vm_compute; reflexivity|]); contradiction|].
  split; [vm_compute; reflexivity|]. split; [vm_compute; discriminate|]. split; [vm_compute; reflexivity|]. vm_compute. reflexivity.
Qed.
Example C80_refuted_case : let l := [ORecv [0xFF; 0]] in
  (let s := demo_st cfg_ts2 env_yes l in reachable cfg_ts2 mem0 (map (pair env_yes) l) s (demo_out cfg_ts2 env_yes l) /\ ready s /\ daq_open cfg_ts2 s /\ c_ts_size cfg_ts2 <> 4) /\
  (let s := demo_st cfg_wide env_yes l in reachable cfg_wide mem0 (map (pair env_yes) l) s (demo_out cfg_wide env_yes l) /\ ready s /\ daq_open cfg_wide s /\ 256 < c_max_dto cfg_wide).
Proof.
  cbv zeta. split.
  - split; [apply demo_at; [apply wf_ts2|apply wf_yes, wf_ts2|vm_compute; reflexivity]|]. split; [vm_compute; split; reflexivity|].
    split; [apply daq_open_b; vm_compute; reflexivity|]. discriminate.
  - split; [apply demo_at; [apply wf_wide|apply wf_yes, wf_wide|vm_compute; reflexivity]|]. split; [vm_compute; split; reflexivity|].
    split; [apply daq_open_b; vm_compute; reflexivity|]. vm_compute. reflexivity.
Qed.

(** ** C81 Programming mode *)

(** PROGRAM_START enters it; nothing else changes. *)
Theorem C81_start : forall c m l s o e t, reachable c m l s o -> ready s -> dlc_ok c -> c_pgm c = true -> ~ locked c 16 s -> ~ measuring s -> lenN (0xD2 :: t) <= c_ctobuf c ->
  answers c e (0xD2 :: t) s [0xFF; 0; 0; c_max_cto c; c_max_bs_pgm c; c_min_st_pgm c; 0] (set_s_pgm PgmActive s).
Proof. intros c m l s o e t R RD D. exact (program_start_thm c m l s o e R RD D t). Qed.
Print Assumptions C81_start.
(** Outside of it every programming command is answered ERR_SEQUENCE. *)
Theorem C81_sequence : forall c m l s o e k t, reachable c m l s o -> ready s -> dlc_ok c -> program_code c k -> lenN (k :: t) <= c_ctobuf c ->
  ~ programming s -> refuses c e (k :: t) s 0x29.
Proof. exact program_sequence. Qed.
Print Assumptions C81_sequence.
(** PROGRAM_RESET leaves it, and does no more: the slave stays connected. *)
Theorem C81_reset : forall c m l s o e t, reachable c m l s o -> ready s -> dlc_ok c -> c_pgm c = true -> programming s -> lenN (0xCF :: t) <= c_ctobuf c ->
  answers c e (0xCF :: t) s [0xFF] (set_s_pgm PgmIdle s).
Proof. intros c m l s o e t R RD D. exact (program_reset_thm c m l s o e R RD D t). Qed.
Print Assumptions C81_reset.

Example C81_case : let l := [ORecv [0xFF; 0]; ORecv [0xF8; 0; 16]; ORecv [0xF7; 1; 0x42]] in let s := demo_st cfg_eth env_yes l in
  reachable cfg_eth mem0 (map (pair env_yes) l) s (demo_out cfg_eth env_yes l) /\ ready s /\ dlc_ok cfg_eth /\ ~ locked cfg_eth 16 s /\ ~ measuring s /\ ~ programming s /\
  program_code cfg_eth 0xD1 /\ program_code cfg_eth 0xC9 /\
  (let l := l ++ [ORecv [0xD2]] in let s := demo_st cfg_eth env_yes l in
    reachable cfg_eth mem0 (map (pair env_yes) l) s (demo_out cfg_eth env_yes l) /\ ready s /\ programming s) /\
  match run cfg_eth (map (pair env_yes) (map ORecv [[0xD1]; [0xD2]; [0xD1]; [0xF6; 0; 0; 0; 0; 0; 0; 0]; [0xF5; 1]; [0xCF]; [0xC9]])) s with Ok (_, o) => map p_data o | UB _ => [] end
  = [[0xFE; 0x29]; [0xFF; 0; 0; 64; 0; 0; 0]; [0xFF]; [0xFF]; [0xFE; 0x12]; [0xFF]; [0xFE; 0x29]].
Proof.
  cbv zeta. split; [apply eth_at; vm_compute; reflexivity|]. split; [vm_compute; split; reflexivity|]. split; [intro H; discriminate H|].
  split; [intros [_ H]; vm_compute in H; discriminate H|]. split; [vm_compute; discriminate|]. split; [vm_compute; discriminate|].
  split; [split; [left; reflexivity|split; [reflexivity|intro H; discriminate H]]|].
  split; [split; [do 6 right; left; reflexivity|split; reflexivity]|].
  split; [|vm_compute; reflexivity]. split; [apply eth_at; vm_compute; reflexivity|]. split; [vm_compute; split; reflexivity|vm_compute; reflexivity].
Qed.

(** ** C82 GET_SEED and UNLOCK *)

(** For a locked resource: length and bytes of the seed, up to MAX_CTO - 2; the
    resource is remembered, nothing else changes. *)
Theorem C82_seed : forall c m l s o e md r tl, let f := 0xF8 :: md :: r :: tl in let n := N.min (c_max_cto c - 2) (lenN (e_seed e r)) in
  reachable c m l s o -> ready s -> c_max_dlc c = false -> c_opt c 0xF8 = true -> ~ programming s -> lenN f <= c_ctobuf c ->
  has_resource c r -> locked c r s -> e_seed e r <> [] ->
  answers c e f s (0xFF :: n :: firstn (N.to_nat n) (e_seed e r)) (set_s_seed (N.lor (s_seed s) r) s).
Proof. intros c m l s o e md r tl f n R RD. exact (seed_locked c m l s o e R RD md r tl). Qed.
Print Assumptions C82_seed.
(** A longer seed cannot be obtained: requests for the remainder (mode 1) get its
    first bytes again. *)
Theorem C82_rest_refuted : forall c m l s o e r tl, let f := 0xF8 :: 1 :: r :: tl in
  reachable c m l s o -> ready s -> c_max_dlc c = false -> c_opt c 0xF8 = true -> ~ programming s -> lenN f <= c_ctobuf c ->
  has_resource c r -> locked c r s -> c_max_cto c - 2 < lenN (e_seed e r) ->
  answers c e f s (0xFF :: c_max_cto c - 2 :: firstn (N.to_nat (c_max_cto c - 2)) (e_seed e r)) (set_s_seed (N.lor (s_seed s) r) s).
Proof. exact seed_rest. Qed.
Print Assumptions C82_rest_refuted.
(** Unprotected resources: length 0. *)
Theorem C82_free : forall c m l s o e md r tl, let f := 0xF8 :: md :: r :: tl in
  reachable c m l s o -> ready s -> c_max_dlc c = false -> c_opt c 0xF8 = true -> ~ programming s -> lenN f <= c_ctobuf c ->
  has_resource c r -> ~ locked c r s -> answers c e f s [0xFF; 0] (set_s_seed (N.lor (s_seed s) r) s).
Proof. intros c m l s o e md r tl f R RD. exact (seed_free c m l s o e R RD md r tl). Qed.
Print Assumptions C82_free.
Theorem C82_unknown : forall c m l s o e md r tl, let f := 0xF8 :: md :: r :: tl in
  reachable c m l s o -> ready s -> dlc_ok c -> c_opt c 0xF8 = true -> ~ programming s -> lenN f <= c_ctobuf c -> ~ has_resource c r -> refuses c e f s 0x22.
Proof. intros c m l s o e md r tl f R RD. exact (seed_unknown c m l s o e R RD md r tl). Qed.
Print Assumptions C82_unknown.
(** UNLOCK without a seed, and with the right key: the new protection status. *)
Theorem C82_no_seed : forall c m l s o e tl, let f := 0xF7 :: tl in
  reachable c m l s o -> ready s -> dlc_ok c -> c_opt c 0xF7 = true -> ~ programming s -> lenN f <= c_ctobuf c -> s_seed s = 0 -> refuses c e f s 0x29.
Proof. intros c m l s o e tl f R RD. exact (unlock_none c m l s o e R RD tl). Qed.
Print Assumptions C82_no_seed.
Theorem C82_unlock : forall c m l s o e n tl, let f := 0xF7 :: n :: tl in
  reachable c m l s o -> ready s -> dlc_ok c -> c_opt c 0xF7 = true -> ~ programming s -> lenN f <= c_ctobuf c ->
  s_seed s <> 0 -> e_unlock e (s_seed s) n (skipn 2 (rxbuf s f)) = true ->
  answers c e f s [0xFF; N.ldiff (s_prot s) (s_seed s)] (set_s_seed 0 (set_s_prot (N.ldiff (s_prot s) (s_seed s)) s)).
Proof. intros c m l s o e n tl f R RD. exact (unlock_ok c m l s o e R RD n tl). Qed.
Print Assumptions C82_unlock.

Example C82_case : let l := [ORecv [0xFF; 0]] in let s := demo_st cfg_small env_long l in
  reachable cfg_small mem0 (map (pair env_long) l) s (demo_out cfg_small env_long l) /\ ready s /\ c_max_dlc cfg_small = false /\ c_opt cfg_small 0xF8 = true /\
  ~ programming s /\ has_resource cfg_small 4 /\ ~ has_resource cfg_small 8 /\ locked cfg_small 4 s /\ c_max_cto cfg_small - 2 < lenN (e_seed env_long 4) /\ s_seed s = 0 /\
  (let s := demo_st cfg_small env_long (l ++ [ORecv [0xF8; 0; 4]]) in s_seed s <> 0 /\
    e_unlock env_long (s_seed s) 1 (skipn 2 (rxbuf s [0xF7; 1; 0x42])) = true) /\
  match run cfg_small (map (pair env_long) (map ORecv [[0xF7; 1; 1]; [0xF8; 0; 4]; [0xF8; 1; 4]; [0xF7; 1; 0x42]; [0xF8; 0; 4]; [0xF8; 0; 8]])) s
    with Ok (_, o) => map p_data o | UB _ => [] end
  = [[0xFE; 0x29]; [0xFF; 6; 4; 0xA1; 0xA2; 0xA3; 0xA4; 0xA5]; [0xFF; 6; 4; 0xA1; 0xA2; 0xA3; 0xA4; 0xA5]; [0xFF; 25]; [0xFF; 0]; [0xFE; 0x22]].
Proof.
  cbv zeta. split; [apply demo_at; [apply wf_small|apply wf_long, wf_small|vm_compute; reflexivity]|]. split; [vm_compute; split; reflexivity|].
  split; [reflexivity|]. split; [reflexivity|]. split; [vm_compute; discriminate|]. split; [right; left; split; reflexivity|].
  split; [intros [[H _]|[[H _]|[H _]]]; discriminate H|]. split; [split; vm_compute; reflexivity|]. split; [vm_compute; reflexivity|]. split; [vm_compute; reflexivity|].
  split; [split; [vm_compute; discriminate|vm_compute; reflexivity]|]. vm_compute. reflexivity.
Qed.

(** ** C83 CLEAR_DAQ_LIST and GET_DAQ_LIST_MODE *)

(** CLEAR_DAQ_LIST is acknowledged for any list number and clears nothing: the
    whole session, and with it the configuration, stays as it was. *)
Theorem C83_clear_refuted : forall c m l s o e t, reachable c m l s o -> ready s -> dlc_ok c -> daq_open c s -> lenN (0xE3 :: t) <= c_ctobuf c ->
  answers c e (0xE3 :: t) s [0xFF] s.
Proof. intros c m l s o e t R RD D. exact (clear_thm c m l s o e R RD D t). Qed.
Print Assumptions C83_clear_refuted.
(** GET_DAQ_LIST_MODE is acknowledged without any mode, for any list number. *)
Theorem C83_mode_refuted : forall c m l s o e t, reachable c m l s o -> ready s -> dlc_ok c -> daq_open c s -> lenN (0xDF :: t) <= c_ctobuf c ->
  answers c e (0xDF :: t) s [0xFF] s.
Proof. intros c m l s o e t R RD D. exact (list_mode_thm c m l s o e R RD D t). Qed.
Print Assumptions C83_mode_refuted.
Example C83_case : let s := demo_st cfg_daq env_yes ex_write in
  reachable cfg_daq mem0 (map (pair env_yes) ex_write) s (demo_out cfg_daq env_yes ex_write) /\ ready s /\ dlc_ok cfg_daq /\ daq_open cfg_daq s /\
  represents cfg_daq s ex_tree /\ represents cfg_daq (demo_st cfg_daq env_yes (ex_write ++ [ORecv [0xE3; 0; 0; 0]; ORecv [0xE3; 0; 77; 0]])) ex_tree.
Proof.
  cbv zeta. split; [apply daq_at; vm_compute; reflexivity|]. split; [vm_compute; split; reflexivity|]. split; [intro H; discriminate H|].
  split; [apply daq_open_b; vm_compute; reflexivity|].
  split; [apply daq_rep; vm_compute; reflexivity|apply daq_rep; vm_compute; reflexivity].
Qed.

(** ** C84 CAN transport layer commands *)

(** GET_SLAVE_ID echoes "XCP" (mode 0) or its complement (mode 1) and gives the
    identifier for commands. *)
Theorem C84_slave_id : forall c m l s o e x y z md tl, let f := 0xF2 :: 0xFF :: x :: y :: z :: md :: tl in
  reachable c m l s o -> ready s -> dlc_ok c -> c_opt c 0xF2 = true -> ~ programming s -> lenN f <= c_ctobuf c ->
  answers c e f s ([0xFF] ++ (if md =? 1 then [0xFF - 0x58; 0xFF - 0x43; 0xFF - 0x50] else [0x58; 0x43; 0x50]) ++ le_bytes 4 (c_can_id c)) s.
Proof. intros c m l s o e x y z md tl f R RD D. exact (slave_id_thm c m l s o e R RD D x y z md tl). Qed.
Print Assumptions C84_slave_id.
(** GET_DAQ_ID, for little-endian list numbers below 256. *)
Theorem C84_daq_id : forall c m l s o e n tl, let f := 0xF2 :: 0xFE :: n :: tl in
  reachable c m l s o -> ready s -> dlc_ok c -> c_opt c 0xF2 = true -> ~ programming s -> lenN f <= c_ctobuf c ->
  match getN (c_daq_ids c) n with
  | Some id => answers c e f s ([0xFF; 1; 0; 0] ++ le_bytes 4 id) s
  | None => refuses c e f s 0x22
  end.
Proof. intros c m l s o e n tl f R RD D. exact (daq_id_thm c m l s o e R RD D n tl). Qed.
Print Assumptions C84_daq_id.
(** The list number is a WORD; its other byte is ignored.  Motorola slaves
    therefore answer for list 0 when asked for any other. *)
Theorem C84_motorola_refuted : forall c m l s o e n tl id, let f := 0xF2 :: 0xFE :: 0 :: n :: tl in
  reachable c m l s o -> ready s -> dlc_ok c -> c_opt c 0xF2 = true -> ~ programming s -> lenN f <= c_ctobuf c -> c_motorola c = true ->
  getN (c_daq_ids c) 0 = Some id -> field c [0; n] = n /\ answers c e f s ([0xFF; 1; 0; 0] ++ le_bytes 4 id) s.
Proof. exact daq_id_motorola. Qed.
Print Assumptions C84_motorola_refuted.
Example C84_case : let l := [ORecv [0xFF; 0]] in let s := demo_st cfg_be env_yes l in
  reachable cfg_be mem0 (map (pair env_yes) l) s (demo_out cfg_be env_yes l) /\ ready s /\ dlc_ok cfg_be /\ c_opt cfg_be 0xF2 = true /\ ~ programming s /\
  c_motorola cfg_be = true /\ getN (c_daq_ids cfg_be) 0 = Some 0x300 /\
  match run cfg_be (map (pair env_yes) (map ORecv [[0xF2; 0xFF; 0x58; 0x43; 0x50; 0]; [0xF2; 0xFF; 0x58; 0x43; 0x50; 1]; [0xF2; 0xFE; 0; 1]; [0xF2; 0xFE; 2; 0]])) s
    with Ok (_, o) => map p_data o | UB _ => [] end
  = [[0xFF; 0x58; 0x43; 0x50; 2; 1; 0; 0]; [0xFF; 0xA7; 0xBC; 0xAF; 2; 1; 0; 0]; [0xFF; 1; 0; 0; 0; 3; 0; 0]; [0xFE; 0x22]].
Proof.
  cbv zeta. split; [apply demo_at; [apply wf_be|apply wf_yes, wf_be|vm_compute; reflexivity]|]. split; [vm_compute; split; reflexivity|]. split; [intro H; discriminate H|].
  split; [vm_compute; reflexivity|]. split; [vm_compute; discriminate|]. split; [reflexivity|]. split; [reflexivity|]. vm_compute. reflexivity.
Qed.
