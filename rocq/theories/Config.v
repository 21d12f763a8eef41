(** Compile-time configuration (macros) and run-time environment (hooks). *)
From Coq Require Import NArith List Bool.
From Verif Require Import Base.
Import ListNotations.
Open Scope N_scope.

(** inc/xcp.h 1091-1100: checksum methods (the user-defined method has no
    implementation in the repository). *)
Inductive cksum := ADD11 | ADD12 | ADD14 | ADD22 | ADD24 | ADD44 | CRC16 | CRC16CITT | CRC32.

Definition cksum_code (m : cksum) : N :=
  match m with
  | ADD11 => 1 | ADD12 => 2 | ADD14 => 3 | ADD22 => 4 | ADD24 => 5 | ADD44 => 6
  | CRC16 => 7 | CRC16CITT => 8 | CRC32 => 9
  end.

(** src/hw/posix/hw.c: default pthread mutexes (acquiring a held one blocks);
    src/hw/win/hw.c: CRITICAL_SECTION (recursive). *)
Inductive lockkind := LockNormal | LockRecursive.

(** inc/xcp.h 889-897: event descriptor; [ev_name] is the address of the name
    (0 = XCP_NULL). *)
Record event := mkEvent { ev_name : N; ev_nlen : N; ev_props : N; ev_unit : N; ev_cycle : N }.

(** One field per macro that influences the modelled behaviour.
    Simplification: predefined DAQ lists, STIM and PAG are off (STIM and several
    DAQ options are rejected by #error in inc/xcp.h 70-94; PAG, SET_REQUEST and
    READ_DAQ handlers are not defined anywhere in the repository). *)
Record cfg := mkCfg {
  c_max_cto : N;         (* XCP_MAX_CTO                           *)
  c_max_dto : N;         (* XCP_MAX_DTO                           *)
  c_len_size : N;        (* XCP_TRANSPORT_LAYER_LENGTH_SIZE 0,1,2 *)
  c_ctr_size : N;        (* XCP_TRANSPORT_LAYER_COUNTER_SIZE 0,1,2 *)
  c_max_dlc : bool;      (* XCP_ON_CAN_MAX_DLC_REQUIRED           *)
  c_motorola : bool;     (* XCP_BYTE_ORDER                        *)
  c_gran : N;            (* XCP_ADDRESS_GRANULARITY 0,2,4         *)
  c_sbm : bool;          (* XCP_ENABLE_SLAVE_BLOCKMODE            *)
  c_mbm : bool;          (* XCP_ENABLE_MASTER_BLOCKMODE           *)
  c_max_bs : N;          (* XCP_MAX_BS                            *)
  c_min_st : N;          (* XCP_MIN_ST                            *)
  c_queue_size : N;      (* XCP_QUEUE_SIZE                        *)
  c_max_bs_pgm : N;      (* XCP_MAX_BS_PGM                        *)
  c_min_st_pgm : N;      (* XCP_MIN_ST_PGM                        *)
  c_max_sector : N;      (* XCP_MAX_SECTOR_PGM                    *)
  c_pgm_props : N;       (* XCP_PGM_PROPERIES                     *)
  c_cal : bool;          (* XCP_ENABLE_CAL_COMMANDS               *)
  c_daq : bool;          (* XCP_ENABLE_DAQ_COMMANDS               *)
  c_pgm : bool;          (* XCP_ENABLE_PGM_COMMANDS               *)
  c_opt : N -> bool;     (* XCP_ENABLE_<optional command>, by command code *)
  c_prot_cal : bool;     (* XCP_PROTECT_CAL or XCP_PROTECT_PAG    *)
  c_prot_daq : bool;     (* XCP_PROTECT_DAQ                       *)
  c_prot_stim : bool;    (* XCP_PROTECT_STIM                      *)
  c_prot_pgm : bool;     (* XCP_PROTECT_PGM                       *)
  c_chkmem : bool;       (* XCP_ENABLE_CHECK_MEMORY_ACCESS        *)
  c_mapper : bool;       (* XCP_ENABLE_ADDRESS_MAPPER             *)
  c_idhook : bool;       (* XCP_ENABLE_GET_ID_HOOK                *)
  c_id0 : N * N;         (* address and length of XCP_GET_ID_0    *)
  c_id1 : N * N;         (* address and length of XCP_GET_ID_1    *)
  c_max_ent : N;         (* XCP_DAQ_MAX_DYNAMIC_ENTITIES          *)
  c_events : list event; (* XcpDaq_Events, XCP_DAQ_MAX_EVENT_CHANNEL long *)
  c_ts : bool;           (* XCP_DAQ_ENABLE_TIMESTAMPING           *)
  c_ts_size : N;         (* XCP_DAQ_TIMESTAMP_SIZE 1,2,4          *)
  c_prescaler : bool;    (* XCP_DAQ_ENABLE_PRESCALER              *)
  c_clock_always : bool; (* XCP_DAQ_ENABLE_CLOCK_ACCESS_ALWAYS    *)
  c_reset_seq : bool;    (* XCP_DAQ_ENABLE_RESET_DYN_DAQ_CONFIG_ON_SEQUENCE_ERROR *)
  c_queue_slots : N;     (* XCP_DAQ_QUEUE_SIZE, src/xcp_daq.c 44: 4 *)
  c_cks : cksum;         (* XCP_CHECKSUM_METHOD                   *)
  c_chunked : bool;      (* XCP_CHECKSUM_CHUNKED_CALCULATION      *)
  c_chunk : N;           (* XCP_CHECKSUM_CHUNK_SIZE               *)
  c_max_blk : N;         (* XCP_CHECKSUM_MAXIMUM_BLOCK_SIZE       *)
  c_stats : bool;        (* XCP_ENABLE_STATISTICS                 *)
  c_ev_api : bool;       (* XCP_ENABLE_EVENT_PACKET_API           *)
  c_srv_api : bool;      (* XCP_ENABLE_SERVICE_REQUEST_API        *)
  c_lock : lockkind;     (* locks of src/hw                       *)
  c_ptr_bits : N;        (* width of Xcp_PointerSizeType, 32 or 64 (inc/xcp_types.h 76-86) *)
  c_host_be : bool;      (* byte order of the target processor    *)
  c_buf_addr : N;        (* address of Xcp_CtoIn.data             *)
  c_can_id : N;          (* XCP_ON_CAN_OUTBOUND_IDENTIFIER        *)
  c_daq_ids : list N     (* Xcp_DaqIDs                            *)
}.

(** inc/xcp.h 150-159: resource protection is compiled in iff GET_SEED and
    UNLOCK are. *)
Definition c_protect (c : cfg) : bool := c_opt c 0xF8 && c_opt c 0xF7.

(** inc/xcp.h 233-235: payload offset and size of the CTO buffers. *)
Definition c_offset (c : cfg) : N := c_ctr_size c + c_len_size c.
Definition c_ctobuf (c : cfg) : N := c_max_cto c + c_offset c.

(** inc/xcp.h 245-251: modulus of XCP_DAQ_ENTITY_TYPE. *)
Definition we (c : cfg) : N :=
  if c_max_ent c <? 256 then 2 ^ 8 else if c_max_ent c <? 65536 then 2 ^ 16 else 2 ^ 32.

(** Number of event channels; the code compares with UINT8(...) of it. *)
Definition c_nevents (c : cfg) : N := lenN (c_events c).

(** inc/xcp.h 272: XCP_DOWNLOAD_PAYLOAD_LENGTH. *)
Definition c_dl (c : cfg) : N := c_max_cto c - 2.

Definition aspace (c : cfg) : N := 2 ^ c_ptr_bits c.

(** Well-formed configurations: the #error checks of inc/xcp.h 64-251 and what
    the code takes for granted (at least 8 bytes per CTO, MAX_DTO fitting its
    time stamp, buffer addressable). *)
Record wf_cfg (c : cfg) : Prop := {
  wf_cto : 8 <= c_max_cto c <= 255;
  wf_dto : 8 <= c_max_dto c <= 65535;
  wf_len : c_len_size c <= 2;
  wf_ctr : c_ctr_size c <= 2;
  wf_dlc : c_max_dlc c = true -> c_len_size c = 0 /\ c_ctr_size c = 0;
  wf_prot : c_opt c 0xF8 = c_opt c 0xF7;
  wf_mbm : c_cal c = true -> c_opt c 0xEF = c_mbm c;
  wf_wdm : c_opt c 0xC7 = true -> 10 <= c_max_cto c;
  wf_ent : 1 <= c_max_ent c < 2 ^ 31;   (* a larger static array is not linkable on any target *)
  wf_ev : c_daq c = true -> 1 <= lenN (c_events c) <= 255;
  wf_tssz : c_ts_size c = 1 \/ c_ts_size c = 2 \/ c_ts_size c = 4;
  wf_qs : c_queue_slots c = 4;
  wf_chunk : 1 <= c_chunk c < 2 ^ 32;
  wf_blk : c_max_blk c < 2 ^ 32;
  wf_ptr : c_ptr_bits c = 32 \/ c_ptr_bits c = 64;
  wf_buf : c_buf_addr c + c_ctobuf c <= aspace c;
  wf_id0 : fst (c_id0 c) < aspace c /\ snd (c_id0 c) < 2 ^ 16;
  wf_id1 : fst (c_id1 c) < aspace c /\ snd (c_id1 c) < 2 ^ 16;
  wf_bytes : (c_gran c = 0 \/ c_gran c = 2 \/ c_gran c = 4) /\ c_max_bs c < 256 /\ c_min_st c < 256 /\ c_queue_size c < 256 /\
             c_max_bs_pgm c < 256 /\ c_min_st_pgm c < 256 /\ c_max_sector c < 256 /\ c_pgm_props c < 256;
  wf_ids : Forall (fun i => i < 2 ^ 32) (c_can_id c :: c_daq_ids c);
  wf_evs : Forall (fun ev => ev_name ev < aspace c /\ ev_nlen ev < 256 /\ ev_props ev < 256 /\
                             ev_unit ev < 256 /\ ev_cycle ev < 256) (c_events c)
}.

(** Run-time environment of one step: answers of the user hooks
    (inc/xcp.h 1204-1209, src/xcp.c 121, 1117, 1185, 1221, 2130) and the timer
    (inc/xcp.h 1216).  Every step of a run may use a different environment. *)
Record env := mkEnv {
  e_getid : N -> option (N * N);            (* Xcp_HookFunction_GetId: address, length *)
  e_seed : N -> list N;                     (* Xcp_HookFunction_GetSeed               *)
  e_unlock : N -> N -> list N -> bool;      (* Xcp_HookFunction_Unlock: resource, key length, key bytes *)
  e_access : N -> N -> N -> bool -> bool -> bool;
        (* Xcp_HookFunction_CheckMemoryAccess: ext, address, length, write?, programming? *)
  e_map : N -> N -> N;                      (* Xcp_HookFunction_AddressMapper: ext, address *)
  e_timer : N                               (* XcpHw_GetTimerCounter, 32 bit          *)
}.

Record wf_env (c : cfg) (e : env) : Prop := {
  wfe_seed : forall r, lenN (e_seed e r) < 256 /\ Forall (fun b => b < 256) (e_seed e r);
  wfe_map : forall x a, e_map e x a < aspace c;
  wfe_timer : e_timer e < 2 ^ 32;
  wfe_id : forall t a l, e_getid e t = Some (a, l) -> a < aspace c /\ l < 2 ^ 32
}.

(** ** Sample configurations and environments (used by examples and witnesses) *)

Definition optset (l : list N) : N -> bool := fun x => existsb (N.eqb x) l.

Definition all_optional : list N :=
  [0xFB; 0xFA; 0xF8; 0xF7; 0xF6; 0xF5; 0xF4; 0xF3; 0xF1; 0xEE; 0xED; 0xEC; 0xDC; 0xDA; 0xD9;
   0xD8; 0xD7; 0xD6; 0xD5; 0xD4; 0xD3; 0xCE; 0xCD; 0xCC; 0xCB; 0xCA; 0xC9; 0xC8].

Definition sample_events : list event :=
  [mkEvent 4096 2 4 6 10; mkEvent 4100 3 4 6 100; mkEvent 0 0 4 9 1].

(** Close to tools/xcp_config.h (Ethernet, MAX_CTO = MAX_DTO = 64, 2-byte length
    and counter, 100 entities, 3 events, CRC-16-CITT in 64-byte chunks), with
    resource protection switched on. *)
Definition cfg_eth : cfg := {|
  c_max_cto := 64; c_max_dto := 64; c_len_size := 2; c_ctr_size := 2; c_max_dlc := false;
  c_motorola := false; c_gran := 0; c_sbm := false; c_mbm := false; c_max_bs := 8; c_min_st := 0;
  c_queue_size := 0; c_max_bs_pgm := 0; c_min_st_pgm := 0; c_max_sector := 32; c_pgm_props := 1;
  c_cal := true; c_daq := true; c_pgm := true; c_opt := optset (0xC7 :: all_optional);
  c_prot_cal := true; c_prot_daq := true; c_prot_stim := true; c_prot_pgm := true;
  c_chkmem := true; c_mapper := false; c_idhook := true; c_id0 := (8192, 11); c_id1 := (8208, 7);
  c_max_ent := 100; c_events := sample_events; c_ts := true; c_ts_size := 4; c_prescaler := false;
  c_clock_always := true; c_reset_seq := false; c_queue_slots := 4;
  c_cks := CRC16CITT; c_chunked := true; c_chunk := 64; c_max_blk := 0; c_stats := true;
  c_ev_api := true; c_srv_api := true; c_lock := LockRecursive; c_ptr_bits := 32; c_host_be := false;
  c_buf_addr := 65536; c_can_id := 0x102; c_daq_ids := [0x300; 0x301] |}.

(** Classic CAN: 8-byte frames, no header, master block mode. *)
Definition cfg_can : cfg := {|
  c_max_cto := 8; c_max_dto := 8; c_len_size := 0; c_ctr_size := 0; c_max_dlc := false;
  c_motorola := false; c_gran := 0; c_sbm := false; c_mbm := true; c_max_bs := 4; c_min_st := 0;
  c_queue_size := 0; c_max_bs_pgm := 0; c_min_st_pgm := 0; c_max_sector := 32; c_pgm_props := 1;
  c_cal := true; c_daq := true; c_pgm := true; c_opt := optset (0xEF :: all_optional);
  c_prot_cal := false; c_prot_daq := false; c_prot_stim := false; c_prot_pgm := false;
  c_chkmem := true; c_mapper := false; c_idhook := true; c_id0 := (8192, 11); c_id1 := (8208, 7);
  c_max_ent := 100; c_events := sample_events; c_ts := true; c_ts_size := 4; c_prescaler := false;
  c_clock_always := true; c_reset_seq := false; c_queue_slots := 4;
  c_cks := CRC16CITT; c_chunked := true; c_chunk := 64; c_max_blk := 0; c_stats := true;
  c_ev_api := true; c_srv_api := true; c_lock := LockRecursive; c_ptr_bits := 32; c_host_be := false;
  c_buf_addr := 65536; c_can_id := 0x102; c_daq_ids := [0x300; 0x301] |}.

(** An environment whose access hook agrees, whose key is [0x42], mapper identity. *)
Definition env_yes : env := {|
  e_getid := fun t => if t =? 4 then Some (8300, 5) else None;
  e_seed := fun r => [u8 r; 0x11; 0x22; 0x33];
  e_unlock := fun r n k => (1 <=? n) && match k with b :: _ => b =? 0x42 | [] => false end;
  e_access := fun _ _ _ _ _ => true;
  e_map := fun _ a => u32 a;
  e_timer := 0x01020304 |}.

(** The same with an access hook that denies everything and a key hook that
    accepts nothing. *)
Definition env_no : env := {|
  e_getid := fun _ => None;
  e_seed := fun r => [u8 r; 0x11; 0x22; 0x33];
  e_unlock := fun _ _ _ => false;
  e_access := fun _ _ _ _ _ => false;
  e_map := fun _ a => u32 a;
  e_timer := 0x01020304 |}.
