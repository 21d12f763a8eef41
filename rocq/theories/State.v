(** State of the slave.  One record field per C variable; the [set_*] functions
    are plain functional updates (generated, no content). *)
From Coq Require Import NArith List Bool.
From Verif Require Import Base Config.
Import ListNotations.
Open Scope N_scope.

(** inc/xcp.h 745-749: XcpPgm_ProcessorStateType. *)
Inductive pgmst := PgmUninit | PgmIdle | PgmActive.

(** src/xcp_daq.c 58-64: XcpDaq_AllocStateType. *)
Inductive alloc := AIdle | AFree | ADaq | AOdt | AEntry.

(** inc/xcp.h 872-877: XcpDaq_EntityKindType. *)
Inductive ekind := KUnused | KList | KOdt | KEntry.

(** inc/xcp.h 879-887: XcpDaq_EntityType.  The list and ODT members of the union
    share a common initial sequence (count, first index), so both are [BHdr];
    [BZero] is memory cleared by MemSet, which reads as zeros through either
    member.  Reading a header where an entry was stored (or the reverse) depends
    on struct layout and is the outcome [KindPun]. *)
Inductive ebody := BZero | BHdr (num first : N) | BEnt (addr len : N).
Record entity := mkEnt { en_kind : ekind; en_body : ebody }.

(** src/xcp_checksum.c 41-46: Xcp_ChecksumJobStateType. *)
Inductive jstate := JIdle | JInit | JRem | JFinal.

(** src/xcp_daq.c 78-84, 141-142: XcpDaq_Queue and XcpDaq_QueueDTOs (length and data of each slot). *)
Record queue := mkQueue {
  q_head : N;
  q_tail : N;
  q_ovl : bool;
  q_slots : list (N * list N)
}.

Definition set_q_head (v : N) (s : queue) : queue := mkQueue v (q_tail s) (q_ovl s) (q_slots s).
Definition set_q_tail (v : N) (s : queue) : queue := mkQueue (q_head s) v (q_ovl s) (q_slots s).
Definition set_q_ovl (v : bool) (s : queue) : queue := mkQueue (q_head s) (q_tail s) v (q_slots s).
Definition set_q_slots (v : list (N * list N)) (s : queue) : queue := mkQueue (q_head s) (q_tail s) (q_ovl s) v.

(** inc/xcp.h 725-741 (daqProcessor, daqPointer), src/xcp_daq.c 127-146 (entity pool,
    alloc state, counters, ListState, ListForEvent, queue).  Simplification: daqProcessor.state only as
    "running or not"; the prescaler bytes are never read and are left out. *)
Record daqst := mkDaq {
  d_run : bool;  (* XCP_DAQ_STATE_RUNNING *)
  d_plist : N;  (* daqPointer.daqList *)
  d_podt : N;  (* daqPointer.odt *)
  d_pent : N;  (* daqPointer.odtEntry *)
  d_alloc : alloc;  (* XcpDaq_AllocState *)
  d_ents : list entity;  (* XcpDaq_Entities *)
  d_ecnt : N;  (* XcpDaq_EntityCount *)
  d_lcnt : N;  (* XcpDaq_ListCount *)
  d_ocnt : N;  (* XcpDaq_OdtCount *)
  d_mode : N;  (* XcpDaq_ListState.mode, one for all lists *)
  d_lfe : list N;  (* XcpDaq_ListForEvent *)
  d_q : queue
}.

Definition set_d_run (v : bool) (s : daqst) : daqst := mkDaq v (d_plist s) (d_podt s) (d_pent s) (d_alloc s) (d_ents s) (d_ecnt s) (d_lcnt s) (d_ocnt s) (d_mode s) (d_lfe s) (d_q s).
Definition set_d_plist (v : N) (s : daqst) : daqst := mkDaq (d_run s) v (d_podt s) (d_pent s) (d_alloc s) (d_ents s) (d_ecnt s) (d_lcnt s) (d_ocnt s) (d_mode s) (d_lfe s) (d_q s).
Definition set_d_podt (v : N) (s : daqst) : daqst := mkDaq (d_run s) (d_plist s) v (d_pent s) (d_alloc s) (d_ents s) (d_ecnt s) (d_lcnt s) (d_ocnt s) (d_mode s) (d_lfe s) (d_q s).
Definition set_d_pent (v : N) (s : daqst) : daqst := mkDaq (d_run s) (d_plist s) (d_podt s) v (d_alloc s) (d_ents s) (d_ecnt s) (d_lcnt s) (d_ocnt s) (d_mode s) (d_lfe s) (d_q s).
Definition set_d_alloc (v : alloc) (s : daqst) : daqst := mkDaq (d_run s) (d_plist s) (d_podt s) (d_pent s) v (d_ents s) (d_ecnt s) (d_lcnt s) (d_ocnt s) (d_mode s) (d_lfe s) (d_q s).
Definition set_d_ents (v : list entity) (s : daqst) : daqst := mkDaq (d_run s) (d_plist s) (d_podt s) (d_pent s) (d_alloc s) v (d_ecnt s) (d_lcnt s) (d_ocnt s) (d_mode s) (d_lfe s) (d_q s).
Definition set_d_ecnt (v : N) (s : daqst) : daqst := mkDaq (d_run s) (d_plist s) (d_podt s) (d_pent s) (d_alloc s) (d_ents s) v (d_lcnt s) (d_ocnt s) (d_mode s) (d_lfe s) (d_q s).
Definition set_d_lcnt (v : N) (s : daqst) : daqst := mkDaq (d_run s) (d_plist s) (d_podt s) (d_pent s) (d_alloc s) (d_ents s) (d_ecnt s) v (d_ocnt s) (d_mode s) (d_lfe s) (d_q s).
Definition set_d_ocnt (v : N) (s : daqst) : daqst := mkDaq (d_run s) (d_plist s) (d_podt s) (d_pent s) (d_alloc s) (d_ents s) (d_ecnt s) (d_lcnt s) v (d_mode s) (d_lfe s) (d_q s).
Definition set_d_mode (v : N) (s : daqst) : daqst := mkDaq (d_run s) (d_plist s) (d_podt s) (d_pent s) (d_alloc s) (d_ents s) (d_ecnt s) (d_lcnt s) (d_ocnt s) v (d_lfe s) (d_q s).
Definition set_d_lfe (v : list N) (s : daqst) : daqst := mkDaq (d_run s) (d_plist s) (d_podt s) (d_pent s) (d_alloc s) (d_ents s) (d_ecnt s) (d_lcnt s) (d_ocnt s) (d_mode s) v (d_q s).
Definition set_d_q (v : queue) (s : daqst) : daqst := mkDaq (d_run s) (d_plist s) (d_podt s) (d_pent s) (d_alloc s) (d_ents s) (d_ecnt s) (d_lcnt s) (d_ocnt s) (d_mode s) (d_lfe s) v.

(** src/xcp_checksum.c 48-53: Xcp_ChecksumJobType. *)
Record jobst := mkJob {
  j_state : jstate;
  j_addr : N;
  j_size : N;
  j_sum : N
}.

Definition set_j_state (v : jstate) (s : jobst) : jobst := mkJob v (j_addr s) (j_size s) (j_sum s).
Definition set_j_addr (v : N) (s : jobst) : jobst := mkJob (j_state s) v (j_size s) (j_sum s).
Definition set_j_size (v : N) (s : jobst) : jobst := mkJob (j_state s) (j_addr s) v (j_sum s).
Definition set_j_sum (v : N) (s : jobst) : jobst := mkJob (j_state s) (j_addr s) (j_size s) v.

(** inc/xcp.h 768-801: Xcp_StateType, plus the static buffers (src/xcp.c 49-59), the DAQ statics, the
    checksum job, the locks currently held and the target memory.  Simplifications: the unused members
    programming and mode are left out; of the transmit buffer only the payload part is state (the header bytes
    are rewritten for every frame); the DTO transmit buffer is not state (every byte sent is freshly copied). *)
Record st := mkSt {
  s_conn : bool;  (* connected *)
  s_busy : bool;  (* busy *)
  s_pgm : pgmst;  (* pgmProcessor.state *)
  s_ctr : N;  (* counter, 16 bit *)
  s_prot : N;  (* resourceProtection *)
  s_seed : N;  (* seedRequested *)
  s_mext : N;  (* mta.ext *)
  s_maddr : N;  (* mta.address *)
  s_sact : bool;  (* slaveBlockModeState.blockTransferActive *)
  s_srem : N;  (* slaveBlockModeState.remaining *)
  s_mact : bool;  (* masterBlockModeState.blockTransferActive *)
  s_mrem : N;  (* masterBlockModeState.remaining *)
  s_ctos : N;  (* statistics.ctosReceived *)
  s_cros : N;  (* statistics.crosSend *)
  s_crosb : N;  (* statistics.crosBusy *)
  s_in : list N;  (* Xcp_CtoIn.data *)
  s_out : list N;  (* Xcp_CtoOut.data + offset, XCP_MAX_CTO bytes *)
  s_held : list N;  (* indices of held locks *)
  s_mem : mem;  (* target memory *)
  s_daq : daqst;
  s_job : jobst  (* Xcp_ChecksumJob *)
}.

Definition set_s_conn (v : bool) (s : st) : st := mkSt v (s_busy s) (s_pgm s) (s_ctr s) (s_prot s) (s_seed s) (s_mext s) (s_maddr s) (s_sact s) (s_srem s) (s_mact s) (s_mrem s) (s_ctos s) (s_cros s) (s_crosb s) (s_in s) (s_out s) (s_held s) (s_mem s) (s_daq s) (s_job s).
Definition set_s_busy (v : bool) (s : st) : st := mkSt (s_conn s) v (s_pgm s) (s_ctr s) (s_prot s) (s_seed s) (s_mext s) (s_maddr s) (s_sact s) (s_srem s) (s_mact s) (s_mrem s) (s_ctos s) (s_cros s) (s_crosb s) (s_in s) (s_out s) (s_held s) (s_mem s) (s_daq s) (s_job s).
Definition set_s_pgm (v : pgmst) (s : st) : st := mkSt (s_conn s) (s_busy s) v (s_ctr s) (s_prot s) (s_seed s) (s_mext s) (s_maddr s) (s_sact s) (s_srem s) (s_mact s) (s_mrem s) (s_ctos s) (s_cros s) (s_crosb s) (s_in s) (s_out s) (s_held s) (s_mem s) (s_daq s) (s_job s).
Definition set_s_ctr (v : N) (s : st) : st := mkSt (s_conn s) (s_busy s) (s_pgm s) v (s_prot s) (s_seed s) (s_mext s) (s_maddr s) (s_sact s) (s_srem s) (s_mact s) (s_mrem s) (s_ctos s) (s_cros s) (s_crosb s) (s_in s) (s_out s) (s_held s) (s_mem s) (s_daq s) (s_job s).
Definition set_s_prot (v : N) (s : st) : st := mkSt (s_conn s) (s_busy s) (s_pgm s) (s_ctr s) v (s_seed s) (s_mext s) (s_maddr s) (s_sact s) (s_srem s) (s_mact s) (s_mrem s) (s_ctos s) (s_cros s) (s_crosb s) (s_in s) (s_out s) (s_held s) (s_mem s) (s_daq s) (s_job s).
Definition set_s_seed (v : N) (s : st) : st := mkSt (s_conn s) (s_busy s) (s_pgm s) (s_ctr s) (s_prot s) v (s_mext s) (s_maddr s) (s_sact s) (s_srem s) (s_mact s) (s_mrem s) (s_ctos s) (s_cros s) (s_crosb s) (s_in s) (s_out s) (s_held s) (s_mem s) (s_daq s) (s_job s).
Definition set_s_mext (v : N) (s : st) : st := mkSt (s_conn s) (s_busy s) (s_pgm s) (s_ctr s) (s_prot s) (s_seed s) v (s_maddr s) (s_sact s) (s_srem s) (s_mact s) (s_mrem s) (s_ctos s) (s_cros s) (s_crosb s) (s_in s) (s_out s) (s_held s) (s_mem s) (s_daq s) (s_job s).
Definition set_s_maddr (v : N) (s : st) : st := mkSt (s_conn s) (s_busy s) (s_pgm s) (s_ctr s) (s_prot s) (s_seed s) (s_mext s) v (s_sact s) (s_srem s) (s_mact s) (s_mrem s) (s_ctos s) (s_cros s) (s_crosb s) (s_in s) (s_out s) (s_held s) (s_mem s) (s_daq s) (s_job s).
Definition set_s_sact (v : bool) (s : st) : st := mkSt (s_conn s) (s_busy s) (s_pgm s) (s_ctr s) (s_prot s) (s_seed s) (s_mext s) (s_maddr s) v (s_srem s) (s_mact s) (s_mrem s) (s_ctos s) (s_cros s) (s_crosb s) (s_in s) (s_out s) (s_held s) (s_mem s) (s_daq s) (s_job s).
Definition set_s_srem (v : N) (s : st) : st := mkSt (s_conn s) (s_busy s) (s_pgm s) (s_ctr s) (s_prot s) (s_seed s) (s_mext s) (s_maddr s) (s_sact s) v (s_mact s) (s_mrem s) (s_ctos s) (s_cros s) (s_crosb s) (s_in s) (s_out s) (s_held s) (s_mem s) (s_daq s) (s_job s).
Definition set_s_mact (v : bool) (s : st) : st := mkSt (s_conn s) (s_busy s) (s_pgm s) (s_ctr s) (s_prot s) (s_seed s) (s_mext s) (s_maddr s) (s_sact s) (s_srem s) v (s_mrem s) (s_ctos s) (s_cros s) (s_crosb s) (s_in s) (s_out s) (s_held s) (s_mem s) (s_daq s) (s_job s).
Definition set_s_mrem (v : N) (s : st) : st := mkSt (s_conn s) (s_busy s) (s_pgm s) (s_ctr s) (s_prot s) (s_seed s) (s_mext s) (s_maddr s) (s_sact s) (s_srem s) (s_mact s) v (s_ctos s) (s_cros s) (s_crosb s) (s_in s) (s_out s) (s_held s) (s_mem s) (s_daq s) (s_job s).
Definition set_s_ctos (v : N) (s : st) : st := mkSt (s_conn s) (s_busy s) (s_pgm s) (s_ctr s) (s_prot s) (s_seed s) (s_mext s) (s_maddr s) (s_sact s) (s_srem s) (s_mact s) (s_mrem s) v (s_cros s) (s_crosb s) (s_in s) (s_out s) (s_held s) (s_mem s) (s_daq s) (s_job s).
Definition set_s_cros (v : N) (s : st) : st := mkSt (s_conn s) (s_busy s) (s_pgm s) (s_ctr s) (s_prot s) (s_seed s) (s_mext s) (s_maddr s) (s_sact s) (s_srem s) (s_mact s) (s_mrem s) (s_ctos s) v (s_crosb s) (s_in s) (s_out s) (s_held s) (s_mem s) (s_daq s) (s_job s).
Definition set_s_crosb (v : N) (s : st) : st := mkSt (s_conn s) (s_busy s) (s_pgm s) (s_ctr s) (s_prot s) (s_seed s) (s_mext s) (s_maddr s) (s_sact s) (s_srem s) (s_mact s) (s_mrem s) (s_ctos s) (s_cros s) v (s_in s) (s_out s) (s_held s) (s_mem s) (s_daq s) (s_job s).
Definition set_s_in (v : list N) (s : st) : st := mkSt (s_conn s) (s_busy s) (s_pgm s) (s_ctr s) (s_prot s) (s_seed s) (s_mext s) (s_maddr s) (s_sact s) (s_srem s) (s_mact s) (s_mrem s) (s_ctos s) (s_cros s) (s_crosb s) v (s_out s) (s_held s) (s_mem s) (s_daq s) (s_job s).
Definition set_s_out (v : list N) (s : st) : st := mkSt (s_conn s) (s_busy s) (s_pgm s) (s_ctr s) (s_prot s) (s_seed s) (s_mext s) (s_maddr s) (s_sact s) (s_srem s) (s_mact s) (s_mrem s) (s_ctos s) (s_cros s) (s_crosb s) (s_in s) v (s_held s) (s_mem s) (s_daq s) (s_job s).
Definition set_s_held (v : list N) (s : st) : st := mkSt (s_conn s) (s_busy s) (s_pgm s) (s_ctr s) (s_prot s) (s_seed s) (s_mext s) (s_maddr s) (s_sact s) (s_srem s) (s_mact s) (s_mrem s) (s_ctos s) (s_cros s) (s_crosb s) (s_in s) (s_out s) v (s_mem s) (s_daq s) (s_job s).
Definition set_s_mem (v : mem) (s : st) : st := mkSt (s_conn s) (s_busy s) (s_pgm s) (s_ctr s) (s_prot s) (s_seed s) (s_mext s) (s_maddr s) (s_sact s) (s_srem s) (s_mact s) (s_mrem s) (s_ctos s) (s_cros s) (s_crosb s) (s_in s) (s_out s) (s_held s) v (s_daq s) (s_job s).
Definition set_s_daq (v : daqst) (s : st) : st := mkSt (s_conn s) (s_busy s) (s_pgm s) (s_ctr s) (s_prot s) (s_seed s) (s_mext s) (s_maddr s) (s_sact s) (s_srem s) (s_mact s) (s_mrem s) (s_ctos s) (s_cros s) (s_crosb s) (s_in s) (s_out s) (s_held s) (s_mem s) v (s_job s).
Definition set_s_job (v : jobst) (s : st) : st := mkSt (s_conn s) (s_busy s) (s_pgm s) (s_ctr s) (s_prot s) (s_seed s) (s_mext s) (s_maddr s) (s_sact s) (s_srem s) (s_mact s) (s_mrem s) (s_ctos s) (s_cros s) (s_crosb s) (s_in s) (s_out s) (s_held s) (s_mem s) (s_daq s) v.

(** A transmitted frame: transport header and payload; [p_dto] distinguishes
    data (DTO) from command (CTO) frames. *)
Record pkt := mkPkt { p_dto : bool; p_hdr : list N; p_data : list N }.
Definition wire (p : pkt) : list N := p_hdr p ++ p_data p.

(** Result of a function that may transmit. *)
Definition res := out (st * list pkt).

(** Sequencing that concatenates the transmitted frames. *)
Definition andthen (r : res) (f : st -> res) : res :=
  '(s1, o1) <- r ;; '(s2, o2) <- f s1 ;; Ok (s2, o1 ++ o2).

Definition upd_daq (f : daqst -> daqst) (s : st) : st := set_s_daq (f (s_daq s)) s.
Definition upd_job (f : jobst -> jobst) (s : st) : st := set_s_job (f (s_job s)) s.
