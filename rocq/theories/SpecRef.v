(** A reference slave: what a master that keeps to the protocol may expect, in
    terms of its own requests.  It knows nothing of buffers, tables of handlers,
    entity pools or queues.  Where the standard and the slave differ (other
    properties say where) it is undefined: no rule applies. *)
From Coq Require Import NArith List Bool.
From Verif Require Import Base Config State Core Spec SpecProt SpecMem SpecDaq SpecE2e SpecInfo SpecCks.
Import ListNotations.
Open Scope N_scope.

(** ** Requests and replies *)

(** Commands of the master, by their parameters, and what happens on the side of
    the application: an event, a call of the main function, new values of variables,
    an event packet, a service request packet. *)
Inductive req :=
| QConnect (mode : N)
| QDisconnect
| QStatus
| QSynch
| QCommMode
| QId (type : N)
| QSeed (resource : N)
| QUnlock (key : list N)
| QSetMta (ext addr : N)
| QUpload (n : N)
| QShortUpload (n ext addr : N)
| QDownload (bs : list N)
| QDownloadMax (bs : list N)
| QShortDownload (ext addr : N) (bs : list N)
| QModify (shift am xm : N)
| QChecksum (n : N)
| QSlaveId (inverted : bool)
| QDaqId (l : N)
| QClock
| QDaqInfo
| QEventInfo (ev : N)
| QResolution
| QFree
| QAllocDaq (n : N)
| QAllocOdt (l n : N)
| QAllocEntry (l o n : N)
| QSetPtr (l o k : N)
| QWrite (addr size : N)
| QWriteMany (xs : list (N * N))
| QMode (mode l ev : N)
| QSelect (l : N)
| QStart
| QStop
| QProgramStart
| QProgramReset
| QProgramInfo
| QOther (f : list N)
| QEvent (ev : N)
| QMain
| QVariables (addr : N) (bs : list N)
| QNotice (code : N) (info : list N)
| QService (code : N) (info : list N).

(** The frame that carries a request; other requests are operations of the
    application. *)
Definition frame (c : cfg) (q : req) : list N :=
  match q with
  | QConnect md => [0xFF; md]
  | QDisconnect => [0xFE]
  | QStatus => [0xFD]
  | QSynch => [0xFC]
  | QCommMode => [0xFB]
  | QId t => [0xFA; t]
  | QSeed r => [0xF8; 0; r]
  | QUnlock k => 0xF7 :: lenN k :: k
  | QSetMta x a => [0xF6; 0; 0; x] ++ coded c 4 a
  | QUpload n => [0xF5; n]
  | QShortUpload n x a => [0xF4; n; 0; x] ++ coded c 4 a
  | QDownload bs => 0xF0 :: lenN bs :: bs
  | QDownloadMax bs => 0xEE :: bs
  | QShortDownload x a bs => [0xED; lenN bs; 0; x] ++ coded c 4 a ++ bs
  | QModify sh am xm => [0xEC; sh] ++ coded c 2 am ++ coded c 2 xm
  | QChecksum n => [0xF3; 0; 0; 0] ++ coded c 4 n
  | QSlaveId inv => [0xF2; 0xFF; 0x58; 0x43; 0x50; (if inv then 1 else 0)]
  | QDaqId l => [0xF2; 0xFE] ++ coded c 2 l
  | QClock => [0xDC]
  | QDaqInfo => [0xDA]
  | QEventInfo ev => [0xD7; 0] ++ coded c 2 ev
  | QResolution => [0xD9]
  | QFree => [0xD6]
  | QAllocDaq n => [0xD5; 0] ++ coded c 2 n
  | QAllocOdt l n => [0xD4; 0] ++ coded c 2 l ++ [n]
  | QAllocEntry l o n => [0xD3; 0] ++ coded c 2 l ++ [o; n]
  | QSetPtr l o k => [0xE2; 0] ++ coded c 2 l ++ [o; k]
  | QWrite a n => [0xE1; 0xFF; n; 0] ++ coded c 4 a
  | QWriteMany xs => 0xC7 :: lenN xs :: flat_map (fun x => [0xFF; snd x] ++ coded c 4 (fst x) ++ [0; 0]) xs
  | QMode md l ev => [0xE0; md] ++ coded c 2 l ++ coded c 2 ev ++ [1; 0]
  | QSelect l => [0xDE; 2] ++ coded c 2 l
  | QStart => [0xDD; 1]
  | QStop => [0xDD; 0]
  | QProgramStart => [0xD2]
  | QProgramReset => [0xCF]
  | QProgramInfo => [0xCE]
  | QOther f => f
  | QEvent _ | QMain | QVariables _ _ | QNotice _ _ | QService _ _ => []
  end.
Definition operation (c : cfg) (q : req) : op :=
  match q with QEvent ev => OTrigger ev | QMain => OMain | QVariables a bs => OAppWrite a bs
  | QNotice k i => OEvent k i | QService k i => OService k i | _ => ORecv (frame c q) end.

(** The parameters fit in their fields and the request fits in a frame. *)
Definition encodable (c : cfg) (q : req) : Prop :=
  match q with
  | QConnect md => md < 256
  | QId t => t < 256
  | QSeed r => r < 256
  | QUnlock k => bytes k /\ lenN k <= c_max_cto c - 2
  | QSetMta x a => x < 256 /\ a < 2 ^ 32
  | QUpload n => n < 256
  | QShortUpload n x a => n < 256 /\ x < 256 /\ a < 2 ^ 32
  | QDownload bs => bytes bs /\ lenN bs <= c_max_cto c - 2
  | QDownloadMax bs => bytes bs /\ lenN bs <= c_max_cto c - 1
  | QShortDownload x a bs => x < 256 /\ a < 2 ^ 32 /\ bytes bs /\ lenN bs <= c_max_cto c - 8
  | QModify sh am xm => sh < 256 /\ am < 65536 /\ xm < 65536
  | QChecksum n => n < 2 ^ 32
  | QDaqId l => l < 65536
  | QAllocDaq n => n < 65536
  | QAllocOdt l n => l < 65536 /\ n < 256
  | QAllocEntry l o n => l < 65536 /\ o < 256 /\ n < 256
  | QSetPtr l o k => l < 65536 /\ o < 256 /\ k < 256
  | QWrite a n => a < 2 ^ 32 /\ n < 256
  | QWriteMany xs => Forall (fun x => fst x < 2 ^ 32 /\ snd x < 256) xs /\ lenN xs < 256 /\ lenN xs * 8 + 2 <= c_max_cto c
  | QEventInfo ev => ev < 65536
  | QMode md l ev => md < 256 /\ l < 65536 /\ ev < 65536
  | QSelect l => l < 65536
  | QOther f => bytes f /\ lenN f <= c_max_cto c
  | QEvent ev => ev < 256
  | QVariables a bs => bytes bs
  | QNotice k i | QService k i => k < 256 /\ bytes i /\ lenN i < 256
  | _ => True
  end.

(** Replies: a response (zero-padded where CAN requires it), a frame that starts
    with data, a frame of a measurement. *)
Inductive reply := Response (bs : list N) | Data (bs : list N) | Sample (bs : list N).
Definition shows (c : cfg) (r : reply) (p : pkt) : Prop :=
  match r with
  | Response bs => p_dto p = false /\ p_data p = padded c bs
  | Data bs => p_dto p = false /\ exists pad, p_data p = bs ++ pad /\ lenN pad = if c_max_dlc c then c_max_cto c - lenN bs else 0
  | Sample bs => p_dto p = true /\ p_data p = bs
  end.
Definition done : list reply := [Response [0xFF]].
Definition fails (code : N) : list reply := [Response [0xFE; code]].

(** ** State *)

(** The measurement: configuration, last allocation command, entry that the DAQ
    pointer selects, list of every event, whether time stamps were asked for,
    whether it runs, number of frames sent so far. *)
Record meas := mkMeas {
  m_tree : tree;
  m_phase : alloc;
  m_ptr : option (N * N * N);
  m_event : N -> option N;
  m_stamps : option bool;
  m_run : bool;
  m_sent : N
}.
Definition no_meas : meas := mkMeas [] AFree None (fun _ => None) None false 0.

(** The session: connected, programming, MTA (extension, address) if the protocol
    defines it, contents of memory, protected resources, resources for which a
    seed was asked. *)
Record ref := mkRef {
  a_on : bool;
  a_pgm : bool;
  a_mta : option (N * N);
  a_mem : mem;
  a_prot : N;
  a_seed : N;
  a_meas : meas
}.
Definition power_up (c : cfg) (m : mem) : ref := mkRef false false (Some (0, 0)) m (default_status c) 0 no_meas.

Definition on (b : bool) (a : ref) : ref := mkRef b (a_pgm a) (a_mta a) (a_mem a) (a_prot a) (a_seed a) (a_meas a).
Definition to_pgm (b : bool) (a : ref) : ref := mkRef (a_on a) b (a_mta a) (a_mem a) (a_prot a) (a_seed a) (a_meas a).
Definition to_mta (x : option (N * N)) (a : ref) : ref := mkRef (a_on a) (a_pgm a) x (a_mem a) (a_prot a) (a_seed a) (a_meas a).
Definition to_mem (m : mem) (a : ref) : ref := mkRef (a_on a) (a_pgm a) (a_mta a) m (a_prot a) (a_seed a) (a_meas a).
Definition to_prot (p s : N) (a : ref) : ref := mkRef (a_on a) (a_pgm a) (a_mta a) (a_mem a) p s (a_meas a).
Definition to_meas (x : meas) (a : ref) : ref := mkRef (a_on a) (a_pgm a) (a_mta a) (a_mem a) (a_prot a) (a_seed a) x.
(** The end of a session: everything protected again, nothing to measure. *)
Definition closed (c : cfg) (a : ref) : ref := to_meas no_meas (to_prot (default_status c) 0 a).

(** The bytes [bs] written at [b]. *)
Definition patch (m : mem) (b : N) (bs : list N) : mem :=
  fun x => if (b <=? x) && (x <? b + lenN bs) then nth (N.to_nat (x - b)) bs 0 else m x.

(** The 32-bit word [v] in the byte order of the target. *)
Definition host_bytes (c : cfg) (v : N) : list N := if c_host_be c then rev (le_bytes 4 v) else le_bytes 4 v.

(** In a session, not programming. *)
Definition idle (a : ref) : Prop := a_on a = true /\ a_pgm a = false.
(** Resource [r] is protected. *)
Definition shut (c : cfg) (r : N) (a : ref) : Prop := c_protect c = true /\ N.land (a_prot a) r = r.
(** Idle, and measurement may be configured. *)
Definition daq_idle (c : cfg) (a : ref) : Prop := idle a /\ c_daq c = true /\ ~ shut c 4 a.
Definition still (a : ref) : Prop := m_run (a_meas a) = false.

Definition built (t : tree) (p : alloc) (x : meas) : meas := mkMeas t p (m_ptr x) (m_event x) (m_stamps x) (m_run x) (m_sent x).
Definition pointed (p : option (N * N * N)) (x : meas) : meas := mkMeas (m_tree x) (m_phase x) p (m_event x) (m_stamps x) (m_run x) (m_sent x).
Definition runs (b : bool) (x : meas) : meas := mkMeas (m_tree x) (m_phase x) (m_ptr x) (m_event x) (m_stamps x) b (m_sent x).
Definition sent (n : N) (x : meas) : meas := mkMeas (m_tree x) (m_phase x) (m_ptr x) (m_event x) (m_stamps x) (m_run x) (m_sent x + n).
Definition assign (ev l : N) (b : bool) (x : meas) : meas :=
  mkMeas (m_tree x) (m_phase x) (m_ptr x) (fun v => if v =? ev then Some l else m_event x v) (Some b) (m_run x) (m_sent x).
(** Lists, ODTs and entries of a configuration. *)
Definition size (t : tree) : N := lenN t + lenN (concat t) + lenN (concat (concat t)).

(** Requests that concern the measurement, and the option that the build needs. *)
Definition daq_request (c : cfg) (q : req) : Prop :=
  match q with
  | QClock => c_opt c 0xDC = true | QDaqInfo => c_opt c 0xDA = true | QFree => c_opt c 0xD6 = true
  | QAllocDaq _ => c_opt c 0xD5 = true | QAllocOdt _ _ => c_opt c 0xD4 = true | QAllocEntry _ _ _ => c_opt c 0xD3 = true
  | QEventInfo _ => c_opt c 0xD7 = true | QResolution => c_opt c 0xD9 = true | QWriteMany _ => c_opt c 0xC7 = true
  | QSetPtr _ _ _ | QWrite _ _ | QMode _ _ _ | QSelect _ | QStart | QStop => True
  | _ => False
  end.
(** An allocation: code and number of objects. *)
Definition allocates (c : cfg) (q : req) (k n : N) : Prop :=
  c_opt c k = true /\
  match q with
  | QAllocDaq i => k = 0xD5 /\ n = i /\ fits c i
  | QAllocOdt _ i => k = 0xD4 /\ n = i
  | QAllocEntry _ _ i => k = 0xD3 /\ n = i
  | _ => False
  end.

(** ** Behaviour *)

(** [ref_step c e a q rs a']: in state [a] the request [q] is replied to with [rs]
    and leads to [a'].  [e]: answers of the application's hooks and its timer. *)
Inductive ref_step (c : cfg) (e : env) (a : ref) : req -> list reply -> ref -> Prop :=
(* sessions *)
| f_connect : forall md, ref_step c e a (QConnect md) [Response (connect_response c)] (on true a)
| f_disconnect : idle a -> ref_step c e a QDisconnect done (on false (closed c a))
| f_status : a_on a = true -> still a ->
    ref_step c e a QStatus [Response [0xFF; 0; (if c_protect c then a_prot a else 0); 0; 0; 0]] a
| f_synch : a_on a = true -> ref_step c e a QSynch (fails 0) a
| f_comm_mode : a_on a = true -> c_opt c 0xFB = true ->
    ref_step c e a QCommMode [Response [0xFF; 0; (if c_mbm c then 1 else 0); 0; c_max_bs c; c_min_st c; c_queue_size c; 10]] a
| f_unknown : forall k t, a_on a = true -> 0xC7 <= k -> implemented c k = false -> ref_step c e a (QOther (k :: t)) (fails 0x20) a
(* identification *)
| f_id : forall t b n, a_on a = true -> c_opt c 0xFA = true -> identification c e t = Some (b, n) ->
    ref_step c e a (QId t) [Response ([0xFF; 0; 0; 0] ++ le_bytes 4 n)] (to_mta (Some (0, b)) a)
| f_no_id : forall t, a_on a = true -> c_opt c 0xFA = true -> identification c e t = None ->
    ref_step c e a (QId t) [Response [0xFF; 0; 0; 0; 0; 0; 0; 0]] a
(* seed and key *)
| f_seed : forall r, idle a -> c_opt c 0xF8 = true -> c_max_dlc c = false -> has_resource c r -> shut c r a -> e_seed e r <> [] ->
    let n := N.min (c_max_cto c - 2) (lenN (e_seed e r)) in
    ref_step c e a (QSeed r) [Response (0xFF :: n :: firstn (N.to_nat n) (e_seed e r))] (to_prot (a_prot a) (N.lor (a_seed a) r) a)
| f_no_seed : forall r, idle a -> c_opt c 0xF8 = true -> c_max_dlc c = false -> has_resource c r -> ~ shut c r a ->
    ref_step c e a (QSeed r) [Response [0xFF; 0]] (to_prot (a_prot a) (N.lor (a_seed a) r) a)
| f_no_resource : forall r, idle a -> c_opt c 0xF8 = true -> ~ has_resource c r -> ref_step c e a (QSeed r) (fails 0x22) a
| f_unlock : forall k, idle a -> c_opt c 0xF7 = true -> key_local e -> a_seed a <> 0 -> e_unlock e (a_seed a) (lenN k) k = true ->
    ref_step c e a (QUnlock k) [Response [0xFF; N.ldiff (a_prot a) (a_seed a)]] (to_prot (N.ldiff (a_prot a) (a_seed a)) 0 a)
| f_wrong_key : forall k, idle a -> c_opt c 0xF7 = true -> key_local e -> a_seed a <> 0 -> e_unlock e (a_seed a) (lenN k) k = false ->
    ref_step c e a (QUnlock k) (fails 0x25) (on false (closed c a))
| f_unasked : forall k, idle a -> c_opt c 0xF7 = true -> a_seed a = 0 -> ref_step c e a (QUnlock k) (fails 0x29) a
(* memory *)
| f_set_mta : forall x b, a_on a = true -> c_opt c 0xF6 = true -> ref_step c e a (QSetMta x b) done (to_mta (Some (x, b)) a)
| f_upload : forall n x b, idle a -> c_opt c 0xF5 = true -> c_sbm c = false -> a_mta a = Some (x, b) -> granted c e x b n false false ->
    1 <= n < c_max_cto c -> in_space c (target c e x b) n ->
    ref_step c e a (QUpload n) [Data (0xFF :: mem_at (a_mem a) (target c e x b) n)] (to_mta (Some (x, (b + n) mod aspace c)) a)
| f_too_much : forall n x b, idle a -> c_opt c 0xF5 = true -> c_sbm c = false -> a_mta a = Some (x, b) -> granted c e x b n false false ->
    c_max_cto c <= n -> ref_step c e a (QUpload n) (fails 0x22) a
| f_denied : forall n x b, idle a -> c_opt c 0xF5 = true -> a_mta a = Some (x, b) -> ~ granted c e x b n false false ->
    ref_step c e a (QUpload n) (fails 0x24) a
| f_short_upload : forall n x b, idle a -> c_opt c 0xF4 = true -> c_sbm c = false -> (forall y d, granted c e y d n false false) ->
    1 <= n < c_max_cto c -> in_space c (target c e x b) n ->
    ref_step c e a (QShortUpload n x b) [Data (0xFF :: mem_at (a_mem a) (target c e x b) n)] (to_mta (Some (x, (b + n) mod aspace c)) a)
| f_download : forall bs x b, idle a -> c_cal c = true -> ~ shut c 1 a -> a_mta a = Some (x, b) -> c_buf_addr c + 2 < 2 ^ 32 ->
    granted c e x b (lenN bs) true false -> 1 <= lenN bs -> (c_mbm c = true -> 1 <= c_max_bs c) ->
    target c e x b <> 0 -> in_space c (target c e x b) (lenN bs) ->
    ref_step c e a (QDownload bs) done (to_mta (Some (x, (b + lenN bs) mod aspace c)) (to_mem (patch (a_mem a) (target c e x b) bs) a))
| f_no_download : forall bs x b, idle a -> c_cal c = true -> ~ shut c 1 a -> a_mta a = Some (x, b) -> ~ granted c e x b (lenN bs) true false ->
    ref_step c e a (QDownload bs) (fails 0x24) a
| f_download_max : forall bs x b, idle a -> c_cal c = true -> c_opt c 0xEE = true -> ~ shut c 1 a -> a_mta a = Some (x, b) ->
    c_buf_addr c + 1 < 2 ^ 32 -> lenN bs = c_max_cto c - 1 -> granted c e x b (lenN bs) true false ->
    target c e x b <> 0 -> in_space c (target c e x b) (lenN bs) ->
    ref_step c e a (QDownloadMax bs) done (to_mta (Some (x, (b + lenN bs) mod aspace c)) (to_mem (patch (a_mem a) (target c e x b) bs) a))
| f_short_download : forall bs x b, idle a -> c_cal c = true -> c_opt c 0xED = true -> ~ shut c 1 a -> granted c e x b (lenN bs) true false ->
    1 <= lenN bs -> target c e x b <> 0 -> in_space c (target c e x b) (lenN bs) ->
    ref_step c e a (QShortDownload x b bs) done (to_mta None (to_mem (patch (a_mem a) (target c e x b) bs) a))
| f_modify : forall sh am xm x b, idle a -> c_cal c = true -> c_opt c 0xEC = true -> ~ shut c 1 a -> a_mta a = Some (x, b) -> target c e x b = b ->
    granted c e x b 2 true false -> b <> 0 -> in_space c b 4 -> sh <= 31 -> N.shiftl (N.lxor am 0xFFFF) sh < 2 ^ 31 -> N.shiftl xm sh < 2 ^ 31 ->
    let v := host_word c (a_mem a) b in N.ldiff (N.shiftl xm sh) v = 0 ->
    ref_step c e a (QModify sh am xm) done (to_mem (patch (a_mem a) b (host_bytes c (modify_spec v sh am xm))) a)
| f_no_modify : forall sh am xm x b, idle a -> c_cal c = true -> c_opt c 0xEC = true -> a_mta a = Some (x, b) -> ~ granted c e x b 2 true false ->
    ref_step c e a (QModify sh am xm) (fails 0x24) a
| f_checksum : forall n x b, idle a -> c_opt c 0xF3 = true -> a_mta a = Some (x, b) -> target c e x b = b -> granted c e x b n false false ->
    within_limit c n -> at_once c n -> c_cks c <> CRC32 -> in_space c b n ->
    ref_step c e a (QChecksum n) [Response (checksum_answer (c_cks c) (checksum_spec (c_cks c) (c_host_be c) (mem_at (a_mem a) b n)))] (to_mta None a)
| f_block_too_long : forall n x b, idle a -> c_opt c 0xF3 = true -> a_mta a = Some (x, b) -> granted c e x b n false false -> ~ within_limit c n ->
    ref_step c e a (QChecksum n) [Response ([0xFE; 0x22; 0; 0] ++ le_bytes 4 (c_max_blk c))] a
| f_no_checksum : forall n x b, idle a -> c_opt c 0xF3 = true -> a_mta a = Some (x, b) -> ~ granted c e x b n false false ->
    ref_step c e a (QChecksum n) (fails 0x24) a
| f_variables : forall b bs, ref_step c e a (QVariables b bs) [] (to_mem (patch (a_mem a) b bs) a)
| f_main : ref_step c e a QMain [] a
(* the transport layer on CAN *)
| f_slave_id : forall inv : bool, idle a -> c_opt c 0xF2 = true ->
    ref_step c e a (QSlaveId inv) [Response ([0xFF] ++ (if inv then [0xFF - 0x58; 0xFF - 0x43; 0xFF - 0x50] else [0x58; 0x43; 0x50]) ++ le_bytes 4 (c_can_id c))] a
| f_daq_id : forall l id, idle a -> c_opt c 0xF2 = true -> c_motorola c = false -> l < 256 -> getN (c_daq_ids c) l = Some id ->
    ref_step c e a (QDaqId l) [Response ([0xFF; 1; 0; 0] ++ le_bytes 4 id)] a
| f_no_daq_id : forall l, idle a -> c_opt c 0xF2 = true -> c_motorola c = false -> l < 256 -> getN (c_daq_ids c) l = None ->
    ref_step c e a (QDaqId l) (fails 0x22) a
(* packets that the application sends *)
| f_notice : forall k i, c_ev_api c = true -> ref_step c e a (QNotice k i) [Data ([0xFD; k] ++ firstn (N.to_nat (c_max_cto c - 2)) i)] a
| f_service : forall k i, c_srv_api c = true -> ref_step c e a (QService k i) [Data ([0xFC; k] ++ firstn (N.to_nat (c_max_cto c - 2)) i)] a
(* measurement *)
| f_shut : forall q, idle a -> c_daq c = true -> shut c 4 a -> still a -> daq_request c q -> ref_step c e a q (fails 0x25) a
| f_clock : daq_idle c a -> c_opt c 0xDC = true -> ref_step c e a QClock [Response ([0xFF; 0; 0; 0] ++ le_bytes 4 (e_timer e))] a
| f_daq_info : daq_idle c a -> c_opt c 0xDA = true ->
    ref_step c e a QDaqInfo [Response ([0xFF; (if c_ts c then 0x13 else 3)] ++ le_bytes 2 (lenN (m_tree (a_meas a))) ++ le_bytes 2 (c_nevents c) ++ [0; 0])] a
| f_event_info : forall ev x, daq_idle c a -> c_opt c 0xD7 = true -> getN (c_events c) ev = Some x ->
    let named := negb ((ev_name x =? 0) || (ev_nlen x =? 0)) in
    ref_step c e a (QEventInfo ev) [Response [0xFF; ev_props x; 1; (if named then ev_nlen x else 0); ev_cycle x; ev_unit x; 0]]
      (if named then to_mta (Some (0, ev_name x)) a else a)
| f_no_event_info : forall ev, daq_idle c a -> c_opt c 0xD7 = true -> lenN (c_events c) <= ev -> ref_step c e a (QEventInfo ev) (fails 0x22) a
| f_resolution : daq_idle c a -> c_opt c 0xD9 = true -> c_max_dto c <= 256 -> c_ts c = true -> c_ts_size c = 4 ->
    ref_step c e a QResolution [Response [0xFF; 1; c_max_dto c - 1; 1; c_max_dto c - 1; 0x34; 1; 0]] a
| f_free : daq_idle c a -> c_opt c 0xD6 = true -> still a ->
    ref_step c e a QFree done (to_meas (mkMeas [] AFree None (fun _ => None) None false (m_sent (a_meas a))) a)
| f_alloc_daq : forall n, daq_idle c a -> c_opt c 0xD5 = true -> still a -> let x := a_meas a in
    fits c n -> In (m_phase x) [AFree; ADaq] -> size (m_tree x) + n <= c_max_ent c ->
    ref_step c e a (QAllocDaq n) done (to_meas (built (m_tree x ++ repeat [] (N.to_nat n)) ADaq x) a)
| f_alloc_odt : forall l n, daq_idle c a -> c_opt c 0xD4 = true -> still a -> let x := a_meas a in
    getN (m_tree x) l = Some [] -> In (m_phase x) [ADaq; AOdt] -> size (m_tree x) + n <= c_max_ent c ->
    ref_step c e a (QAllocOdt l n) done (to_meas (built (put_odts (m_tree x) l (repeat [] (N.to_nat n))) AOdt x) a)
| f_alloc_entry : forall l o n, daq_idle c a -> c_opt c 0xD3 = true -> still a -> let x := a_meas a in
    odt_at (m_tree x) l o = Some [] -> In (m_phase x) [AOdt; AEntry] -> size (m_tree x) + n <= c_max_ent c ->
    ref_step c e a (QAllocEntry l o n) done (to_meas (built (put_entries (m_tree x) l o (repeat (0, 0) (N.to_nat n))) AEntry x) a)
| f_full : forall q k n p, daq_idle c a -> still a -> allocates c q k n -> in_sequence (m_phase (a_meas a)) k p ->
    c_max_ent c < size (m_tree (a_meas a)) + n -> ref_step c e a q (fails 0x30) a
| f_sequence : forall q k n, daq_idle c a -> still a -> allocates c q k n -> (forall p, ~ in_sequence (m_phase (a_meas a)) k p) ->
    c_reset_seq c = false -> ref_step c e a q (fails 0x29) a
| f_set_ptr : forall l o k z, daq_idle c a -> still a -> entry_at (m_tree (a_meas a)) l o k = Some z -> fits c l ->
    ref_step c e a (QSetPtr l o k) done (to_meas (pointed (Some (l, o, k)) (a_meas a)) a)
| f_no_entry : forall l o k, daq_idle c a -> still a -> entry_at (m_tree (a_meas a)) l o k = None -> fits c l ->
    ref_step c e a (QSetPtr l o k) (fails 0x22) a
| f_write : forall b n l o k z, daq_idle c a -> still a -> let x := a_meas a in m_ptr x = Some (l, o, k) ->
    entry_at (m_tree x) l o k = Some z ->
    ref_step c e a (QWrite b n) done
      (to_meas (pointed (Some (l, o, k + 1)) (built (put_entry (m_tree x) l o k (b, n)) (m_phase x) x)) a)
| f_write_many : forall xs l o k, daq_idle c a -> c_opt c 0xC7 = true -> still a -> let x := a_meas a in m_ptr x = Some (l, o, k) ->
    (forall i, i < lenN xs -> exists z, entry_at (m_tree x) l o (k + i) = Some z) ->
    ref_step c e a (QWriteMany xs) done
      (to_meas (pointed (Some (l, o, k + lenN xs)) (built (put_all (m_tree x) l o k xs) (m_phase x) x)) a)
| f_mode : forall md l ev os, daq_idle c a -> still a -> let x := a_meas a in let b := c_ts c && N.testbit md 4 in
    getN (m_tree x) l = Some os -> l < 256 -> ev < c_nevents c -> N.land md 3 = 0 -> (m_stamps x = None \/ m_stamps x = Some b) ->
    ref_step c e a (QMode md l ev) done (to_meas (assign ev l b x) a)
| f_select : forall l os, daq_idle c a -> let x := a_meas a in getN (m_tree x) l = Some os ->
    ref_step c e a (QSelect l) [Response [0xFF; odts_before (m_tree x) l mod 256; 0; 0; 0; 0; 0; 0]] a
| f_start : daq_idle c a -> ref_step c e a QStart done (to_meas (runs true (a_meas a)) a)
| f_stop : daq_idle c a -> ref_step c e a QStop done (to_meas (runs false (a_meas a)) a)
| f_running : forall q, a_on a = true -> c_daq c = true -> m_run (a_meas a) = true ->
    match q with QSetPtr _ _ _ | QWrite _ _ | QMode _ _ _ => True | QWriteMany _ => c_opt c 0xC7 = true | _ => False end -> ref_step c e a q (fails 0x11) a
| f_event : forall ev l os b, let x := a_meas a in c_daq c = true -> m_run x = true -> m_event x ev = Some l -> getN (m_tree x) l = Some os ->
    m_stamps x = Some b -> let ts := if b then stamp c (e_timer e) else [] in sampleable c ts os -> m_sent x + lenN os <= 4 ->
    ref_step c e a (QEvent ev) (map Sample (dtos (a_mem a) ts (odts_before (m_tree x) l) os)) (to_meas (sent (lenN os) x) a)
| f_no_event : forall ev, still a -> ref_step c e a (QEvent ev) [] a
(* programming *)
| f_pgm_start : a_on a = true -> c_pgm c = true -> ~ shut c 16 a -> still a ->
    ref_step c e a QProgramStart [Response [0xFF; 0; 0; c_max_cto c; c_max_bs_pgm c; c_min_st_pgm c; 0]] (to_pgm true a)
| f_pgm_reset : a_on a = true -> c_pgm c = true -> a_pgm a = true -> ref_step c e a QProgramReset done (to_pgm false a)
| f_no_pgm : idle a -> c_pgm c = true -> ref_step c e a QProgramReset (fails 0x29) a
| f_pgm_info : a_on a = true -> c_pgm c = true -> c_opt c 0xCE = true -> ref_step c e a QProgramInfo [Response [0xFF; c_pgm_props c; c_max_sector c]] a
| f_pgm_sequence : forall k t, idle a -> program_code c k -> ref_step c e a (QOther (k :: t)) (fails 0x29) a
| f_pgm_upload : forall n, a_on a = true -> a_pgm a = true -> c_pgm c = true -> c_opt c 0xF5 = true -> ref_step c e a (QUpload n) (fails 0x12) a
| f_pgm_download : forall bs, a_on a = true -> a_pgm a = true -> c_cal c = true -> ref_step c e a (QDownload bs) (fails 0x12) a.

(** Requests one after the other, each in an environment of its own. *)
Inductive ref_run (c : cfg) : ref -> list (env * req) -> list reply -> ref -> Prop :=
| fr_nil : forall a, ref_run c a [] [] a
| fr_cons : forall a e q rs a1 l rs' a2, wf_env c e -> encodable c q -> ref_step c e a q rs a1 -> ref_run c a1 l rs' a2 ->
    ref_run c a ((e, q) :: l) (rs ++ rs') a2.

(** The operations of the slave for a list of requests. *)
Definition operations (c : cfg) (l : list (env * req)) : list (env * op) := map (fun x => (fst x, operation c (snd x))) l.

(** ** What the states have in common *)
Record measures (c : cfg) (x : meas) (s : st) : Prop := mkMs {
  x_tree : represents c s (m_tree x);
  x_phase : d_alloc (s_daq s) = m_phase x;
  x_ptr : forall l o k, m_ptr x = Some (l, o, k) -> d_plist (s_daq s) = l /\ d_podt (s_daq s) = o /\ d_pent (s_daq s) = k;
  x_event : forall ev l, m_event x ev = Some l -> assigned s ev l;
  x_stamps : forall b e, m_stamps x = Some b -> time_stamp c e s = if b then stamp c (e_timer e) else [];
  x_run : measuring s <-> m_run x = true;
  x_sent : used s = m_sent x
}.
Record related (c : cfg) (a : ref) (s : st) : Prop := mkRel {
  v_on : a_on a = true -> s_conn s = true;
  v_idle : s_busy s = false /\ s_sact s = false /\ no_job s;
  v_pgm : programming s <-> a_pgm a = true;
  v_mta : forall x b, a_mta a = Some (x, b) -> s_mext s = x /\ s_maddr s = b;
  v_mem : forall b, s_mem s b = a_mem a b;
  v_prot : s_prot s = a_prot a;
  v_seed : s_seed s = a_seed a;
  v_meas : c_daq c = true -> measures c (a_meas a) s;
  v_none : c_daq c = false -> ~ measuring s /\ m_run (a_meas a) = false
}.
