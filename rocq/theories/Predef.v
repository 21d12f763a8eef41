(** The slave built with predefined (static) DAQ lists:
    XCP_DAQ_ENABLE_PREDEFINED_LISTS on, XCP_DAQ_ENABLE_DYNAMIC_LISTS off.  Only
    the functions whose text depends on that choice are written again here; the
    others are those of [Core].  (Both kinds of lists together do not compile:
    several branches lack a return value, src/xcp_daq.c 326-328, 348-350.) *)
From Coq Require Import NArith List Bool.
From Verif Require Import Base Config Codec State Queue Daq Core.
Import ListNotations.
Open Scope N_scope.

(** inc/xcp.h 1048-1052: the constant tables XcpDaq_PredefinedLists (numOdts,
    firstOdt) and XcpDaq_PredefinedOdts (numOdtEntries, firstOdtEntry).
    XcpDaq_PredefinedListCount is the length of the first (line 449). *)
Record predef := mkPre { pr_lists : list (N * N); pr_odts : list (N * N) }.

(** State: that of [Core] (of its DAQ part only the running flag, the DAQ pointer,
    XcpDaq_ListForEvent and the queue are used), XcpDaq_PredefinedOdtEntries
    (address, length; not constant) and the mode byte of every
    XcpDaq_PredefinedListsState.  Simplification: prescaler and counter are
    never read and left out. *)
Record sst := mkZ { z_st : st; z_entries : list (N * N); z_modes : list N }.
Definition with_st (s : st) (z : sst) : sst := mkZ s (z_entries z) (z_modes z).
Definition with_modes (ms : list N) (z : sst) : sst := mkZ (z_st z) (z_entries z) ms.
Definition sres := out (sst * list pkt).
Definition lift (r : res) (z : sst) : sres := '(s, o) <- r ;; Ok (with_st s z, o).
Definition count_of (p : predef) : N := lenN (pr_lists p).

(** ** src/xcp_daq.c *)

(** 330-351: XcpDaq_GetListConfiguration. *)
Definition list_conf (p : predef) (l : N) : out (N * N) :=
  match getN (pr_lists p) l with Some x => Ok x | None => UB OobEntity end.

(** 615-632: XcpDaq_GetOdt; the index has the entity type. *)
Definition odt_conf (c : cfg) (p : predef) (l o : N) : out (N * N) :=
  '(_, f) <- list_conf p l ;;
  match getN (pr_odts p) ((f mod we c + o) mod we c) with Some x => Ok x | None => UB OobEntity end.

(** 309-328: XcpDaq_GetOdtEntry, index into XcpDaq_PredefinedOdtEntries. *)
Definition entry_idx (c : cfg) (p : predef) (l o k : N) : out N :=
  '(_, f) <- odt_conf c p l o ;; Ok ((f + u16 k) mod we c).
Definition entry_get (es : list (N * N)) (i : N) : out (N * N) :=
  match getN es i with Some x => Ok x | None => UB OobEntity end.

(** 354-378: XcpDaq_GetListState, no range check. *)
Definition mode_get (z : sst) (l : N) : out N :=
  match getN (z_modes z) l with Some m => Ok m | None => UB OobEntity end.

(** 634-658: XcpDaq_StartStopLists, on one list state and on all. *)
Definition ss_mode (start : bool) (m : N) : N :=
  if N.land m 0x40 =? 0x40 then N.land (if start then N.lor m 0x80 else N.land m 0x7F) 0xBF else m.
Definition ss_all (start : bool) (z : sst) : sst := with_modes (map (ss_mode start) (z_modes z)) z.

(** 281-307: XcpDaq_Init.  XcpDaq_ListForEvent is only cleared by XcpDaq_Free
    (line 166), which this build does not have. *)
Definition sdaq_init (c : cfg) (z : sst) : out sst :=
  let z1 := ss_all false z in
  let d := set_d_pent 0 (set_d_podt 0 (set_d_plist 0 (set_d_run false (s_daq (z_st z1))))) in
  q <- queue_init c (d_q d) ;;
  Ok (mkZ (set_s_daq (set_d_q q d) (z_st z1)) (z_entries z1) (map (fun _ => 0) (z_modes z1))).

(** 447-467: XcpDaq_ValidateOdtEntry. *)
Definition svalidate (c : cfg) (p : predef) (l o k : N) : out bool :=
  if beyond c l (count_of p) then Ok false
  else
    '(nodts, _) <- list_conf p l ;;
    if beyond c o nodts then Ok false
    else '(nents, _) <- odt_conf c p l o ;; Ok (negb (beyond c k nents)).

(** 660-678: XcpDaq_GetFirstPid; [None] when it returns false. *)
Fixpoint ssum (c : cfg) (p : predef) (n : nat) (i acc : N) : out N :=
  match n with
  | O => Ok acc
  | S k => '(nodts, _) <- list_conf p i ;; ssum c p k (i + 1) ((acc + nodts) mod we c)
  end.
Definition sfirst_pid (c : cfg) (p : predef) (l : N) : out (option N) :=
  if beyond c l (count_of p) then Ok None else v <- ssum c p (N.to_nat l) 0 0 ;; Ok (Some v).

(** 534-545: the entry loop of XcpDaq_TriggerEvent. *)
Fixpoint sentries (c : cfg) (p : predef) (es : list (N * N)) (m : mem) (l o : N) (n : nat) (k : N) (data : list N)
  : out (list N) :=
  match n with
  | O => Ok data
  | S j =>
      i <- entry_idx c p l o k ;;
      '(addr, len) <- entry_get es i ;;
      if c_max_dto c - lenN data <? len then UB Assert
      else if len =? 0 then UB Assert
      else if aspace c <? addr + len then UB WildAddr
      else sentries c p es m l o j (k + 1) (data ++ mread m addr len)
  end.

(** 521-552: the ODT loop. *)
Fixpoint sodts (c : cfg) (p : predef) (es : list (N * N)) (m : mem) (ts : option N) (l : N) (n : nat) (i pid : N) (q : queue)
  : out queue :=
  match n with
  | O => Ok q
  | S j =>
      '(nents, _) <- odt_conf c p l i ;;
      let stamp := match ts with Some t => if i =? 0 then ts_bytes c t else [] | None => [] end in
      data <- sentries c p es m l i (N.to_nat nents) 0 (u8 pid :: stamp) ;;
      q1 <- enqueue c data q ;;
      sodts c p es m ts l j (i + 1) ((pid + 1) mod we c) q1
  end.

(** 487-554: XcpDaq_TriggerEvent. *)
Definition strigger (c : cfg) (p : predef) (e : env) (ev : N) (z : sst) : sres :=
  let s := z_st z in
  let d := s_daq s in
  if negb (d_run d) then Ok (z, [])
  else if u8 (c_nevents c) <=? ev then Ok (z, [])
  else
    match getN (d_lfe d) ev with
    | None => UB OobEvent
    | Some l =>
        r <- sfirst_pid c p l ;;
        match r with
        | None => Ok (z, [])
        | Some pid =>
            '(nodts, _) <- list_conf p l ;;
            m <- mode_get z l ;;
            let ts := if c_ts c && (N.land m 0x10 =? 0x10) then Some (e_timer e) else None in
            q <- sodts c p (z_entries z) (s_mem s) ts l (N.to_nat nodts) 0 pid (d_q d) ;;
            lift (transmit c (N.to_nat (pending c q)) (upd_daq (set_d_q q) s)) z
        end
    end.

(** ** src/xcp.c *)

(** 698-704: Xcp_Disconnect. *)
Definition sdisconnect (c : cfg) (z : sst) : out sst :=
  let z1 := with_st (default_prot c (z_st z)) z in
  if c_daq c then sdaq_init c z1 else Ok z1.

(** 640-677: Xcp_Init. *)
Definition sinit (c : cfg) (z : sst) : out sst :=
  let s := z_st z in
  let s0 :=
    mkSt false false PgmUninit 0 0 0 0 0 false 0 false 0 0 0 0
         (s_in s) (s_out s) [] (s_mem s)
         (set_d_run false (set_d_pent 0 (set_d_podt 0 (set_d_plist 0 (s_daq s)))))
         (s_job s) in
  z1 <- (let z0 := with_st (default_prot c s0) z in if c_daq c then sdaq_init c z0 else Ok z0) ;;
  Ok (if job_on c then with_st (set_s_job (mkJob JIdle 0 0 0) (z_st z1)) z1 else z1).

(** Guards, 80-129. *)
Definition sdaq_stopped (c : cfg) (z : sst) (k : sres) : sres :=
  if c_daq c && d_run (s_daq (z_st z)) then lift (send_result c 0x11 (z_st z)) z else k.
Definition spgm_idle (c : cfg) (z : sst) (k : sres) : sres :=
  if c_pgm c && (match s_pgm (z_st z) with PgmActive => true | _ => false end) then lift (send_result c 0x12 (z_st z)) z else k.
Definition sunlocked (c : cfg) (r : N) (z : sst) (k : sres) : sres :=
  if is_protected c r (z_st z) then lift (send_result c 0x25 (z_st z)) z else k.
Definition sthen (r : sres) (f : sst -> sres) : sres :=
  '(z1, o1) <- r ;; '(z2, o2) <- f z1 ;; Ok (z2, o1 ++ o2).

Definition shandler := env -> sst -> sres.

(** 1044-1050 *)
Definition zh_disconnect (c : cfg) (e : env) (z : sst) : sres :=
  spgm_idle c z (sthen (lift (pos c (z_st z)) z) (fun z => z1 <- sdisconnect c z ;; Ok (z1, []))).

(** 1206-1234: Xcp_Unlock_Res; a wrong key disconnects. *)
Definition zh_unlock (c : cfg) (e : env) (z : sst) : sres :=
  let s := z_st z in
  spgm_idle c z
    (if s_seed s =? 0 then lift (err c 0x29 s) z
     else
       '(z1, o) <-
         (if e_unlock e (s_seed s) (gb (s_in s) 1) (dropN 2 (s_in s)) then
            let s1 := set_s_prot (N.ldiff (s_prot s) (s_seed s)) s in
            lift (send8 c 2 [0xFF; s_prot s1; 0; 0; 0; 0; 0; 0] s1) z
          else
            sthen (lift (err c 0x25 s) z) (fun z => z1 <- sdisconnect c z ;; Ok (z1, []))) ;;
       Ok (with_st (set_s_seed 0 (z_st z1)) z1, o)).

(** 1512-1541: Xcp_SetDaqPtr_Res. *)
Definition zh_set_daq_ptr (c : cfg) (p : predef) (e : env) (z : sst) : sres :=
  let s := z_st z in
  let l := gw c (s_in s) 2 mod we c in
  let o := gb (s_in s) 4 in
  let k := gb (s_in s) 5 in
  sdaq_stopped c z (spgm_idle c z (sunlocked c 4 z
    (ok <- svalidate c p l o k ;;
     if negb ok then lift (err c 0x22 s) z
     else lift (pos c (upd_daq (fun d => set_d_pent k (set_d_podt o (set_d_plist l d))) s)) z))).

(** 2341-2362: Xcp_WriteDaqEntry. *)
Definition swrite (c : cfg) (p : predef) (size addr : N) (z : sst) : out sst :=
  let d := s_daq (z_st z) in
  i <- entry_idx c p (d_plist d) (d_podt d) (d_pent d) ;;
  _ <- entry_get (z_entries z) i ;;
  Ok (mkZ (upd_daq (set_d_pent ((d_pent d + 1) mod we c)) (z_st z)) (updN (z_entries z) i (addr, size)) (z_modes z)).

(** 1543-1563: Xcp_WriteDaq_Res. *)
Definition zh_write_daq (c : cfg) (p : predef) (e : env) (z : sst) : sres :=
  let s := z_st z in
  sdaq_stopped c z (spgm_idle c z (sunlocked c 4 z
    (if d_plist (s_daq s) <? count_of p then lift (send_result c 0x23 s) z
     else
       z1 <- swrite c p (gb (s_in s) 2) (gd c (s_in s) 4) z ;;
       lift (pos c (z_st z1)) z1))).

(** 1566-1600: Xcp_WriteDaqMultiple_Res. *)
Fixpoint swrites (c : cfg) (p : predef) (buf : list N) (n : nat) (i : N) (z : sst) : out sst :=
  match n with
  | O => Ok z
  | S k =>
      let off := i * 8 + 2 in
      z1 <- swrite c p (gb buf (off + 1)) (gd c buf (off + 2)) z ;;
      swrites c p buf k (i + 1) z1
  end.
Definition zh_write_daq_multiple (c : cfg) (p : predef) (e : env) (z : sst) : sres :=
  let s := z_st z in
  let n := gb (s_in s) 1 in
  if c_max_cto c <? n * 8 + 2 then lift (send_result c 0x22 s) z
  else
    sdaq_stopped c z (spgm_idle c z (sunlocked c 4 z
      (if d_plist (s_daq s) <? count_of p then lift (send_result c 0x23 s) z
       else if lenN (s_in s) <? n * 8 + 2 then UB OobBuffer
       else
         z1 <- swrites c p (s_in s) (N.to_nat n) 0 z ;;
         lift (pos c (z_st z1)) z1))).

(** 1603-1669: Xcp_SetDaqListMode_Res; neither the list nor the event number is
    checked. *)
Definition zh_set_daq_list_mode (c : cfg) (p : predef) (e : env) (z : sst) : sres :=
  let s := z_st z in
  let m := gb (s_in s) 1 in
  let l := gw c (s_in s) 2 mod we c in
  let ev := gw c (s_in s) 4 in
  let pre := gb (s_in s) 6 in
  sdaq_stopped c z (spgm_idle c z (sunlocked c 4 z
    (if N.land m 2 =? 2 then lift (err c 0x21 s) z
     else if N.land m 1 =? 1 then lift (err c 0x21 s) z
     else if 1 <? pre then lift (err c 0x22 s) z
     else
       d <- add_event l ev (s_daq s) ;;
       old <- mode_get z l ;;
       let z1 := with_modes (updN (z_modes z) l (apply_mode old m)) (with_st (set_s_daq d s) z) in
       lift (pos c (z_st z1)) z1))).

(** 1671-1699: Xcp_StartStopDaqList_Res; continues after the error response. *)
Definition zh_start_stop_list (c : cfg) (p : predef) (e : env) (z : sst) : sres :=
  let m := gb (s_in (z_st z)) 1 in
  let l := gw c (s_in (z_st z)) 2 mod we c in
  spgm_idle c z (sunlocked c 4 z
    (sthen (if count_of p <=? l then lift (err c 0x22 (z_st z)) z else Ok (z, []))
       (fun z =>
          if 2 <? m then lift (err c 0x22 (z_st z)) z
          else
            z1 <- (if m =? 2 then old <- mode_get z l ;; Ok (with_modes (updN (z_modes z) l (N.lor old 0x40)) z) else Ok z) ;;
            r <- sfirst_pid c p l ;;
            let pid := match r with Some v => v | None => 0 end in
            lift (send8 c 8 [0xFF; u8 pid; 0; 0; 0; 0; 0; 0] (z_st z1)) z1))).

(** 1701-1721: Xcp_StartStopSynch_Res. *)
Definition zh_start_stop_synch (c : cfg) (e : env) (z : sst) : sres :=
  let m := gb (s_in (z_st z)) 1 in
  let run b z := with_st (upd_daq (set_d_run b) (z_st z)) z in
  let fin z := lift (pos c (z_st z)) z in
  spgm_idle c z (sunlocked c 4 z
    (if m =? 1 then fin (run true (ss_all true z))
     else if m =? 0 then fin (run false (ss_all false z))
     else if m =? 2 then fin (ss_all false z)
     else lift (err c 0x22 (z_st z)) z)).

(** src/xcp_daq.c 566-582: XcpDaq_GetProperties; XCP_DAQ_CONFIG_TYPE_STATIC is 0. *)
Definition sproperties (c : cfg) : N := N.lor (if c_prescaler c then 2 else 0) (if c_ts c then 0x10 else 0).

(** 1733-1754 *)
Definition zh_daq_processor_info (c : cfg) (p : predef) (e : env) (z : sst) : sres :=
  spgm_idle c z (sunlocked c 4 z
    (let n := count_of p in
     lift (send8 c 8 [0xFF; sproperties c; lobyte n; hibyte n; lobyte (u16 (c_nevents c)); hibyte (u16 (c_nevents c)); u8 n; 0]
                 (z_st z)) z)).

(** 1760-1790: continues after the error response; the properties are
    DAQ_LIST_PROPERTY_PREDEFINED (1), _EVENT_FIXED (2) and _DAQ (4). *)
Definition zh_daq_list_info (c : cfg) (p : predef) (e : env) (z : sst) : sres :=
  let l := gw c (s_in (z_st z)) 2 mod we c in
  spgm_idle c z (sunlocked c 4 z
    (sthen (if count_of p <=? l then lift (err c 0x22 (z_st z)) z else Ok (z, []))
       (fun z => '(nodts, _) <- list_conf p l ;; lift (send8 c 8 [0xFF; 7; u8 nodts; 0; 0; 0; 0; 0] (z_st z)) z))).

(** 383-635: entries of Xcp_ServerCommands whose handler differs from [Core].
    The commands to allocate lists (D6 to D3) do not exist in this build. *)
Definition own (c : cfg) (p : predef) (k : N) : option shandler :=
  let o (b : bool) (h : shandler) := if b then Some h else None in
  match k with
  | 0xFE => Some (zh_disconnect c)
  | 0xF7 => o (c_opt c 0xF7) (zh_unlock c)
  | 0xE2 => o (c_daq c) (zh_set_daq_ptr c p)
  | 0xE1 => o (c_daq c) (zh_write_daq c p)
  | 0xE0 => o (c_daq c) (zh_set_daq_list_mode c p)
  | 0xDE => o (c_daq c) (zh_start_stop_list c p)
  | 0xDD => o (c_daq c) (zh_start_stop_synch c)
  | 0xDA => o (c_daq c && c_opt c 0xDA) (zh_daq_processor_info c p)
  | 0xD8 => o (c_daq c && c_opt c 0xD8) (zh_daq_list_info c p)
  | 0xC7 => o (c_daq c && c_opt c 0xC7) (zh_write_daq_multiple c p)
  | _ => None
  end.

(** 945-973: Xcp_DispatchCommand. *)
Definition sdispatch (c : cfg) (p : predef) (e : env) (z : sst) : sres :=
  let s := z_st z in
  if s_conn s && negb (s_busy s) then
    match own c p (gb (s_in s) 0) with
    | Some h => if lenN (s_in s) <? 8 then UB OobBuffer else h e (with_st (count_ctos c s) z)
    | None => lift (dispatch c e s) z
    end
  else lift (dispatch c e s) z.

(** Reception, as in [Core.receive]. *)
Definition sreceive (c : cfg) (p : predef) (e : env) (frame : list N) (z : sst) : sres :=
  let s := z_st z in
  if lenN frame =? 0 then Ok (z, [])
  else if c_ctobuf c <? lenN frame then UB Assert
  else sdispatch c p e (with_st (set_s_in (splice (s_in s) 0 frame) s) z).

Definition sstep (c : cfg) (p : predef) (e : env) (x : op) (z : sst) : sres :=
  match x with
  | ORecv f => sreceive c p e f z
  | OTrigger ev => if c_daq c then strigger c p e ev z else Ok (z, [])
  | ODisconnect => z1 <- sdisconnect c z ;; Ok (z1, [])
  | OInit => z1 <- sinit c z ;; Ok (z1, [])
  | _ => lift (step c e x (z_st z)) z
  end.
Fixpoint srun (c : cfg) (p : predef) (l : list (env * op)) (z : sst) : sres :=
  match l with
  | [] => Ok (z, [])
  | (e, x) :: t => sthen (sstep c p e x z) (srun c p t)
  end.

(** Power-on: the initial entries [es] come from the initialised table. *)
Definition sboot (c : cfg) (p : predef) (es : list (N * N)) (m : mem) : out sst :=
  sinit c (mkZ (power_on c m) es (map (fun _ => 0) (pr_lists p))).
