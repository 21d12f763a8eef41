(** The command processor, src/xcp.c, and the background part of
    src/xcp_checksum.c. *)
From Coq Require Import NArith List Bool.
From Verif Require Import Base Config Codec Checksum State Queue Daq.
Import ListNotations.
Open Scope N_scope.

(** ** Transmission *)

(** Transport header: length then counter, little endian (src/xcp.c 736-753). *)
Definition le_field (size v : N) : list N :=
  if size =? 1 then [lobyte v] else if size =? 2 then [lobyte v; hibyte v] else [].
Definition mk_hdr (c : cfg) (len ctr : N) : list N :=
  le_field (c_len_size c) len ++ le_field (c_ctr_size c) ctr.

(** Counter and statistics update common to src/xcp.c 732-761 and 762-790. *)
Definition bump (c : cfg) (s : st) : st :=
  set_s_cros (if c_stats c then u32 (s_cros s + 1) else s_cros s)
    (set_s_ctr (if c_ctr_size c =? 0 then s_ctr s else u16 (s_ctr s + 1)) s).

(** src/xcp.c 732-761: Xcp_SendCto with Xcp_CtoOut.len = [len]. *)
Definition send_cto (c : cfg) (len : N) (s : st) : res :=
  if lenN (s_out s) <? len then UB OobBuffer
  else Ok (bump c s, [mkPkt false (mk_hdr c len (s_ctr s)) (takeN len (s_out s))]).

(** Write [bs] at offset [off] of the payload part of the transmit buffer. *)
Definition poke (off : N) (bs : list N) (s : st) : out st :=
  if lenN (s_out s) <? off + lenN bs then UB OobBuffer
  else Ok (set_s_out (splice (s_out s) off bs) s).

(** src/xcp.c 762-790: Xcp_SendDto of the bytes just copied into Xcp_DtoOut. *)
Definition send_dto (c : cfg) (data : list N) (s : st) : st * list pkt :=
  (bump c s, [mkPkt true (mk_hdr c (lenN data) (s_ctr s)) data]).

(** src/xcp.c 808-856: Xcp_Send8; nothing is written for lengths above 8. *)
Definition send8 (c : cfg) (len : N) (bs : list N) (s : st) : res :=
  let len' := if c_max_dlc c then c_max_cto c else len in
  s1 <- (if len' <=? 8 then poke 0 (takeN len' bs) s else Ok s) ;;
  send_cto c len' s1.

(** src/xcp.c 2244-2252: Xcp_PositiveResponse, Xcp_ErrorResponse. *)
Definition pos (c : cfg) (s : st) : res := send8 c 1 [0xFF; 0; 0; 0; 0; 0; 0; 0] s.
Definition err (c : cfg) (code : N) (s : st) : res := send8 c 2 [0xFE; u8 code; 0; 0; 0; 0; 0; 0] s.

(** src/xcp.c 2104-2110: Xcp_SendResult. *)
Definition send_result (c : cfg) (code : N) (s : st) : res :=
  if code =? 0xFF then pos c s else err c code s.

(** src/xcp.c 2254-2259: Xcp_BusyResponse. *)
Definition busy_response (c : cfg) (s : st) : res :=
  err c 0x10 (if c_stats c then set_s_crosb (u32 (s_crosb s + 1)) s else s).

(** ** Locks (tools/xcp_config.h 239-250, src/hw/posix/hw.c 119-131) *)

(** Lock 0 is XCP_HW_LOCK_XCP, the only one acquired in a nested way by the
    core.  Simplification: XCP_DAQ, XCP_TL and XCP_PGM sections never nest here
    (each is left before the next is entered) and are not represented. *)
Definition enter (c : cfg) (k : N) (s : st) : out st :=
  match c_lock c with
  | LockNormal => if existsb (N.eqb k) (s_held s) then UB Deadlock else Ok (set_s_held (k :: s_held s) s)
  | LockRecursive => Ok (set_s_held (k :: s_held s) s)
  end.
Fixpoint released (k : N) (l : list N) : list N :=
  match l with [] => [] | h :: t => if h =? k then t else h :: released k t end.
Definition leave (k : N) (s : st) : st := set_s_held (released k (s_held s)) s.

(** src/xcp.c 2223-2227: Xcp_SetBusy. *)
Definition set_busy (c : cfg) (b : bool) (s : st) : out st :=
  s1 <- enter c 0 s ;; Ok (leave 0 (set_s_busy b s1)).

(** ** Guards, src/xcp.c 80-129 *)

Definition daq_stopped (c : cfg) (s : st) (k : res) : res :=
  if c_daq c && d_run (s_daq s) then send_result c 0x11 s else k.
Definition pgm_idle (c : cfg) (s : st) (k : res) : res :=
  if c_pgm c && (match s_pgm s with PgmActive => true | _ => false end) then send_result c 0x12 s else k.
Definition pgm_active (c : cfg) (s : st) (k : res) : res :=
  match s_pgm s with PgmActive => k | _ => send_result c 0x29 s end.

(** src/xcp.c 2211-2221: Xcp_IsProtected. *)
Definition is_protected (c : cfg) (r : N) (s : st) : bool := c_protect c && (N.land (s_prot s) r =? r).
Definition unlocked (c : cfg) (r : N) (s : st) (k : res) : res :=
  if is_protected c r s then send_result c 0x25 s else k.

Definition check_mem (c : cfg) (e : env) (ext addr len : N) (w pg : bool) (s : st) (k : res) : res :=
  if c_chkmem c && negb (e_access e ext addr len w pg) then send_result c 0x24 s else k.

(** ** Memory *)

(** src/xcp.c 78: XCP_INCREMENT_MTA. *)
Definition inc_mta (c : cfg) (i : N) (s : st) : st := set_s_maddr ((s_maddr s + u32 i) mod aspace c) s.

(** src/xcp.c 2121-2148: address actually accessed by Xcp_CopyMemory.
    Simplification: the mapper is applied to target addresses only; it is taken
    to leave the address of the communication buffer alone, and its result code
    is ignored as in the code. *)
Definition map_addr (c : cfg) (e : env) (ext addr : N) : N := if c_mapper c then e_map e ext addr else addr.

(** src/xcp.c 2121-2148 with src/xcp_util.c 33-44, from target memory into the
    transmit buffer at [off].  Simplification: target memory and the module's
    own variables do not overlap. *)
Definition copy_out (c : cfg) (e : env) (ext addr len off : N) (s : st) : out st :=
  let a := map_addr c e ext addr in
  if len =? 0 then UB Assert
  else if aspace c <? a + len then UB WildAddr
  else poke off (mread (s_mem s) a len) s.

(** The same from the receive buffer (bytes [bs]) into target memory. *)
Definition copy_in (c : cfg) (e : env) (ext addr : N) (bs : list N) (s : st) : out st :=
  let a := map_addr c e ext addr in
  if a =? 0 then UB Assert
  else if lenN bs =? 0 then UB Assert
  else if aspace c <? a + lenN bs then UB WildAddr
  else Ok (set_s_mem (mwrite (s_mem s) a bs) s).

(** [len] bytes of the receive buffer from offset [off] on. *)
Definition slice_in (off len : N) (s : st) : out (list N) :=
  if lenN (s_in s) <? off + len then UB OobBuffer else Ok (takeN len (dropN off (s_in s))).

(** src/xcp.c 2317-2324: Xcp_Download_Copy; the address of the payload is passed
    as a uint32_t. *)
Definition download_copy (c : cfg) (e : env) (off len : N) (s : st) : out st :=
  if 2 ^ 32 <=? c_buf_addr c + off then UB WildAddr
  else
    bs <- slice_in off len s ;;
    s1 <- copy_in c e (s_mext s) (s_maddr s) bs s ;;
    Ok (inc_mta c len s1).

(** ** Initialisation and disconnect *)

(** src/xcp.c 679-696: Xcp_DefaultResourceProtection. *)
Definition default_prot_bits (c : cfg) : N :=
  (if c_prot_cal c then 1 else 0) + (if c_prot_daq c then 4 else 0) +
  (if c_prot_stim c then 8 else 0) + (if c_prot_pgm c then 16 else 0).
Definition default_prot (c : cfg) (s : st) : st :=
  set_s_seed (if c_protect c then 0 else s_seed s)
    (set_s_prot (if c_protect c then default_prot_bits c else s_prot s) s).

Definition daq_init_st (c : cfg) (s : st) : out st :=
  if c_daq c then d <- daq_init c (s_daq s) ;; Ok (set_s_daq d s) else Ok s.

(** src/xcp.c 698-704: Xcp_Disconnect.  Simplification: XcpTl_ReleaseConnection
    changes only the socket (modelled in Eth.v). *)
Definition xcp_disconnect (c : cfg) (s : st) : out st := daq_init_st c (default_prot c s).

(** Is the checksum job compiled in (src/xcp.c 675, 713)? *)
Definition job_on (c : cfg) : bool := c_opt c 0xF3 && c_chunked c.

(** src/xcp.c 640-677: Xcp_Init. *)
Definition xcp_init (c : cfg) (s : st) : out st :=
  let s0 :=
    mkSt false false PgmUninit 0 0 0 0 0 false 0 false 0 0 0 0
         (s_in s) (s_out s) [] (s_mem s)
         (set_d_run false (set_d_pent 0 (set_d_podt 0 (set_d_plist 0 (s_daq s)))))
         (s_job s) in
  s1 <- daq_init_st c (default_prot c s0) ;;
  Ok (if job_on c then set_s_job (mkJob JIdle 0 0 0) s1 else s1).

(** Statics before main(): everything zero. *)
Definition power_on (c : cfg) (m : mem) : st :=
  mkSt false false PgmUninit 0 0 0 0 0 false 0 false 0 0 0 0
       (repeat 0 (N.to_nat (c_ctobuf c))) (repeat 0 (N.to_nat (c_max_cto c))) [] m
       (mkDaq false 0 0 0 AIdle (repeat ent0 (N.to_nat (c_max_ent c))) 0 0 0 0
              (repeat 0 (length (c_events c)))
              (mkQueue 0 0 false (repeat (0, []) (N.to_nat (c_queue_slots c)))))
       (mkJob JIdle 0 0 0).
Definition boot (c : cfg) (m : mem) : out st := xcp_init c (power_on c m).

(** ** Standard commands *)

(** src/xcp.c 995-998 *)
Definition h_unknown (c : cfg) (e : env) (s : st) : res := err c 0x20 s.

(** src/xcp.c 1000-1042: Xcp_Connect_Res. *)
Definition h_connect (c : cfg) (e : env) (s : st) : res :=
  let resource := N.lor (if c_pgm c then 16 else 0) (N.lor (if c_daq c then 4 else 0) (if c_cal c then 1 else 0)) in
  let comm := N.lor (if c_motorola c then 1 else 0)
             (N.lor (c_gran c)
             (N.lor (if c_sbm c then 0x40 else 0) (if c_opt c 0xFB then 0x80 else 0))) in
  send8 c 8 [0xFF; u8 resource; u8 comm; u8 (c_max_cto c); lobyte (c_max_dto c); hibyte (c_max_dto c); 1; 1]
        (set_s_conn true s).

(** src/xcp.c 1044-1050 *)
Definition h_disconnect (c : cfg) (e : env) (s : st) : res :=
  pgm_idle c s (andthen (pos c s) (fun s => s1 <- xcp_disconnect c s ;; Ok (s1, []))).

(** src/xcp.c 1052-1067 *)
Definition h_status (c : cfg) (e : env) (s : st) : res :=
  send8 c 6 [0xFF; 0; if c_protect c then s_prot s else 0; 0; 0; 0; 0; 0] s.

(** src/xcp.c 1069-1072 *)
Definition h_synch (c : cfg) (e : env) (s : st) : res := err c 0 s.

(** src/xcp.c 1076-1094 *)
Definition h_comm_mode (c : cfg) (e : env) (s : st) : res :=
  send8 c 8 [0xFF; 0; if c_mbm c then 1 else 0; 0; u8 (c_max_bs c); u8 (c_min_st c); u8 (c_queue_size c); 10] s.

Definition set_mta (ext addr : N) (s : st) : st := set_s_maddr addr (set_s_mext ext s).

(** src/xcp.c 1100-1136: Xcp_GetId_Res. *)
Definition h_get_id (c : cfg) (e : env) (s : st) : res :=
  let t := gb (s_in s) 1 in
  let r := if t =? 0 then Some (c_id0 c) else if t =? 1 then Some (c_id1 c)
           else if c_idhook c then e_getid e t else None in
  match r with
  | Some (a, len) => send8 c 8 ([0xFF; 0; 0; 0] ++ le32 len) (set_mta 0 a s)
  | None => send8 c 8 ([0xFF; 0; 0; 0] ++ le32 0) s
  end.

(** src/xcp.c 1140-1202: Xcp_GetSeed_Res. *)
Definition seed_resource_ok (c : cfg) (r : N) : bool :=
  (r =? 16) && c_pgm c || (r =? 4) && c_daq c || (r =? 1) && c_cal c.
Definition h_get_seed (c : cfg) (e : env) (s : st) : res :=
  let r := gb (s_in s) 2 in
  pgm_idle c s
    (if negb (seed_resource_ok c r) then err c 0x22 s
     else
       let seed := e_seed e r in
       let len := if is_protected c r s then N.min (c_max_cto c - 2) (lenN seed) else 0 in
       s1 <- (if is_protected c r s then
                (if len =? 0 then UB Assert else poke 2 (takeN len seed) s)
              else Ok s) ;;
       s2 <- poke 0 [0xFF; len] (set_s_seed (N.lor (s_seed s1) r) s1) ;;
       send_cto c (if c_max_dlc c then c_max_cto c else len + 2) s2).

(** src/xcp.c 1206-1234: Xcp_Unlock_Res.  The hook gets the announced key length
    and the buffer from byte 2 on. *)
Definition h_unlock (c : cfg) (e : env) (s : st) : res :=
  pgm_idle c s
    (if s_seed s =? 0 then err c 0x29 s
     else
       '(s1, o) <-
         (if e_unlock e (s_seed s) (gb (s_in s) 1) (dropN 2 (s_in s)) then
            let s1 := set_s_prot (N.ldiff (s_prot s) (s_seed s)) s in
            send8 c 2 [0xFF; s_prot s1; 0; 0; 0; 0; 0; 0] s1
          else
            andthen (err c 0x25 s) (fun s => s1 <- xcp_disconnect c s ;; Ok (s1, []))) ;;
       Ok (set_s_seed 0 s1, o)).

(** ** Upload *)

(** src/xcp.c 863-869: Xcp_SlaveBlockTransferSetActive (acquires the XCP lock and
    calls Xcp_SetBusy, which acquires it again). *)
Definition sbm_set_active (c : cfg) (b : bool) (s : st) : out st :=
  s1 <- enter c 0 s ;; s2 <- set_busy c b s1 ;; Ok (leave 0 (set_s_sact b s2)).

(** src/xcp.c 871-911: Xcp_UploadSingleBlock. *)
Definition upload_block (c : cfg) (e : env) (s : st) : res :=
  if negb (s_sact s) then Ok (s, [])
  else
    let last := s_srem s <=? c_max_cto c - 1 in
    let len := if last then s_srem s else c_max_cto c - 1 in
    let flen := if last then (if c_max_dlc c then c_max_cto c else len + 1) else c_max_cto c in
    s1 <- poke 0 [0xFF] s ;;
    s2 <- copy_out c e (s_mext s) (s_maddr s) len 1 s1 ;;
    let s3 := set_s_srem (s_srem s - len) (inc_mta c len s2) in
    andthen (send_cto c flen s3)
      (fun s => if s_srem s =? 0 then s1 <- sbm_set_active c false s ;; Ok (s1, []) else Ok (s, [])).

(** src/xcp.c 914-937: Xcp_Upload. *)
Definition upload (c : cfg) (e : env) (len : N) (s : st) : res :=
  if c_sbm c then
    s1 <- sbm_set_active c true (set_s_srem len s) ;; upload_block c e s1
  else
    s1 <- poke 0 [0xFF] s ;;
    s2 <- copy_out c e (s_mext s) (s_maddr s) len 1 s1 ;;
    send_cto c (if c_max_dlc c then c_max_cto c else len + 1) (inc_mta c len s2).

(** src/xcp.c 1238-1254 *)
Definition h_upload (c : cfg) (e : env) (s : st) : res :=
  let len := gb (s_in s) 1 in
  pgm_idle c s
    (check_mem c e (s_mext s) (s_maddr s) len false false s
       (if negb (c_sbm c) && (u8 (c_max_cto c - 1) <? len) then err c 0x22 s else upload c e len s)).

(** src/xcp.c 1261-1276: the access check uses the MTA before it is replaced. *)
Definition h_short_upload (c : cfg) (e : env) (s : st) : res :=
  let len := gb (s_in s) 1 in
  pgm_idle c s
    (check_mem c e (s_mext s) (s_maddr s) len false false s
       (if u8 (c_max_cto c - 1) <? len then err c 0x22 s
        else upload c e len (set_mta (gb (s_in s) 3) (gd c (s_in s) 4) s))).

(** src/xcp.c 1282-1289 *)
Definition h_set_mta (c : cfg) (e : env) (s : st) : res :=
  pos c (set_mta (gb (s_in s) 3) (gd c (s_in s) 4) s).

(** ** Checksum *)

(** src/xcp.c 1295-1309 *)
Definition send_checksum (c : cfg) (v : N) (s : st) : res :=
  send8 c 8 ([0xFF; cksum_code (c_cks c); 0; 0] ++ le32 v) s.
Definition send_checksum_oor (c : cfg) (s : st) : res :=
  send8 c 8 ([0xFE; 0x22; 0; 0] ++ le32 (c_max_blk c)) s.

(** Xcp_CalculateChecksum over [len] bytes of target memory. *)
Definition calc_mem (c : cfg) (s : st) (addr len start : N) (first : bool) : out N :=
  if aspace c <? addr + len then UB WildAddr
  else Ok (calc (c_cks c) (c_host_be c) (mread (s_mem s) addr len) start first).

(** src/xcp_checksum.c 338-350: Xcp_StartChecksumCalculation. *)
Definition start_checksum (c : cfg) (addr size : N) (s : st) : out st :=
  s1 <- enter c 0 s ;;
  if (match j_state (s_job s1) with JIdle => false | _ => true end) || s_busy s1 then Ok (leave 0 s1)
  else
    s2 <- set_busy c true s1 ;;
    Ok (leave 0 (upd_job (fun j => mkJob JInit addr size (j_sum j)) s2)).

(** src/xcp.c 1311-1343: Xcp_BuildChecksum_Res. *)
Definition h_checksum (c : cfg) (e : env) (s : st) : res :=
  let size := gd c (s_in s) 4 in
  pgm_idle c s
    (check_mem c e (s_mext s) (s_maddr s) size false false s
       (if (0 <? c_max_blk c) && (c_max_blk c <? size) then send_checksum_oor c s
        else if negb (c_chunked c) || (size <=? c_chunk c) then
          v <- calc_mem c s (s_maddr s) size 0 true ;; send_checksum c v s
        else
          s1 <- start_checksum c (s_maddr s) size s ;; Ok (s1, []))).

(** src/xcp_checksum.c 356-388: Xcp_ChecksumMainFunction; the remaining size is a
    uint32_t. *)
Definition sub32 (a b : N) : N := (a + (2 ^ 32 - b)) mod 2 ^ 32.
Definition checksum_main (c : cfg) (s : st) : res :=
  let j := s_job s in
  let chunk := c_chunk c in
  let next := (j_addr j + chunk) mod aspace c in
  match j_state j with
  | JIdle => Ok (s, [])
  | JInit =>
      v <- calc_mem c s (j_addr j) chunk 0 true ;;
      Ok (set_s_job (mkJob JRem next (sub32 (j_size j) chunk) v) s, [])
  | JRem =>
      v <- calc_mem c s (j_addr j) chunk (j_sum j) false ;;
      let size := sub32 (j_size j) chunk in
      Ok (set_s_job (mkJob (if size <=? chunk then JFinal else JRem) next size v) s, [])
  | JFinal =>
      v <- calc_mem c s (j_addr j) (j_size j) (j_sum j) false ;;
      s1 <- set_busy c false (set_s_job (mkJob JFinal (j_addr j) (j_size j) v) s) ;;
      andthen (send_checksum c v s1)
        (fun s => Ok (upd_job (set_j_state JIdle) s, []))
  end.

(** src/xcp.c 1347-1350 with src/tl/can/arduino_can.cpp 228-296: the CAN
    transport layer sub-commands (all three enabled). *)
Definition h_tl_cmd (c : cfg) (e : env) (s : st) : res :=
  pgm_idle c s
    (let sub := gb (s_in s) 1 in
     if sub =? 0xFF then
       let m := if gb (s_in s) 5 =? 1 then 0xFF else 0 in
       send8 c 8 ([0xFF; N.lxor 0x58 m; N.lxor 0x43 m; N.lxor 0x50 m] ++ le32 (c_can_id c)) s
     else if sub =? 0xFE then
       match getN (c_daq_ids c) (gb (s_in s) 2) with
       | None => err c 0x22 s
       | Some id => send8 c 8 ([0xFF; 1; 0; 0] ++ le32 id) s
       end
     else if sub =? 0xFD then Ok (s, [])
     else err c 0x20 s).

(** src/xcp.c 1354-1356 *)
Definition h_user (c : cfg) (e : env) (s : st) : res := pgm_idle c s (Ok (s, [])).

(** ** Calibration commands *)

(** src/xcp.c 1366-1396: Xcp_Download_Res. *)
Definition h_download (c : cfg) (e : env) (s : st) : res :=
  let len := gb (s_in s) 1 in
  let limit := u16 (c_max_bs c * c_dl c) in
  pgm_idle c s
    (check_mem c e (s_mext s) (s_maddr s) len true false s
       (if c_mbm c then
          let s1 := set_s_mact false s in
          if limit <? len then err c 0x22 s1
          else if c_dl c <? len then
            s2 <- download_copy c e 2 (c_dl c) (set_s_mrem (len - c_dl c) (set_s_mact true s1)) ;; Ok (s2, [])
          else s2 <- download_copy c e 2 len s1 ;; pos c s2
        else if c_dl c <? len then err c 0x22 s
        else s2 <- download_copy c e 2 len s ;; pos c s2)).

(** src/xcp.c 1400-1420: Xcp_DownloadNext_Res; the counter is a uint8_t. *)
Definition h_download_next (c : cfg) (e : env) (s : st) : res :=
  pgm_idle c s
    (if negb (s_mact s) then err c 0x29 s
     else
       let len := N.min (gb (s_in s) 1) (c_dl c) in
       s1 <- download_copy c e 2 len s ;;
       let rem := u8 (s_mrem s1 + 256 - len) in
       let s2 := set_s_mrem rem s1 in
       if rem =? 0 then pos c (set_s_mact false s2) else Ok (s2, [])).

(** src/xcp.c 1426-1434 *)
Definition h_download_max (c : cfg) (e : env) (s : st) : res :=
  pgm_idle c s (s1 <- download_copy c e 1 (c_dl c + 1) s ;; pos c s1).

(** src/xcp.c 1440-1465: Xcp_ShortDownload_Res; increments the MTA it did not use. *)
Definition h_short_download (c : cfg) (e : env) (s : st) : res :=
  let len := gb (s_in s) 1 in
  let ext := gb (s_in s) 3 in
  let addr := gd c (s_in s) 4 in
  pgm_idle c s
    (check_mem c e ext addr len true false s
       (if c_max_cto c - 8 <? len then err c 0x22 s
        else
          bs <- slice_in 8 len s ;;
          s1 <- copy_in c e ext addr bs s ;;
          pos c (inc_mta c len s1))).

(** src/xcp.c 1485: the value stored by MODIFY_BITS.  Left shifts are evaluated
    in int (32 bit): a count above 31 or a result of 2^31 and more is undefined. *)
Definition shl_int (v sh : N) : out N :=
  if (31 <? sh) || (2 ^ 31 <=? v * 2 ^ sh) then UB ShiftUB else Ok (v * 2 ^ sh).
Definition modify_value (v sh am xm : N) : out N :=
  a <- shl_int (N.lxor am 0xFFFF) sh ;;
  x <- shl_int xm sh ;;
  Ok (N.land v (N.lxor (N.lxor a 0xFFFFFFFF) x)).

(** src/xcp.c 1471-1488: Xcp_ModifyBits_Res; reads and writes a uint32_t in the
    byte order of the target, without the address mapper.  Simplification:
    alignment is not modelled. *)
Definition h_modify_bits (c : cfg) (e : env) (s : st) : res :=
  let sh := gb (s_in s) 1 in
  let am := gw c (s_in s) 2 in
  let xm := gw c (s_in s) 4 in
  check_mem c e (s_mext s) (s_maddr s) 2 true false s
    (if (s_maddr s =? 0) || (aspace c <? s_maddr s + 4) then UB WildAddr
     else
       let v := word_val (c_host_be c) (mread (s_mem s) (s_maddr s) 4) in
       r <- modify_value v sh am xm ;;
       let bs := if c_host_be c then rev (le32 r) else le32 r in
       pos c (set_s_mem (mwrite (s_mem s) (s_maddr s) bs) s)).

(** ** DAQ commands *)

(** src/xcp.c 1500-1510 *)
Definition h_clear_daq_list (c : cfg) (e : env) (s : st) : res :=
  pgm_idle c s (unlocked c 4 s (pos c s)).

(** src/xcp.c 1512-1541: Xcp_SetDaqPtr_Res. *)
Definition h_set_daq_ptr (c : cfg) (e : env) (s : st) : res :=
  let l := gw c (s_in s) 2 mod we c in
  let o := gb (s_in s) 4 in
  let k := gb (s_in s) 5 in
  daq_stopped c s (pgm_idle c s (unlocked c 4 s
    (ok <- validate_entry c l o k (s_daq s) ;;
     if negb ok then err c 0x22 s
     else pos c (upd_daq (fun d => set_d_pent k (set_d_podt o (set_d_plist l d))) s)))).

(** src/xcp.c 1543-1563: Xcp_WriteDaq_Res. *)
Definition h_write_daq (c : cfg) (e : env) (s : st) : res :=
  daq_stopped c s (pgm_idle c s (unlocked c 4 s
    (d <- write_daq_entry c (gb (s_in s) 2) (gd c (s_in s) 4) (s_daq s) ;;
     pos c (set_s_daq d s)))).

(** src/xcp.c 1566-1600: Xcp_WriteDaqMultiple_Res. *)
Fixpoint write_multiple (c : cfg) (buf : list N) (n : nat) (i : N) (d : daqst) : out daqst :=
  match n with
  | O => Ok d
  | S k =>
      let off := i * 8 + 2 in
      d1 <- write_daq_entry c (gb buf (off + 1)) (gd c buf (off + 2)) d ;;
      write_multiple c buf k (i + 1) d1
  end.
Definition h_write_daq_multiple (c : cfg) (e : env) (s : st) : res :=
  let n := gb (s_in s) 1 in
  if c_max_cto c <? n * 8 + 2 then send_result c 0x22 s
  else
    daq_stopped c s (pgm_idle c s (unlocked c 4 s
      (if lenN (s_in s) <? n * 8 + 2 then UB OobBuffer
       else
         d <- write_multiple c (s_in s) (N.to_nat n) 0 (s_daq s) ;;
         pos c (set_s_daq d s)))).

(** src/xcp.c 1603-1669: Xcp_SetDaqListMode_Res.  XCP_DAQ_PRESCALER_SUPPORTED and
    XCP_DAQ_ALTERNATING_SUPPORTED are not defined anywhere, so both checks are
    always compiled in. *)
Definition apply_mode (old m : N) : N :=
  fold_left (fun acc f => set_reset acc m f) [0x10; 0x01; 0x02; 0x20; 0x40; 0x80] old.
Definition h_set_daq_list_mode (c : cfg) (e : env) (s : st) : res :=
  let m := gb (s_in s) 1 in
  let l := gw c (s_in s) 2 mod we c in
  let ev := gw c (s_in s) 4 in
  let pre := gb (s_in s) 6 in
  daq_stopped c s (pgm_idle c s (unlocked c 4 s
    (if N.land m 2 =? 2 then err c 0x21 s
     else if N.land m 1 =? 1 then err c 0x21 s
     else if 1 <? pre then err c 0x22 s
     else
       d <- add_event l ev (s_daq s) ;;
       pos c (set_s_daq (set_d_mode (apply_mode (d_mode d) m) d) s)))).

(** src/xcp.c 1671-1699: Xcp_StartStopDaqList_Res; execution continues after the
    error response for a bad list number. *)
Definition h_start_stop_list (c : cfg) (e : env) (s : st) : res :=
  let m := gb (s_in s) 1 in
  let l := gw c (s_in s) 2 mod we c in
  pgm_idle c s (unlocked c 4 s
    (andthen (if d_lcnt (s_daq s) <=? l then err c 0x22 s else Ok (s, []))
       (fun s =>
          if 2 <? m then err c 0x22 s
          else
            let s1 := if m =? 2 then upd_daq (fun d => set_d_mode (N.lor (d_mode d) 0x40) d) s else s in
            p <- first_pid c (s_daq s1) l ;;
            let pid := match p with Some v => v | None => 0 end in
            send8 c 8 [0xFF; u8 pid; 0; 0; 0; 0; 0; 0] s1))).

(** src/xcp.c 1701-1721: Xcp_StartStopSynch_Res. *)
Definition h_start_stop_synch (c : cfg) (e : env) (s : st) : res :=
  let m := gb (s_in s) 1 in
  pgm_idle c s (unlocked c 4 s
    (if m =? 1 then pos c (upd_daq (fun d => set_d_run true (start_stop true d)) s)
     else if m =? 0 then pos c (upd_daq (fun d => set_d_run false (start_stop false d)) s)
     else if m =? 2 then pos c (upd_daq (start_stop false) s)
     else err c 0x22 s)).

(** src/xcp.c 1723-1729 *)
Definition h_get_daq_list_mode (c : cfg) (e : env) (s : st) : res :=
  pgm_idle c s (unlocked c 4 s (pos c s)).

(** src/xcp.c 1733-1754 *)
Definition h_daq_processor_info (c : cfg) (e : env) (s : st) : res :=
  pgm_idle c s (unlocked c 4 s
    (let n := d_lcnt (s_daq s) in
     send8 c 8 [0xFF; daq_properties c; lobyte n; hibyte n; lobyte (u16 (c_nevents c)); hibyte (u16 (c_nevents c)); 0; 0] s)).

(** src/xcp.c 1760-1790: with dynamic lists the answer is always ERR_CMD_SYNTAX,
    after a possible ERR_OUT_OF_RANGE. *)
Definition h_daq_list_info (c : cfg) (e : env) (s : st) : res :=
  let l := gw c (s_in s) 2 mod we c in
  pgm_idle c s (unlocked c 4 s
    (andthen (if d_lcnt (s_daq s) <=? l then err c 0x22 s else Ok (s, []))
       (fun s => '(_, _) <- hdr_at (s_daq s) l ;; err c 0x21 s))).

(** src/xcp.c 1796-1801 *)
Definition h_free_daq (c : cfg) (e : env) (s : st) : res :=
  unlocked c 4 s (pgm_idle c s (send_result c 0xFF (upd_daq (daq_free c) s))).

(** src/xcp.c 1807-1815 *)
Definition h_alloc_daq (c : cfg) (e : env) (s : st) : res :=
  pgm_idle c s (unlocked c 4 s
    ('(d, r) <- daq_alloc c (gw c (s_in s) 2 mod we c) (s_daq s) ;; send_result c r (set_s_daq d s))).

(** src/xcp.c 1821-1831 *)
Definition h_alloc_odt (c : cfg) (e : env) (s : st) : res :=
  pgm_idle c s (unlocked c 4 s
    ('(d, r) <- daq_alloc_odt c (gw c (s_in s) 2 mod we c) (gb (s_in s) 4) (s_daq s) ;;
     send_result c r (set_s_daq d s))).

(** src/xcp.c 1837-1849 *)
Definition h_alloc_odt_entry (c : cfg) (e : env) (s : st) : res :=
  pgm_idle c s (unlocked c 4 s
    ('(d, r) <- daq_alloc_entry c (gw c (s_in s) 2 mod we c) (gb (s_in s) 4) (gb (s_in s) 5) (s_daq s) ;;
     send_result c r (set_s_daq d s))).

(** src/xcp.c 1855-1869: the macro tested in line 1859 is not defined anywhere, so
    the protection check is always compiled in. *)
Definition h_daq_clock (c : cfg) (e : env) (s : st) : res :=
  pgm_idle c s (unlocked c 4 s (send8 c 8 ([0xFF; 0; 0; 0] ++ le32 (e_timer e)) s)).

(** src/xcp.c 1875-1889; XCP_DAQ_MAX_ODT_ENTRY_SIZE is XCP_MAX_DTO - 1. *)
Definition h_daq_resolution (c : cfg) (e : env) (s : st) : res :=
  pgm_idle c s (unlocked c 4 s
    (send8 c 8 [0xFF; 1; u8 (c_max_dto c - 1); 1; u8 (c_max_dto c - 1); 0x34; 1; 0] s)).

(** src/xcp.c 1895-1927: Xcp_GetDaqEventInfo_Res (no programming check). *)
Definition h_daq_event_info (c : cfg) (e : env) (s : st) : res :=
  let ev := gw c (s_in s) 2 in
  unlocked c 4 s
    (if u8 (c_nevents c) <=? ev then send_result c 0x22 s
     else
       match getN (c_events c) ev with
       | None => UB OobEvent
       | Some x =>
           let named := negb ((ev_name x =? 0) || (ev_nlen x =? 0)) in
           let s1 := if named then set_mta 0 (ev_name x) s else s in
           send8 c 7 [0xFF; ev_props x; 1; if named then ev_nlen x else 0; ev_cycle x; ev_unit x; 0; 0] s1
       end).

(** ** Programming commands *)

(** src/xcp.c 1939-1954 *)
Definition h_program_start (c : cfg) (e : env) (s : st) : res :=
  unlocked c 16 s (daq_stopped c s
    (send8 c 7 [0xFF; 0; 0; u8 (c_max_cto c); u8 (c_max_bs_pgm c); u8 (c_min_st_pgm c); 0; 0]
           (set_s_pgm PgmActive s))).

(** src/xcp.c 1956-1964, 2044-2100: commands that only check the state. *)
Definition h_program_only_check (c : cfg) (e : env) (s : st) : res := pgm_active c s (pos c s).

(** src/xcp.c 1966-1981: Xcp_Program_Res; the copy is commented out. *)
Definition h_program (c : cfg) (e : env) (s : st) : res :=
  let len := gb (s_in s) 1 in
  pgm_active c s
    (check_mem c e (s_mext s) (s_maddr s) len true true s (pos c (inc_mta c len s))).

(** src/xcp.c 1983-1989 *)
Definition h_program_reset (c : cfg) (e : env) (s : st) : res :=
  pgm_active c s (pos c (set_s_pgm PgmIdle s)).

(** src/xcp.c 1993-2002 *)
Definition h_pgm_info (c : cfg) (e : env) (s : st) : res :=
  send8 c 3 [0xFF; u8 (c_pgm_props c); u8 (c_max_sector c); 0; 0; 0; 0; 0] s.

(** src/xcp.c 2008-2037 *)
Definition h_sector_info (c : cfg) (e : env) (s : st) : res :=
  let m := gb (s_in s) 1 in
  let n := gb (s_in s) 2 in
  if c_max_sector c <=? n then send_result c 0x28 s
  else if 1 <? m then send_result c 0x27 s
  else send8 c 8 [0xFF; u8 (n * 2); u8 (n * 2 + 1); 0; 0; 0; 0; 0] s.

(** ** Dispatch *)

Definition handler := env -> st -> res.

(** src/xcp.c 383-635: Xcp_ServerCommands, indexed by 0xFF - command code; entries
    of disabled commands are Xcp_CommandNotImplemented_Res.  Simplification: the
    PAG commands, SET_REQUEST and READ_DAQ, whose handlers the repository does
    not define, are always disabled. *)
Definition table (c : cfg) : list handler :=
  let no := h_unknown c in
  let o (b : bool) (h : handler) := if b then h else no in
  let cal := c_cal c in
  let daq := c_daq c in
  let pgm := c_pgm c in
  let op := c_opt c in
  [ h_connect c;                                     (* FF CONNECT                *)
    h_disconnect c;                                  (* FE DISCONNECT             *)
    h_status c;                                      (* FD GET_STATUS             *)
    h_synch c;                                       (* FC SYNCH                  *)
    o (op 0xFB) (h_comm_mode c);                     (* FB GET_COMM_MODE_INFO     *)
    o (op 0xFA) (h_get_id c);                        (* FA GET_ID                 *)
    no;                                              (* F9 SET_REQUEST            *)
    o (op 0xF8) (h_get_seed c);                      (* F8 GET_SEED               *)
    o (op 0xF7) (h_unlock c);                        (* F7 UNLOCK                 *)
    o (op 0xF6) (h_set_mta c);                       (* F6 SET_MTA                *)
    o (op 0xF5) (h_upload c);                        (* F5 UPLOAD                 *)
    o (op 0xF4) (h_short_upload c);                  (* F4 SHORT_UPLOAD           *)
    o (op 0xF3) (h_checksum c);                      (* F3 BUILD_CHECKSUM         *)
    o (op 0xF2) (h_tl_cmd c);                        (* F2 TRANSPORT_LAYER_CMD    *)
    o (op 0xF1) (h_user c);                          (* F1 USER_CMD               *)
    o cal (h_download c);                            (* F0 DOWNLOAD               *)
    o (cal && op 0xEF) (h_download_next c);          (* EF DOWNLOAD_NEXT          *)
    o (cal && op 0xEE) (h_download_max c);           (* EE DOWNLOAD_MAX           *)
    o (cal && op 0xED) (h_short_download c);         (* ED SHORT_DOWNLOAD         *)
    o (cal && op 0xEC) (h_modify_bits c);            (* EC MODIFY_BITS            *)
    no; no; no; no; no; no; no; no;                  (* EB .. E4 page switching   *)
    o daq (h_clear_daq_list c);                      (* E3 CLEAR_DAQ_LIST         *)
    o daq (h_set_daq_ptr c);                         (* E2 SET_DAQ_PTR            *)
    o daq (h_write_daq c);                           (* E1 WRITE_DAQ              *)
    o daq (h_set_daq_list_mode c);                   (* E0 SET_DAQ_LIST_MODE      *)
    o daq (h_get_daq_list_mode c);                   (* DF GET_DAQ_LIST_MODE      *)
    o daq (h_start_stop_list c);                     (* DE START_STOP_DAQ_LIST    *)
    o daq (h_start_stop_synch c);                    (* DD START_STOP_SYNCH       *)
    o (daq && op 0xDC) (h_daq_clock c);              (* DC GET_DAQ_CLOCK          *)
    no;                                              (* DB READ_DAQ               *)
    o (daq && op 0xDA) (h_daq_processor_info c);     (* DA GET_DAQ_PROCESSOR_INFO *)
    o (daq && op 0xD9) (h_daq_resolution c);         (* D9 GET_DAQ_RESOLUTION_INFO *)
    o (daq && op 0xD8) (h_daq_list_info c);          (* D8 GET_DAQ_LIST_INFO      *)
    o (daq && op 0xD7) (h_daq_event_info c);         (* D7 GET_DAQ_EVENT_INFO     *)
    o (daq && op 0xD6) (h_free_daq c);               (* D6 FREE_DAQ               *)
    o (daq && op 0xD5) (h_alloc_daq c);              (* D5 ALLOC_DAQ              *)
    o (daq && op 0xD4) (h_alloc_odt c);              (* D4 ALLOC_ODT              *)
    o (daq && op 0xD3) (h_alloc_odt_entry c);        (* D3 ALLOC_ODT_ENTRY        *)
    o pgm (h_program_start c);                       (* D2 PROGRAM_START          *)
    o pgm (h_program_only_check c);                  (* D1 PROGRAM_CLEAR          *)
    o pgm (h_program c);                             (* D0 PROGRAM                *)
    o pgm (h_program_reset c);                       (* CF PROGRAM_RESET          *)
    o (pgm && op 0xCE) (h_pgm_info c);               (* CE GET_PGM_PROCESSOR_INFO *)
    o (pgm && op 0xCD) (h_sector_info c);            (* CD GET_SECTOR_INFO        *)
    o (pgm && op 0xCC) (h_program_only_check c);     (* CC PROGRAM_PREPARE        *)
    o (pgm && op 0xCB) (h_program_only_check c);     (* CB PROGRAM_FORMAT         *)
    o (pgm && op 0xCA) (h_program_only_check c);     (* CA PROGRAM_NEXT           *)
    o (pgm && op 0xC9) (h_program_only_check c);     (* C9 PROGRAM_MAX            *)
    o (pgm && op 0xC8) (h_program_only_check c);     (* C8 PROGRAM_VERIFY         *)
    o (daq && op 0xC7) (h_write_daq_multiple c) ].   (* C7 WRITE_DAQ_MULTIPLE     *)

Definition count_ctos (c : cfg) (s : st) : st :=
  set_s_ctos (if c_stats c then u32 (s_ctos s + 1) else s_ctos s) s.

(** src/xcp.c 945-973: Xcp_DispatchCommand.  The handlers read bytes 0 to 7 of the
    receive buffer whatever the length of the received frame; the first test
    stands for those reads. *)
Definition dispatch (c : cfg) (e : env) (s : st) : res :=
  if lenN (s_in s) <? 8 then UB OobBuffer
  else
    let cmd := gb (s_in s) 0 in
    if s_conn s then
      if s_busy s then busy_response c s
      else
        match getN (table c) (255 - cmd) with
        | Some h => h e (count_ctos c s)
        | None => UB OobTable
        end
    else
      let s1 := count_ctos c s in
      if cmd =? 0xFF then h_connect c e s1 else Ok (s1, []).

(** ** Operations of the surrounding program *)

Inductive op :=
| ORecv (frame : list N)                   (* a command frame arrives                *)
| OMain                                    (* Xcp_MainFunction                       *)
| OTrigger (ev : N)                        (* XcpDaq_TriggerEvent                    *)
| OEvent (code : N) (info : list N)        (* Xcp_SendEventPacket                    *)
| OService (code : N) (info : list N)      (* Xcp_SendServiceRequestPacket           *)
| OAppWrite (addr : N) (bs : list N)       (* the application changes its variables  *)
| ODisconnect                              (* Xcp_Disconnect                         *)
| OSetMta (ext addr : N)                   (* Xcp_SetMta                             *)
| OSetBusy (b : bool)                      (* Xcp_SetBusy                            *)
| OInit.                                   (* Xcp_Init                               *)

(** Reception: src/tl/eth/common.c 143-188 copies the payload over the receive
    buffer (an empty one is ignored, one longer than the buffer fails an assert),
    src/tl/can/arduino_can.cpp 150-170 likewise; bytes beyond the frame keep
    their old contents.  Then Xcp_DispatchCommand. *)
Definition receive (c : cfg) (e : env) (frame : list N) (s : st) : res :=
  if lenN frame =? 0 then Ok (s, [])
  else if c_ctobuf c <? lenN frame then UB Assert
  else dispatch c e (set_s_in (splice (s_in s) 0 frame) s).

(** src/xcp.c 706-718: Xcp_MainFunction. *)
Definition main_function (c : cfg) (e : env) (s : st) : res :=
  andthen (if c_sbm c then upload_block c e s else Ok (s, []))
    (fun s => if job_on c then checksum_main c s else Ok (s, [])).

(** src/xcp_daq.c 604-612: XcpDaq_TransmitDtos.  The loop runs until tail meets
    head, i.e. once per queued frame ([transmit_empties] in the proofs). *)
Fixpoint transmit (c : cfg) (n : nat) (s : st) : res :=
  match n with
  | O => Ok (s, [])
  | S k =>
      '(data, q) <- dequeue c (d_q (s_daq s)) ;;
      let '(s1, o) := send_dto c data (upd_daq (set_d_q q) s) in
      '(s2, o2) <- transmit c k s1 ;;
      Ok (s2, o ++ o2)
  end.

(** src/xcp_daq.c 487-554: XcpDaq_TriggerEvent. *)
Definition trigger (c : cfg) (e : env) (ev : N) (s : st) : res :=
  if negb (c_daq c) then Ok (s, [])
  else
    r <- sample_event c (s_mem s) (e_timer e) ev (s_daq s) ;;
    match r with
    | None => Ok (s, [])
    | Some q => transmit c (N.to_nat (pending c q)) (upd_daq (set_d_q q) s)
    end.

(** src/xcp.c 2262-2285: Xcp_SendSpecialPacket (the length is a uint8_t). *)
Definition special (c : cfg) (ty code : N) (info : list N) (s : st) : res :=
  let n := N.min (c_max_cto c - 2) (u8 (lenN info)) in
  s1 <- poke 0 ([ty; u8 code] ++ takeN n info) s ;;
  send_cto c (if c_max_dlc c then c_max_cto c else n + 2) s1.

Definition step (c : cfg) (e : env) (o : op) (s : st) : res :=
  match o with
  | ORecv f => receive c e f s
  | OMain => main_function c e s
  | OTrigger ev => trigger c e ev s
  | OEvent code info => if c_ev_api c then special c 0xFD code info s else Ok (s, [])
  | OService code info => if c_srv_api c then special c 0xFC code info s else Ok (s, [])
  | OAppWrite a bs => Ok (set_s_mem (mwrite (s_mem s) a bs) s, [])
  | ODisconnect => s1 <- xcp_disconnect c s ;; Ok (s1, [])
  | OSetMta x a => Ok (set_mta x a s, [])
  | OSetBusy b => s1 <- set_busy c b s ;; Ok (s1, [])
  | OInit => s1 <- xcp_init c s ;; Ok (s1, [])
  end.

(** A run: operations with the environment each one sees; frames in the order
    they are handed to the transport layer. *)
Fixpoint run (c : cfg) (l : list (env * op)) (s : st) : res :=
  match l with
  | [] => Ok (s, [])
  | (e, o) :: t => andthen (step c e o s) (run c t)
  end.

(** States reached from power-on after the given operations, with all frames
    transmitted so far. *)
Definition reaches (c : cfg) (m : mem) (l : list (env * op)) (s : st) (o : list pkt) : Prop :=
  exists s0, boot c m = Ok s0 /\ run c l s0 = Ok (s, o).
