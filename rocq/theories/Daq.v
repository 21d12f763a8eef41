(** Dynamic DAQ lists, src/xcp_daq.c. *)
From Coq Require Import NArith List Bool.
From Verif Require Import Base Config State Queue.
Import ListNotations.
Open Scope N_scope.

(** src/xcp_daq.c 66-71: XcpDaq_AllocTransitionype. *)
Inductive trans := TFree | TDaq | TOdt | TEntry.

(** src/xcp_daq.c 111-123, 260-267: XcpDaq_AllocTransitionTable and
    XcpDaq_AllocValidateTransition. *)
Definition allowed (a : alloc) (t : trans) : bool :=
  match a, t with
  | _, TFree => true
  | AFree, TDaq | ADaq, TDaq => true
  | ADaq, TOdt | AOdt, TOdt => true
  | AOdt, TEntry | AEntry, TEntry => true
  | _, _ => false
  end.

Definition ent0 : entity := mkEnt KUnused BZero.

(** src/xcp_daq.c 161-181: XcpDaq_Free (always succeeds). *)
Definition daq_free (c : cfg) (d : daqst) : daqst :=
  set_d_alloc AFree
    (set_d_ents (repeat ent0 (N.to_nat (c_max_ent c)))
      (set_d_lfe (repeat 0 (length (c_events c)))
        (set_d_ocnt 0 (set_d_lcnt 0 (set_d_ecnt 0 d))))).

(** src/xcp_daq.c 634-658: one iteration of XcpDaq_StartStopLists on the one
    list state shared by all lists (line 353-378 returns &XcpDaq_ListState). *)
Definition ss_once (start : bool) (d : daqst) : daqst :=
  if N.land (d_mode d) 0x40 =? 0x40 then
    let m := if start then N.lor (d_mode d) 0x80 else N.land (d_mode d) 0x7F in
    set_d_mode (N.land m 0xBF) d
  else d.
Definition start_stop (start : bool) (d : daqst) : daqst := iterN (d_lcnt d) (ss_once start) d.

(** src/xcp_daq.c 281-307: XcpDaq_Init. *)
Definition daq_init (c : cfg) (d : daqst) : out daqst :=
  let d1 := set_d_pent 0 (set_d_podt 0 (set_d_plist 0 (set_d_run false (start_stop false d)))) in
  let d2 := daq_free c (set_d_alloc AIdle d1) in
  q <- queue_init c (d_q d2) ;;
  Ok (set_d_q q d2).

(** Access to an entity of the pool. *)
Definition ent_at (d : daqst) (i : N) : out entity :=
  match getN (d_ents d) i with Some e => Ok e | None => UB OobEntity end.

(** Header (count, first index) seen through the list or ODT union member. *)
Definition hdr_of (b : ebody) : out (N * N) :=
  match b with BZero => Ok (0, 0) | BHdr n f => Ok (n, f) | BEnt _ _ => UB KindPun end.

(** Entry (address, length) seen through the entry union member. *)
Definition entry_of (b : ebody) : out (N * N) :=
  match b with BZero => Ok (0, 0) | BEnt a l => Ok (a, l) | BHdr _ _ => UB KindPun end.

(** src/xcp_daq.c 330-351: XcpDaq_GetListConfiguration: (numOdts, firstOdt);
    the same access reads an ODT: (numOdtEntries, firstOdtEntry). *)
Definition hdr_at (d : daqst) (i : N) : out (N * N) := e <- ent_at d i ;; hdr_of (en_body e).

(** src/xcp_daq.c 617-632: XcpDaq_GetOdt, index into the pool. *)
Definition odt_index (c : cfg) (d : daqst) (l o : N) : out N :=
  '(_, f) <- hdr_at d l ;; Ok ((f mod we c + o) mod we c).

(** src/xcp_daq.c 309-328: XcpDaq_GetOdtEntry, index into the pool. *)
Definition entry_index (c : cfg) (d : daqst) (l o k : N) : out N :=
  i <- odt_index c d l o ;;
  '(_, f) <- hdr_at d i ;; Ok ((f + u16 k) mod we c).

(** EntityCount + count as evaluated by C: in int for 8- and 16-bit entity types,
    modulo 2^32 for the 32-bit type (src/xcp_daq.c 193, 218, 246). *)
Definition ent_sum (c : cfg) (a b : N) : N := if we c =? 2 ^ 32 then (a + b) mod 2 ^ 32 else a + b.

(** "x > count - 1" as evaluated by C (src/xcp_daq.c 426, 454, 458, 462, 666): for
    8- and 16-bit types count - 1 is the int -1 when count is 0; for the 32-bit
    type it wraps. *)
Definition beyond (c : cfg) (x count : N) : bool :=
  if we c =? 2 ^ 32 then (if count =? 0 then 2 ^ 32 - 1 <? x else count - 1 <? x)
  else count <=? x.

(** The loops over the freshly allocated entities. *)
Definition is_bent (e : entity) : bool := match en_body e with BEnt _ _ => true | _ => false end.
Definition clear_num (e : entity) : entity :=
  mkEnt KList (match en_body e with BZero => BHdr 0 0 | BHdr _ f => BHdr 0 f | BEnt a n => BEnt a n end).
Definition set_kind (k : ekind) (e : entity) : entity := mkEnt k (en_body e).
Definition on_range (f : entity -> entity) (from upto : N) (l : list entity) : list entity :=
  takeN from l ++ map f (takeN (upto - from) (dropN from l)) ++ dropN (N.max from upto) l.

(** Result code: 0xFF is ERR_SUCCESS. *)
Definition daq_ret := out (daqst * N).

(** Handling of a call in the wrong state (src/xcp_daq.c 187-191 and twins). *)
Definition seq_error (c : cfg) (d : daqst) : daq_ret :=
  if c_reset_seq c then d1 <- daq_init c d ;; Ok (d1, 0x29) else Ok (d, 0x29).

(** src/xcp_daq.c 183-206: XcpDaq_Alloc. *)
Definition daq_alloc (c : cfg) (n : N) (d : daqst) : daq_ret :=
  if negb (allowed (d_alloc d) TDaq) then seq_error c d
  else
    let top := ent_sum c (d_ecnt d) n in
    if c_max_ent c <? top then Ok (d, 0x30)
    else if existsb is_bent (takeN (top - d_ecnt d) (dropN (d_ecnt d) (d_ents d))) then UB KindPun
    else Ok (set_d_ecnt ((d_ecnt d + n) mod we c)
              (set_d_lcnt ((d_lcnt d + n) mod we c)
                (set_d_ents (on_range clear_num (d_ecnt d) top (d_ents d))
                  (set_d_alloc ADaq d))), 0xFF).

(** src/xcp_daq.c 208-232: XcpDaq_AllocOdt. *)
Definition daq_alloc_odt (c : cfg) (l n : N) (d : daqst) : daq_ret :=
  if negb (allowed (d_alloc d) TOdt) then seq_error c d
  else
    let top := ent_sum c (d_ecnt d) n in
    if c_max_ent c <? top then Ok (d, 0x30)
    else
      let d1 := set_d_ents (on_range (set_kind KOdt) (d_ecnt d) top (d_ents d)) (set_d_alloc AOdt d) in
      e <- ent_at d1 l ;;
      '(num, _) <- hdr_of (en_body e) ;;
      Ok (set_d_ecnt ((d_ecnt d + n) mod we c)
           (set_d_ocnt ((d_ocnt d + n) mod we c)
             (set_d_ents (updN (d_ents d1) l (mkEnt (en_kind e) (BHdr ((num + n) mod we c) (u16 (d_ecnt d))))) d1)),
          0xFF).

(** src/xcp_daq.c 234-258: XcpDaq_AllocOdtEntry. *)
Definition daq_alloc_entry (c : cfg) (l o n : N) (d : daqst) : daq_ret :=
  if negb (allowed (d_alloc d) TEntry) then seq_error c d
  else
    let top := ent_sum c (d_ecnt d) n in
    if c_max_ent c <? top then Ok (d, 0x30)
    else
      let d1 := set_d_ents (on_range (set_kind KEntry) (d_ecnt d) top (d_ents d)) (set_d_alloc AEntry d) in
      '(_, first) <- hdr_at d1 l ;;
      let odt := (first + u16 o) mod we c in
      e <- ent_at d1 odt ;;
      Ok (set_d_ecnt ((d_ecnt d + n) mod we c)
           (set_d_ents (updN (d_ents d1) odt (mkEnt (en_kind e) (BHdr n (u16 (d_ecnt d))))) d1),
          0xFF).

(** src/xcp_daq.c 447-468: XcpDaq_ValidateOdtEntry. *)
Definition validate_entry (c : cfg) (l o k : N) (d : daqst) : out bool :=
  if beyond c l (d_lcnt d) then Ok false
  else
    '(nodts, _) <- hdr_at d l ;;
    if beyond c o nodts then Ok false
    else
      i <- odt_index c d l o ;;
      '(nents, _) <- hdr_at d i ;;
      Ok (negb (beyond c k nents)).

(** src/xcp_daq.c 660-678: XcpDaq_GetFirstPid; [None] when it returns false. *)
Fixpoint sum_odts (c : cfg) (d : daqst) (n : nat) (i acc : N) : out N :=
  match n with
  | O => Ok acc
  | S k => '(nodts, _) <- hdr_at d i ;; sum_odts c d k (i + 1) ((acc + nodts) mod we c)
  end.
Definition first_pid (c : cfg) (d : daqst) (l : N) : out (option N) :=
  if beyond c l (d_lcnt d) then Ok None
  else p <- sum_odts c d (N.to_nat l) 0 0 ;; Ok (Some p).

(** src/xcp.c 2341-2362: Xcp_WriteDaqEntry (bit offset and extension are not
    stored). *)
Definition write_daq_entry (c : cfg) (size addr : N) (d : daqst) : out daqst :=
  i <- entry_index c d (d_plist d) (d_podt d) (d_pent d) ;;
  e <- ent_at d i ;;
  Ok (set_d_pent ((d_pent d + 1) mod we c)
       (set_d_ents (updN (d_ents d) i (mkEnt (en_kind e) (BEnt addr size))) d)).

(** src/xcp_daq.c 477-481: XcpDaq_AddEventChannel; ListForEvent is uint8_t (line 146). *)
Definition add_event (l ev : N) (d : daqst) : out daqst :=
  if ev <? lenN (d_lfe d) then Ok (set_d_lfe (updN (d_lfe d) ev (u8 l)) d) else UB OobEvent.

(** src/xcp.c 2202-2209: Xcp_SetResetBit8. *)
Definition set_reset (result value flag : N) : N :=
  if N.land value flag =? flag then N.lor result flag else N.land result (255 - flag).

(** src/xcp_daq.c 534-545: the entry loop of XcpDaq_TriggerEvent; [data] holds the
    bytes data[0 .. offset). *)
Fixpoint sample_entries (c : cfg) (m : mem) (d : daqst) (l o : N) (n : nat) (k : N) (data : list N)
  : out (list N) :=
  match n with
  | O => Ok data
  | S j =>
      i <- entry_index c d l o k ;;
      e <- ent_at d i ;;
      '(addr, len) <- entry_of (en_body e) ;;
      if c_max_dto c - lenN data <? len then UB Assert
      else if len =? 0 then UB Assert
      else if aspace c <? addr + len then UB WildAddr
      else sample_entries c m d l o j (k + 1) (data ++ mread m addr len)
  end.

(** Bytes of the time stamp as they lie in memory (src/xcp_daq.c 529-532). *)
Definition ts_bytes (c : cfg) (t : N) : list N :=
  takeN (c_ts_size c) (if c_host_be c then rev (le32 t) else le32 t).

(** src/xcp_daq.c 521-552: the ODT loop; [i] is the ODT number, [pid] its absolute
    number. *)
Fixpoint sample_odts (c : cfg) (m : mem) (ts : option N) (d : daqst) (l : N) (n : nat) (i pid : N) (q : queue)
  : out queue :=
  match n with
  | O => Ok q
  | S j =>
      oi <- odt_index c d l i ;;
      '(nents, _) <- hdr_at d oi ;;
      let stamp := match ts with Some t => if i =? 0 then ts_bytes c t else [] | None => [] end in
      data <- sample_entries c m d l i (N.to_nat nents) 0 (u8 pid :: stamp) ;;
      q1 <- enqueue c data q ;;
      sample_odts c m ts d l j (i + 1) ((pid + 1) mod we c) q1
  end.

(** src/xcp_daq.c 487-552: XcpDaq_TriggerEvent up to the final transmission;
    [None] when it returns early (and transmits nothing). *)
Definition sample_event (c : cfg) (m : mem) (timer ev : N) (d : daqst) : out (option queue) :=
  if negb (d_run d) then Ok None
  else if u8 (c_nevents c) <=? ev then Ok None
  else
    match getN (d_lfe d) ev with
    | None => UB OobEvent
    | Some l =>
        p <- first_pid c d l ;;
        match p with
        | None => Ok None
        | Some pid =>
            '(nodts, _) <- hdr_at d l ;;
            let ts := if c_ts c && (N.land (d_mode d) 0x10 =? 0x10) then Some timer else None in
            q <- sample_odts c m ts d l (N.to_nat nodts) 0 pid (d_q d) ;;
            Ok (Some q)
        end
    end.

(** src/xcp_daq.c 566-582: XcpDaq_GetProperties for dynamic lists. *)
Definition daq_properties (c : cfg) : N :=
  N.lor (if c_prescaler c then 2 else 0) (N.lor (if c_ts c then 0x10 else 0) 3).
