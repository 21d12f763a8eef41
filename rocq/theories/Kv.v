(** Model of src/tl/can/kvaser.c. *)
From Coq Require Import NArith List Bool.
From Verif Require Import Base Config State Core Can.
Import ListNotations.
Open Scope N_scope.

(** What canRead delivers (line 112): identifier, flags, data; of a remote frame only the number of
    data bytes counts, the bytes are not delivered.
    canlib.h: canMSG_RTR 1, canMSG_STD 2, canMSG_EXT 4, canMSGERR_HW_OVERRUN 0x200, canFDMSG_FDF 0x10000. *)
Record kvframe := mkKv { k_id : N; k_flag : N; k_data : list N }.
Definition k_remote (f : kvframe) : bool := N.testbit (k_flag f) 0.

(** inc/xcp.h 500: XCP_ON_CAN_STRIP_IDENTIFIER. *)
Definition strip (i : N) : N := N.ldiff i 0x80000000.

(** Lines 81-91: XcpTl_MatchingAddress; the parameter flag has 16 bits. *)
Definition kv_matches (id0 id1 flag : N) : bool :=
  (strip id0 =? id1) && Bool.eqb (is_extended id0) (flag mod 65536 =? 4).

(** Lines 110-140: Kv_Notification.  Xcp_CtoIn.data points to the static array msg, which is [s_in].
    Simplification: the array has 64 bytes; here it is as long as Xcp_CtoInBuffer. *)
Definition kv_notify (c : cfg) (inbound broadcast : N) (e : env) (f : kvframe) (s : st) : res :=
  let dlc := lenN (k_data f) in
  if c_ctobuf c <? dlc then UB OobBuffer else
  let s1 := if k_remote f then s else set_s_in (splice (s_in s) 0 (k_data f)) s in   (* 112 *)
  if c_max_dlc c && negb (dlc =? c_max_cto c) then Ok (s1, [])                       (* 114-118 *)
  else if dlc =? 0 then Ok (s1, [])                                                  (* 119 *)
  else if kv_matches inbound (k_id f) (k_flag f) then dispatch c e s1                (* 120-123 *)
  else Ok (s1, []).                                                                  (* 124-126: printf *)

(** Lines 238-262: XcpTl_SetCANFilter: the arguments of canSetAcceptanceFilter. *)
Definition kv_filter (inbound broadcast : N) : N * N * bool :=
  let i0 := strip inbound in
  let i1 := strip broadcast in
  let filter := N.land i0 i1 in
  let mask := N.lxor (N.lor i0 i1) filter in
  if is_extended inbound || is_extended broadcast then (filter, N.lxor mask 0x1FFFFFFF, true)
  else (filter, N.lxor mask 0x7FF, false).
(** canlib.h, canSetAcceptanceFilter: a frame is received if (code XOR id) AND mask == 0; the filter
    applies to frames with extended, respectively standard, identifiers only. *)
Definition kv_passes (p : N * N * bool) (ext : bool) (id : N) : bool :=
  let '(code, mask, x) := p in negb (Bool.eqb x ext) || (N.land (N.lxor code id) mask =? 0).

(** Lines 264-284: XcpTl_Send.  [frames] are those given to canWrite (identifier, extended, data);
    [depth] counts the acquisitions of the lock XCP_HW_LOCK_TL that are not released. *)
Definition kv_send (outbound : N) (buf : list N) (x : list (N * bool * list N) * N) : list (N * bool * list N) * N :=
  let '(frames, depth) := x in
  let depth := depth + 1 in                                                          (* 271 *)
  if 8 <? lenN buf then (frames, depth)                                              (* 272-276 *)
  else (frames ++ [(strip outbound, is_extended outbound, buf)], depth - 1).         (* 278-283 *)
