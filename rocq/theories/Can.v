(** Model of src/tl/can/linux_socket_can.c. *)
From Coq Require Import NArith List Bool.
From Verif Require Import Base Config State Core.
Import ListNotations.
Open Scope N_scope.

(** A data or remote frame on the bus. *)
Record canframe := mkCan { n_ext : bool; n_rtr : bool; n_ident : N; n_data : list N }.

(** linux/can.h: the word for identifier and flags (CAN_EFF_FLAG, CAN_RTR_FLAG). *)
Definition can_id (f : canframe) : N :=
  N.lor (if n_ext f then 0x80000000 else 0) (N.lor (if n_rtr f then 0x40000000 else 0) (n_ident f)).

(** inc/xcp.h 499: XCP_ON_CAN_IS_EXTENDED_IDENTIFIER. *)
Definition is_extended (i : N) : bool := N.land i 0x80000000 =? 0x80000000.

(** Lines 118-121: can_mask, CAN_EFF_FLAG or CAN_SFF_MASK. *)
Definition can_mask (i : N) : N := if is_extended i then 0x80000000 else 0x7FF.

(** Linux, Documentation/networking/can.rst: a filter matches if
    received_can_id & mask == can_id & mask; a frame is received if one filter matches. *)
Definition filter_matches (i : N) (f : canframe) : bool := N.land (can_id f) (can_mask i) =? N.land i (can_mask i).
Definition accepted (inbound broadcast : N) (f : canframe) : bool := filter_matches inbound f || filter_matches broadcast f.

(** Lines 143-167: XcpTl_RxHandler.  A frame without data is ignored; otherwise frame.len bytes are copied
    to Xcp_CtoIn.data (c_ctobuf bytes), without a check, and the command is dispatched. *)
Definition can_receive (c : cfg) (e : env) (f : canframe) (s : st) : res :=
  if lenN (n_data f) =? 0 then Ok (s, [])
  else if c_ctobuf c <? lenN (n_data f) then UB OobBuffer
  else dispatch c e (set_s_in (splice (s_in s) 0 (n_data f)) s).

(** Lines 201-218: XcpTl_Send; the data part of can_frame has 8, that of canfd_frame 64 bytes.  The rest of
    the structures is zero. *)
Definition can_tx (fd : bool) (buf : list N) : out (list N) :=
  let room := if fd then 64 else 8 in
  if room <? lenN buf then UB OobBuffer else Ok (buf ++ repeat 0 (N.to_nat (room - lenN buf))).
