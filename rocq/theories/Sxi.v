(** Model of src/tl/sxi/xcp_tl.c (serial transport layer, receive side) and of
    src/tl/xcp_tl_timeout.c. *)
From Coq Require Import NArith List Bool.
From Verif Require Import Base.
Import ListNotations.
Open Scope N_scope.

(** ** src/tl/xcp_tl_timeout.c *)

(** Lines 37-39; the call-back is always XcpTl_ResetSM (src/tl/sxi/xcp_tl.c 69),
    and is applied by [timeout_check]'s caller. *)
Record timer := mkTimer { t_value : N; t_running : bool }.

(** Lines 41-45; the value is a uint16_t. *)
Definition timeout_init (v : N) : timer := mkTimer (u16 v) false.
(** Lines 47-50; [now] is XcpHw_GetTimerCounterMS(), a uint32_t. *)
Definition timeout_start (now : N) (t : timer) : timer := mkTimer now true.
(** Lines 52-54. *)
Definition timeout_stop (t : timer) : timer := mkTimer (t_value t) false.
(** Lines 67-69. *)
Definition timeout_reset (now : N) (t : timer) : timer := mkTimer now (t_running t).
(** Lines 56-65: is the call-back called?  The subtraction is one of uint32_t. *)
Definition timeout_check (now : N) (t : timer) : bool :=
  t_running t && (t_value t <? (now + (2 ^ 32 - t_value t)) mod 2 ^ 32).

(** ** src/tl/sxi/xcp_tl.c *)

(** Lines 43-47. *)
Inductive rx_state := Idle | UntilLength | Remaining.

(** Lines 49-56, and the timer. *)
Record rcv := mkRcv {
  r_buf : list N; r_state : rx_state; r_index : N; r_remaining : N; r_dlc : N; r_ctr : N; r_timer : timer }.

(** Lines 99-105: XcpTl_ResetSM; neither the buffer nor the timer is touched. *)
Definition reset_sm (r : rcv) : rcv := mkRcv (r_buf r) Idle 0 0 0 0 (r_timer r).

(** Lines 66-70: XcpTl_Init, on a receiver whose buffer holds [buf].  Lines 41 and
    69: the time-out is 100. *)
Definition sxi_init (buf : list N) : rcv := reset_sm (mkRcv buf Idle 0 0 0 0 (timeout_init 100)).

(** Line 39: XCP_SXI_MAKEWORD.  Simplification: int has at least 32 bits (where it has
    16, shifting a byte of 0x80 or more overflows). *)
Definition makeword (buf : list N) (offs : N) : out N :=
  match getN buf offs, getN buf (offs + 1) with
  | Some a, Some b => Ok (N.lor a (N.shiftl b 8))
  | _, _ => UB OobBuffer
  end.

(** A call of Xcp_DispatchCommand: Xcp_CtoIn.len and what Xcp_CtoIn.data points to
    (lines 128-132): the receiver's buffer from its fifth byte on. *)
Definition command := (N * list N)%type.

(** Lines 110-139: XcpTl_FeedReceiver.  Simplification: the command processor is
    called, with its arguments as output, but its own effects are not part of this
    state; it does not call back into the receiver.  The critical section is left out
    (it is empty on the only platform of this file, src/hw/arduino/hw.cpp 70-81). *)
Definition feed (now octet : N) (r : rcv) : out (rcv * list command) :=
  if lenN (r_buf r) <=? r_index r then UB OobBuffer                                  (* 113 *)
  else
    let buf := updN (r_buf r) (r_index r) octet in
    match r_state r with
    | Idle =>                                                                        (* 115-117 *)
        Ok (mkRcv buf UntilLength (u16 (r_index r + 1)) (r_remaining r) (r_dlc r) (r_ctr r)
              (timeout_start now (r_timer r)), [])
    | UntilLength =>                                                                 (* 118-124 *)
        if r_index r =? 1 then
          dlc <- makeword buf 0 ;;
          Ok (mkRcv buf Remaining (u16 (r_index r + 1)) (u16 (dlc + 2)) (u16 dlc) (r_ctr r)
                (timeout_reset now (r_timer r)), [])
        else Ok (mkRcv buf UntilLength (u16 (r_index r + 1)) (r_remaining r) (r_dlc r) (r_ctr r) (r_timer r), [])
    | Remaining =>                                                                   (* 125-136 *)
        ctr <- (if r_index r =? 3 then w <- makeword buf 2 ;; Ok (u16 w) else Ok (r_ctr r)) ;;
        let t := timeout_reset now (r_timer r) in
        let rem := u16 (r_remaining r + (2 ^ 16 - 1)) in
        if rem =? 0 then
          Ok (reset_sm (mkRcv buf Remaining (r_index r) rem (r_dlc r) ctr (timeout_stop t)),
              [(r_dlc r, dropN 4 buf)])
        else Ok (mkRcv buf Remaining (u16 (r_index r + 1)) rem (r_dlc r) ctr t, [])
    end.

(** Lines 75-86: XcpTl_MainFunction, with the byte that is available, if any, and the
    times at which the byte is processed and the time-out is checked. *)
Record poll := mkPoll { p_byte : option N; p_time : N; p_check : N }.
Definition sxi_main (p : poll) (r : rcv) : out (rcv * list command) :=
  '(r1, o) <- match p_byte p with Some b => feed (p_time p) b r | None => Ok (r, []) end ;;
  Ok (if timeout_check (p_check p) (r_timer r1) then reset_sm r1 else r1, o).

(** Any number of calls. *)
Fixpoint sxi_run (l : list poll) (r : rcv) : out (rcv * list command) :=
  match l with
  | [] => Ok (r, [])
  | p :: t => '(r1, o1) <- sxi_main p r ;; '(r2, o2) <- sxi_run t r1 ;; Ok (r2, o1 ++ o2)
  end.
