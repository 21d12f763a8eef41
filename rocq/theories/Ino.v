(** Model of src/tl/can/arduino_can.cpp: reception by an interrupt routine, at any
    point of the main loop. *)
From Coq Require Import NArith List Bool.
From Verif Require Import Base Config State Core Can.
Import ListNotations.
Open Scope N_scope.

(** Where the main loop is (lines 123-128, 163-171): between two calls of
    XcpTl_MainFunction, behind the test of XcpTl_FrameReceived, behind its reset, or in
    XcpUtl_MemCopy with [i] of [n] bytes copied. *)
Inductive pc := PIdle | PSeen | PGo | PCopy (i n : N).
(** Lines 50-55: XcpTl_Buffer, XcpTl_Dlc, XcpTl_FrameReceived. *)
Record ino := mkI { i_st : st; i_buf : list N; i_dlc : N; i_flag : bool; i_pc : pc }.
Definition ires := out (ino * list pkt).

(** Lines 132-161: on_receive for the board without filters (MKR).  A remote frame
    leaves the buffer alone; its length is the length of [n_data].  Simplification:
    packetSize is the number of bytes that CAN.available() announces. *)
Definition isr (f : canframe) (x : ino) : out ino :=
  let n := lenN (n_data f) in
  if n_rtr f then Ok (mkI (i_st x) (i_buf x) (u8 n) true (i_pc x))
  else if 64 <? n then UB OobBuffer
  else Ok (mkI (i_st x) (splice (i_buf x) 0 (n_data f)) (u8 n) true (i_pc x)).

(** Lines 123-128, 163-171 with src/xcp_util.c 33-44: one step of the main loop.  The
    command is executed in one step: interrupts during it see and change nothing but the
    three variables above, which it does not use. *)
Definition istep (c : cfg) (e : env) (x : ino) : ires :=
  match i_pc x with
  | PIdle => Ok (if i_flag x then mkI (i_st x) (i_buf x) (i_dlc x) true PSeen else x, [])
  | PSeen => Ok (mkI (i_st x) (i_buf x) (i_dlc x) false PGo, [])
  | PGo => if i_dlc x =? 0 then UB Assert else Ok (mkI (i_st x) (i_buf x) (i_dlc x) (i_flag x) (PCopy 0 (i_dlc x)), [])
  | PCopy i n =>
      if i <? n then
        match getN (i_buf x) i with
        | Some b => if c_ctobuf c <=? i then UB OobBuffer
                    else Ok (mkI (set_s_in (splice (s_in (i_st x)) i [b]) (i_st x)) (i_buf x) (i_dlc x) (i_flag x) (PCopy (i + 1) n), [])
        | None => UB OobBuffer
        end
      else r <- dispatch c e (i_st x) ;; Ok (mkI (fst r) (i_buf x) (i_dlc x) (i_flag x) PIdle, snd r)
  end.

(** Interrupt, step of the main loop, or a call of the slave by the application between
    two calls of XcpTl_MainFunction. *)
Inductive iop := IFrame (f : canframe) | IMain | ICall (o : op).
Definition ido (c : cfg) (e : env) (o : iop) (x : ino) : ires :=
  match o with
  | IFrame f => x1 <- isr f x ;; Ok (x1, [])
  | IMain => istep c e x
  | ICall p => match i_pc x with
               | PIdle => r <- step c e p (i_st x) ;; Ok (mkI (fst r) (i_buf x) (i_dlc x) (i_flag x) PIdle, snd r)
               | _ => Ok (x, [])
               end
  end.
Fixpoint irun (c : cfg) (l : list (env * iop)) (x : ino) : ires :=
  match l with
  | [] => Ok (x, [])
  | (e, o) :: t => r <- ido c e o x ;; q <- irun c t (fst r) ;; Ok (fst q, snd r ++ snd q)
  end.
(** Line 50-53: after start-up. *)
Definition iboot (s : st) : ino := mkI s (repeat 0 64) 0 false PIdle.
