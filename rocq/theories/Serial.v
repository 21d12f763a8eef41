(** The slave behind the serial transport layer: src/tl/sxi/xcp_tl.c (Sxi.v) on top of Core.v.  Xcp_CtoIn.data points
    into the receiver's buffer. *)
From Coq Require Import NArith List Bool.
From Verif Require Import Base Config State Core Sxi.
Import ListNotations.
Open Scope N_scope.

(** Lines 127-133: the commands of one call of XcpTl_FeedReceiver.  The length (Xcp_CtoIn.len) is not looked at by
    Xcp_DispatchCommand (src/xcp.c 945-973). *)
Fixpoint dispatch_all (c : cfg) (e : env) (l : list command) (s : st) : res :=
  match l with
  | [] => Ok (s, [])
  | x :: t => andthen (dispatch c e (set_s_in (snd x) s)) (dispatch_all c e t)
  end.

(** The program around: a call of XcpTl_MainFunction (lines 75-86), or another operation of the slave.
    Simplification: between frames the slave does not look at Xcp_CtoIn, so that bytes of an incomplete frame
    appear in [s_in] only with the command. *)
Inductive sevent := SPoll (e : env) (p : poll) | SOp (e : env) (o : op).

Fixpoint serial_run (c : cfg) (l : list sevent) (r : rcv) (s : st) : out (rcv * st * list pkt) :=
  match l with
  | [] => Ok (r, s, [])
  | SPoll e p :: t =>
      '(r1, cs) <- sxi_main p r ;;
      '(s1, o1) <- dispatch_all c e cs s ;;
      '(r2, s2, o2) <- serial_run c t r1 s1 ;;
      Ok (r2, s2, o1 ++ o2)
  | SOp e o :: t =>
      '(s1, o1) <- step c e o s ;;
      '(r2, s2, o2) <- serial_run c t r s1 ;;
      Ok (r2, s2, o1 ++ o2)
  end.
