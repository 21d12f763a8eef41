(** Vocabulary of the properties of the Windows completion port. *)
From Coq Require Import NArith List Bool.
From Verif Require Import Base Config State Core Iocp.
Import ListNotations.
Open Scope N_scope.

(** The header part of the receive buffer has its size. *)
Definition headed (c : cfg) (w : iocp) : Prop := lenN (w_hdr w) = c_offset c.
(** Frames go to [p], and frames from [p] are those of the connected master, if any is. *)
Definition serves (udp : bool) (p : N) (w : iocp) : Prop := (udp = true \/ w_sock w = true) /\ w_cur w = p /\ (w_xcp w = true -> w_con w = p).
(** A completion with bytes of [p] is looked at. *)
Definition heard (udp : bool) (p : N) (w : iocp) : Prop := w_xcp w = false \/ w_con w = if udp then p else w_cur w.
(** The slave and the frames to [p] are those of [r]. *)
Definition same_as (udp : bool) (p : N) (r : res) (x : out (iocp * list (N * pkt))) : Prop :=
  match r with
  | Ok (s, o) => exists w, x = Ok (w, map (pair p) o) /\ w_st w = s
  | UB y => x = UB y
  end.
(** Events other than received bytes, connections and initialisation. *)
Definition local (ev : wevent) : Prop := match ev with WOp _ OInit => False | WOp _ _ => True | WSent _ => True | _ => False end.
