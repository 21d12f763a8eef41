(** Vocabulary for the units of time stamps. *)
From Coq Require Import NArith List.
From Verif Require Import Base Config Codec State Core Spec.
Import ListNotations.
Open Scope N_scope.

(** The code of the unit in an answer to GET_DAQ_RESOLUTION_INFO, its ticks per unit and the
    value in an answer to GET_DAQ_CLOCK, as a master reads them. *)
Definition told_unit (p : pkt) : N := nth 5 (p_data p) 0 / 16.
Definition told_ticks (c : cfg) (p : pkt) : N := field c (at_ (p_data p) 6 2).
Definition told_time (c : cfg) (p : pkt) : N := field c (at_ (p_data p) 4 4).

(** In state [s], at the time [en] shows, a master asks for the resolution and for the time:
    it is told the time in units of code [u], one tick per unit, and the value [v]. *)
Definition tells (c : cfg) (en : env) (s : st) (u v : N) : Prop :=
  exists s1 p s2 q, step c en (ORecv [0xD9]) s = Ok (s1, [p]) /\ step c en (ORecv [0xDC]) s1 = Ok (s2, [q]) /\
    told_unit p = u /\ told_ticks c p = 1 /\ told_time c q = v.
