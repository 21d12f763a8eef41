(** The hardware layer for macOS, src/hw/macos/hw.c: the two timers that
    XcpHw_Init starts, and the clock.  Handlers run one at a time on the serial
    queue of line 125.  Simplification: dispatch sources behave as documented (no
    tick after the cancellation; the cancellation handler runs once, some time after
    it), retain counts and the texts printed are left out. *)
From Coq Require Import NArith List Bool.
From Verif Require Import Base Config State Core.
Import ListNotations.
Open Scope N_scope.

(** [mc_i]: the variable [i] (line 96).  For each timer: not cancelled yet;
    cancelled and its handler still to come.  [mc_ended]: exit() has been called. *)
Record mac := mkMac { mc_i : N; mc_on1 : bool; mc_on2 : bool; mc_due1 : bool; mc_due2 : bool; mc_ended : bool }.

(** What the serial queue may execute next. *)
Inductive qjob :=
| Tick1                 (* timer 1 fires: every 0.2 s (line 156)    *)
| Tick2                 (* timer 2 fires: every 0.5 s (line 157)    *)
| Cancelled1            (* cancellation handler, lines 140-145      *)
| Cancelled2.           (* cancellation handler, lines 146-151      *)

(** src/hw/macos/hw.c 124-164: XcpHw_Init. *)
Definition mac_init : mac := mkMac 0 true true false false false.

(** src/hw/macos/hw.c 108-114, 116-122: vector1 and vector2. *)
Definition vector1 (s : mac) : mac :=
  let i := mc_i s + 1 in
  if 20 <=? i then mkMac i false (mc_on2 s) true (mc_due2 s) (mc_ended s)
  else mkMac i (mc_on1 s) (mc_on2 s) (mc_due1 s) (mc_due2 s) (mc_ended s).
Definition vector2 (s : mac) : mac :=
  let i := mc_i s + 1 in
  if 20 <=? i then mkMac i (mc_on1 s) false (mc_due1 s) true (mc_ended s)
  else mkMac i (mc_on1 s) (mc_on2 s) (mc_due1 s) (mc_due2 s) (mc_ended s).

(** One job; one that cannot occur (timer cancelled, handler not due, process
    ended) changes nothing. *)
Definition mac_job (j : qjob) (s : mac) : mac :=
  if mc_ended s then s
  else
    match j with
    | Tick1 => if mc_on1 s then vector1 s else s
    | Tick2 => if mc_on2 s then vector2 s else s
    | Cancelled1 => if mc_due1 s then mkMac (mc_i s) (mc_on1 s) (mc_on2 s) false (mc_due2 s) true else s
    | Cancelled2 => if mc_due2 s then mkMac (mc_i s) (mc_on1 s) (mc_on2 s) (mc_due1 s) false (mc_ended s) else s
    end.
Fixpoint mac_run (l : list qjob) (s : mac) : mac :=
  match l with [] => s | j :: t => mac_run t (mac_job j s) end.

(** src/hw/macos/hw.c 169-170: XcpHw_GetTimerCounter has no return statement; using its value is
    undefined behaviour, simplified here to: what
    the caller gets is any value. *)
Definition mac_outcome (c : cfg) (e : env) (o : op) (s : st) (r : res) : Prop :=
  exists t, t < 2 ^ 32 /\
    r = step c (mkEnv (e_getid e) (e_seed e) (e_unlock e) (e_access e) (e_map e) t) o s.
