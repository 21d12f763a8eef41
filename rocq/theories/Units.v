(** XCP_DAQ_TIMESTAMP_UNIT: what the hardware layers make of it.  Units are given by the
    numbers of inc/xcp.h 1102-1114: 0 for 1 ns, 1 for 10 ns, ..., 9 for 1 s, 10-12 for
    1-100 ps. *)
From Coq Require Import NArith List Bool.
From Verif Require Import Base Hw.
Import ListNotations.
Open Scope N_scope.

(** What has become of the macro XCP_HW_TIMER_PRESCALER. *)
Inductive prescaler :=
| Number (n : N)
| Malformed               (* its text is no expression            *)
| Undefined               (* another name has been defined        *)
| Unsupported.            (* #error                               *)

(** src/hw/linux/hw.c 57-91: line 78 has "=" for ")", lines 86 and 88 define
    XCP_HW_TIMER_PRESCALRE. *)
Definition ps_linux (u : N) : prescaler :=
  match u with
  | 0 => Number 1 | 1 => Number 10 | 2 => Number 100 | 3 => Number 1000
  | 4 => Malformed
  | 5 => Number 100000 | 6 => Number 1000000 | 7 => Number 10000000
  | 8 | 9 => Undefined
  | _ => Unsupported
  end.
(** src/hw/win/hw.c 53-79 *)
Definition ps_win (u : N) : prescaler :=
  match u with
  | 3 => Number 1000000 | 4 => Number 100000 | 5 => Number 10000 | 6 => Number 1000
  | 7 => Number 100 | 8 => Number 10 | 9 => Number 1
  | _ => Unsupported
  end.

(** XcpHw_GetTimerCounter as compiled; [None]: it does not compile.  src/hw/linux/hw.c 271-287 *)
Definition clock_linux (u size : N) (start now : timespec) : option N :=
  match ps_linux u with Number ps => Some (linux_timer ps size start now) | _ => None end.
(** src/hw/win/hw.c 144-156 *)
Definition clock_win (u size tps start now : N) : option (out N) :=
  match ps_win u with Number ps => Some (win_timer ps size tps start now) | _ => None end.
(** src/hw/arduino/hw.cpp 48-56, [e] nanoseconds after the start of the board.
    Simplification: micros() and millis() are exact. *)
Definition clock_arduino (u e : N) : option N :=
  match u with
  | 3 => Some ((e / 1000) mod 2 ^ 32)
  | 6 => Some ((e / 1000000) mod 2 ^ 32)
  | _ => None
  end.
