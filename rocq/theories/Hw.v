(** Model of the clocks and of the transmit request signalling:
    src/hw/linux/hw.c, src/hw/win/hw.c, src/hw/posix/hw.c. *)
From Coq Require Import ZArith NArith List Bool.
From Verif Require Import Base.
Import ListNotations.

(** struct timespec. *)
Record timespec := mkTs { tv_sec : Z; tv_nsec : Z }.

(** linux/hw.c 243-254: Timespec_Diff.  Simplification: time_t and long do not overflow,
    which takes differences of 2^63 seconds. *)
Definition timespec_diff (start fin : timespec) : timespec :=
  if (tv_nsec fin - tv_nsec start <? 0)%Z
  then mkTs (tv_sec fin - tv_sec start - 1) (1000000000 + tv_nsec fin - tv_nsec start)
  else mkTs (tv_sec fin - tv_sec start) (tv_nsec fin - tv_nsec start).

Open Scope N_scope.

(** linux/hw.c 264-265: XcpHw_FreeRunningCounter; the conversion to unsigned long long wraps. *)
Definition linux_counter_ns (start now : timespec) : N :=
  let dt := timespec_diff start now in
  let ull z := Z.to_N (z mod 2 ^ 64)%Z in
  (ull (tv_sec dt) * 1000 * 1000 * 1000 + ull (tv_nsec dt)) mod 2 ^ 64.

(** linux/hw.c 256-269: XcpHw_GetElapsedTime.  [start] and [now] are of different clocks of the
    system (lines 193, 261): see Clocks.v. *)
Definition linux_elapsed (prescaler : N) (start now : timespec) : N := linux_counter_ns start now / prescaler.

(** linux/hw.c 93-95: the mask for time stamps of [size] bytes. *)
Definition timer_mask (size : N) : N := 2 ^ (8 * size) - 1.

(** linux/hw.c 271-287: XcpHw_GetTimerCounter; [prescaler] as in lines 65-90.  The result of
    XcpHw_GetElapsedTime is overwritten. *)
Definition linux_timer (prescaler size : N) (start now : timespec) : N :=
  let timestamp := linux_elapsed prescaler start now in
  let timestamp := linux_counter_ns start now mod (2 ^ 32 - 1) in
  N.land timestamp (timer_mask size) mod 2 ^ 32.

(** linux/hw.c 289-293: XcpHw_GetTimerCounterMS. *)
Definition linux_timer_ms (start now : timespec) : N :=
  N.land (linux_elapsed 1000000 start now mod 2 ^ 32) (timer_mask 4).

(** win/hw.c 133-142: XcpHw_GetElapsedTime.  [start] and [now] are readings of the performance
    counter, of [tps] ticks per second.  Simplification: the counter does not run backwards. *)
Definition win_elapsed (prescaler tps start now : N) : out N :=
  let step := tps / prescaler in
  if step =? 0 then UB DivZero else Ok ((now - start) / step).

(** win/hw.c 144-156: XcpHw_GetTimerCounter. *)
Definition win_timer (prescaler size tps start now : N) : out N :=
  e <- win_elapsed prescaler tps start now ;; Ok (N.land (e mod 2 ^ 32) (timer_mask size)).

(** win/hw.c 158-160: XcpHw_GetTimerCounterMS. *)
Definition win_timer_ms (tps start now : N) : out N :=
  e <- win_elapsed 1000 tps start now ;; Ok (N.land e (timer_mask 4) mod 2 ^ 32).

(** posix/hw.c 133-140: XcpHw_SignalTransmitRequest and XcpHw_WaitTransmitRequest, called by
    threads given by a number.  [m_owner] is the thread that has locked the mutex,
    [m_waiting] the threads inside pthread_cond_wait(), [m_woken] those that have been
    woken up and wait for the mutex.  The mutex is of the default kind: locking it twice
    blocks, also for its owner.  pthread_cond_wait() must be called by the owner of the mutex. *)
Inductive request := Signal | Wait.
Record monitor := mkMon { m_owner : option N; m_waiting : list N; m_woken : list N }.
Definition monitor0 : monitor := mkMon None [] [].
Inductive called := Done (m : monitor) | Blocks | NotOwner.

(** The mutex has been released: a thread that has been woken up locks it and returns. *)
Definition reacquire (m : monitor) : monitor :=
  match m_owner m, m_woken m with
  | None, t :: w => mkMon (Some t) (m_waiting m) w
  | _, _ => m
  end.

Definition call_monitor (t : N) (r : request) (m : monitor) : called :=
  match r with
  | Signal =>
      match m_owner m with
      | Some _ => Blocks
      | None => match m_waiting m with
                | [] => Done (mkMon (Some t) [] (m_woken m))
                | u :: w => Done (mkMon (Some t) w (m_woken m ++ [u]))
                end
      end
  | Wait =>
      match m_owner m with
      | Some u => if u =? t then Done (reacquire (mkMon None (m_waiting m ++ [t]) (m_woken m))) else NotOwner
      | None => NotOwner
      end
  end.

Fixpoint calls_monitor (l : list (N * request)) (m : monitor) : called :=
  match l with
  | [] => Done m
  | (t, r) :: l' => match call_monitor t r m with Done m1 => calls_monitor l' m1 | x => x end
  end.
