(** Model of the program around the slave: the keys (src/hw/terminal.c) and the threads (src/hw/threads.c,
    examples/xcpsim/main.c). *)
From Coq Require Import NArith List Bool.
Import ListNotations.
Open Scope N_scope.

(** ** Keys *)

(** What a key shows: 'h', 'i', 'd' (terminal.c 201-209). *)
Inductive display := ShowHelp | ShowSystem | ShowDaq.

(** tolower() in the "C" locale (the program does not call setlocale()). *)
Definition lower (k : N) : N := if (65 <=? k) && (k <=? 90) then k + 32 else k.

(** terminal.c 171-186: getch(); [r] is what read() delivers, at most 256 bytes: nothing at the end of
    the input (or if read() fails). *)
Definition getch (r : list N) : option N := match r with [k] => Some k | _ => None end.

(** terminal.c 188-213: XcpTerm_Thread (not Windows); the list has what each call of read() delivers.  The result
    is what is displayed, and whether the thread ends. *)
Fixpoint keys (rs : list (list N)) : list display * bool :=
  match rs with
  | [] => ([], false)
  | r :: t =>
      let more := keys t in
      match getch r with
      | None => more
      | Some k =>
          let l := lower k in
          if (l =? 0x1B) || (l =? 0x71) then ([], true)                             (* 198-200 *)
          else if l =? 0x68 then (ShowHelp :: fst more, snd more)
          else if l =? 0x69 then (ShowSystem :: fst more, snd more)
          else if l =? 0x64 then (ShowDaq :: fst more, snd more)
          else more
      end
  end.

(** ** Threads *)

(** The system: Windows, or POSIX with the disposition of SIGINT that the program inherits (nothing in it changes that, see
    linux/hw.c 179-185): the default (terminate), or ignored (as for jobs started in the background by a shell script). *)
Inductive system := Windows | Posix (ignored : bool).

(** What can be seen from outside: the terminal is put in raw mode and restored; FlsEmu_DeInit, XcpHw_Deinit and XcpTl_DeInit are called;
    "Exiting program." is printed; the thread of the slave runs Xcp_MainFunction; the thread of
    the transport layer runs XcpTl_MainFunction. *)
Inductive deed := RawMode | Restored | FlsDeInit | HwDeInit | TlDeInit | Bye | SlaveRuns | TransportRuns.
(** How the program ends. *)
Inductive finish := Killed | Exited.
(** A thread: not created yet; created; running (with cancellation disabled, for the transport layer); gone. *)
Inductive thread := Unborn | Fresh | Running | Gone.

(** Threads: [g_main] counts the steps of the main thread. *)
Record prog := mkProg {
  g_main : nat;
  g_ui : thread;
  g_tl : thread;
  g_xcp : thread;
  g_cancel : bool;       (* the transport layer is to be cancelled *)
  g_flag : bool;         (* XcpThrd_ShuttingDown *)
  g_end : option finish;
  g_deeds : list deed    (* so far *)
}.
Definition start : prog := mkProg 0 Unborn Unborn Unborn false false None [].

Inductive mover := Main | Ui | Tl | Xcp.
Definition does (d : deed) (g : prog) : prog := mkProg (g_main g) (g_ui g) (g_tl g) (g_xcp g) (g_cancel g) (g_flag g) (g_end g) (g_deeds g ++ [d]).
Definition next (g : prog) : prog := mkProg (S (g_main g)) (g_ui g) (g_tl g) (g_xcp g) (g_cancel g) (g_flag g) (g_end g) (g_deeds g).
Definition ends (f : finish) (g : prog) : prog := mkProg (g_main g) (g_ui g) (g_tl g) (g_xcp g) (g_cancel g) (g_flag g) (Some f) (g_deeds g).
Definition put_ui (t : thread) (g : prog) : prog := mkProg (g_main g) t (g_tl g) (g_xcp g) (g_cancel g) (g_flag g) (g_end g) (g_deeds g).
Definition put_tl (t : thread) (g : prog) : prog := mkProg (g_main g) (g_ui g) t (g_xcp g) (g_cancel g) (g_flag g) (g_end g) (g_deeds g).
Definition put_xcp (t : thread) (g : prog) : prog := mkProg (g_main g) (g_ui g) (g_tl g) t (g_cancel g) (g_flag g) (g_end g) (g_deeds g).
Definition put_cancel (g : prog) : prog := mkProg (g_main g) (g_ui g) (g_tl g) (g_xcp g) true (g_flag g) (g_end g) (g_deeds g).
Definition put_flag (g : prog) : prog := mkProg (g_main g) (g_ui g) (g_tl g) (g_xcp g) (g_cancel g) true (g_end g) (g_deeds g).

(** pthread_kill(thread, SIGINT): terminates the program, unless SIGINT is ignored or the thread is gone.  On Windows there is no such call. *)
Definition interrupt (sys : system) (t : thread) (g : prog) : prog :=
  match sys, t with
  | Posix false, Gone => g
  | Posix false, _ => ends Killed g
  | _, _ => g
  end.

(** The main thread: threads.c 101-116 (XcpThrd_RunThreads), 147-167 (XcpThrd_ShutDown), and main.c 39-49.
    Simplifications: the threads can be created; XcpThrd_SetAffinity has no effect (on Linux it is called
    with the address of the handle instead of the handle, line 97); terminal.c 156: restoring the mode is
    registered with atexit() after [bye] and therefore called before it. *)
Definition main_step (sys : system) (g : prog) : prog :=
  match g_main g with
  | 0%nat => next (put_ui Fresh g)                                                  (* 104 *)
  | 1%nat => next (put_tl Fresh g)                                                  (* 105 *)
  | 2%nat => next (put_xcp Running g)                                               (* 106 *)
  | 3%nat => match g_ui g with Gone => next g | _ => g end                          (* 108, 111: waits *)
  | 4%nat => if g_flag g then next (next g)                                         (* 151-153 *)
             else next (match sys with
                        | Windows => put_tl Gone g                                  (* 156 *)
                        | Posix _ => put_cancel g                                   (* 161 *)
                        end)
  | 5%nat => next (put_flag g)                                                      (* 166 *)
  | 6%nat => next (interrupt sys (g_tl g) g)                                        (* 113 *)
  | 7%nat => next (interrupt sys (g_xcp g) g)                                       (* 114 *)
  | 8%nat => next (does FlsDeInit g)                                                (* main.c *)
  | 9%nat => next (does HwDeInit g)
  | 10%nat => next (does TlDeInit g)
  | 11%nat => match sys with Windows => next g | Posix _ => next (does Restored g) end   (* exit(): terminal.c 135-137 *)
  | 12%nat => next (ends Exited (does Bye g))                                       (* threads.c 173-175 *)
  | _ => g
  end.

(** One step of a thread; [quit] tells whether the thread of the terminal is at a key that ends it.
    - Terminal: raw mode first (terminal.c 191, 150-160), then keys.
    - Transport layer (common.c 59-66): XcpThrd_EnableAsyncCancellation, which disables cancellation
      (threads.c 134-145), before any cancellation point.
    - Slave: Xcp_Thread (threads.c 126-132), never ends. *)
Definition move (sys : system) (quit : bool) (t : mover) (g : prog) : prog :=
  match g_end g with
  | Some _ => g
  | None =>
      match t with
      | Main => main_step sys g
      | Ui => match g_ui g with
              | Fresh => put_ui Running (match sys with Windows => g | Posix _ => does RawMode g end)
              | Running => if quit then put_ui Gone g else g
              | _ => g
              end
      | Tl => match g_tl g with
              | Fresh => put_tl Running g
              | Running => does TransportRuns g
              | _ => g
              end
      | Xcp => match g_xcp g with Running => does SlaveRuns g | _ => g end
      end
  end.

(** Any schedule. *)
Fixpoint execute (sys : system) (l : list (mover * bool)) (g : prog) : prog :=
  match l with [] => g | (t, q) :: r => execute sys r (move sys q t g) end.
