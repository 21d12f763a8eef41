(** C124 and C125: the program around the slave. *)
From Coq Require Import NArith List Bool Lia.
From Verif Require Import Base Program SpecProgram ProofsProgram.
Import ListNotations.
Open Scope N_scope.

(** ** C124 Keys *)

(** Whatever is typed: the program is left exactly at the first q, Q or ESC that arrives alone; before, each h, i and d that
    arrives alone shows its information, in order, and nothing else has any effect. *)
Theorem C124_keys : forall rs,
  (exists a r b ds, rs = a ++ r :: b /\ quits r /\ (forall x, In x a -> ~ quits x) /\ Forall2 asks_for a ds /\ keys rs = (concat ds, true)) \/
  (exists ds, (forall x, In x rs -> ~ quits x) /\ Forall2 asks_for rs ds /\ keys rs = (concat ds, false)).
Proof. exact keys_thm. Qed.
Print Assumptions C124_keys.

(** But keys that arrive together (typed quickly, pasted, or piped in) are lost, all of them, and the end of the input is not noticed. *)
Theorem C124_burst_refuted : forall rs, (forall r, In r rs -> length r <> 1%nat) -> keys rs = ([], false).
Proof. exact burst_thm. Qed.
Print Assumptions C124_burst_refuted.

(** "h", "I", an arrow key, "x", "d", "Q", "h"; and "hq" at once, then the end of the input. *)
Example C124_case :
  keys [[0x68]; [0x49]; [0x1B; 0x5B; 0x41]; [0x78]; [0x64]; [0x51]; [0x68]] = ([ShowHelp; ShowSystem; ShowDaq], true) /\
  keys [[0x68; 0x71]; []; []] = ([], false) /\ quits [0x51] /\ asks_for [0x49] [ShowSystem].
Proof. repeat split; [now right; left|right; left; auto]. Qed.

(** ** C125 Quitting *)

(** POSIX, SIGINT as usual: under every schedule of the threads, none of the things that should be done at the
    end is ever done; the program does not exit; once the user has quit, it is killed (by its own signal) as soon as its main thread gets to run; the terminal, in raw
    mode by then, stays so. *)
Theorem C125_posix_refuted : forall l, let g := execute (Posix false) l start in
  closed_down g = [] /\ g_end g <> Some Exited /\
  (g_ui g = Gone -> In RawMode (g_deeds g) /\ forall l2, (13 <= runs_main l2)%nat -> g_end (execute (Posix false) l2 g) = Some Killed).
Proof. exact killed_raw_thm. Qed.
Print Assumptions C125_posix_refuted.

(** On Windows, and where SIGINT is ignored: after quitting the program exits, having done everything, in order. *)
Theorem C125_orderly : forall sys l, sys <> Posix false -> let g := execute sys l start in
  (g_end g = Some Exited -> closed_down g = plan sys) /\ g_end g <> Some Killed /\
  (g_ui g = Gone -> forall l2, (13 <= runs_main l2)%nat -> g_end (execute sys l2 g) = Some Exited).
Proof. exact orderly_thm. Qed.
Print Assumptions C125_orderly.

(** But the threads are not stopped before: whenever the flash emulation has been shut down and the program has not ended, the thread of
    the slave goes on, and (except on Windows) that of the transport layer. *)
Theorem C125_stopped_refuted : forall sys l q, let g := execute sys l start in In FlsDeInit (g_deeds g) -> g_end g = None ->
  g_deeds (move sys q Xcp g) = g_deeds g ++ [SlaveRuns] /\
  match sys with
  | Windows => g_tl g = Gone
  | Posix _ => g_deeds (move sys q Tl (move sys q Tl g)) = g_deeds g ++ (match g_tl g with Fresh => [TransportRuns] | _ => [TransportRuns; TransportRuns] end)
  end.
Proof. exact late_thm. Qed.
Print Assumptions C125_stopped_refuted.

(** One schedule, three systems. *)
Example C125_case :
  let ready := map (fun t => (t, true)) [Main; Main; Main; Ui; Tl; Tl; Xcp; Ui] in let on := repeat (Main, true) 6 in let rest := (Xcp, true) :: (Tl, true) :: repeat (Main, true) 7 in
  g_ui (execute (Posix false) ready start) = Gone /\
  (let g := execute (Posix false) (ready ++ on ++ rest) start in g_end g = Some Killed /\ g_deeds g = [RawMode; TransportRuns; SlaveRuns]) /\
  (let g := execute (Posix true) (ready ++ on ++ rest) start in
     g_end g = Some Exited /\ g_deeds g = [RawMode; TransportRuns; SlaveRuns; FlsDeInit; SlaveRuns; TransportRuns; HwDeInit; TlDeInit; Restored; Bye]) /\
  (let g := execute Windows (ready ++ on ++ rest) start in
     g_end g = Some Exited /\ g_deeds g = [TransportRuns; SlaveRuns; FlsDeInit; SlaveRuns; HwDeInit; TlDeInit; Bye]) /\
  (let g := execute (Posix true) (ready ++ on) start in In FlsDeInit (g_deeds g) /\ g_end g = None).
Proof. vm_compute. repeat split; auto. Qed.
