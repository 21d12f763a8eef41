(** Vocabulary for C151 and C152. *)
From Coq Require Import NArith List Bool.
From Verif Require Import Base Config State Core Mac.
Import ListNotations.
Open Scope N_scope.

(** ** Ticks *)

(** Number of jobs of a kind in a history. *)
Fixpoint ticks1 (l : list qjob) : N := match l with [] => 0 | Tick1 :: t => 1 + ticks1 t | _ :: t => ticks1 t end.
Fixpoint ticks2 (l : list qjob) : N := match l with [] => 0 | Tick2 :: t => 1 + ticks2 t | _ :: t => ticks2 t end.

(** The process runs after the history [l]. *)
Definition alive (l : list qjob) : Prop := mc_ended (mac_run l mac_init) = false.

(** The jobs of the first [n] tenths of a second after the timers start: timer 1
    every 0.2 s, timer 2 every 0.5 s, cancellation handlers at once. *)
Fixpoint tenths (n : nat) : list qjob :=
  match n with
  | O => []
  | S k =>
      tenths k ++
      (if (N.of_nat k mod 2 =? 0) then [Tick1; Cancelled1] else []) ++
      (if (N.of_nat k mod 5 =? 0) then [Tick2; Cancelled2] else [])
  end.

(** ** The clock *)

(** The environment [e] with the clock showing [t]. *)
Definition at_time (t : N) (e : env) : env :=
  {| e_getid := e_getid e; e_seed := e_seed e; e_unlock := e_unlock e; e_access := e_access e; e_map := e_map e; e_timer := t |}.

(** Operations other than events and GET_DAQ_CLOCK. *)
Definition timeless (o : op) : Prop :=
  match o with OTrigger _ => False | ORecv (0xDC :: _) => False | _ => True end.

(** The same operations, at other times. *)
Inductive other_times : list (env * op) -> list (env * op) -> Prop :=
| ot_nil : other_times [] []
| ot_cons : forall e t o l l', other_times l l' -> other_times ((e, o) :: l) ((at_time t e, o) :: l').
