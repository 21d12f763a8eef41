(** Vocabulary for keys and shutdown (C124, C125). *)
From Coq Require Import NArith List Bool.
From Verif Require Import Base Program.
Import ListNotations.
Open Scope N_scope.

(** Input that ends the program: exactly one character, q, Q or ESC. *)
Definition quits (r : list N) : Prop := r = [0x71] \/ r = [0x51] \/ r = [0x1B].
(** What a piece of input asks for: h, H, i, I, d, D, nothing else. *)
Definition asks_for (r : list N) (d : list display) : Prop :=
  (r = [0x68] \/ r = [0x48]) /\ d = [ShowHelp] \/ (r = [0x69] \/ r = [0x49]) /\ d = [ShowSystem] \/ (r = [0x64] \/ r = [0x44]) /\ d = [ShowDaq] \/
  ~ In r [[0x68]; [0x48]; [0x69]; [0x49]; [0x64]; [0x44]] /\ d = [].

(** What the program does when it ends in an orderly way. *)
Definition closing (d : deed) : bool := match d with FlsDeInit | HwDeInit | TlDeInit | Restored | Bye => true | _ => false end.
Definition closed_down (g : prog) : list deed := filter closing (g_deeds g).
(** All of it, in order. *)
Definition plan (sys : system) : list deed := match sys with Windows => [FlsDeInit; HwDeInit; TlDeInit; Bye] | Posix _ => [FlsDeInit; HwDeInit; TlDeInit; Restored; Bye] end.
(** How often the main thread is scheduled. *)
Definition runs_main (l : list (mover * bool)) : nat := length (filter (fun x => match fst x with Main => true | _ => false end) l).
