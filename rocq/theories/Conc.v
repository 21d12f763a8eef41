(** Two threads with shared memory.  A thread is a program of single accesses to the
    shared state; the scheduler may switch after every access.  Sequentially consistent
    memory; the compiler's freedom to reorder or to tear plain accesses is not modelled. *)
From Coq Require Import List Bool.
Import ListNotations.

Section Machine.
Context {S : Type}.

(** [Do f]: the next access; [None]: the thread is blocked in this state. *)
Inductive prog := Halt | Do (f : S -> option (S * prog)).

Definition rd {A : Type} (g : S -> A) (k : A -> prog) : prog := Do (fun s => Some (s, k (g s))).
Definition wr (g : S -> S) (k : prog) : prog := Do (fun s => Some (g s, k)).
(** Acquires a lock: blocked as long as it is held. *)
Definition acquire (held : S -> bool) (take : S -> S) (k : prog) : prog :=
  Do (fun s => if held s then None else Some (take s, k)).

(** One access of a thread; a blocked or finished thread stays as it is. *)
Definition access (p : prog) (s : S) : prog * S :=
  match p with
  | Halt => (Halt, s)
  | Do f => match f s with None => (Do f, s) | Some (s', p') => (p', s') end
  end.

(** A schedule: [true] gives the first thread its next access, [false] the second. *)
Fixpoint run (sched : list bool) (a b : prog) (s : S) : prog * prog * S :=
  match sched with
  | [] => (a, b, s)
  | true :: t => let '(a', s') := access a s in run t a' b s'
  | false :: t => let '(b', s') := access b s in run t a b' s'
  end.

Definition shared (x : prog * prog * S) : S := snd x.
Definition finished (x : prog * prog * S) : Prop := fst x = (Halt, Halt).
End Machine.
Arguments prog : clear implicits.
