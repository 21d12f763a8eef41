(** Vocabulary of the property about the displayed DAQ configuration. *)
From Coq Require Import NArith List Bool.
From Verif Require Import Base Config State Core Spec SpecDaq Show.
Import ListNotations.
Open Scope N_scope.

(** Text that lists the entries, ODTs and lists of a configuration in order, each
    with its number; a list ends with the number of bytes that a sample takes. *)
Fixpoint entries_text (k : N) (es : list (N * N)) : list line :=
  match es with [] => [] | x :: t => LEntry k (fst x) (snd x) :: entries_text (k + 1) t end.
Fixpoint odts_text (o : N) (os : list (list (N * N))) : list line :=
  match os with [] => [] | es :: t => LOdt o :: entries_text 0 es ++ odts_text (o + 1) t end.
Definition size_of (os : list (list (N * N))) : N := fold_right (fun x n => snd x + n) 0 (concat os).
Fixpoint lists_text (words : list flag) (l pid : N) (t : tree) : list line :=
  match t with
  | [] => []
  | os :: r => LList l pid words :: odts_text 0 os ++ LTotal (size_of os) :: lists_text words (l + 1) (pid + lenN os) r
  end.

(** The mode byte of SET_DAQ_LIST_MODE and GET_DAQ_LIST_MODE in words. *)
Definition says (words : list flag) (mode : N) : Prop :=
  (In FStim words <-> N.testbit mode 1 = true) /\ (In FDaq words <-> N.testbit mode 1 = false) /\
  (In FSelected words <-> N.testbit mode 6 = true) /\ (In FStarted words <-> N.testbit mode 7 = true) /\
  (In FAlternating words <-> N.testbit mode 0 = true) /\ (In FPidOff words <-> N.testbit mode 5 = true) /\
  (In FTimestamp words <-> N.testbit mode 4 = true).
