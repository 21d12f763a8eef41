(** Vocabulary of the properties of reception by interrupt. *)
From Coq Require Import NArith List Bool.
From Verif Require Import Base Config State Core Can Ino.
Import ListNotations.
Open Scope N_scope.

(** Data frames that the buffers can take. *)
Definition fine (c : cfg) (f : canframe) : Prop := n_rtr f = false /\ 1 <= lenN (n_data f) <= 64 /\ lenN (n_data f) <= c_ctobuf c.

(** No frame is pending and the main loop is between two calls. *)
Definition resting (x : ino) : Prop := i_flag x = false /\ i_pc x = PIdle /\ lenN (i_buf x) = 64.

(** A run ends as the slave [s] does with the operations [l]: same outputs, same state,
    same undefined behaviour, and then at rest. *)
Definition ends (c : cfg) (r : ires) (l : list (env * op)) (s : st) : Prop :=
  match run c l s with
  | Ok (s', o) => exists x, r = Ok (x, o) /\ i_st x = s' /\ resting x
  | UB w => r = UB w
  end.

(** [k] steps of the main loop. *)
Definition steps (k : N) (e : env) : list (env * iop) := repeat (e, IMain) (N.to_nat k).

(** A frame that is followed by enough steps of the main loop, or a call. *)
Inductive work := WFrame (f : canframe) (k : N) | WCall (o : op).
Definition as_run (w : env * work) : list (env * iop) :=
  match snd w with
  | WFrame f k => (fst w, IFrame f) :: steps k (fst w)
  | WCall o => [(fst w, ICall o)]
  end.
Definition as_op (w : env * work) : env * op := (fst w, match snd w with WFrame f _ => ORecv (n_data f) | WCall o => o end).
Definition paced (c : cfg) (w : env * work) : Prop :=
  match snd w with WFrame f k => fine c f /\ lenN (n_data f) + 4 <= k | WCall _ => True end.

(** Bytes of [d1] up to position [i], from there on what [d2] left of [d1]. *)
Definition torn (d1 d2 : list N) (i : N) : list N := takeN i d1 ++ dropN i (takeN (lenN d1) (d2 ++ dropN (lenN d2) d1)).
(** What is executed if [d2] arrives [j] steps of the main loop after [d1]. *)
Definition executed (d1 d2 : list N) (j : N) : list (list N) :=
  if j <=? 1 then [d2] else if j =? 2 then [d2; d2] else [torn d1 d2 (j - 3); d2].
