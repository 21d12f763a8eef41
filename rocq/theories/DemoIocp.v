(** Runs used by the examples beside C94 to C96. *)
From Coq Require Import NArith List Bool.
From Verif Require Import Base Config Cfgs State Core Demo Iocp.
Import ListNotations.
Open Scope N_scope.

Definition c94_run (l : list (list N)) : list (N * N) :=
  match (w <- wboot cfg_eth mem0 ;; wrun cfg_eth false (WAccept 7 :: map (WRecv env_yes 7) l) w) with
  | Ok (_, o) => map (fun x => (fst x, lenN (p_data (snd x)))) o | UB _ => [] end.
Definition c95_run (l : list wevent) : out (iocp * list (N * pkt)) :=
  let c := w_sbm true cfg_eth in w <- wboot c mem0 ;; wrun c true l w.
