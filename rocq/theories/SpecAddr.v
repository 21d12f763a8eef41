(** Vocabulary for the addresses of UDP peers (C165). *)
From Coq Require Import NArith List Bool.
From Verif Require Import Base Config State Core Net Addr.
Import ListNotations.
Open Scope N_scope.

(** Addresses of the two families. *)
Definition is_v4 (p : peer) : Prop := exists port addr, p = V4 port addr /\ lenN port = 2 /\ lenN addr = 4.
Definition is_v6 (p : peer) : Prop := exists port flow addr scope, p = V6 port flow addr scope /\ lenN port = 2 /\ lenN flow = 4 /\ lenN addr = 16 /\ lenN scope = 4.

(** The unspecified address, 0.0.0.0 or ::, with the port of the peer; the second keeps the flow information. *)
Definition nowhere (p : peer) : peer :=
  match p with V4 port _ => V4 port (repeat 0 4) | V6 port _ _ _ => V6 port (repeat 0 4) (repeat 0 16) (repeat 0 4) end.
Definition nowhere_flow (p : peer) : peer :=
  match p with V4 port _ => V4 port (repeat 0 4) | V6 port flow _ _ => V6 port flow (repeat 0 16) (repeat 0 4) end.

(** Frames come from peers with a number. *)
Definition known (ev : nevent) : Prop := match ev with EFrame _ p _ => p <> 0 | _ => True end.

(** Frames for peer number p are sent to [g p]; those for nobody are lost. *)
Definition to (g : N -> peer) (y : N * pkt) : option peer * pkt := (if fst y =? 0 then None else Some (g (fst y)), snd y).
(** What the slave sends, and where to. *)
Definition posted (r : out (net * list N * list N * list (option peer * pkt))) : out (net * list (option peer * pkt)) :=
  '(n, _, _, o) <- r ;; Ok (n, o).

(** The address without port. *)
Definition host (p : peer) : list N := match p with V4 _ addr => addr | V6 _ _ addr _ => addr end.
Definition somewhere (p : peer) : Prop := Exists (fun b => b <> 0) (host p).
