(** The queue of DAQ frames (src/xcp_daq.c 708-757) with one thread that puts frames into it
    and another that takes them out. *)
From Coq Require Import NArith List Bool.
From Verif Require Import Base Conc.
Import ListNotations.
Open Scope N_scope.

(** [g_head], [g_tail], [g_ovl]: XcpDaq_Queue.  [g_slot], [g_len]: XcpDaq_QueueDTOs.
    [g_bad]: a slot behind the last one has been accessed.  Ghosts: [g_put], the frames for
    which XcpDaq_QueueEnqueue returned (or is about to return) true; [g_got], the frames
    XcpDaq_QueueDequeue returned. *)
Record ring := mkRing {
  g_head : N; g_tail : N; g_ovl : bool; g_len : N -> N; g_slot : N -> N -> N; g_bad : bool;
  g_put : list (list N); g_got : list (list N) }.

(** [slots]: XCP_DAQ_QUEUE_SIZE, the number of slots (line 142). *)
Definition oob (slots i : N) (r : ring) : bool := g_bad r || (slots <=? i).

Definition set_ovl (r : ring) : ring :=
  mkRing (g_head r) (g_tail r) true (g_len r) (g_slot r) (g_bad r) (g_put r) (g_got r).
Definition put_slot_len (slots i n : N) (r : ring) : ring :=
  mkRing (g_head r) (g_tail r) (g_ovl r) (fun j => if j =? i then n else g_len r j) (g_slot r)
    (oob slots i r) (g_put r) (g_got r).
Definition put_slot (slots i j v : N) (r : ring) : ring :=
  mkRing (g_head r) (g_tail r) (g_ovl r) (g_len r)
    (fun x => if x =? i then (fun y => if y =? j then v else g_slot r i y) else g_slot r x)
    (oob slots i r) (g_put r) (g_got r).
Definition put_head (h : N) (p : list N) (r : ring) : ring :=
  mkRing h (g_tail r) (g_ovl r) (g_len r) (g_slot r) (g_bad r) (g_put r ++ [p]) (g_got r).
Definition put_tail (t : N) (p : list N) (r : ring) : ring :=
  mkRing (g_head r) t (g_ovl r) (g_len r) (g_slot r) (g_bad r) (g_put r) (g_got r ++ [p]).
(** A read of slot [i]. *)
Definition touch (slots i : N) (r : ring) : ring :=
  mkRing (g_head r) (g_tail r) (g_ovl r) (g_len r) (g_slot r) (oob slots i r) (g_put r) (g_got r).

Definition rd_slot (slots i : N) {A : Type} (g : ring -> A) (k : A -> prog ring) : prog ring :=
  Do (fun r => Some (touch slots i r, k (g r))).

(** XcpUtl_MemCopy into slot [i] (line 737). *)
Fixpoint fill (slots i j : N) (bs : list N) (k : prog ring) : prog ring :=
  match bs with [] => k | b :: t => wr (put_slot slots i j b) (fill slots i (j + 1) t k) end.

(** src/xcp_daq.c 720-740: XcpDaq_QueueEnqueue; the length of a slot is a uint8_t (line 50). *)
Definition enqueue (slots : N) (p : list N) (k : prog ring) : prog ring :=
  rd g_head (fun h => rd g_tail (fun t =>
  if (h + 1) mod (slots + 1) =? t then wr set_ovl k
  else
  rd g_head (fun h => wr (put_slot_len slots h (u8 (lenN p)))
  (rd g_head (fun h => fill slots h 0 p
  (rd g_head (fun h => wr (put_head ((h + 1) mod (slots + 1)) p) k))))))).

(** XcpUtl_MemCopy out of slot [i] (line 751). *)
Fixpoint drain (slots i j : N) (n : nat) (acc : list N) (k : list N -> prog ring) : prog ring :=
  match n with
  | O => k (rev acc)
  | S m => rd_slot slots i (fun r => g_slot r i j) (fun b => drain slots i (j + 1) m (b :: acc) k)
  end.

(** src/xcp_daq.c 742-754: XcpDaq_QueueDequeue. *)
Definition dequeue (slots : N) (k : prog ring) : prog ring :=
  rd g_head (fun h => rd g_tail (fun t =>
  if h =? t then k
  else
  rd g_tail (fun t => rd_slot slots t (fun r => g_len r t) (fun n =>
  rd g_tail (fun t => drain slots t 0 (N.to_nat n) [] (fun bs =>
  rd g_tail (fun t => wr (put_tail ((t + 1) mod (slots + 1)) bs) k))))))).

(** The sampling thread: every frame is offered once.  The transmitting thread: [n] calls. *)
Fixpoint producer (slots : N) (ps : list (list N)) : prog ring :=
  match ps with [] => Halt | p :: t => enqueue slots p (producer slots t) end.
Fixpoint consumer (slots : N) (n : nat) : prog ring :=
  match n with O => Halt | S m => dequeue slots (consumer slots m) end.

(** XcpDaq_QueueInit (lines 711-718). *)
Definition ring0 : ring := mkRing 0 0 false (fun _ => 0) (fun _ _ => 0) false [] [].
