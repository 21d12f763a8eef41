(** DTO ring buffer, src/xcp_daq.c 708-757. *)
From Coq Require Import NArith List Bool.
From Verif Require Import Base Config State.
Import ListNotations.
Open Scope N_scope.

(** Modulus of head and tail: XCP_DAQ_QUEUE_SIZE + 1 (src/xcp_daq.c 721, 738, 752). *)
Definition qmod (c : cfg) : N := c_queue_slots c + 1.

(** sizeof(Xcp_PduType), inc/xcp.h 820-823: a uint16_t and a pointer. *)
Definition pdu_size (c : cfg) : N := if c_ptr_bits c =? 64 then 16 else 8.

(** src/xcp_daq.c 711-718: XcpDaq_QueueInit.  It clears sizeof(Xcp_PduType) bytes
    of every slot, a slot being 1 + XCP_MAX_DTO bytes long (lines 49-52); a
    larger amount leaves the last slot.  Simplification: the cleared bytes
    belong to slots outside the queue and are never read, so the slots are
    left as they are. *)
Definition queue_init (c : cfg) (q : queue) : out queue :=
  if pdu_size c <=? 1 + c_max_dto c then Ok (mkQueue 0 0 false (q_slots q)) else UB OobQueue.

(** src/xcp_daq.c 720-726. *)
Definition queue_full (c : cfg) (q : queue) : bool := (q_head q + 1) mod qmod c =? q_tail q.
Definition queue_empty (q : queue) : bool := q_head q =? q_tail q.

(** src/xcp_daq.c 728-740: XcpDaq_QueueEnqueue of the bytes [bs]; the slot
    length is a uint8_t (line 50). *)
Definition enqueue (c : cfg) (bs : list N) (q : queue) : out queue :=
  if queue_full c q then Ok (set_q_ovl true q)
  else if c_queue_slots c <=? q_head q then UB OobQueue
  else if c_max_dto c <? lenN bs then UB Assert
  else if lenN bs =? 0 then UB Assert
  else Ok (set_q_head ((q_head q + 1) mod qmod c)
             (set_q_slots (updN (q_slots q) (q_head q) (u8 (lenN bs), bs)) q)).

(** src/xcp_daq.c 742-754: XcpDaq_QueueDequeue of a non-empty queue. *)
Definition dequeue (c : cfg) (q : queue) : out (list N * queue) :=
  match (if c_queue_slots c <=? q_tail q then None else getN (q_slots q) (q_tail q)) with
  | None => UB OobQueue
  | Some (len, data) =>
      if c_max_dto c <? len then UB Assert
      else if len =? 0 then UB Assert
      else Ok (takeN len data, set_q_tail ((q_tail q + 1) mod qmod c) q)
  end.

(** Number of queued frames. *)
Definition pending (c : cfg) (q : queue) : N := (q_head q + qmod c - q_tail q) mod qmod c.
