(** Vocabulary for the properties of transmission by several threads. *)
From Coq Require Import NArith List Bool.
From Verif Require Import Base Config Conc Race.
Import ListNotations.
Open Scope N_scope.

(** The frames sent from one of the two buffers, in the order of transmission. *)
Definition sent (ch : chan) (s : sh) : list (list N) :=
  map snd (filter (fun f => chan_eqb (fst f) ch) (h_wire s)).

(** The number [v] in [size] bytes, little endian. *)
Definition le_bytes (size v : N) : list N :=
  map (fun i => v / 256 ^ N.of_nat i mod 256) (seq 0 (N.to_nat size)).

(** The frame [f] carries the payload [p]: the length field, some counter, the payload. *)
Definition carries (c : cfg) (f p : list N) : Prop :=
  exists ctr, lenN ctr = c_ctr_size c /\ f = le_bytes (c_len_size c) (lenN p) ++ ctr ++ p.
(** The same with the counter [n]. *)
Definition numbered_frame (c : cfg) (n : N) (p : list N) : list N :=
  le_bytes (c_len_size c) (lenN p) ++ le_bytes (c_ctr_size c) n ++ p.

(** Payloads that fit into the length fields. *)
Definition sendable (c : cfg) (p : list N) : Prop := lenN p + c_offset c < 2 ^ 16.

Definition wf_sizes (c : cfg) : Prop := c_len_size c <= 2 /\ c_ctr_size c <= 2.

(** Nothing has been sent yet and the transport layer's lock is free. *)
Definition quiet (s : sh) : Prop := h_wire s = [] /\ h_lock s = false.

(** The response of UPLOAD with [len] bytes of the memory at the address [a]. *)
Definition upload_response (mem : N -> N) (a len : N) : list N :=
  255 :: map (fun i => mem (a + N.of_nat i)) (seq 0 (N.to_nat len)).
(** The number of bytes in the next frame of a block of which [r] bytes are left. *)
Definition frame_bytes (c : cfg) (r : N) : N := N.min r (c_max_cto c - 1).
(** The response to a command that arrives while a block is being uploaded. *)
Definition busy_response : list N := [0xFE; 0x10].
(** The counter behind [n]. *)
Definition next_counter (c : cfg) (n : N) : N := if c_ctr_size c =? 0 then n else (n + 1) mod 2 ^ 16.

(** [l] is [m] with elements left out. *)
Inductive thinned {A} : list A -> list A -> Prop :=
| thin_nil : thinned [] []
| thin_drop x l m : thinned l m -> thinned l (x :: m)
| thin_keep x l m : thinned l m -> thinned (x :: l) (x :: m).
(** Frames whose length fits into a slot's length byte. *)
Definition queueable (p : list N) : Prop := 1 <= lenN p <= 255.
