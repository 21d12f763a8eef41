(** Vocabulary of the CAN properties. *)
From Coq Require Import NArith List Bool.
From Verif Require Import Base Config Cfgs State Can.
Import ListNotations.
Open Scope N_scope.

(** Configured identifiers: standard ones are below 2^11, extended ones carry bit 31. *)
Definition std_ident (i : N) : Prop := i < 2 ^ 11.
Definition ext_ident (i : N) : N := N.lor (2 ^ 31) i.

(** The data bytes of a CAN frame, and of a CAN FD frame. *)
Definition frame_room (fd : bool) : N := if fd then 64 else 8.

(** A slave on CAN with frames of up to 64 bytes. *)
Definition cfg_canfd : cfg := w_max_cto 64 (w_max_dto 64 cfg_can).
