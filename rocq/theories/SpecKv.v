(** Vocabulary of the properties of the Kvaser transport layer. *)
From Coq Require Import NArith List Bool.
From Verif Require Import Base Config State Core Kv.
Import ListNotations.
Open Scope N_scope.

(** A CAN identifier: its number and whether it is extended; and how it is configured. *)
Definition in_range (ext : bool) (i : N) : Prop := i < if ext then 2 ^ 29 else 2 ^ 11.
Definition configured (ext : bool) (i : N) : N := if ext then 2 ^ 31 + i else i.
(** An undisturbed data frame. *)
Definition data_frame (ext : bool) (i : N) (d : list N) : kvframe := mkKv i (if ext then 4 else 2) d.
(** Bits in which two identifiers agree are the same in a third. *)
Definition agrees (width i0 i1 i : N) : Prop := forall k, k < width -> N.testbit i0 k = N.testbit i1 k -> N.testbit i k = N.testbit i0 k.
(** Only the receive buffer differs. *)
Definition same_but_input (s s' : st) : Prop := exists i, s' = set_s_in i s.
Definition long (buf : list N) : bool := 8 <? lenN buf.
(** The length that XCP_ON_CAN_MAX_DLC_REQUIRED demands. *)
Definition dlc_good (c : cfg) (d : list N) : Prop := c_max_dlc c = true -> lenN d = c_max_cto c.
