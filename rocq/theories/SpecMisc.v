(** Vocabulary for C50 and C53. *)
From Coq Require Import NArith List Bool.
From Verif Require Import Base Config State Core Spec SpecMem.
Import ListNotations.
Open Scope N_scope.

(** The build contains no function that enters a critical section within another
    one: neither slave block mode nor checksums in the background. *)
Definition no_nesting (c : cfg) : Prop := c_sbm c = false /\ c_chunked c = false.

(** An event packet (0xFD) or service request packet (0xFC) with the first bytes
    of [info]. *)
Definition packet (c : cfg) (ty code : N) (info : list N) : list N := [ty; code] ++ takeN (c_max_cto c - 2) info.
