(** Access to multi-byte values in a received frame, src/xcp.c 2152-2200. *)
From Coq Require Import NArith List Bool.
From Verif Require Import Base Config.
Import ListNotations.
Open Scope N_scope.

(** src/xcp.c 2152-2154: Xcp_GetByte.  Callers guarantee that the offset lies
    inside the buffer (checked once in [dispatch] and in the handlers that use
    variable offsets). *)
Definition gb (buf : list N) (i : N) : N := nth (N.to_nat i) buf 0.

(** src/xcp.c 2156-2162: Xcp_GetWord.  The C code combines the two bytes with |,
    which for bytes is +. *)
Definition gw (c : cfg) (buf : list N) (i : N) : N :=
  if c_motorola c then gb buf i * 256 + gb buf (i + 1) else gb buf i + gb buf (i + 1) * 256.

(** src/xcp.c 2164-2176: Xcp_GetDWord. *)
Definition gd (c : cfg) (buf : list N) (i : N) : N :=
  if c_motorola c then gw c buf i * 65536 + gw c buf (i + 2)
  else gw c buf (i + 2) * 65536 + gw c buf i.

(** src/xcp.c 2178-2180: Xcp_SetByte. *)
Definition sb (buf : list N) (i v : N) : list N := updN buf i (u8 v).

(** src/xcp.c 2182-2190: Xcp_SetWord ([v] is a uint16_t parameter). *)
Definition sw (c : cfg) (buf : list N) (i v : N) : list N :=
  if c_motorola c then sb (sb buf i (hibyte v)) (i + 1) (lobyte v)
  else sb (sb buf i (lobyte v)) (i + 1) (hibyte v).

(** src/xcp.c 2192-2200: Xcp_SetDWord. *)
Definition sd (c : cfg) (buf : list N) (i v : N) : list N :=
  if c_motorola c then sw c (sw c buf i (hiword v)) (i + 2) (loword v)
  else sw c (sw c buf (i + 2) (hiword v)) i (loword v).
