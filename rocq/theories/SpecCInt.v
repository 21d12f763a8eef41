(** The targets of the theorems about C's integer arithmetic. *)
From Coq Require Import NArith ZArith List Bool.
From Verif Require Import Base Config Codec CInt CExpr.
Import ListNotations.
Open Scope Z_scope.

(** int of 32 bits, with a long of 64 or of 32 bits: the PCs and 32-bit boards. *)
Definition int32 (P : host) : Prop := P = mkHost 32 64 \/ P = mkHost 32 32.
(** int of 16 bits: 8-bit AVR boards. *)
Definition int16 (P : host) : Prop := P = mkHost 16 32.

(** The value of a field of two or four bytes, the lowest address first. *)
Definition field2 (motorola : bool) (b0 b1 : Z) : Z := if motorola then b0 * 256 + b1 else b1 * 256 + b0.
Definition field4 (motorola : bool) (b0 b1 b2 b3 : Z) : Z :=
  if motorola then ((b0 * 256 + b1) * 256 + b2) * 256 + b3 else ((b3 * 256 + b2) * 256 + b1) * 256 + b0.
Definition byte (b : Z) : Prop := 0 <= b < 256.

(** The expression has this value; it has none. *)
Definition yields (r : cres) (v : Z) : Prop := exists t, r = Val t v.
Definition undefined (r : cres) : Prop := exists w, r = Undef w.

(** Xcp_GetWord and Xcp_GetDWord at offset [i] of the frame [f]. *)
Definition word_at (P : host) (c : cfg) (f : list N) (i : N) : cres :=
  x_get_word P (c_motorola c) (Z.of_N (gb f i)) (Z.of_N (gb f (i + 1))).
Definition dword_at (P : host) (c : cfg) (f : list N) (i : N) : cres :=
  x_get_dword P (c_motorola c) (Z.of_N (gb f i)) (Z.of_N (gb f (i + 1))) (Z.of_N (gb f (i + 2))) (Z.of_N (gb f (i + 3))).

(** The four bytes of a value, in the byte order of the slave. *)
Definition bytes4 (motorola : bool) (a : N) : list N :=
  let l := [a mod 256; a / 256 mod 256; a / 65536 mod 256; a / 16777216 mod 256]%N in
  if motorola then rev l else l.
