(** Integer arithmetic of C, as far as expressions of the slave need it: ISO/IEC
    9899:2011, 6.2.5 (types), 6.3.1 (conversions), 6.4.4.1 (constants) and 6.5
    (operators).  No line of the slave is modelled here; CExpr.v writes its
    expressions in this language. *)
From Coq Require Import ZArith NArith List Bool.
Import ListNotations.
Open Scope Z_scope.

(** A target: number of bits of int and long.  char has 8, short 16 and long long
    64 bits; negative numbers are in two's complement. *)
Record host := mkHost { h_int : Z; h_long : Z }.

(** An integer type: signed or not, number of bits, conversion rank (6.3.1.1):
    1 char, 2 short, 3 int, 4 long, 5 long long. *)
Record cty := mkCty { ct_signed : bool; ct_bits : Z; ct_rank : Z }.

Definition t_int (P : host) : cty := mkCty true (h_int P) 3.
Definition t_uint (P : host) : cty := mkCty false (h_int P) 3.
Definition t_long (P : host) : cty := mkCty true (h_long P) 4.
Definition t_ulong (P : host) : cty := mkCty false (h_long P) 4.
Definition t_llong : cty := mkCty true 64 5.

(** The types of stdint.h: uint16_t is unsigned int where that has 16 bits,
    uint32_t is unsigned int where that has 32 bits and unsigned long otherwise. *)
Definition t_u8 : cty := mkCty false 8 1.
Definition t_u16 (P : host) : cty := if h_int P =? 16 then t_uint P else mkCty false 16 2.
Definition t_u32 (P : host) : cty := if h_int P =? 32 then t_uint P else t_ulong P.

(** Least and greatest value of a type. *)
Definition ct_min (t : cty) : Z := if ct_signed t then - 2 ^ (ct_bits t - 1) else 0.
Definition ct_max (t : cty) : Z := if ct_signed t then 2 ^ (ct_bits t - 1) - 1 else 2 ^ ct_bits t - 1.
Definition in_range (t : cty) (v : Z) : bool := (ct_min t <=? v) && (v <=? ct_max t).

(** 6.3.1.3: conversion of a value to a type.  To a signed type that does not hold
    the value it is implementation-defined; reduced modulo 2^n here. *)
Definition conv (t : cty) (v : Z) : Z :=
  if in_range t v then v
  else if ct_signed t then (v + 2 ^ (ct_bits t - 1)) mod 2 ^ ct_bits t - 2 ^ (ct_bits t - 1)
  else v mod 2 ^ ct_bits t.

(** Value of an expression with its type, or why it has none. *)
Inductive cwhy := Overflow | BadShift | DivByZero.
Inductive cres := Val (t : cty) (v : Z) | Undef (w : cwhy).
Definition cbind (r : cres) (k : cty -> Z -> cres) : cres :=
  match r with Val t v => k t v | Undef w => Undef w end.

(** 6.3.1.1: integer promotions. *)
Definition promote (P : host) (t : cty) : cty :=
  if ct_rank t <? 3 then if ct_max t <=? ct_max (t_int P) then t_int P else t_uint P else t.

(** 6.3.1.8: usual arithmetic conversions, of promoted types. *)
Definition common (t1 t2 : cty) : cty :=
  if Bool.eqb (ct_signed t1) (ct_signed t2) then if ct_rank t1 <? ct_rank t2 then t2 else t1
  else
    let u := if ct_signed t1 then t2 else t1 in
    let s := if ct_signed t1 then t1 else t2 in
    if ct_rank s <=? ct_rank u then u
    else if ct_max u <=? ct_max s then s
    else mkCty false (ct_bits s) (ct_rank s).

(** 6.5 5, 6.2.5 9: the mathematical result [v] of an operation of type [t]. *)
Definition arith (t : cty) (v : Z) : cres :=
  if ct_signed t then if in_range t v then Val t v else Undef Overflow
  else Val t (v mod 2 ^ ct_bits t).

Inductive cop := Add | Sub | Mul | Rem | And | Or | Xor.

(** 6.5.5, 6.5.6, 6.5.10-12: operators that convert both operands. *)
Definition binop (P : host) (o : cop) (t1 : cty) (v1 : Z) (t2 : cty) (v2 : Z) : cres :=
  let t := common (promote P t1) (promote P t2) in
  let a := conv t v1 in
  let b := conv t v2 in
  match o with
  | Add => arith t (a + b)
  | Sub => arith t (a - b)
  | Mul => arith t (a * b)
  | Rem => if b =? 0 then Undef DivByZero else arith t (Z.rem a b)
  | And => Val t (Z.land a b)
  | Or => Val t (Z.lor a b)
  | Xor => Val t (Z.lxor a b)
  end.

(** 6.5.7: shifts; the type of the result is that of the promoted left operand. *)
Definition shiftop (P : host) (left : bool) (t1 : cty) (v1 : Z) (t2 : cty) (v2 : Z) : cres :=
  let t := promote P t1 in
  if (v2 <? 0) || (ct_bits t <=? v2) then Undef BadShift
  else if left then
    if ct_signed t then
      if (0 <=? v1) && in_range t (v1 * 2 ^ v2) then Val t (v1 * 2 ^ v2) else Undef Overflow
    else Val t (v1 * 2 ^ v2 mod 2 ^ ct_bits t)
  else Val t (v1 / 2 ^ v2).

(** 6.5.3.3: the complement. *)
Definition notop (P : host) (t : cty) (v : Z) : cres :=
  let t' := promote P t in
  if ct_signed t' then Val t' (- v - 1) else Val t' (2 ^ ct_bits t' - 1 - v).

(** 6.4.4.1: type of an unsuffixed hexadecimal constant; of a decimal one as long
    as it fits int, which all those of the slave's expressions do. *)
Definition lit_type (P : host) (v : Z) : cty :=
  if v <=? ct_max (t_int P) then t_int P
  else if v <=? ct_max (t_uint P) then t_uint P
  else if v <=? ct_max (t_long P) then t_long P
  else if v <=? ct_max (t_ulong P) then t_ulong P
  else t_llong.

(** Expressions without side effects.  [EObj t v] reads an object of type [t] that
    holds [v]. *)
Inductive cexpr :=
| EObj (t : cty) (v : Z)
| ELit (v : Z)
| ELitU (v : Z)
| ECast (t : cty) (a : cexpr)
| EBin (o : cop) (a b : cexpr)
| EShl (a b : cexpr)
| EShr (a b : cexpr)
| ENot (a : cexpr).

Fixpoint ceval (P : host) (e : cexpr) : cres :=
  match e with
  | EObj t v => Val t v
  | ELit v => Val (lit_type P v) v
  | ELitU v => Val (if v <=? ct_max (t_uint P) then t_uint P else t_ulong P) v
  | ECast t a => cbind (ceval P a) (fun _ v => Val t (conv t v))
  | EBin o a b => cbind (ceval P a) (fun t1 v1 => cbind (ceval P b) (fun t2 v2 => binop P o t1 v1 t2 v2))
  | EShl a b => cbind (ceval P a) (fun t1 v1 => cbind (ceval P b) (fun t2 v2 => shiftop P true t1 v1 t2 v2))
  | EShr a b => cbind (ceval P a) (fun t1 v1 => cbind (ceval P b) (fun t2 v2 => shiftop P false t1 v1 t2 v2))
  | ENot a => cbind (ceval P a) (fun t v => notop P t v)
  end.

(** 6.5.16.1, 6.8.6.4: assignment to, or return as, an object of type [t]. *)
Definition assign (P : host) (t : cty) (e : cexpr) : cres :=
  cbind (ceval P e) (fun _ v => Val t (conv t v)).
