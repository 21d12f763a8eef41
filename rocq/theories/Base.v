(** Basic vocabulary of the model: bytes, wrap-around, buffers, target memory
    and the outcome type.  No part of /repo is modelled here except the macros
    and integer conversions cited below. *)
From Coq Require Import NArith List Bool.
Import ListNotations.
Open Scope N_scope.

(** inc/xcp_types.h 88-94: UINT8/UINT16/UINT32 conversions (unsigned, modulo). *)
Definition u8 (x : N) : N := x mod 2 ^ 8.
Definition u16 (x : N) : N := x mod 2 ^ 16.
Definition u32 (x : N) : N := x mod 2 ^ 32.

(** inc/xcp_macros.h 54-67: XCP_LOBYTE, XCP_HIBYTE, XCP_LOWORD, XCP_HIWORD. *)
Definition lobyte (w : N) : N := w mod 256.
Definition hibyte (w : N) : N := (w / 256) mod 256.
Definition loword (w : N) : N := w mod 65536.
Definition hiword (w : N) : N := (w / 65536) mod 65536.

(** Buffers are lists of numbers; indices and lengths are binary naturals. *)
Definition lenN {A} (l : list A) : N := N.of_nat (length l).
Definition takeN {A} (n : N) (l : list A) : list A := firstn (N.to_nat n) l.
Definition dropN {A} (n : N) (l : list A) : list A := skipn (N.to_nat n) l.
Definition getN {A} (l : list A) (i : N) : option A := nth_error l (N.to_nat i).

Fixpoint upd {A} (l : list A) (i : nat) (x : A) : list A :=
  match l, i with
  | [], _ => []
  | _ :: t, O => x :: t
  | h :: t, S j => h :: upd t j x
  end.
Definition updN {A} (l : list A) (i : N) (x : A) : list A := upd l (N.to_nat i) x.

(** Overwrite [bs] into [l] starting at [off]; callers check the bounds. *)
Definition splice {A} (l : list A) (off : N) (bs : list A) : list A :=
  takeN off l ++ bs ++ dropN (off + lenN bs) l.

(** Ways an execution can leave defined behaviour.  [Assert] is a failed
    assert() (inc/xcp.h 541-546, inc/xcp_macros.h 178). *)
Inductive why :=
| OobTable      (* command table indexed outside its 57 entries            *)
| OobEntity     (* DAQ entity pool indexed outside                         *)
| OobEvent      (* event table indexed outside                             *)
| OobQueue      (* DTO queue slot indexed outside                          *)
| OobBuffer     (* communication buffer accessed outside                   *)
| Assert        (* assert() fails, the process aborts                      *)
| WildAddr      (* address range leaves the address space / truncated pointer *)
| KindPun       (* union member with a different layout is accessed        *)
| ShiftUB       (* shift count or result not representable                 *)
| Deadlock      (* a held non-recursive lock is acquired again             *)
| NullPtr       (* a null pointer is dereferenced                          *)
| DivZero       (* integer division by zero                                *)
| IntOverflow   (* signed integer overflow                                 *)
| Hang          (* the loop does not end                                   *)
| Uninit        (* an uninitialised byte decides what happens              *)
| Exit.         (* the process calls exit()                                *)

(** Outcome of a piece of C code: a value or undefined behaviour. *)
Inductive out (A : Type) : Type :=
| Ok (a : A)
| UB (w : why).
Arguments Ok {A} a.
Arguments UB {A} w.

Definition bind {A B} (r : out A) (f : A -> out B) : out B :=
  match r with Ok a => f a | UB w => UB w end.
Notation "x <- a ;; b" := (bind a (fun x => b))
  (at level 61, a at next level, right associativity).
Notation "' p <- a ;; b" := (bind a (fun x => match x with p => b end))
  (at level 61, p pattern, a at next level, right associativity).

Definition is_ok {A} (r : out A) : bool := match r with Ok _ => true | UB _ => false end.

(** Target memory: byte at every address. *)
Definition mem := N -> N.

(** [n] bytes starting at address [a]. *)
Fixpoint mread_nat (m : mem) (a : N) (n : nat) : list N :=
  match n with
  | O => []
  | S k => m a :: mread_nat m (a + 1) k
  end.
Definition mread (m : mem) (a n : N) : list N := mread_nat m a (N.to_nat n).

(** Memory after storing the bytes [bs] from address [a] on. *)
Fixpoint mwrite (m : mem) (a : N) (bs : list N) : mem :=
  match bs with
  | [] => m
  | b :: t => fun x => if x =? a then b else mwrite m (a + 1) t x
  end.

(** Little-endian byte lists. *)
Definition le16 (w : N) : list N := [lobyte w; hibyte w].
Definition le32 (d : N) : list N :=
  [lobyte (loword d); hibyte (loword d); lobyte (hiword d); hibyte (hiword d)].

Fixpoint le_value (bs : list N) : N :=
  match bs with [] => 0 | b :: t => b + 256 * le_value t end.
Definition be_value (bs : list N) : N := le_value (rev bs).

(** [k] bytes of [v], least significant first. *)
Fixpoint le_bytes (k : nat) (v : N) : list N :=
  match k with O => [] | S j => v mod 256 :: le_bytes j (v / 256) end.

(** Apply [f] [n] times ([n] iterations of a C loop body). *)
Definition iterN {A} (n : N) (f : A -> A) (a : A) : A := Nat.iter (N.to_nat n) f a.
