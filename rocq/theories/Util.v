(** Model of src/xcp_util.c. *)
From Coq Require Import NArith List Bool.
From Verif Require Import Base.
Import ListNotations.
Open Scope N_scope.

(** A pointer into an object is the list of the object's bytes from there on
    ([None] is the null pointer): reading or writing behind the end is undefined. *)
Definition ptr := option (list N).

(** src/xcp_util.c 33-44: XcpUtl_MemCopy, on one memory, since the two ranges may
    overlap; [aspace] is the size of the address space.  The loop copies
    upwards, one byte at a time. *)
Fixpoint copy_loop (m : mem) (d s : N) (n : nat) : mem :=
  match n with
  | O => m
  | S k => copy_loop (fun x => if x =? d then m s else m x) (d + 1) (s + 1) k
  end.
Definition mem_copy (aspace : N) (m : mem) (d s len : N) : out mem :=
  if d =? 0 then UB Assert
  else if len =? 0 then UB Assert
  else if (aspace <? d + len) || (aspace <? s + len) then UB WildAddr
  else Ok (copy_loop m d s (N.to_nat len)).

(** src/xcp_util.c 46-54: XcpUtl_MemSet on the object [p] points into. *)
Fixpoint set_loop (p : list N) (v : N) (n : nat) {struct n} : out (list N) :=
  match n with
  | O => Ok p
  | S k => match p with [] => UB OobBuffer | _ :: t => r <- set_loop t v k ;; Ok (v :: r) end
  end.
Definition mem_set (p : ptr) (v len : N) : out (list N) :=
  match p with None => UB Assert | Some l => set_loop l v (N.to_nat len) end.

(** src/xcp_util.c 56-71: XcpUtl_MemCmp.  The condition of the loop reads both
    bytes before it looks at the length. *)
Fixpoint cmp_loop (pl pr : list N) (len : N) : out N :=
  match pl, pr with
  | a :: pl', b :: pr' => if (a =? b) && negb (len =? 0) then cmp_loop pl' pr' (len - 1) else Ok len
  | _, _ => UB OobBuffer
  end.
Definition mem_cmp (lhs rhs : ptr) (len : N) : out bool :=
  match lhs, rhs with
  | Some pl, Some pr => if len =? 0 then Ok false else n <- cmp_loop pl pr len ;; Ok (n =? 0)
  | _, _ => UB Assert
  end.

(** src/xcp_util.c 82-115: XcpUtl_Itoa; [buf] is the buffer, [pos] and [swap_pos]
    are uint8_t. *)
Definition put (buf : list N) (i v : N) : out (list N) :=
  if lenN buf <=? i then UB OobBuffer else Ok (updN buf i v).
Definition fetch (buf : list N) (i : N) : out N :=
  match getN buf i with Some v => Ok v | None => UB OobBuffer end.

(** Lines 100-108.  Bases of 2 and more need at most 32 rounds. *)
Fixpoint digits_loop (fuel : nat) (value base : N) (buf : list N) (pos : N) : out (list N * N) :=
  if value =? 0 then Ok (buf, pos)
  else
    match fuel with
    | O => UB Hang
    | S k =>
        if base =? 0 then UB DivZero
        else
          let m := u8 (value mod base) in
          b1 <- put buf pos (if m <? 10 then 48 + m else u8 (65 + m - 10)) ;;
          digits_loop k (value / base) base b1 (u8 (pos + 1))
    end.

(** Lines 110-116: exchanges the characters from both ends. *)
Fixpoint swap_loop (fuel : nat) (buf : list N) (pos swap : N) : out (list N) :=
  if swap <? pos then
    match fuel with
    | O => UB Hang
    | S k =>
        a <- fetch buf swap ;;
        b <- fetch buf pos ;;
        b1 <- put buf swap b ;;
        b2 <- put b1 pos a ;;
        swap_loop k b2 (pos - 1) (u8 (swap + 1))
    end
  else Ok buf.

(** [long_bits] is the width of long (the product with -1L is a long). *)
Definition itoa (long_bits value base : N) (buf : list N) : out (list N) :=
  let neg := (2 ^ 31 <=? value) && (base =? 10) in
  if neg && (value =? 2 ^ 31) && (long_bits =? 32) then UB IntOverflow
  else
    let v := if neg then 2 ^ 32 - value else value in
    let start := if neg then 1 else 0 in
    b0 <- (if neg then put buf 0 45 else Ok buf) ;;
    '(b1, p1) <- (if v =? 0 then b <- put b0 start 48 ;; Ok (b, start + 1) else Ok (b0, start)) ;;
    '(b2, p2) <- digits_loop 33 v base b1 p1 ;;
    b3 <- put b2 p2 0 ;;
    swap_loop 256 b3 (u8 (p2 + 255)) start.
