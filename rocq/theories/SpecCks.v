(** Vocabulary of the checksum properties. *)
From Coq Require Import NArith List Bool.
From Verif Require Import Base Config State Core Spec SpecMem.
Import ListNotations.
Open Scope N_scope.

(** ** Cyclic redundancy checks *)

(** Bits of a byte, most or least significant first. *)
Definition bits (lsb_first : bool) (b : N) : list bool :=
  map (N.testbit b) (if lsb_first then [0; 1; 2; 3; 4; 5; 6; 7] else [7; 6; 5; 4; 3; 2; 1; 0]).

(** The number whose binary digits are [l], most significant first. *)
Definition of_bits (l : list bool) : N := fold_left (fun a b => 2 * a + N.b2n b) l 0.

(** A [w]-bit number read backwards. *)
Definition mirror (w v : N) : N := of_bits (map (fun i => N.testbit v (N.of_nat i)) (seq 0 (N.to_nat w))).

(** Division by x^w + poly, one bit of the message at a time. *)
Definition crc_bit (w poly r : N) (b : bool) : N :=
  let r2 := (2 * r) mod 2 ^ w in
  if xorb (N.testbit r (w - 1)) b then N.lxor r2 poly else r2.
Definition crc_register (w poly init : N) (l : list bool) : N := fold_left (crc_bit w poly) l init.

(** A CRC in the usual parameters: width, polynomial, initial value, reflection of
    input and output, final exclusive-or. *)
Definition crc_def (w poly init : N) (refl : bool) (xorout : N) (bs : list N) : N :=
  let r := crc_register w poly init (flat_map (bits refl) bs) in
  N.lxor (if refl then mirror w r else r) xorout.

(** The methods of XCP part 2, BUILD_CHECKSUM. *)
Definition crc_16 : list N -> N := crc_def 16 0x8005 0 true 0.
Definition crc_16_citt : list N -> N := crc_def 16 0x1021 0xFFFF false 0.
Definition crc_32 : list N -> N := crc_def 32 0x04C11DB7 0xFFFFFFFF true 0xFFFFFFFF.

(** Polynomials over GF(2), coefficient of x^i in bit i: product, and remainder of
    [a] modulo a polynomial [p] of degree [w]. *)
Fixpoint pmul (q : BinNums.positive) (p : N) : N :=
  match q with
  | xH => p
  | xO q => 2 * pmul q p
  | xI q => N.lxor p (2 * pmul q p)
  end.
Definition clmul (q p : N) : N := match q with 0 => 0 | Npos q => pmul q p end.
Definition remainder (w p a r : N) : Prop := r < 2 ^ w /\ exists q, a = N.lxor (clmul q p) r.

(** ** Sums *)

Definition sum (l : list N) : N := fold_right N.add 0 l.

(** The words of [k] bytes each that [bs] consists of, in the byte order [be];
    [k * n] bytes are used. *)
Definition word_at (be : bool) (k : nat) (bs : list N) (i : nat) : N :=
  let w := firstn k (skipn (k * i) bs) in if be then be_value w else le_value w.
Definition words (be : bool) (k : nat) (bs : list N) : list N :=
  map (word_at be k bs) (seq 0 (Nat.div (length bs) k)).

(** Result of method [m] over the bytes [bs] on a target of byte order [be], where
    the code computes it as specified. *)
Definition checksum_spec (m : cksum) (be : bool) (bs : list N) : N :=
  match m with
  | ADD11 => sum bs mod 2 ^ 8
  | ADD12 => sum bs mod 2 ^ 16
  | ADD14 => sum bs mod 2 ^ 32
  | ADD22 => sum (words be 2 bs) mod 2 ^ 16
  | ADD24 => sum (words be 2 bs) mod 2 ^ 32
  | ADD44 => sum (words be 4 bs) mod 2 ^ 32
  | CRC16 => crc_16 bs
  | CRC16CITT => crc_16_citt bs
  | CRC32 => crc_32 bs
  end.

(** ** BUILD_CHECKSUM *)

(** Payload of the positive response. *)
Definition checksum_answer (m : cksum) (v : N) : list N := [0xFF; cksum_code m; 0; 0] ++ le_bytes 4 v.

(** Blocks that are answered at once. *)
Definition at_once (c : cfg) (n : N) : Prop := c_chunked c = false \/ n <= c_chunk c.

(** No limit configured, or within it. *)
Definition within_limit (c : cfg) (n : N) : Prop := c_max_blk c = 0 \/ n <= c_max_blk c.

(** Methods whose value over a block can be computed from the value over a first
    part of it by the code's own means, with parts of [k] bytes. *)
Definition composes (m : cksum) (k : N) : Prop :=
  match m with
  | ADD11 | ADD12 | ADD14 | CRC16CITT => True
  | ADD22 | ADD24 => k mod 2 = 0
  | ADD44 => k mod 4 = 0
  | CRC16 | CRC32 => False
  end.

(** Main-function calls needed for a block of [n] bytes in chunks of [k]. *)
Definition calls (k n : N) : N := N.max 3 ((n + k - 1) / k).

(** [s] is [s0] while ([busy]) or after a checksum is computed in the background:
    connected, MTA, memory, programming state, protection, block transfers and DAQ
    configuration as in [s0]. *)
Record summing (busy : bool) (s0 s : st) : Prop := mkSum {
  sm_conn : s_conn s = true;
  sm_busy : s_busy s = busy;
  sm_mta : s_mext s = s_mext s0 /\ s_maddr s = s_maddr s0;
  sm_mem : s_mem s = s_mem s0;
  sm_rest : s_pgm s = s_pgm s0 /\ s_prot s = s_prot s0 /\ s_seed s = s_seed s0 /\ s_sact s = s_sact s0 /\ s_srem s = s_srem s0 /\
            s_mact s = s_mact s0 /\ s_mrem s = s_mrem s0 /\ exists q, s_daq s = set_d_q q (s_daq s0)
}.

(** No block upload is under way. *)
Definition no_upload (c : cfg) (s : st) : Prop := c_sbm c = true -> s_sact s = false.

(** The frame BUILD_CHECKSUM over [field c [n0; n1; n2; n3]] bytes. *)
Definition checksum_cmd (r1 r2 r3 n0 n1 n2 n3 : N) (t : list N) : list N := 0xF3 :: r1 :: r2 :: r3 :: n0 :: n1 :: n2 :: n3 :: t.

(** The command finds the slave prepared to compute. *)
Record may_sum (c : cfg) (e : env) (s : st) (n : N) : Prop := mkMay {
  ms_ready : ready s;
  ms_pgm : ~ programming s;
  ms_opt : c_opt c 0xF3 = true;
  ms_granted : granted c e (s_mext s) (s_maddr s) n false false
}.

(** ... and the block is to be computed in the background. *)
Record background (c : cfg) (e : env) (s : st) (n : N) : Prop := mkBg {
  bg_may : may_sum c e s n;
  bg_limit : within_limit c n;
  bg_chunked : c_chunked c = true;
  bg_big : c_chunk c < n;
  bg_job : no_job s;
  bg_upload : no_upload c s;
  bg_lock : c_lock c = LockRecursive
}.
