(** The integer expressions of the slave, written operator by operator in the
    language of CInt.v, with the types of the C declarations. *)
From Coq Require Import ZArith NArith List Bool.
From Verif Require Import Base Config Checksum CInt.
Import ListNotations.
Open Scope Z_scope.

(** inc/xcp_types.h 88-96: UINT8(x), UINT16(x), UINT32(x). *)
Definition uint8 (e : cexpr) : cexpr := ECast t_u8 e.
Definition uint16 (P : host) (e : cexpr) : cexpr := ECast (t_u16 P) e.
Definition uint32 (P : host) (e : cexpr) : cexpr := ECast (t_u32 P) e.

(** ** Fields of a command *)

(** src/xcp.c 2156-2162: Xcp_GetWord of the bytes at offs and offs + 1. *)
Definition x_get_word (P : host) (motorola : bool) (b0 b1 : Z) : cres :=
  let lo b := EBin And (EObj t_u8 b) (uint8 (ELit 0xff)) in
  let hi b := EShl (EBin And (EObj t_u8 b) (uint8 (ELit 0xff))) (uint8 (ELit 8)) in
  assign P (t_u16 P) (if motorola then EBin Or (hi b0) (lo b1) else EBin Or (lo b0) (hi b1)).

(** src/xcp.c 2164-2176: Xcp_GetDWord. *)
Definition x_get_dword (P : host) (motorola : bool) (b0 b1 b2 b3 : Z) : cres :=
  cbind (x_get_word P motorola b0 b1) (fun _ w0 =>
  cbind (x_get_word P motorola b2 b3) (fun _ w1 =>
    let h := if motorola then w0 else w1 in
    let l := if motorola then w1 else w0 in
    assign P (t_u32 P)
      (EBin Add (ECast (t_u32 P) (EBin Mul (EObj (t_u16 P) h) (ELit 0x10000))) (EObj (t_u16 P) l)))).

(** src/tl/sxi/xcp_tl.c 40: XCP_SXI_MAKEWORD, assigned to a uint16_t (lines 116,
    123). *)
Definition x_sxi_word (P : host) (b0 b1 : Z) : cres :=
  assign P (t_u16 P) (EBin Or (EObj t_u8 b0) (EShl (EObj t_u8 b1) (ELit 8))).

(** src/tl/eth/common.c 111-112: XCP_MAKEWORD (inc/xcp_macros.h 70-73) of two bytes,
    assigned to a uint16_t. *)
Definition x_eth_word (P : host) (h l : Z) : cres :=
  assign P (t_u16 P)
    (EBin Or (EShl (uint16 P (EBin And (EObj t_u8 h) (uint8 (ELit 0xff)))) (uint16 P (ELit 8)))
       (uint16 P (EBin And (EObj t_u8 l) (uint8 (ELit 0xff))))).

(** ** Fields of a response *)

(** src/xcp.c 2182-2190: Xcp_SetWord; the bytes stored at offs and offs + 1. *)
Definition x_set_word (P : host) (motorola : bool) (v : Z) : cres * cres :=
  let lo := assign P t_u8 (EBin And (EObj (t_u16 P) v) (uint8 (ELit 0xff))) in
  let hi := assign P t_u8 (EShr (EBin And (EObj (t_u16 P) v) (uint16 P (ELit 0xff00))) (uint8 (ELit 8))) in
  if motorola then (hi, lo) else (lo, hi).

(** src/xcp.c 2192-2200: Xcp_SetDWord; the values handed to Xcp_SetWord for offs
    and offs + 2. *)
Definition x_set_dword (P : host) (motorola : bool) (v : Z) : cres * cres :=
  let lo := assign P (t_u16 P) (EBin And (EObj (t_u32 P) v) (uint32 P (ELit 0x0000ffff))) in
  let hi := assign P (t_u16 P) (EShr (EBin And (EObj (t_u32 P) v) (uint32 P (ELit 0xffff0000))) (uint8 (ELit 16))) in
  if motorola then (hi, lo) else (lo, hi).

(** inc/xcp_macros.h 54, 58, 62, 66: XCP_LOBYTE, XCP_HIBYTE of a uint16_t,
    XCP_LOWORD, XCP_HIWORD of a uint32_t. *)
Definition x_lobyte (P : host) (v : Z) : cres :=
  ceval P (uint8 (EBin And (EObj (t_u16 P) v) (uint8 (ELit 0xff)))).
Definition x_hibyte (P : host) (v : Z) : cres :=
  ceval P (uint8 (EShr (EBin And (EObj (t_u16 P) v) (uint16 P (ELitU 0xff00))) (ELitU 8))).
Definition x_loword (P : host) (v : Z) : cres :=
  ceval P (uint16 P (EBin And (EObj (t_u32 P) v) (uint16 P (ELit 0xffff)))).
Definition x_hiword (P : host) (v : Z) : cres :=
  ceval P (uint16 P (EShr (EBin And (EObj (t_u32 P) v) (uint32 P (ELit 0xffff0000))) (ELitU 16))).

(** ** MODIFY_BITS *)

(** src/xcp.c 1472-1474, 1484: the value stored to *vp. *)
Definition x_modify (P : host) (v sh am xm : Z) : cres :=
  let a := ECast (t_u32 P) (EShl (ECast (t_u16 P) (ENot (EObj (t_u16 P) am))) (EObj t_u8 sh)) in
  let x := ECast (t_u32 P) (EShl (EObj (t_u16 P) xm) (EObj t_u8 sh)) in
  assign P (t_u32 P) (EBin And (EObj (t_u32 P) v) (EBin Xor (ENot a) x)).

(** ** Checksums *)

(** inc/xcp.h 1229-1240: Xcp_ChecksumType of the CRC methods. *)
Definition t_cks (P : host) (m : cksum) : cty := match m with CRC32 => t_u32 P | _ => t_u16 P end.

(** src/xcp_checksum.c 257-265: the loop of reflect, [k] more iterations. *)
Fixpoint x_reflect_loop (P : host) (k : nat) (nbits bit data acc : Z) : cres :=
  match k with
  | O => Val (t_u32 P) acc
  | S j =>
      cbind (ceval P (EBin And (EObj (t_u32 P) data) (ELit 0x01))) (fun _ c =>
      cbind (if c =? 0 then Val (t_u32 P) acc
             else assign P (t_u32 P)
                    (EBin Or (EObj (t_u32 P) acc)
                       (EShl (ELit 1) (EBin Sub (EBin Sub (EObj t_u8 nbits) (ELit 1)) (EObj t_u8 bit))))) (fun _ acc' =>
      cbind (assign P (t_u32 P) (EShr (EObj (t_u32 P) data) (ELit 1))) (fun _ data' =>
      x_reflect_loop P j nbits (bit + 1) data' acc')))
  end.
(** src/xcp_checksum.c 250-267: reflect. *)
Definition x_reflect (P : host) (data nbits : Z) : cres := x_reflect_loop P (Z.to_nat nbits) nbits 0 data 0.

(** src/xcp_checksum.c 235, with sizeof(Xcp_ChecksumType) of type size_t, here
    unsigned int: WIDTH. *)
Definition e_width (P : host) (m : cksum) : cexpr :=
  ECast (t_u16 P) (EBin Mul (ELitU 8) (ELitU (match m with CRC32 => 4 | _ => 2 end))).

(** src/xcp_checksum.c 238-242: CRC_REFLECT_DATA. *)
Definition x_reflect_data (P : host) (m : cksum) (b : Z) : cres :=
  if crc_refl m then cbind (x_reflect P b 8) (fun _ v => Val t_u8 (conv t_u8 v)) else Val t_u8 b.

(** src/xcp_checksum.c 283-286: one iteration of the CRC loop.  The elements of
    CRC_TAB have the type of the checksum (lines 79, 129, 179). *)
Definition x_crc_byte (P : host) (m : cksum) (r b : Z) : cres :=
  cbind (x_reflect_data P m b) (fun _ d0 =>
  cbind (assign P t_u8
           (EBin Xor (EObj t_u8 d0)
              (uint8 (EShr (EObj (t_cks P m) r) (EBin Sub (e_width P m) (uint8 (ELit 8))))))) (fun _ d =>
  assign P (t_cks P m)
    (EBin Xor (EObj (t_cks P m) (Z.of_N (nth (Z.to_nat d) (crc_tab m) 0%N)))
       (uint16 P (EShl (EObj (t_cks P m) r) (ELit 8)))))).

(** src/xcp_checksum.c 283-286: the whole loop. *)
Fixpoint x_crc_loop (P : host) (m : cksum) (r : Z) (bs : list Z) : cres :=
  match bs with
  | [] => Val (t_cks P m) r
  | b :: t => cbind (x_crc_byte P m r b) (fun _ r' => x_crc_loop P m r' t)
  end.

(** src/xcp_checksum.c 244-248, 287: the value returned. *)
Definition x_crc_final (P : host) (m : cksum) (r : Z) : cres :=
  cbind (if crc_refl m then cbind (x_reflect P r (match m with CRC32 => 32 | _ => 16 end)) (fun _ v => Val (t_cks P m) (conv (t_cks P m) v))
         else Val (t_cks P m) r) (fun t v =>
  assign P (t_cks P m) (EBin Xor (EObj t v) (EObj (t_cks P m) (Z.of_N (crc_xor m))))).

(** src/xcp_checksum.c 270-287: Xcp_CalculateChecksum of a first call. *)
Definition x_crc (P : host) (m : cksum) (bs : list Z) : cres :=
  cbind (x_crc_loop P m (Z.of_N (crc_init m)) bs) (fun _ r => x_crc_final P m r).

(** ** Indices *)

(** src/xcp_daq.c 721, 738, 752: the next index of the queue, XCP_DAQ_QUEUE_SIZE
    being 4 (line 44). *)
Definition x_queue_next (P : host) (i : Z) : cres :=
  assign P t_u8 (EBin Rem (EBin Add (EObj t_u8 i) (uint8 (ELit 1))) (uint8 (EBin Add (ELit 4) (ELit 1)))).

(** src/xcp.c 1575, 1592: bytes of a WRITE_DAQ_MULTIPLE, and offset of an element. *)
Definition x_multi_size (P : host) (n : Z) : cres :=
  ceval P (EBin Add (EBin Mul (EObj t_u8 n) (uint8 (ELit 8))) (uint8 (ELit 2))).
Definition x_multi_offs (P : host) (i : Z) : cres :=
  assign P t_u8 (EBin Add (EBin Mul (EObj t_u8 i) (uint8 (ELit 8))) (uint8 (ELit 2))).

(** src/xcp.c 1415: remaining -= len, both of type uint8_t (line 1402, inc/xcp.h 759). *)
Definition x_minus8 (P : host) (a b : Z) : cres :=
  assign P t_u8 (EBin Sub (EObj t_u8 a) (EObj t_u8 b)).
