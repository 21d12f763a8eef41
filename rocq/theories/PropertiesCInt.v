(** C's integer arithmetic in the slave: C146-C150. *)
From Coq Require Import NArith ZArith List Bool.
From Verif Require Import Base Config Codec Checksum State Core CInt CExpr Spec SpecCks SpecCInt ProofsCInt2 ProofsCInt3 ProofsCInt4.
Import ListNotations.
Open Scope Z_scope.

(** C146: where int has 32 bits, a two-byte field is read right whatever its value. *)
Theorem C146_word : forall P mot b0 b1, int32 P -> byte b0 -> byte b1 ->
  yields (x_get_word P mot b0 b1) (field2 mot b0 b1).
Proof. exact word_read. Qed.
Print Assumptions C146_word.
Example C146_word_case : int32 (mkHost 32 64) /\ x_get_word (mkHost 32 64) false 0x34 0xF2 = Val (mkCty false 16 2) 0xF234.
Proof. split; [now left|vm_compute; reflexivity]. Qed.

(** Where int has 16 bits, reading a field of 2^15 and more is undefined. *)
Theorem C146_word_narrow_refuted : forall P mot b0 b1, int16 P -> byte b0 -> byte b1 ->
  (2 ^ 15 <= field2 mot b0 b1 -> undefined (x_get_word P mot b0 b1)) /\
  (field2 mot b0 b1 < 2 ^ 15 -> yields (x_get_word P mot b0 b1) (field2 mot b0 b1)).
Proof. exact word_narrow. Qed.
Print Assumptions C146_word_narrow_refuted.
Example C146_word_narrow_case : x_get_word (mkHost 16 32) true 0x80 0x00 = Undef Overflow /\ yields (x_get_word (mkHost 16 32) true 0x7F 0xFF) 0x7FFF.
Proof. split; [|eexists]; vm_compute; reflexivity. Qed.

(** Four-byte fields are read right below 2^31 ... *)
Theorem C146_dword : forall P mot b0 b1 b2 b3, int32 P -> byte b0 -> byte b1 -> byte b2 -> byte b3 ->
  field4 mot b0 b1 b2 b3 < 2 ^ 31 -> yields (x_get_dword P mot b0 b1 b2 b3) (field4 mot b0 b1 b2 b3).
Proof. exact dword_read. Qed.
Print Assumptions C146_dword.
Example C146_dword_case : yields (x_get_dword (mkHost 32 32) false 0x78 0x56 0x34 0x7F) 0x7F345678.
Proof. eexists. vm_compute. reflexivity. Qed.

(** ... and reading them is undefined from 2^31 on, in both byte orders and on every target. *)
Theorem C146_dword_refuted : forall P mot b0 b1 b2 b3, int32 P \/ int16 P -> byte b0 -> byte b1 -> byte b2 -> byte b3 ->
  2 ^ 31 <= field4 mot b0 b1 b2 b3 -> undefined (x_get_dword P mot b0 b1 b2 b3).
Proof. exact dword_undef. Qed.
Print Assumptions C146_dword_refuted.
Example C146_dword_refuted_case : x_get_dword (mkHost 32 64) false 0 0 0 0x80 = Undef Overflow /\ x_get_dword (mkHost 16 32) true 0xE0 0 0 4 = Undef Overflow.
Proof. split; vm_compute; reflexivity. Qed.

(** The model of the slave reads what C reads, wherever C defines it. *)
Theorem C146_model : forall P c f i, int32 P -> bytes f ->
  yields (word_at P c f i) (Z.of_N (gw c f i)) /\
  ((gd c f i < 2 ^ 31)%N -> yields (dword_at P c f i) (Z.of_N (gd c f i))).
Proof. exact fields_agree. Qed.
Print Assumptions C146_model.
Example C146_model_case : let f := [0xF6; 0; 0; 0; 0x00; 0x40; 0x00; 0x20]%N in
  bytes f /\ gd cfg_can f 4 = 0x20004000%N /\ yields (dword_at (mkHost 32 32) cfg_can f 4) 0x20004000.
Proof. split; [repeat constructor|split; [reflexivity|eexists; vm_compute; reflexivity]]. Qed.

(** SET_MTA (and every other command with an address at offset 4): the master can not
    name an address of 2^31 and more. *)
Theorem C146_address_refuted : forall P c r1 r2 ext a, int32 P \/ int16 P -> (a < 2 ^ 32)%N ->
  let f := ([0xF6; r1; r2; ext] ++ bytes4 (c_motorola c) a)%N in
  ((2 ^ 31 <= a)%N -> undefined (dword_at P c f 4)) /\
  (int32 P -> (a < 2 ^ 31)%N -> yields (dword_at P c f 4) (Z.of_N a)).
Proof. exact address_field. Qed.
Print Assumptions C146_address_refuted.
Example C146_address_case : let f := ([0xF6; 0; 0; 0] ++ bytes4 (c_motorola cfg_can) 0xE000E010)%N in
  f = [0xF6; 0; 0; 0; 0x10; 0xE0; 0x00; 0xE0]%N /\ dword_at (mkHost 32 32) cfg_can f 4 = Undef Overflow.
Proof. split; vm_compute; reflexivity. Qed.

(** C147: two-byte fields of responses are written right, on every target. *)
Theorem C147_word : forall P mot v, int32 P \/ int16 P -> 0 <= v < 65536 ->
  exists b0 b1, byte b0 /\ byte b1 /\ field2 mot b0 b1 = v /\
    yields (fst (x_set_word P mot v)) b0 /\ yields (snd (x_set_word P mot v)) b1.
Proof. exact words_written. Qed.
Print Assumptions C147_word.
Example C147_word_case : x_set_word (mkHost 16 32) false 0xF234 = (Val t_u8 0x34, Val t_u8 0xF2).
Proof. vm_compute. reflexivity. Qed.

(** Four-byte fields are split into words without loss. *)
Theorem C147_dword : forall P (mot : bool) v, int32 P \/ int16 P -> 0 <= v < 2 ^ 32 ->
  exists w0 w1, 0 <= w0 < 65536 /\ 0 <= w1 < 65536 /\ v = (if mot then w0 * 65536 + w1 else w1 * 65536 + w0) /\
    yields (fst (x_set_dword P mot v)) w0 /\ yields (snd (x_set_dword P mot v)) w1.
Proof. exact dwords_written. Qed.
Print Assumptions C147_dword.
Example C147_dword_case : yields (snd (x_set_dword (mkHost 32 64) false 0xE000E010)) 0xE000.
Proof. eexists. vm_compute. reflexivity. Qed.

(** XCP_LOBYTE, XCP_HIBYTE, XCP_LOWORD and XCP_HIWORD. *)
Theorem C147_macros : forall P w d, int32 P \/ int16 P -> 0 <= w < 65536 -> 0 <= d < 2 ^ 32 ->
  yields (x_lobyte P w) (w mod 256) /\ yields (x_hibyte P w) (w / 256) /\
  yields (x_loword P d) (d mod 65536) /\ yields (x_hiword P d) (d / 65536).
Proof. exact macros_ok. Qed.
Print Assumptions C147_macros.
Example C147_macros_case : yields (x_hibyte (mkHost 16 32) 0xF234) 0xF2 /\ yields (x_hiword (mkHost 32 32) 0xE000E010) 0xE000.
Proof. split; eexists; vm_compute; reflexivity. Qed.

(** C148: MODIFY_BITS has a value exactly if both shifted masks stay below 2^31. *)
Theorem C148_defined : forall P v sh am xm, int32 P -> 0 <= v < 2 ^ 32 -> byte sh -> 0 <= am < 65536 -> 0 <= xm < 65536 ->
  let a := (65535 - am) * 2 ^ sh in
  let x := xm * 2 ^ sh in
  (sh < 32 /\ a < 2 ^ 31 /\ x < 2 ^ 31 -> yields (x_modify P v sh am xm) (Z.land v (Z.lxor (2 ^ 32 - 1 - a) x))) /\
  (~ (sh < 32 /\ a < 2 ^ 31 /\ x < 2 ^ 31) -> undefined (x_modify P v sh am xm)).
Proof. exact modify_defined. Qed.
Print Assumptions C148_defined.
Example C148_defined_case : yields (x_modify (mkHost 32 64) 0x12345678 8 0xFF0F 0) 0x12340678 /\
  x_modify (mkHost 32 64) 0x12345678 16 0x7FFF 0 = Undef Overflow /\ x_modify (mkHost 32 64) 0 32 0xFFFF 0 = Undef BadShift.
Proof. split; [eexists; vm_compute; reflexivity|split; vm_compute; reflexivity]. Qed.

(** The model of the slave agrees with C, on what is undefined too. *)
Theorem C148_model : forall P v sh am xm, int32 P -> (v < 2 ^ 32)%N -> (sh < 256)%N -> (am < 65536)%N -> (xm < 65536)%N ->
  match modify_value v sh am xm with
  | Ok r => yields (x_modify P (Z.of_N v) (Z.of_N sh) (Z.of_N am) (Z.of_N xm)) (Z.of_N r)
  | UB _ => undefined (x_modify P (Z.of_N v) (Z.of_N sh) (Z.of_N am) (Z.of_N xm))
  end.
Proof. exact modify_agree. Qed.
Print Assumptions C148_model.
Example C148_model_case : modify_value 0x12345678 8 0xFF0F 0 = Ok 0x12340678%N /\ modify_value 0x12345678 16 0x7FFF 0 = UB ShiftUB.
Proof. split; vm_compute; reflexivity. Qed.

(** Where int has 16 bits, MODIFY_BITS never changes the upper half of the value, and has
    none for a shift of 16 and more. *)
Theorem C148_narrow_refuted : forall P v sh am xm r, int16 P -> 0 <= v < 2 ^ 32 -> byte sh -> 0 <= am < 65536 -> 0 <= xm < 65536 ->
  (16 <= sh -> undefined (x_modify P v sh am xm)) /\
  (yields (x_modify P v sh am xm) r -> r / 65536 = v / 65536).
Proof. exact modify_narrow. Qed.
Print Assumptions C148_narrow_refuted.
Example C148_narrow_case : yields (x_modify (mkHost 16 32) 0xFFFFFFFF 8 0x00FF 0) 0xFFFFFFFF /\ yields (x_modify (mkHost 32 32) 0xFFFFFFFF 8 0x00FF 0) 0xFF00FFFF.
Proof. split; eexists; vm_compute; reflexivity. Qed.

(** C149: CRC-16 has its value for every block where int has 32 bits ... *)
Theorem C149_crc_16 : forall P bs, int32 P -> bytes bs -> yields (x_crc P CRC16 (map Z.of_N bs)) (Z.of_N (crc_16 bs)).
Proof. exact crc16_defined. Qed.
Print Assumptions C149_crc_16.
Example C149_crc_16_case : yields (x_crc (mkHost 32 64) CRC16 [0x31; 0x32; 0x33; 0x34; 0x35; 0x36; 0x37; 0x38; 0x39]) 0xBB3D.
Proof. eexists. vm_compute. reflexivity. Qed.

(** ... CRC-16-CITT on every target ... *)
Theorem C149_crc_16_citt : forall P bs, int32 P \/ int16 P -> bytes bs -> yields (x_crc P CRC16CITT (map Z.of_N bs)) (Z.of_N (crc_16_citt bs)).
Proof. exact citt_defined. Qed.
Print Assumptions C149_crc_16_citt.
Example C149_crc_16_citt_case : yields (x_crc (mkHost 16 32) CRC16CITT [0x31; 0x32; 0x33; 0x34; 0x35; 0x36; 0x37; 0x38; 0x39]) 0x29B1.
Proof. eexists. vm_compute. reflexivity. Qed.

(** ... but CRC-16 is undefined for every block with a checksum of 0x8000 and more where int
    has 16 bits, *)
Theorem C149_crc_16_narrow_refuted : forall P bs, int16 P -> bytes bs ->
  if (0x8000 <=? crc_16 bs)%N then undefined (x_crc P CRC16 (map Z.of_N bs))
  else yields (x_crc P CRC16 (map Z.of_N bs)) (Z.of_N (crc_16 bs)).
Proof. exact crc16_narrow. Qed.
Print Assumptions C149_crc_16_narrow_refuted.
Example C149_crc_16_narrow_case : x_crc (mkHost 16 32) CRC16 [0x31; 0x32; 0x33; 0x34; 0x35; 0x36; 0x37; 0x38; 0x39] = Undef Overflow.
Proof. vm_compute. reflexivity. Qed.

(** and CRC-32 for every block the checksum of which the slave's algorithm puts below 2^31. *)
Theorem C149_crc_32_refuted : forall P be x bs, int32 P -> bytes bs ->
  if (calc CRC32 be bs x true <? 2 ^ 31)%N then undefined (x_crc P CRC32 (map Z.of_N bs))
  else yields (x_crc P CRC32 (map Z.of_N bs)) (Z.of_N (calc CRC32 be bs x true)).
Proof. exact crc32_edge. Qed.
Print Assumptions C149_crc_32_refuted.
Example C149_crc_32_case : x_crc (mkHost 32 64) CRC32 [0x31; 0x32] = Undef Overflow /\ yields (x_crc (mkHost 32 64) CRC32 [0x31]) 0x9E04CF6C.
Proof. split; [|eexists]; vm_compute; reflexivity. Qed.

(** C150: the indices of the queue, of WRITE_DAQ_MULTIPLE and the count of a block
    transfer are computed without overflow. *)
Theorem C150_indices : forall P i n a b, int32 P \/ int16 P -> byte i -> byte n -> byte a -> byte b ->
  yields (x_queue_next P i) ((i + 1) mod 5) /\
  yields (x_multi_size P n) (8 * n + 2) /\
  (8 * n + 2 <= 255 -> i < n -> yields (x_multi_offs P i) (8 * i + 2)) /\
  (b <= a -> yields (x_minus8 P a b) (a - b)) /\
  (a < b -> yields (x_minus8 P a b) (a - b + 256)).
Proof. exact indices_ok. Qed.
Print Assumptions C150_indices.
Example C150_indices_case : yields (x_queue_next (mkHost 16 32) 4) 0 /\ yields (x_multi_offs (mkHost 32 64) 30) 242 /\ yields (x_minus8 (mkHost 32 64) 3 5) 254.
Proof. repeat split; eexists; vm_compute; reflexivity. Qed.

(** The length and counter fields of the serial line and of Ethernet. *)
Theorem C150_transport : forall P b0 b1, byte b0 -> byte b1 ->
  (int32 P -> yields (x_sxi_word P b0 b1) (b1 * 256 + b0)) /\
  (int32 P \/ int16 P -> yields (x_eth_word P b1 b0) (b1 * 256 + b0)).
Proof. exact transport_words. Qed.
Print Assumptions C150_transport.
Example C150_transport_case : yields (x_sxi_word (mkHost 32 32) 0x08 0xFF) 0xFF08 /\ yields (x_eth_word (mkHost 16 32) 0xFF 0x08) 0xFF08.
Proof. split; eexists; vm_compute; reflexivity. Qed.
