(** Proofs about the integer expressions of the slave. *)
From Coq Require Import NArith ZArith List Bool Lia ZifyBool ZifyNat ZifyN.
From Verif Require Import Base Config Codec Checksum CInt CExpr SpecCks SpecCInt ProofsCrc.
Import ListNotations.
Open Scope Z_scope.

Lemma conv_in : forall t v, ct_min t <= v <= ct_max t -> conv t v = v.
Proof. intros t v H. unfold conv, in_range. replace ((ct_min t <=? v) && (v <=? ct_max t)) with true by lia. reflexivity. Qed.
Lemma conv_mod : forall t v, ct_signed t = false -> 0 <= ct_bits t -> conv t v = v mod 2 ^ ct_bits t.
Proof.
  intros t v S B. unfold conv, in_range, ct_min, ct_max. rewrite S.
  destruct ((0 <=? v) && (v <=? 2 ^ ct_bits t - 1)) eqn:E; [|reflexivity]. rewrite Z.mod_small; lia.
Qed.

Lemma land_byte : forall b, 0 <= b < 256 -> Z.land b 255 = b.
Proof. intros b H. change 255 with (Z.ones 8). rewrite Z.land_ones by lia. apply Z.mod_small. lia. Qed.
Lemma lor_low : forall a b k, 0 <= k -> 0 <= a < 2 ^ k -> 0 <= b -> Z.lor a (b * 2 ^ k) = a + b * 2 ^ k.
Proof.
  intros a b k K A B. symmetry. rewrite <- Z.lxor_lor, Z.add_nocarry_lxor; try reflexivity.
  all: apply Z.bits_inj'; intros n Hn; rewrite Z.land_spec, Z.bits_0.
  all: destruct (Z.ltb_spec n k).
  1,3: rewrite Z.mul_pow2_bits_low by lia; apply andb_false_r.
  all: destruct (Z.eq_dec a 0) as [->|]; [now rewrite Z.bits_0|]; rewrite (Z.bits_above_log2 a n); [reflexivity|lia|];
    apply Z.lt_le_trans with k; [apply Z.log2_lt_pow2; lia|lia].
Qed.

Lemma land_ff00 : forall v, 0 <= v < 65536 -> Z.land v 65280 = v / 256 * 256.
Proof.
  intros v H. change 65280 with (Z.shiftl (Z.ones 8) 8).
  replace (Z.land v (Z.shiftl (Z.ones 8) 8)) with (Z.shiftl (Z.land (Z.shiftr v 8) (Z.ones 8)) 8).
  - rewrite Z.land_ones, Z.shiftl_mul_pow2, Z.shiftr_div_pow2 by lia. change (2 ^ 8) with 256.
    rewrite (Z.mod_small (v / 256)); [reflexivity|]. split; [apply Z.div_pos; lia|apply Z.div_lt_upper_bound; lia].
  - apply Z.bits_inj'. intros n Hn. rewrite Z.land_spec.
    destruct (Z.ltb_spec n 8).
    + rewrite !Z.shiftl_spec_low by lia. now rewrite andb_false_r.
    + rewrite !Z.shiftl_spec, Z.land_spec, Z.shiftr_spec by lia. now replace (n - 8 + 8) with n by lia.
Qed.
Lemma land_ffff0000 : forall v, 0 <= v < 4294967296 -> Z.land v 4294901760 = v / 65536 * 65536.
Proof.
  intros v H. change 4294901760 with (Z.shiftl (Z.ones 16) 16).
  replace (Z.land v (Z.shiftl (Z.ones 16) 16)) with (Z.shiftl (Z.land (Z.shiftr v 16) (Z.ones 16)) 16).
  - rewrite Z.land_ones, Z.shiftl_mul_pow2, Z.shiftr_div_pow2 by lia. change (2 ^ 16) with 65536.
    rewrite (Z.mod_small (v / 65536)); [reflexivity|]. split; [apply Z.div_pos; lia|apply Z.div_lt_upper_bound; lia].
  - apply Z.bits_inj'. intros n Hn. rewrite Z.land_spec.
    destruct (Z.ltb_spec n 16).
    + rewrite !Z.shiftl_spec_low by lia. now rewrite andb_false_r.
    + rewrite !Z.shiftl_spec, Z.land_spec, Z.shiftr_spec by lia. now replace (n - 16 + 16) with n by lia.
Qed.
Lemma land_255 : forall v, Z.land v 255 = v mod 256.
Proof. intros. change 255 with (Z.ones 8). now rewrite Z.land_ones by lia. Qed.
Lemma land_65535 : forall v, Z.land v 65535 = v mod 65536.
Proof. intros. change 65535 with (Z.ones 16). now rewrite Z.land_ones by lia. Qed.

(** ** One operator at a time *)

Definition fits (t : cty) (v : Z) : Prop := ct_min t <= v <= ct_max t.

Section Ops.
Variables (P : host) (t t1 t2 : cty) (v1 v2 : Z).
Hypothesis C : common (promote P t1) (promote P t2) = t.
Hypothesis F1 : fits t v1.
Hypothesis F2 : fits t v2.

Lemma b_and : binop P And t1 v1 t2 v2 = Val t (Z.land v1 v2).
Proof. unfold binop. rewrite C. now rewrite !conv_in by assumption. Qed.
Lemma b_or : binop P Or t1 v1 t2 v2 = Val t (Z.lor v1 v2).
Proof. unfold binop. rewrite C. now rewrite !conv_in by assumption. Qed.
Lemma b_xor : binop P Xor t1 v1 t2 v2 = Val t (Z.lxor v1 v2).
Proof. unfold binop. rewrite C. now rewrite !conv_in by assumption. Qed.
Lemma b_add : binop P Add t1 v1 t2 v2 = arith t (v1 + v2).
Proof. unfold binop. rewrite C. now rewrite !conv_in by assumption. Qed.
Lemma b_sub : binop P Sub t1 v1 t2 v2 = arith t (v1 - v2).
Proof. unfold binop. rewrite C. now rewrite !conv_in by assumption. Qed.
Lemma b_mul : binop P Mul t1 v1 t2 v2 = arith t (v1 * v2).
Proof. unfold binop. rewrite C. now rewrite !conv_in by assumption. Qed.
Lemma b_rem : v2 <> 0 -> binop P Rem t1 v1 t2 v2 = arith t (Z.rem v1 v2).
Proof. intros. unfold binop. rewrite C, !conv_in by assumption. now replace (v2 =? 0) with false by lia. Qed.
End Ops.

Lemma arith_ok : forall t v, 0 <= ct_bits t -> fits t v -> arith t v = Val t v.
Proof.
  intros t v B F. unfold arith, in_range. unfold fits in F. unfold ct_min, ct_max in *. destruct (ct_signed t).
  - now replace ((- 2 ^ (ct_bits t - 1) <=? v) && (v <=? 2 ^ (ct_bits t - 1) - 1)) with true by lia.
  - rewrite Z.mod_small by lia. reflexivity.
Qed.
Lemma arith_over : forall t v, ct_signed t = true -> ~ fits t v -> arith t v = Undef Overflow.
Proof.
  intros t v S F. unfold arith, in_range. unfold fits in F. rewrite S.
  now replace ((ct_min t <=? v) && (v <=? ct_max t)) with false by lia.
Qed.

Lemma sh_left : forall P t t1 v1 t2 v2, promote P t1 = t -> 0 <= v2 < ct_bits t -> 0 <= v1 -> fits t (v1 * 2 ^ v2) ->
  shiftop P true t1 v1 t2 v2 = Val t (v1 * 2 ^ v2).
Proof.
  intros P t t1 v1 t2 v2 C B A F. unfold shiftop. rewrite C.
  replace ((v2 <? 0) || (ct_bits t <=? v2)) with false by lia. unfold fits in F. unfold in_range, ct_min, ct_max in *.
  destruct (ct_signed t).
  - now replace ((0 <=? v1) && ((- 2 ^ (ct_bits t - 1) <=? v1 * 2 ^ v2) && (v1 * 2 ^ v2 <=? 2 ^ (ct_bits t - 1) - 1))) with true by lia.
  - rewrite Z.mod_small by lia. reflexivity.
Qed.
Lemma sh_left_over : forall P t t1 v1 t2 v2, promote P t1 = t -> ct_signed t = true -> 0 <= v2 < ct_bits t -> ~ fits t (v1 * 2 ^ v2) ->
  shiftop P true t1 v1 t2 v2 = Undef Overflow.
Proof.
  intros P t t1 v1 t2 v2 C S B F. unfold shiftop. rewrite C, S.
  replace ((v2 <? 0) || (ct_bits t <=? v2)) with false by lia. unfold fits in F. unfold in_range.
  now replace ((ct_min t <=? v1 * 2 ^ v2) && (v1 * 2 ^ v2 <=? ct_max t)) with false by lia; rewrite andb_false_r.
Qed.
Lemma sh_bad : forall P l t t1 v1 t2 v2, promote P t1 = t -> ~ 0 <= v2 < ct_bits t -> shiftop P l t1 v1 t2 v2 = Undef BadShift.
Proof.
  intros P l t t1 v1 t2 v2 C B. unfold shiftop. rewrite C. now replace ((v2 <? 0) || (ct_bits t <=? v2)) with true by lia.
Qed.
Lemma sh_right : forall P t t1 v1 t2 v2, promote P t1 = t -> 0 <= v2 < ct_bits t ->
  shiftop P false t1 v1 t2 v2 = Val t (v1 / 2 ^ v2).
Proof.
  intros P t t1 v1 t2 v2 C B. unfold shiftop. rewrite C. now replace ((v2 <? 0) || (ct_bits t <=? v2)) with false by lia.
Qed.

(** Bounds of a concrete type. *)
Ltac rng :=
  match goal with
  | |- fits ?t _ =>
      let lo := eval vm_compute in (ct_min t) in
      let hi := eval vm_compute in (ct_max t) in
      unfold fits; change (ct_min t) with lo; change (ct_max t) with hi
  | |- ct_min ?t <= _ <= ct_max ?t =>
      let lo := eval vm_compute in (ct_min t) in
      let hi := eval vm_compute in (ct_max t) in
      change (ct_min t) with lo; change (ct_max t) with hi
  end; try lia.
Ltac ty := vm_compute; reflexivity.

(** Rewrites the innermost operator whose operands are known. *)
Ltac bop L P t1 v1 t2 v2 :=
  let t := eval vm_compute in (common (promote P t1) (promote P t2)) in
  rewrite (L P t t1 t2 v1 v2); [|ty|rng|rng].
Ltac step1 :=
  match goal with
  | |- context [cbind (Val ?t ?v) ?k] => change (cbind (Val t v) k) with (k t v); cbv beta
  | |- context [lit_type ?P ?v] => let t := eval vm_compute in (lit_type P v) in change (lit_type P v) with t
  | |- context [binop ?P And ?t1 ?v1 ?t2 ?v2] => bop b_and P t1 v1 t2 v2
  | |- context [binop ?P Or ?t1 ?v1 ?t2 ?v2] => bop b_or P t1 v1 t2 v2
  | |- context [binop ?P Xor ?t1 ?v1 ?t2 ?v2] => bop b_xor P t1 v1 t2 v2
  | |- context [binop ?P Add ?t1 ?v1 ?t2 ?v2] => bop b_add P t1 v1 t2 v2
  | |- context [binop ?P Sub ?t1 ?v1 ?t2 ?v2] => bop b_sub P t1 v1 t2 v2
  | |- context [binop ?P Mul ?t1 ?v1 ?t2 ?v2] => bop b_mul P t1 v1 t2 v2
  | |- context [arith ?t ?v] => rewrite (arith_ok t v); [|vm_compute; discriminate|rng]
  | |- context [shiftop ?P true ?t1 ?v1 ?t2 ?v2] =>
      let t := eval vm_compute in (promote P t1) in
      rewrite (sh_left P t t1 v1 t2 v2); [|ty|split; [try lia|try (vm_compute; reflexivity); try lia]|try lia|rng]
  | |- context [shiftop ?P false ?t1 ?v1 ?t2 ?v2] =>
      let t := eval vm_compute in (promote P t1) in
      rewrite (sh_right P t t1 v1 t2 v2); [|ty|split; [try lia|try (vm_compute; reflexivity); try lia]]
  end.
Ltac csimp :=
  repeat match goal with
  | |- context [conv ?t ?v] =>
      match v with
      | Zpos _ => let r := eval vm_compute in (conv t v) in change (conv t v) with r
      | Z0 => let r := eval vm_compute in (conv t v) in change (conv t v) with r
      end
  end.
Ltac cgo := unfold assign, uint8, uint16, uint32; cbn [ceval]; csimp.


Ltac fin := change (2 ^ 8) with 256; change (2 ^ 16) with 65536.
Ltac go := repeat (step1; csimp; rewrite ?land_byte by lia; fin).

Lemma word_32 : forall P mot b0 b1, int32 P -> byte b0 -> byte b1 ->
  x_get_word P mot b0 b1 = Val (t_u16 P) (field2 mot b0 b1).
Proof.
  unfold byte. intros P mot b0 b1 HP B0 B1. unfold x_get_word, uint8, field2.
  destruct HP as [-> | ->]; destruct mot; cgo; go; f_equal.
  all: rewrite ?(Z.lor_comm (_ * 256)); change 256 with (2 ^ 8); rewrite lor_low by lia; fin.
  all: rewrite conv_in by rng; lia.
Qed.
Lemma sxi_32 : forall P b0 b1, int32 P -> byte b0 -> byte b1 -> x_sxi_word P b0 b1 = Val (t_u16 P) (b1 * 256 + b0).
Proof.
  unfold byte. intros P b0 b1 HP B0 B1. unfold x_sxi_word.
  destruct HP as [-> | ->]; cgo; go; f_equal.
  all: change 256 with (2 ^ 8); rewrite lor_low by lia; fin.
  all: rewrite conv_in by rng; lia.
Qed.
Lemma eth_word : forall P h l, int32 P \/ int16 P -> byte h -> byte l -> x_eth_word P h l = Val (t_u16 P) (h * 256 + l).
Proof.
  unfold byte. intros P h l HP B0 B1. unfold x_eth_word.
  destruct HP as [[-> | ->] | ->]; cgo; unfold uint8.
  all: repeat (step1; csimp; rewrite ?land_byte by lia; rewrite ?(conv_in (t_u16 _) h) by rng; rewrite ?(conv_in (t_u16 _) l) by rng; fin); f_equal.
  all: rewrite ?(Z.lor_comm (_ * 256)); change 256 with (2 ^ 8); rewrite lor_low by lia; fin.
  all: rewrite conv_in by rng; lia.
Qed.
Lemma word_16 : forall P mot b0 b1, int16 P -> byte b0 -> byte b1 ->
  x_get_word P mot b0 b1 = if 128 <=? (if mot then b0 else b1) then Undef Overflow else Val (t_u16 P) (field2 mot b0 b1).
Proof.
  unfold byte. intros P mot b0 b1 HP B0 B1. unfold x_get_word, uint8, field2. rewrite HP.
  destruct mot; [destruct (Z.leb_spec 128 b0)|destruct (Z.leb_spec 128 b1)]; cgo.
  all: repeat (first [match goal with
    | |- context [shiftop ?P true ?t1 ?v1 ?t2 ?v2] =>
      let t := eval vm_compute in (promote P t1) in
      rewrite (sh_left_over P t t1 v1 t2 v2); [|ty|reflexivity|vm_compute; split; [discriminate|reflexivity]|
         let lo := eval vm_compute in (ct_min t) in
         let hi := eval vm_compute in (ct_max t) in
         unfold fits; change (ct_min t) with lo; change (ct_max t) with hi; change (2 ^ 8) with 256; lia]; reflexivity end|step1]; csimp; rewrite ?land_byte by lia; fin).
  all: f_equal; rewrite ?(Z.lor_comm (_ * 256)); change 256 with (2 ^ 8); rewrite lor_low by lia; fin.
  all: rewrite conv_in by rng; lia.
Qed.

Ltac over :=
  match goal with
  | |- context [arith ?t ?v] =>
      rewrite (arith_over t v);
      [|reflexivity|
        let lo := eval vm_compute in (ct_min t) in
        let hi := eval vm_compute in (ct_max t) in
        unfold fits; change (ct_min t) with lo; change (ct_max t) with hi; lia]
  end.

Lemma join_32 : forall P h l, int32 P \/ int16 P -> 0 <= h < 65536 -> 0 <= l < 65536 ->
  assign P (t_u32 P)
      (EBin Add (ECast (t_u32 P) (EBin Mul (EObj (t_u16 P) h) (ELit 0x10000))) (EObj (t_u16 P) l)) =
  if 32768 <=? h then Undef Overflow else Val (t_u32 P) (h * 65536 + l).
Proof.
  intros P h l HP H L. destruct (Z.leb_spec 32768 h); destruct HP as [[-> | ->] | ->]; cgo.
  1-3: repeat (first [over|step1]); reflexivity.
  all: repeat (step1; rewrite ?(conv_in (t_u32 _) (h * 65536)) by rng); rewrite conv_in by rng; reflexivity.
Qed.

Lemma dword_32 : forall P mot b0 b1 b2 b3, int32 P -> byte b0 -> byte b1 -> byte b2 -> byte b3 ->
  x_get_dword P mot b0 b1 b2 b3 =
  if 2 ^ 31 <=? field4 mot b0 b1 b2 b3 then Undef Overflow else Val (t_u32 P) (field4 mot b0 b1 b2 b3).
Proof.
  intros P mot b0 b1 b2 b3 HP B0 B1 B2 B3. unfold x_get_dword. rewrite !word_32 by auto. cbn [cbind].
  assert (F : forall a b, byte a -> byte b -> 0 <= field2 mot a b < 65536) by (unfold field2, byte; intros; destruct mot; lia).
  rewrite join_32 by (destruct mot; auto). change (2 ^ 31) with 2147483648.
  unfold field2, field4, byte in *. destruct mot.
  - destruct (Z.leb_spec 32768 (b0 * 256 + b1)); destruct (Z.leb_spec 2147483648 (((b0 * 256 + b1) * 256 + b2) * 256 + b3));
      try lia; try reflexivity. f_equal. lia.
  - destruct (Z.leb_spec 32768 (b3 * 256 + b2)); destruct (Z.leb_spec 2147483648 (((b3 * 256 + b2) * 256 + b1) * 256 + b0));
      try lia; try reflexivity. f_equal. lia.
Qed.

(** On a 16-bit int both halves have to be below 2^15. *)
Lemma dword_16 : forall P mot b0 b1 b2 b3, int16 P -> byte b0 -> byte b1 -> byte b2 -> byte b3 ->
  x_get_dword P mot b0 b1 b2 b3 =
  if (128 <=? (if mot then b0 else b3)) || (128 <=? (if mot then b2 else b1)) then Undef Overflow
  else Val (t_u32 P) (field4 mot b0 b1 b2 b3).
Proof.
  intros P mot b0 b1 b2 b3 HP B0 B1 B2 B3. unfold x_get_dword. rewrite !word_16 by auto.
  assert (F : forall a b, byte a -> byte b -> 0 <= field2 mot a b < 65536) by (unfold field2, byte; intros; destruct mot; lia).
  destruct mot.
  - destruct (Z.leb_spec 128 b0); cbn [cbind]; [reflexivity|]. destruct (Z.leb_spec 128 b2); cbn [cbind orb]; [reflexivity|].
    rewrite join_32 by auto. unfold field2, field4, byte in *.
    destruct (Z.leb_spec 32768 (b0 * 256 + b1)); [lia|]. f_equal. lia.
  - destruct (Z.leb_spec 128 b1); cbn [cbind]; [now rewrite orb_true_r|]. destruct (Z.leb_spec 128 b3); cbn [cbind orb]; [reflexivity|].
    rewrite join_32 by auto. unfold field2, field4, byte in *.
    destruct (Z.leb_spec 32768 (b3 * 256 + b2)); [lia|]. f_equal. lia.
Qed.

(** ** Responses *)

Ltac masks := rewrite ?land_255, ?land_65535; rewrite ?land_ff00, ?land_ffff0000 by lia.
Ltac hosts HP := destruct HP as [[-> | ->] | ->].
Definition any_host (P : host) : Prop := int32 P \/ int16 P.

Lemma lo_of : forall P v, any_host P -> 0 <= v < 65536 ->
  assign P t_u8 (EBin And (EObj (t_u16 P) v) (uint8 (ELit 0xff))) = Val t_u8 (v mod 256).
Proof.
  intros P v HP V. assert (0 <= v mod 256 < 256) by (apply Z.mod_pos_bound; lia).
  hosts HP; cgo; repeat (step1; csimp; masks; fin); rewrite conv_in by rng; reflexivity.
Qed.
Lemma hi_of : forall P v, any_host P -> 0 <= v < 65536 ->
  assign P t_u8 (EShr (EBin And (EObj (t_u16 P) v) (uint16 P (ELit 0xff00))) (uint8 (ELit 8))) = Val t_u8 (v / 256).
Proof.
  intros P v HP V. assert (0 <= v / 256 < 256) by (split; [apply Z.div_pos; lia|apply Z.div_lt_upper_bound; lia]).
  hosts HP; cgo; repeat (step1; csimp; masks; fin; rewrite ?Z.div_mul by lia); rewrite conv_in by rng; reflexivity.
Qed.
Lemma low_of : forall P v, any_host P -> 0 <= v < 4294967296 ->
  assign P (t_u16 P) (EBin And (EObj (t_u32 P) v) (uint32 P (ELit 0x0000ffff))) = Val (t_u16 P) (v mod 65536).
Proof.
  intros P v HP V. assert (0 <= v mod 65536 < 65536) by (apply Z.mod_pos_bound; lia).
  hosts HP; cgo; repeat (step1; csimp; masks; fin); rewrite conv_in by rng; reflexivity.
Qed.
Lemma hiw_of : forall P v, any_host P -> 0 <= v < 4294967296 ->
  assign P (t_u16 P) (EShr (EBin And (EObj (t_u32 P) v) (uint32 P (ELit 0xffff0000))) (uint8 (ELit 16))) = Val (t_u16 P) (v / 65536).
Proof.
  intros P v HP V. assert (0 <= v / 65536 < 65536) by (split; [apply Z.div_pos; lia|apply Z.div_lt_upper_bound; lia]).
  hosts HP; cgo; repeat (step1; csimp; masks; fin; rewrite ?Z.div_mul by lia); rewrite conv_in by rng; reflexivity.
Qed.
Lemma mlo_of : forall P v, any_host P -> 0 <= v < 65536 -> x_lobyte P v = Val t_u8 (v mod 256).
Proof. intros. rewrite <- (lo_of P) by auto. reflexivity. Qed.
Lemma mhi_of : forall P v, any_host P -> 0 <= v < 65536 -> x_hibyte P v = Val t_u8 (v / 256).
Proof.
  intros P v HP V. unfold x_hibyte. assert (0 <= v / 256 < 256) by (split; [apply Z.div_pos; lia|apply Z.div_lt_upper_bound; lia]).
  hosts HP; cgo; repeat (step1; csimp; masks; fin; rewrite ?Z.div_mul by lia); rewrite conv_in by rng; reflexivity.
Qed.
Lemma mlow_of : forall P v, any_host P -> 0 <= v < 4294967296 -> x_loword P v = Val (t_u16 P) (v mod 65536).
Proof.
  intros P v HP V. unfold x_loword. assert (0 <= v mod 65536 < 65536) by (apply Z.mod_pos_bound; lia).
  hosts HP; cgo; repeat (step1; csimp; masks; fin); rewrite conv_in by rng; reflexivity.
Qed.
Lemma mhiw_of : forall P v, any_host P -> 0 <= v < 4294967296 -> x_hiword P v = Val (t_u16 P) (v / 65536).
Proof.
  intros P v HP V. unfold x_hiword. assert (0 <= v / 65536 < 65536) by (split; [apply Z.div_pos; lia|apply Z.div_lt_upper_bound; lia]).
  hosts HP; cgo; repeat (step1; csimp; masks; fin; rewrite ?Z.div_mul by lia); rewrite conv_in by rng; reflexivity.
Qed.

(** ** Indices *)

Lemma queue_next : forall P i, any_host P -> 0 <= i < 256 -> x_queue_next P i = Val t_u8 ((i + 1) mod 5).
Proof.
  intros P i HP I. unfold x_queue_next. assert (0 <= (i + 1) mod 5 < 5) by (apply Z.mod_pos_bound; lia).
  assert (E : Z.rem (i + 1) 5 = (i + 1) mod 5) by (rewrite Z.rem_mod_nonneg; lia).
  assert (0 <= Z.rem (i + 1) 5 < 5) by (rewrite E; assumption).
  hosts HP; cgo; repeat (first [step1|match goal with |- context [binop ?P Rem ?t1 ?v1 ?t2 ?v2] =>
      let t := eval vm_compute in (common (promote P t1) (promote P t2)) in
      rewrite (b_rem P t t1 t2 v1 v2); [|ty|rng|rng|discriminate] end]; csimp; rewrite ?E); change (conv t_u8 (4 + 1)) with 5.
  all: repeat (first [step1|match goal with |- context [binop ?P Rem ?t1 ?v1 ?t2 ?v2] =>
      let t := eval vm_compute in (common (promote P t1) (promote P t2)) in
      rewrite (b_rem P t t1 t2 v1 v2); [|ty|rng|rng|discriminate] end]; csimp; rewrite ?E).
  all: first [lia|rewrite E, conv_in by rng; reflexivity].
Qed.
Lemma multi_size : forall P n, any_host P -> byte n -> exists t, x_multi_size P n = Val t (n * 8 + 2).
Proof.
  unfold byte. intros P n HP B. unfold x_multi_size. hosts HP; cgo; repeat (step1; csimp); eexists; reflexivity.
Qed.
Lemma multi_offs : forall P i, any_host P -> byte i -> x_multi_offs P i = Val t_u8 ((i * 8 + 2) mod 256).
Proof.
  unfold byte. intros P n HP B. unfold x_multi_offs. hosts HP; cgo; repeat (step1; csimp); now rewrite conv_mod by (reflexivity || discriminate).
Qed.
Lemma minus8 : forall P a b, any_host P -> byte a -> byte b -> x_minus8 P a b = Val t_u8 ((a - b) mod 256).
Proof.
  unfold byte. intros P a b HP A B. unfold x_minus8. hosts HP; cgo; repeat (step1; csimp); now rewrite conv_mod by (reflexivity || discriminate).
Qed.
