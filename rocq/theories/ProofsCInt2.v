(** Proofs about MODIFY_BITS and the checksums in C's arithmetic. *)
From Coq Require Import NArith ZArith List Bool Lia ZifyBool ZifyNat ZifyN.
From Verif Require Import Base Config Codec Checksum State Core CInt CExpr SpecCks SpecCInt ProofsCrc ProofsCInt.
Import ListNotations.
Open Scope Z_scope.

Lemma lxor_bnd : forall n a b, 0 <= n -> 0 <= a < 2 ^ n -> 0 <= b < 2 ^ n -> 0 <= Z.lxor a b < 2 ^ n.
Proof.
  intros n a b Hn A B. assert (N0 : 0 <= Z.lxor a b) by (apply Z.lxor_nonneg; lia). split; auto.
  destruct (Z.eq_dec (Z.lxor a b) 0) as [->|D]; [apply Z.pow_pos_nonneg; lia|].
  apply Z.log2_lt_pow2; [lia|]. apply Z.le_lt_trans with (Z.max (Z.log2 a) (Z.log2 b)); [apply Z.log2_lxor; lia|].
  apply Z.max_lub_lt.
  - destruct (Z.eq_dec a 0) as [->|]; [|apply Z.log2_lt_pow2; lia]. change (Z.log2 0) with 0.
    destruct (Z.eq_dec n 0) as [->|]; [|lia]. change (2 ^ 0) with 1 in *. assert (b = 0) by lia; subst b. now cbn in D.
  - destruct (Z.eq_dec b 0) as [->|]; [|apply Z.log2_lt_pow2; lia]. change (Z.log2 0) with 0.
    destruct (Z.eq_dec n 0) as [->|]; [|lia]. change (2 ^ 0) with 1 in *. assert (a = 0) by lia; subst a. now cbn in D.
Qed.
Lemma land_bnd : forall n a b, 0 <= n -> 0 <= a < 2 ^ n -> 0 <= b -> 0 <= Z.land a b < 2 ^ n.
Proof.
  intros n a b Hn A B. assert (N0 : 0 <= Z.land a b) by (apply Z.land_nonneg; lia). split; auto.
  destruct (Z.eq_dec (Z.land a b) 0) as [->|D]; [lia|].
  apply Z.le_lt_trans with a; [|lia].
  replace a with (Z.land a b + Z.land a (Z.lnot b)) at 2; [assert (0 <= Z.land a (Z.lnot b)) by (apply Z.land_nonneg; lia); lia|].
  rewrite Z.add_nocarry_lxor, Z.lxor_lor; [rewrite <- Z.land_lor_distr_r, Z.lor_lnot_diag, Z.land_m1_r; reflexivity| |].
  all: rewrite <- !Z.land_assoc, (Z.land_comm b), <- !Z.land_assoc, (Z.land_comm (Z.lnot b)), Z.land_lnot_diag; now rewrite !Z.land_0_r.
Qed.

Definition u32v (v : Z) : Prop := 0 <= v < 4294967296.

(** The value of MODIFY_BITS for shifted masks [a], [x]. *)
Definition bits_set (v a x : Z) : Z := Z.land v (Z.lxor (4294967295 - a) x).

Lemma shl_promote : forall P m sh, int32 P -> 0 <= m < 65536 -> 0 <= sh < 256 ->
  shiftop P true (t_u16 P) m t_u8 sh =
  if (31 <? sh) then Undef BadShift else if 2147483648 <=? m * 2 ^ sh then Undef Overflow else Val (t_int P) (m * 2 ^ sh).
Proof.
  intros P m sh HP M S. assert (T : promote P (t_u16 P) = t_int P) by (destruct HP as [-> | ->]; reflexivity).
  assert (B : ct_bits (t_int P) = 32) by (destruct HP as [-> | ->]; reflexivity).
  assert (mn : ct_min (t_int P) = -2147483648) by (destruct HP as [-> | ->]; reflexivity).
  assert (mx : ct_max (t_int P) = 2147483647) by (destruct HP as [-> | ->]; reflexivity).
  assert (0 <= m * 2 ^ sh) by (apply Z.mul_nonneg_nonneg; [lia|apply Z.pow_nonneg; lia]).
  destruct (Z.ltb_spec 31 sh); [apply (sh_bad P true _ _ _ _ _ T); lia|].
  destruct (Z.leb_spec 2147483648 (m * 2 ^ sh)).
  - apply (sh_left_over P _ _ _ _ _ T); [reflexivity|lia|unfold fits; lia].
  - apply (sh_left P _ _ _ _ _ T); [lia|lia|unfold fits; lia].
Qed.

Lemma modify_32 : forall P v sh am xm, int32 P -> u32v v -> byte sh -> 0 <= am < 65536 -> 0 <= xm < 65536 ->
  let a := (65535 - am) * 2 ^ sh in
  let x := xm * 2 ^ sh in
  if (sh <? 32) && (a <? 2 ^ 31) && (x <? 2 ^ 31) then yields (x_modify P v sh am xm) (bits_set v a x)
  else undefined (x_modify P v sh am xm).
Proof.
  intros P v sh am xm HP V S A X a x. unfold u32v, byte in V, S. change (2 ^ 31) with 2147483648.
  assert (0 <= a) by (apply Z.mul_nonneg_nonneg; [lia|apply Z.pow_nonneg; lia]).
  assert (0 <= x) by (apply Z.mul_nonneg_nonneg; [lia|apply Z.pow_nonneg; lia]).
  unfold x_modify. unfold assign. cbn [ceval cbind]. unfold notop.
  assert (T : promote P (t_u16 P) = t_int P) by (destruct HP as [-> | ->]; reflexivity).
  rewrite T. change (ct_signed (t_int P)) with true. cbn [cbind].
  assert (C16 : conv (t_u16 P) (- am - 1) = 65535 - am).
  { rewrite conv_mod by (destruct HP as [-> | ->]; try reflexivity; discriminate).
    replace (ct_bits (t_u16 P)) with 16 by (destruct HP as [-> | ->]; reflexivity). change (2 ^ 16) with 65536.
    replace (- am - 1) with (65535 - am + (-1) * 65536) by lia. rewrite Z.mod_add by lia. apply Z.mod_small. lia. }
  rewrite C16. rewrite !shl_promote by (auto; lia). fold a x.
  destruct (Z.ltb_spec 31 sh); [replace (sh <? 32) with false by lia; eexists; reflexivity|].
  replace (sh <? 32) with true by lia. cbn [andb].
  destruct (Z.leb_spec 2147483648 a); [replace (a <? 2147483648) with false by lia; eexists; reflexivity|].
  replace (a <? 2147483648) with true by lia. cbn [andb cbind].
  assert (C32 : forall z, u32v z -> conv (t_u32 P) z = z).
  { unfold u32v. intros z Z0. apply conv_in. destruct HP as [-> | ->]; rng. }
  assert (T2 : promote P (t_u32 P) = t_u32 P) by (destruct HP as [-> | ->]; reflexivity).
  rewrite T2. assert (U : ct_signed (t_u32 P) = false) by (destruct HP as [-> | ->]; reflexivity). rewrite U. cbn [cbind].
  replace (ct_bits (t_u32 P)) with 32 by (destruct HP as [-> | ->]; reflexivity). change (2 ^ 32) with 4294967296.
  destruct (Z.leb_spec 2147483648 x); [replace (x <? 2147483648) with false by lia; eexists; reflexivity|].
  replace (x <? 2147483648) with true by lia. cbn [andb cbind]. rewrite !C32 by (unfold u32v; lia).
  assert (L : 0 <= Z.lxor (4294967296 - 1 - a) x < 2 ^ 32) by (apply lxor_bnd; change (2 ^ 32) with 4294967296; lia).
  assert (D : 0 <= Z.land v (Z.lxor (4294967296 - 1 - a) x) < 2 ^ 32) by (apply land_bnd; [lia|change (2 ^ 32) with 4294967296; lia|lia]).
  change (2 ^ 32) with 4294967296 in *.
  assert (CC : common (promote P (t_u32 P)) (promote P (t_u32 P)) = t_u32 P) by (destruct HP as [-> | ->]; reflexivity).
  assert (FF : forall z, 0 <= z < 4294967296 -> fits (t_u32 P) z) by (intros; destruct HP as [-> | ->]; rng).
  rewrite (b_xor P _ _ _ _ _ CC) by (apply FF; lia). cbn [cbind].
  rewrite (b_and P _ _ _ _ _ CC) by (apply FF; lia). cbn [cbind].
  rewrite !C32 by (unfold u32v; lia). eexists. reflexivity.
Qed.

Lemma ofN_land : forall a b, Z.of_N (N.land a b) = Z.land (Z.of_N a) (Z.of_N b).
Proof. destruct a, b; reflexivity. Qed.
Lemma ofN_lor : forall a b, Z.of_N (N.lor a b) = Z.lor (Z.of_N a) (Z.of_N b).
Proof. destruct a, b; reflexivity. Qed.
Lemma ofN_lxor : forall a b, Z.of_N (N.lxor a b) = Z.lxor (Z.of_N a) (Z.of_N b).
Proof. destruct a, b; reflexivity. Qed.

(** The model's value. *)
Lemma modify_agree : forall P v sh am xm, int32 P -> (v < 2 ^ 32)%N -> (sh < 256)%N -> (am < 65536)%N -> (xm < 65536)%N ->
  match modify_value v sh am xm with
  | Ok r => yields (x_modify P (Z.of_N v) (Z.of_N sh) (Z.of_N am) (Z.of_N xm)) (Z.of_N r)
  | UB _ => undefined (x_modify P (Z.of_N v) (Z.of_N sh) (Z.of_N am) (Z.of_N xm))
  end.
Proof.
  intros P v sh am xm HP V S A X. change (2 ^ 32)%N with 4294967296%N in V.
  pose proof (modify_32 P (Z.of_N v) (Z.of_N sh) (Z.of_N am) (Z.of_N xm) HP ltac:(unfold u32v; lia) ltac:(unfold byte; lia) ltac:(lia) ltac:(lia)) as M.
  cbv zeta in M. unfold modify_value, shl_int.
  assert (E : N.lxor am 65535 = (65535 - am)%N).
  { replace (N.lxor am 65535) with (N.lnot am 16) by reflexivity. rewrite N.sub_nocarry_ldiff.
    - change 65535%N with (N.ones 16). symmetry. apply N.ldiff_ones_l_low.
      destruct (N.eq_dec am 0) as [->|]; [reflexivity|]. apply N.log2_lt_pow2; [lia|]. change (2 ^ 16)%N with 65536%N. lia.
    - change 65535%N with (N.ones 16). apply N.ldiff_ones_r_low.
      destruct (N.eq_dec am 0) as [->|]; [reflexivity|]. apply N.log2_lt_pow2; [lia|]. change (2 ^ 16)%N with 65536%N. lia. }
  rewrite E. change (2 ^ 31)%N with 2147483648%N. change (2 ^ 31) with 2147483648 in M.
  assert (Ea : Z.of_N ((65535 - am) * 2 ^ sh) = (65535 - Z.of_N am) * 2 ^ Z.of_N sh) by (rewrite N2Z.inj_mul, N2Z.inj_pow, N2Z.inj_sub by lia; reflexivity).
  assert (Ex : Z.of_N (xm * 2 ^ sh) = Z.of_N xm * 2 ^ Z.of_N sh) by (rewrite N2Z.inj_mul, N2Z.inj_pow; reflexivity).
  rewrite <- Ea, <- Ex in M. set (a := ((65535 - am) * 2 ^ sh)%N) in *. set (x := (xm * 2 ^ sh)%N) in *.
  destruct (31 <? sh)%N eqn:Q1.
  - cbn [orb bind]. replace (Z.of_N sh <? 32) with false in M by lia. exact M.
  - replace (Z.of_N sh <? 32) with true in M by lia. cbn [orb andb] in *.
    destruct (2147483648 <=? a)%N eqn:Q2; cbn [bind].
    + replace (Z.of_N a <? 2147483648) with false in M by lia. exact M.
    + replace (Z.of_N a <? 2147483648) with true in M by lia. cbn [andb] in M.
      destruct (2147483648 <=? x)%N eqn:Q3; cbn [bind].
      * replace (Z.of_N x <? 2147483648) with false in M by lia. exact M.
      * replace (Z.of_N x <? 2147483648) with true in M by lia.
        replace (Z.of_N (N.land v (N.lxor (N.lxor a 4294967295) x))) with (bits_set (Z.of_N v) (Z.of_N a) (Z.of_N x)); [exact M|].
        unfold bits_set. rewrite ofN_land, ofN_lxor. f_equal. f_equal.
        assert (E2 : N.lxor a 4294967295 = (4294967295 - a)%N).
        { replace (N.lxor a 4294967295) with (N.lnot a 32) by reflexivity. rewrite N.sub_nocarry_ldiff.
          - change 4294967295%N with (N.ones 32). symmetry. apply N.ldiff_ones_l_low.
            destruct (N.eq_dec a 0) as [->|]; [reflexivity|]. apply N.log2_lt_pow2; [lia|]. change (2 ^ 32)%N with 4294967296%N. lia.
          - change 4294967295%N with (N.ones 32). apply N.ldiff_ones_r_low.
            destruct (N.eq_dec a 0) as [->|]; [reflexivity|]. apply N.log2_lt_pow2; [lia|]. change (2 ^ 32)%N with 4294967296%N. lia. }
        rewrite E2. lia.
Qed.

(** ** MODIFY_BITS on a 16-bit int *)

Lemma modify_16 : forall P v sh am xm, int16 P -> u32v v -> byte sh -> 0 <= am < 65536 -> 0 <= xm < 65536 ->
  if sh <? 16 then
    yields (x_modify P v sh am xm)
      (bits_set v ((65535 - am) * 2 ^ sh mod 65536) (xm * 2 ^ sh mod 65536))
  else undefined (x_modify P v sh am xm).
Proof.
  intros P v sh am xm HP V S A X. unfold u32v, byte in V, S. rewrite HP.
  unfold x_modify, assign. cbn [ceval cbind]. unfold notop.
  change (promote (mkHost 16 32) (t_u16 (mkHost 16 32))) with (t_uint (mkHost 16 32)).
  cbn [ct_signed t_uint ct_bits h_int cbind]. change (2 ^ 16 - 1) with 65535.
  change (t_u16 (mkHost 16 32)) with (mkCty false 16 3).
  assert (C16 : conv (mkCty false 16 3) (65535 - am) = 65535 - am) by (apply conv_in; rng). rewrite C16.
  assert (SH : forall m, 0 <= m < 65536 -> shiftop (mkHost 16 32) true (mkCty false 16 3) m t_u8 sh =
     if sh <? 16 then Val (mkCty false 16 3) (m * 2 ^ sh mod 65536) else Undef BadShift).
  { intros m M. unfold shiftop. change (promote (mkHost 16 32) (mkCty false 16 3)) with (mkCty false 16 3). cbn [ct_bits ct_signed].
    destruct (Z.ltb_spec sh 16); [replace ((sh <? 0) || (16 <=? sh)) with false by lia; reflexivity|].
    now replace ((sh <? 0) || (16 <=? sh)) with true by lia. }
  rewrite !SH by lia. destruct (Z.ltb_spec sh 16); cbn [cbind]; [|eexists; reflexivity].
  set (a := (65535 - am) * 2 ^ sh mod 65536). set (x := xm * 2 ^ sh mod 65536).
  assert (0 <= a < 65536) by (apply Z.mod_pos_bound; lia). assert (0 <= x < 65536) by (apply Z.mod_pos_bound; lia).
  change (t_u32 (mkHost 16 32)) with (mkCty false 32 4).
  assert (C32 : forall z, 0 <= z < 4294967296 -> conv (mkCty false 32 4) z = z) by (intros; apply conv_in; rng).
  rewrite !C32 by lia. change (promote (mkHost 16 32) (mkCty false 32 4)) with (mkCty false 32 4). cbn [ct_signed ct_bits cbind].
  change (2 ^ 32 - 1) with 4294967295.
  assert (L : 0 <= Z.lxor (4294967295 - a) x < 2 ^ 32) by (apply lxor_bnd; change (2 ^ 32) with 4294967296; lia).
  assert (D : 0 <= Z.land v (Z.lxor (4294967295 - a) x) < 2 ^ 32) by (apply land_bnd; [lia|change (2 ^ 32) with 4294967296; lia|lia]).
  change (2 ^ 32) with 4294967296 in *.
  assert (FF : forall z, 0 <= z < 4294967296 -> fits (mkCty false 32 4) z) by (intros; rng).
  assert (CC : common (promote (mkHost 16 32) (mkCty false 32 4)) (promote (mkHost 16 32) (mkCty false 32 4)) = mkCty false 32 4) by reflexivity.
  rewrite (b_xor _ _ _ _ _ _ CC) by (apply FF; lia). cbn [cbind].
  rewrite (b_and _ _ _ _ _ _ CC) by (apply FF; lia). cbn [cbind].
  rewrite !C32 by lia. eexists. reflexivity.
Qed.

(** Masks below 2^16 leave the upper half alone. *)
Lemma bits_set_high : forall v a x, u32v v -> 0 <= a < 65536 -> 0 <= x < 65536 -> bits_set v a x / 65536 = v / 65536.
Proof.
  unfold u32v. intros v a x V A X. unfold bits_set. change 65536 with (2 ^ 16). rewrite <- !Z.shiftr_div_pow2 by lia.
  rewrite Z.shiftr_land, Z.shiftr_lxor. 
  replace (Z.shiftr x 16) with 0 by (rewrite Z.shiftr_div_pow2 by lia; change (2 ^ 16) with 65536; symmetry; apply Z.div_small; lia).
  rewrite Z.lxor_0_r.
  replace (Z.shiftr (4294967295 - a) 16) with (Z.ones 16).
  - rewrite Z.land_ones by lia. apply Z.mod_small. rewrite Z.shiftr_div_pow2 by lia. change (2 ^ 16) with 65536.
    split; [apply Z.div_pos; lia|apply Z.div_lt_upper_bound; lia].
  - rewrite Z.shiftr_div_pow2 by lia. change (Z.ones 16) with 65535. change (2 ^ 16) with 65536.
    apply Z.div_unique with (65535 - a); lia.
Qed.

(** ** Reflection *)

(** Bits below the sign bit of an int. *)
Definition free_bits (P : host) : Z := h_int P - 1.

Lemma bool_of : forall d, 0 <= d -> (Z.land d 1 =? 0) = negb (Z.odd d).
Proof. intros d D. change 1 with (Z.ones 1). rewrite Z.land_ones by lia. change (2 ^ 1) with 2. rewrite Zmod_odd. destruct (Z.odd d); reflexivity. Qed.

Lemma refl_test : forall P d, any_host P -> 0 <= d < 4294967296 ->
  ceval P (EBin And (EObj (t_u32 P) d) (ELit 1)) = Val (t_u32 P) (Z.land d 1).
Proof. intros P d HP D. hosts HP; cgo; repeat (step1; csimp); reflexivity. Qed.
Lemma refl_next : forall P d, any_host P -> 0 <= d < 4294967296 ->
  assign P (t_u32 P) (EShr (EObj (t_u32 P) d) (ELit 1)) = Val (t_u32 P) (d / 2).
Proof.
  intros P d HP D. assert (0 <= d / 2 < 4294967296) by (split; [apply Z.div_pos; lia|apply Z.div_lt_upper_bound; lia]).
  hosts HP; cgo; repeat (step1; csimp); change (2 ^ 1) with 2; rewrite conv_in by rng; reflexivity.
Qed.
Lemma lor_bnd : forall a e, 0 <= a < 4294967296 -> 0 <= e < 32 -> 0 <= Z.lor a (2 ^ e) < 4294967296.
Proof.
  intros a e A E. assert (0 < 2 ^ e) by (apply Z.pow_pos_nonneg; lia). assert (0 <= Z.lor a (2 ^ e)) by (apply Z.lor_nonneg; lia). split; auto.
  destruct (Z.eq_dec (Z.lor a (2 ^ e)) 0) as [->|]; [lia|]. change 4294967296 with (2 ^ 32). apply Z.log2_lt_pow2; [lia|].
  rewrite Z.log2_lor by lia. rewrite Z.log2_pow2 by lia. apply Z.max_lub_lt; [|lia].
  destruct (Z.eq_dec a 0) as [->|]; [reflexivity|]. apply Z.log2_lt_pow2; [lia|]. change (2 ^ 32) with 4294967296. lia.
Qed.
Lemma refl_exp : forall P n bit, any_host P -> byte n -> byte bit ->
  ceval P (EBin Sub (EBin Sub (EObj t_u8 n) (ELit 1)) (EObj t_u8 bit)) = Val (t_int P) (n - 1 - bit).
Proof. unfold byte. intros P n bit HP N B. hosts HP; cgo; repeat (step1; csimp); reflexivity. Qed.
Lemma refl_bit : forall P n bit acc, any_host P -> byte n -> byte bit -> 0 <= acc < 4294967296 -> bit < n ->
  assign P (t_u32 P)
    (EBin Or (EObj (t_u32 P) acc) (EShl (ELit 1) (EBin Sub (EBin Sub (EObj t_u8 n) (ELit 1)) (EObj t_u8 bit)))) =
  if n - bit <=? free_bits P then Val (t_u32 P) (Z.lor acc (2 ^ (n - 1 - bit)))
  else if n - bit =? free_bits P + 1 then Undef Overflow else Undef BadShift.
Proof.
  intros P n bit acc HP N B A L. unfold assign.
  change (ceval P (EBin Or ?a (EShl ?b ?c))) with
    (cbind (ceval P a) (fun t1 v1 => cbind (cbind (ceval P b) (fun t3 v3 => cbind (ceval P c) (fun t4 v4 => shiftop P true t3 v3 t4 v4))) (fun t2 v2 => binop P Or t1 v1 t2 v2))).
  rewrite refl_exp by auto. cbn [ceval cbind].
  assert (LT : lit_type P 1 = t_int P) by (hosts HP; reflexivity). rewrite LT.
  assert (PT : promote P (t_int P) = t_int P) by reflexivity.
  assert (FB : 15 <= free_bits P <= 31) by (hosts HP; unfold free_bits; cbn; lia).
  assert (CB : ct_bits (t_int P) = free_bits P + 1) by (unfold free_bits, t_int; cbn; lia).
  assert (MX : ct_max (t_int P) = 2 ^ free_bits P - 1) by (unfold ct_max, t_int, free_bits; cbn [ct_signed ct_bits]; reflexivity).
  assert (MN : ct_min (t_int P) <= 0) by (hosts HP; vm_compute; discriminate).
  destruct (Z.leb_spec (n - bit) (free_bits P)) as [S|S].
  - assert (E1 : 0 < 2 ^ (n - 1 - bit)) by (apply Z.pow_pos_nonneg; lia).
    assert (E2 : 2 ^ (n - 1 - bit) < 2 ^ free_bits P) by (apply Z.pow_lt_mono_r; lia).
    rewrite (sh_left P _ _ _ _ _ PT); [|lia|lia|unfold fits; lia]. cbn [cbind]. rewrite Z.mul_1_l.
    assert (E3 : 2 ^ free_bits P <= 2 ^ 31) by (apply Z.pow_le_mono_r; lia). change (2 ^ 31) with 2147483648 in E3.
    assert (CC : common (promote P (t_u32 P)) (promote P (t_int P)) = t_u32 P) by (hosts HP; reflexivity).
    assert (FF : forall z, 0 <= z < 4294967296 -> fits (t_u32 P) z) by (intros; hosts HP; rng).
    rewrite (b_or P _ _ _ _ _ CC) by (apply FF; lia). cbn [cbind].
    rewrite conv_in; [reflexivity|]. apply FF. apply lor_bnd; lia.
  - destruct (Z.eqb_spec (n - bit) (free_bits P + 1)) as [Q|Q].
    + rewrite (sh_left_over P _ _ _ _ _ PT); [reflexivity|reflexivity|lia|].
      unfold fits. replace (n - 1 - bit) with (free_bits P) by lia. lia.
    + rewrite (sh_bad P true _ _ _ _ _ PT); [reflexivity|lia].
Qed.

(** As many bits as an int holds are reflected without ado. *)
Lemma refl_loop : forall P k n bit data acc, any_host P -> (N.of_nat k + bit = n)%N -> (n < 256)%N -> Z.of_nat k <= free_bits P ->
  (data < 2 ^ 32)%N -> (acc < 2 ^ 32)%N ->
  x_reflect_loop P k (Z.of_N n) (Z.of_N bit) (Z.of_N data) (Z.of_N acc) =
  Val (t_u32 P) (Z.of_N (reflect_loop k n bit data acc)).
Proof.
  intros P k. change (2 ^ 32)%N with 4294967296%N. induction k; intros n bit data acc HP E B F D A; [reflexivity|].
  cbn [x_reflect_loop reflect_loop]. rewrite refl_test by (auto; lia). cbn [cbind]. rewrite bool_of by lia.
  replace (Z.odd (Z.of_N data)) with (N.odd data) by (destruct data as [|[| |]]; reflexivity).
  assert (FB : 15 <= free_bits P <= 31) by (hosts HP; unfold free_bits; cbn; lia).
  assert (E2 : Z.of_N data / 2 = Z.of_N (data / 2)) by lia.
  assert (E3 : Z.of_N bit + 1 = Z.of_N (bit + 1)) by lia.
  destruct (N.odd data); cbn [negb].
  - rewrite refl_bit by (auto; unfold byte; lia). replace (Z.of_N n - Z.of_N bit <=? free_bits P) with true by lia. cbn [cbind].
    rewrite refl_next by (auto; lia). cbn [cbind]. rewrite E2, E3.
    replace (Z.of_N n - 1 - Z.of_N bit) with (Z.of_N (n - 1 - bit)) by lia.
    change 2 with (Z.of_N 2) at 1. rewrite <- N2Z.inj_pow, <- ofN_lor. apply IHk; auto; try lia.
    pose proof (lor_bnd (Z.of_N acc) (Z.of_N (n - 1 - bit)) ltac:(lia) ltac:(lia)) as Q.
    change 2 with (Z.of_N 2) in Q at 1. change 2 with (Z.of_N 2) in Q. rewrite <- N2Z.inj_pow, <- ofN_lor in Q. lia.
  - rewrite refl_next by (auto; lia). cbn [cbind]. rewrite E2, E3. apply IHk; auto; lia.
Qed.
