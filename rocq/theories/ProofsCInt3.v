(** Proofs about the CRC loop in C's arithmetic. *)
From Coq Require Import NArith ZArith List Bool Lia ZifyBool ZifyNat ZifyN.
From Verif Require Import Base Config Codec Checksum State Core CInt CExpr Spec SpecCks SpecCInt ProofsCrc ProofsCInt ProofsCInt2.
Import ListNotations.
Open Scope Z_scope.

Lemma tab_bound : forall m i, is_crc m = true -> (nth i (crc_tab m) 0 < 2 ^ ck_width m)%N.
Proof.
  intros m i H. destruct (Nat.lt_ge_cases i (length (crc_tab m))) as [L|L].
  - apply N.ltb_lt. assert (X : forallb (fun x => N.ltb x (2 ^ ck_width m)) (crc_tab m) = true) by (destruct m; try discriminate H; vm_compute; reflexivity).
    exact (proj1 (forallb_forall _ _) X _ (nth_In _ _ L)).
  - rewrite nth_overflow by auto. destruct m; reflexivity.
Qed.

Lemma sh_left_u : forall P t t1 v1 t2 v2, promote P t1 = t -> ct_signed t = false -> 0 <= v2 < ct_bits t ->
  shiftop P true t1 v1 t2 v2 = Val t (v1 * 2 ^ v2 mod 2 ^ ct_bits t).
Proof.
  intros P t t1 v1 t2 v2 C S B. unfold shiftop. rewrite C, S.
  now replace ((v2 <? 0) || (ct_bits t <=? v2)) with false by lia.
Qed.

Lemma crc_shift : forall P m r, any_host P -> is_crc m = true -> 0 <= r < 2 ^ Z.of_N (ck_width m) ->
  ceval P (uint16 P (EShl (EObj (t_cks P m) r) (ELit 8))) = Val (t_u16 P) (r * 256 mod 65536).
Proof.
  intros P m r HP H R. unfold uint16. cbn [ceval cbind].
  assert (B16 : ct_bits (t_u16 P) = 16) by (hosts HP; reflexivity).
  assert (U16 : ct_signed (t_u16 P) = false) by (hosts HP; reflexivity).
  assert (L8 : lit_type P 8 = t_int P) by (hosts HP; reflexivity). rewrite L8.
  destruct (ct_signed (promote P (t_cks P m))) eqn:S.
  - assert (Q : r < 65536 /\ ct_max (promote P (t_cks P m)) = 2147483647 /\ ct_min (promote P (t_cks P m)) = -2147483648 /\ ct_bits (promote P (t_cks P m)) = 32).
    { destruct m; try discriminate H; hosts HP; try discriminate S; repeat split; try reflexivity; change (2 ^ Z.of_N _) with 65536 in R; lia. }
    destruct Q as (Q1 & Q2 & Q3 & Q4).
    rewrite (sh_left P _ _ _ _ _ eq_refl); [|lia|lia|unfold fits; change (2 ^ 8) with 256; lia]. cbn [cbind].
    rewrite conv_mod by (auto; lia). rewrite B16. reflexivity.
  - assert (Q : ct_bits (promote P (t_cks P m)) = 16 \/ ct_bits (promote P (t_cks P m)) = 32)
      by (destruct m; try discriminate H; hosts HP; try discriminate S; auto).
    rewrite (sh_left_u P _ _ _ _ _ eq_refl S) by lia. cbn [cbind].
    rewrite conv_mod by (auto; lia). rewrite B16. f_equal. change (2 ^ 8) with 256. change (2 ^ 16) with 65536.
    destruct Q as [-> | ->].
    + change (2 ^ 16) with 65536. now rewrite Z.mod_mod by lia.
    + change (2 ^ 32) with (65536 * 65536). rewrite Z.rem_mul_r by lia. rewrite Z.mul_comm with (n := 65536) (m := _ mod _).
      rewrite Z.mod_add by lia. now rewrite Z.mod_mod by lia.
Qed.

Lemma crc_index : forall P m r, any_host P -> is_crc m = true -> 0 <= r < 2 ^ Z.of_N (ck_width m) ->
  ceval P (uint8 (EShr (EObj (t_cks P m) r) (EBin Sub (e_width P m) (uint8 (ELit 8))))) =
  Val t_u8 (r / 2 ^ (Z.of_N (ck_width m) - 8)).
Proof.
  intros P m r HP H R. unfold uint8, e_width.
  assert (Q : 0 <= r / 2 ^ (Z.of_N (ck_width m) - 8) < 256).
  { split; [apply Z.div_pos; [lia|apply Z.pow_pos_nonneg; destruct m; try discriminate H; cbn; lia]|].
    apply Z.div_lt_upper_bound; [apply Z.pow_pos_nonneg; destruct m; try discriminate H; cbn; lia|].
    destruct m; try discriminate H; exact (proj2 R). }
  assert (E : ceval P (EBin Sub (ECast (t_u16 P) (EBin Mul (ELitU 8) (ELitU (match m with CRC32 => 4 | _ => 2 end)))) (ECast t_u8 (ELit 8))) =
              Val (common (promote P (t_u16 P)) (promote P t_u8)) (Z.of_N (ck_width m) - 8)).
  { destruct m; try discriminate H; hosts HP; vm_compute; reflexivity. }
  change (ceval P (ECast t_u8 (EShr ?a ?b))) with
    (cbind (cbind (ceval P a) (fun t1 v1 => cbind (ceval P b) (fun t2 v2 => shiftop P false t1 v1 t2 v2))) (fun _ v => Val t_u8 (conv t_u8 v))).
  rewrite E. cbn [ceval cbind]. rewrite (sh_right P _ _ _ _ _ eq_refl).
  - cbn [cbind]. rewrite conv_in; [reflexivity|]. rng.
  - destruct m; try discriminate H; hosts HP; vm_compute; (split; [discriminate|reflexivity]).
Qed.

Lemma u8_z : forall n, Z.of_N (u8 n) = conv t_u8 (Z.of_N n).
Proof. intros. rewrite conv_mod by (reflexivity || discriminate). unfold u8. change (2 ^ 8)%N with 256%N. change (2 ^ ct_bits t_u8) with 256. lia. Qed.

Lemma reflect8 : forall P m b, any_host P -> (b < 256)%N ->
  x_reflect_data P m (Z.of_N b) = Val t_u8 (Z.of_N (if crc_refl m then u8 (reflect b 8) else b)).
Proof.
  intros P m b HP B. unfold x_reflect_data. destruct (crc_refl m); [|reflexivity].
  unfold x_reflect. change (Z.to_nat 8) with 8%nat. change 8 with (Z.of_N 8). change 0 with (Z.of_N 0).
  rewrite refl_loop; [|auto|reflexivity|reflexivity|hosts HP; vm_compute; discriminate|change (2 ^ 32)%N with 4294967296%N; lia|reflexivity].
  cbn [cbind]. rewrite u8_z. reflexivity.
Qed.

Lemma crc_byte_bound : forall m r b, is_crc m = true -> (crc_byte m r b < 2 ^ ck_width m)%N.
Proof.
  intros m r b H. unfold crc_byte. set (t := nth _ _ _).
  assert (T : (t < 2 ^ ck_width m)%N) by (apply tab_bound; auto).
  assert (U : (u16 (N.shiftl r 8) < 2 ^ ck_width m)%N).
  { apply N.lt_le_trans with (2 ^ 16)%N; [apply N.mod_lt; discriminate|destruct m; try discriminate H; vm_compute; discriminate]. }
  pose proof (lxor_bnd (Z.of_N (ck_width m)) (Z.of_N t) (Z.of_N (u16 (N.shiftl r 8))) ltac:(lia)) as X.
  rewrite <- ofN_lxor in X. change 2 with (Z.of_N 2) in X. rewrite <- N2Z.inj_pow in X. lia.
Qed.

Lemma x_crc_byte_ok : forall P m r b, any_host P -> is_crc m = true -> (r < 2 ^ ck_width m)%N -> (b < 256)%N ->
  x_crc_byte P m (Z.of_N r) (Z.of_N b) = Val (t_cks P m) (Z.of_N (crc_byte m r b)).
Proof.
  intros P m r b HP H R B. unfold x_crc_byte. rewrite reflect8 by auto. cbn [cbind].
  set (d0 := if crc_refl m then u8 (reflect b 8) else b).
  assert (D0 : (d0 < 256)%N) by (unfold d0; destruct (crc_refl m); [apply N.mod_lt; discriminate|auto]).
  assert (RZ : 0 <= Z.of_N r < 2 ^ Z.of_N (ck_width m)) by (change 2 with (Z.of_N 2); rewrite <- N2Z.inj_pow; lia).
  unfold assign at 1. cbn [ceval cbind]. rewrite crc_index by auto. cbn [cbind].
  assert (W8 : (8 <= ck_width m)%N) by (destruct m; try discriminate H; vm_compute; discriminate).
  set (i := (u8 (N.shiftr r (ck_width m - 8)))).
  assert (I : (i < 256)%N) by (apply N.mod_lt; discriminate).
  assert (EI : Z.of_N r / 2 ^ (Z.of_N (ck_width m) - 8) = Z.of_N i).
  { unfold i, u8. rewrite N.shiftr_div_pow2. replace (Z.of_N (ck_width m) - 8) with (Z.of_N (ck_width m - 8)) by lia.
    change 2 with (Z.of_N 2) at 1. rewrite <- N2Z.inj_pow, <- N2Z.inj_div. f_equal. symmetry. apply N.mod_small.
    apply N.div_lt_upper_bound; [apply N.pow_nonzero; discriminate|].
    rewrite <- N.pow_add_r. now replace (ck_width m - 8 + 8)%N with (ck_width m) by lia. }
  rewrite EI.
  assert (X8 : 0 <= Z.lxor (Z.of_N d0) (Z.of_N i) < 2 ^ 8) by (apply lxor_bnd; change (2 ^ 8) with 256; lia). change (2 ^ 8) with 256 in X8.
  assert (XE : binop P Xor t_u8 (Z.of_N d0) t_u8 (Z.of_N i) = Val (t_int P) (Z.lxor (Z.of_N d0) (Z.of_N i))).
  { apply b_xor; hosts HP; try reflexivity; rng. }
  rewrite XE. cbn [cbind]. rewrite conv_in by rng. rewrite <- ofN_lxor.
  replace (Z.to_nat (Z.of_N (N.lxor d0 i))) with (N.to_nat (N.lxor d0 i)) by lia.
  unfold assign.
  change (ceval P (EBin Xor ?a ?b)) with (cbind (ceval P a) (fun t1 v1 => cbind (ceval P b) (fun t2 v2 => binop P Xor t1 v1 t2 v2))).
  rewrite crc_shift by auto. cbn [ceval cbind].
  assert (E16 : Z.of_N r * 256 mod 65536 = Z.of_N (u16 (N.shiftl r 8))).
  { unfold u16. rewrite N.shiftl_mul_pow2. change (2 ^ 8)%N with 256%N. change (2 ^ 16)%N with 65536%N. lia. }
  rewrite E16.
  assert (T : (nth (N.to_nat (N.lxor d0 i)) (crc_tab m) 0 < 2 ^ ck_width m)%N) by (apply tab_bound; auto).
  pose proof (crc_byte_bound m r b H) as CBB.
  unfold crc_byte in CBB. fold d0 i in CBB.
  assert (Q : ct_min (common (promote P (t_cks P m)) (promote P (t_u16 P))) <= 0 /\ 2 ^ Z.of_N (ck_width m) - 1 <= ct_max (common (promote P (t_cks P m)) (promote P (t_u16 P))) /\
     65535 <= ct_max (common (promote P (t_cks P m)) (promote P (t_u16 P))) /\ ct_min (t_cks P m) = 0 /\ ct_max (t_cks P m) = 2 ^ Z.of_N (ck_width m) - 1).
  { destruct m; try discriminate H; hosts HP; vm_compute; repeat split; discriminate. }
  destruct Q as (Q1 & Q2 & Q3 & Q4 & Q5).
  assert (TZ : forall z, (z < 2 ^ ck_width m)%N -> 0 <= Z.of_N z <= 2 ^ Z.of_N (ck_width m) - 1).
  { intros z Z0. change 2 with (Z.of_N 2) at 1. rewrite <- N2Z.inj_pow. lia. }
  assert (UB : (u16 (N.shiftl r 8) < 65536)%N) by (apply N.mod_lt; discriminate).
  rewrite (b_xor P _ _ _ _ _ eq_refl); [|unfold fits; specialize (TZ _ T); lia|unfold fits; lia].
  cbn [cbind]. rewrite <- ofN_lxor, conv_in; [reflexivity|]. rewrite Q4, Q5. apply TZ. exact CBB.
Qed.

Lemma x_crc_loop_ok : forall P m bs r, any_host P -> is_crc m = true -> (r < 2 ^ ck_width m)%N -> bytes bs ->
  x_crc_loop P m (Z.of_N r) (map Z.of_N bs) = Val (t_cks P m) (Z.of_N (fold_left (crc_byte m) bs r)).
Proof.
  induction bs as [|b bs IH]; intros r HP H R B; [reflexivity|]. inversion B; subst.
  cbn [map x_crc_loop fold_left]. rewrite x_crc_byte_ok by auto. cbn [cbind]. apply IH; auto. apply crc_byte_bound; auto.
Qed.
Lemma fold_bound : forall m bs r, is_crc m = true -> (r < 2 ^ ck_width m)%N -> (fold_left (crc_byte m) bs r < 2 ^ ck_width m)%N.
Proof. induction bs as [|b bs IH]; intros r H R; [exact R|]. cbn [fold_left]. apply IH; auto. apply crc_byte_bound; auto. Qed.

(** Reflection of a whole register. *)
Lemma reflect_w : forall P m r, any_host P -> is_crc m = true -> (r < 2 ^ ck_width m)%N ->
  x_reflect P (Z.of_N r) (Z.of_N (ck_width m)) =
  if N.odd r && (h_int P =? Z.of_N (ck_width m)) then Undef Overflow
  else if h_int P <? Z.of_N (ck_width m) then x_reflect P (Z.of_N r) (Z.of_N (ck_width m))
  else Val (t_u32 P) (Z.of_N (reflect r (ck_width m))).
Proof.
  intros P m r HP H R.
  assert (R32 : (r < 2 ^ 32)%N).
  { apply N.lt_le_trans with (2 ^ ck_width m)%N; auto. apply N.pow_le_mono_r; [discriminate|]. destruct m; try discriminate H; vm_compute; discriminate. }
  assert (W : (ck_width m < 256)%N /\ (0 < ck_width m)%N /\ 0 < Z.of_N (ck_width m)) by (destruct m; try discriminate H; repeat split; vm_compute; auto).
  destruct W as (W1 & W0 & W2).
  assert (HI : h_int P = free_bits P + 1) by (unfold free_bits; lia).
  assert (FB : 15 <= free_bits P <= 31) by (hosts HP; unfold free_bits; cbn; lia).
  destruct (Z.ltb_spec (h_int P) (Z.of_N (ck_width m))) as [L|L].
  { replace (h_int P =? Z.of_N (ck_width m)) with false by lia. now rewrite andb_false_r. }
  unfold x_reflect, reflect.
  destruct (Z.eqb_spec (h_int P) (Z.of_N (ck_width m))) as [Q|Q].
  - rewrite andb_true_r. replace (Z.to_nat (Z.of_N (ck_width m))) with (S (N.to_nat (ck_width m - 1))) by lia.
    replace (N.to_nat (ck_width m)) with (S (N.to_nat (ck_width m - 1))) by lia.
    cbn [x_reflect_loop reflect_loop]. change (2 ^ 32)%N with 4294967296%N in R32.
    rewrite refl_test by (auto; lia). cbn [cbind]. rewrite bool_of by lia.
    replace (Z.odd (Z.of_N r)) with (N.odd r) by (destruct r as [|[| |]]; reflexivity).
    destruct (N.odd r); cbn [negb].
    + rewrite refl_bit by (auto; unfold byte; lia).
      replace (Z.of_N (ck_width m) - 0 <=? free_bits P) with false by lia.
      replace (Z.of_N (ck_width m) - 0 =? free_bits P + 1) with true by lia. reflexivity.
    + cbn [cbind]. rewrite refl_next by (auto; lia). cbn [cbind].
      replace (Z.of_N r / 2) with (Z.of_N (r / 2)) by lia. change (0 + 1) with (Z.of_N (0 + 1)). change 0 with (Z.of_N 0) at 1.
      rewrite refl_loop; auto; try lia; try reflexivity.
  - rewrite andb_false_r. replace (Z.to_nat (Z.of_N (ck_width m))) with (N.to_nat (ck_width m)) by lia.
    change 0 with (Z.of_N 0). apply refl_loop; auto; try lia.
Qed.

(** The top bit of a reflected register is its lowest bit. *)
Lemma mirror_top : forall w r, (0 < w)%N -> (2 ^ (w - 1) <=? mirror w r)%N = N.odd r.
Proof.
  intros w r W. unfold mirror. replace (N.to_nat w) with (S (N.to_nat (w - 1))) by lia.
  rewrite <- cons_seq. cbn [map]. change (N.of_nat 0) with 0%N. rewrite N.bit0_odd.
  set (l := map (fun i => N.testbit r (N.of_nat i)) (seq 1 (N.to_nat (w - 1)))).
  unfold of_bits. cbn [fold_left]. change (2 * 0 + N.b2n (N.odd r))%N with (N.b2n (N.odd r)).
  rewrite of_bits_app. assert (L : lenN l = (w - 1)%N) by (unfold l, lenN; rewrite map_length, seq_length; lia). rewrite L.
  pose proof (of_bits_bound l) as B. rewrite L in B. destruct (N.odd r); cbn [N.b2n]; lia.
Qed.
Lemma mirror_bound : forall w r, (mirror w r < 2 ^ w)%N.
Proof.
  intros. unfold mirror. eapply N.lt_le_trans; [apply of_bits_bound|]. unfold lenN. rewrite map_length, seq_length, N2Nat.id. lia.
Qed.

Lemma final_ok : forall P m r, any_host P -> is_crc m = true -> (r < 2 ^ ck_width m)%N ->
  (crc_refl m = true -> x_reflect P (Z.of_N r) (Z.of_N (ck_width m)) = Val (t_u32 P) (Z.of_N (reflect r (ck_width m)))) ->
  x_crc_final P m (Z.of_N r) = Val (t_cks P m) (Z.of_N (crc_final m r)).
Proof.
  intros P m r HP H R X. unfold x_crc_final, crc_final.
  set (v := if crc_refl m then reflect r (ck_width m) else r).
  assert (V : (v < 2 ^ ck_width m)%N) by (unfold v; destruct (crc_refl m); [rewrite reflect_ok; apply mirror_bound|auto]).
  assert (TZ : forall z, (z < 2 ^ ck_width m)%N -> 0 <= Z.of_N z <= 2 ^ Z.of_N (ck_width m) - 1).
  { intros z Z0. change 2 with (Z.of_N 2) at 1. rewrite <- N2Z.inj_pow. lia. }
  assert (Q : ct_min (common (promote P (t_cks P m)) (promote P (t_cks P m))) <= 0 /\
     2 ^ Z.of_N (ck_width m) - 1 <= ct_max (common (promote P (t_cks P m)) (promote P (t_cks P m))) /\
     ct_min (t_cks P m) = 0 /\ ct_max (t_cks P m) = 2 ^ Z.of_N (ck_width m) - 1).
  { destruct m; try discriminate H; hosts HP; vm_compute; repeat split; discriminate. }
  destruct Q as (Q1 & Q2 & Q3 & Q4).
  assert (E : (if crc_refl m then cbind (x_reflect P (Z.of_N r) (match m with CRC32 => 32 | _ => 16 end)) (fun _ v => Val (t_cks P m) (conv (t_cks P m) v))
         else Val (t_cks P m) (Z.of_N r)) = Val (t_cks P m) (Z.of_N v)).
  { replace (match m with CRC32 => 32 | _ => 16 end) with (Z.of_N (ck_width m)) by (destruct m; try discriminate H; reflexivity).
    unfold v in *. destruct (crc_refl m); [|reflexivity]. rewrite X by auto. cbn [cbind]. rewrite conv_in; [reflexivity|].
    rewrite Q3, Q4. apply TZ, V. }
  rewrite E. cbn [cbind]. unfold assign. cbn [ceval cbind].
  assert (XB : (crc_xor m < 2 ^ ck_width m)%N) by (destruct m; reflexivity).
  rewrite (b_xor P _ _ _ _ _ eq_refl); [|unfold fits; specialize (TZ _ V); lia|unfold fits; specialize (TZ _ XB); lia].
  cbn [cbind]. rewrite <- ofN_lxor, conv_in; [reflexivity|]. rewrite Q3, Q4. apply TZ.
  pose proof (lxor_bnd (Z.of_N (ck_width m)) (Z.of_N v) (Z.of_N (crc_xor m)) ltac:(lia)) as B.
  rewrite <- ofN_lxor in B. change 2 with (Z.of_N 2) in B. rewrite <- N2Z.inj_pow in B. lia.
Qed.

Lemma x_crc_ok : forall P m be x bs, any_host P -> is_crc m = true -> bytes bs ->
  crc_refl m = false \/ Z.of_N (ck_width m) < h_int P ->
  x_crc P m (map Z.of_N bs) = Val (t_cks P m) (Z.of_N (calc m be bs x true)).
Proof.
  intros P m be x bs HP H B C. unfold x_crc, calc. rewrite H.
  assert (I : (crc_init m < 2 ^ ck_width m)%N) by (destruct m; try discriminate H; reflexivity).
  rewrite x_crc_loop_ok by auto. cbn [cbind]. pose proof (fold_bound m bs _ H I) as F.
  apply final_ok; auto. intro Rf. destruct C as [C|C]; [congruence|]. rewrite reflect_w by auto.
  replace (h_int P =? Z.of_N (ck_width m)) with false by lia. rewrite andb_false_r.
  now replace (h_int P <? Z.of_N (ck_width m)) with false by lia.
Qed.
Lemma x_crc_edge : forall P m be x bs, any_host P -> is_crc m = true -> bytes bs -> crc_refl m = true -> Z.of_N (ck_width m) = h_int P ->
  x_crc P m (map Z.of_N bs) =
  if N.odd (fold_left (crc_byte m) bs (crc_init m)) then Undef Overflow
  else Val (t_cks P m) (Z.of_N (calc m be bs x true)).
Proof.
  intros P m be x bs HP H B Rf C. unfold x_crc, calc. rewrite H.
  assert (I : (crc_init m < 2 ^ ck_width m)%N) by (destruct m; try discriminate H; reflexivity).
  rewrite x_crc_loop_ok by auto. cbn [cbind]. pose proof (fold_bound m bs _ H I) as F.
  set (r := fold_left (crc_byte m) bs (crc_init m)) in *.
  pose proof (reflect_w P m r HP H F) as W. replace (h_int P =? Z.of_N (ck_width m)) with true in W by lia.
  replace (h_int P <? Z.of_N (ck_width m)) with false in W by lia. rewrite andb_true_r in W.
  destruct (N.odd r); [|apply final_ok; auto].
  unfold x_crc_final. rewrite Rf. replace (match m with CRC32 => 32 | _ => 16 end) with (Z.of_N (ck_width m)) by (destruct m; try discriminate H; reflexivity).
  rewrite W. reflexivity.
Qed.

(** ** The theorems *)

Theorem crc16_defined : forall P bs, int32 P -> bytes bs -> yields (x_crc P CRC16 (map Z.of_N bs)) (Z.of_N (crc_16 bs)).
Proof.
  intros P bs HP B. rewrite <- (crc16_thm false bs 0) by auto. eexists. apply x_crc_ok; auto; [now left|].
  right. destruct HP as [-> | ->]; vm_compute; reflexivity.
Qed.
Theorem citt_defined : forall P bs, int32 P \/ int16 P -> bytes bs -> yields (x_crc P CRC16CITT (map Z.of_N bs)) (Z.of_N (crc_16_citt bs)).
Proof. intros P bs HP B. rewrite <- (citt_thm false bs 0) by auto. eexists. apply x_crc_ok; auto. Qed.
Theorem crc16_narrow : forall P bs, int16 P -> bytes bs ->
  if (0x8000 <=? crc_16 bs)%N then undefined (x_crc P CRC16 (map Z.of_N bs))
  else yields (x_crc P CRC16 (map Z.of_N bs)) (Z.of_N (crc_16 bs)).
Proof.
  intros P bs HP B. rewrite (x_crc_edge P CRC16 false 0 bs); auto; [|now right|rewrite HP; reflexivity].
  rewrite crc16_thm by auto. set (r := fold_left (crc_byte CRC16) bs (crc_init CRC16)).
  assert (E : (0x8000 <=? crc_16 bs)%N = N.odd r).
  { rewrite <- (crc16_thm false bs 0) by auto. unfold calc. cbn [is_crc]. fold r. unfold crc_final. cbn [crc_refl ck_width crc_xor].
    rewrite N.lxor_0_r, reflect_ok. rewrite <- (mirror_top 16) by reflexivity. reflexivity. }
  rewrite E. destruct (N.odd r); eexists; reflexivity.
Qed.
Theorem crc32_edge : forall P be x bs, int32 P -> bytes bs ->
  if (calc CRC32 be bs x true <? 2 ^ 31)%N then undefined (x_crc P CRC32 (map Z.of_N bs))
  else yields (x_crc P CRC32 (map Z.of_N bs)) (Z.of_N (calc CRC32 be bs x true)).
Proof.
  intros P be x bs HP B. rewrite (x_crc_edge P CRC32 be x bs); auto; [|now left|destruct HP as [-> | ->]; reflexivity].
  set (r := fold_left (crc_byte CRC32) bs (crc_init CRC32)).
  assert (E : (calc CRC32 be bs x true <? 2 ^ 31)%N = N.odd r).
  { unfold calc. cbn [is_crc]. fold r. unfold crc_final. cbn [crc_refl ck_width crc_xor]. rewrite reflect_ok.
    rewrite <- (mirror_top 32) by reflexivity. pose proof (mirror_bound 32 r) as M.
    assert (L : N.lxor (mirror 32 r) 4294967295 = (4294967295 - mirror 32 r)%N).
    { set (a := mirror 32 r) in *. change (2 ^ 32)%N with 4294967296%N in M.
      replace (N.lxor a 4294967295) with (N.lnot a 32) by reflexivity. rewrite N.sub_nocarry_ldiff.
      - change 4294967295%N with (N.ones 32). symmetry. apply N.ldiff_ones_l_low.
        destruct (N.eq_dec a 0) as [->|]; [reflexivity|]. apply N.log2_lt_pow2; [lia|]. change (2 ^ 32)%N with 4294967296%N. lia.
      - change 4294967295%N with (N.ones 32). apply N.ldiff_ones_r_low.
        destruct (N.eq_dec a 0) as [->|]; [reflexivity|]. apply N.log2_lt_pow2; [lia|]. change (2 ^ 32)%N with 4294967296%N. lia. }
    rewrite L. change (2 ^ 32)%N with 4294967296%N in M. change (2 ^ (32 - 1))%N with 2147483648%N. change (2 ^ 31)%N with 2147483648%N. lia. }
  rewrite E. destruct (N.odd r); eexists; reflexivity.
Qed.
