(** The theorems about C's integer arithmetic, in the form in which they are stated. *)
From Coq Require Import NArith ZArith List Bool Lia ZifyBool ZifyNat ZifyN.
From Verif Require Import Base Config Codec Checksum State Core CInt CExpr Spec SpecCks SpecCInt ProofsCrc ProofsCInt ProofsCInt2 ProofsCInt3.
Import ListNotations.
Open Scope Z_scope.

Theorem word_read : forall P mot b0 b1, int32 P -> byte b0 -> byte b1 ->
  yields (x_get_word P mot b0 b1) (field2 mot b0 b1).
Proof. intros. eexists. apply word_32; auto. Qed.
Theorem word_narrow : forall P mot b0 b1, int16 P -> byte b0 -> byte b1 ->
  (2 ^ 15 <= field2 mot b0 b1 -> undefined (x_get_word P mot b0 b1)) /\
  (field2 mot b0 b1 < 2 ^ 15 -> yields (x_get_word P mot b0 b1) (field2 mot b0 b1)).
Proof.
  intros P mot b0 b1 HP B0 B1. rewrite word_16 by auto. change (2 ^ 15) with 32768. unfold field2, byte in *.
  destruct mot; [destruct (Z.leb_spec 128 b0)|destruct (Z.leb_spec 128 b1)];
    (split; intro; try (exfalso; lia); eexists; reflexivity).
Qed.
Theorem dword_read : forall P mot b0 b1 b2 b3, int32 P -> byte b0 -> byte b1 -> byte b2 -> byte b3 ->
  field4 mot b0 b1 b2 b3 < 2 ^ 31 -> yields (x_get_dword P mot b0 b1 b2 b3) (field4 mot b0 b1 b2 b3).
Proof.
  intros P mot b0 b1 b2 b3 HP B0 B1 B2 B3 L. rewrite dword_32 by auto.
  destruct (Z.leb_spec (2 ^ 31) (field4 mot b0 b1 b2 b3)); [lia|]. eexists. reflexivity.
Qed.
Theorem dword_undef : forall P mot b0 b1 b2 b3, int32 P \/ int16 P -> byte b0 -> byte b1 -> byte b2 -> byte b3 ->
  2 ^ 31 <= field4 mot b0 b1 b2 b3 -> undefined (x_get_dword P mot b0 b1 b2 b3).
Proof.
  intros P mot b0 b1 b2 b3 [HP|HP] B0 B1 B2 B3 L.
  - rewrite dword_32 by auto. destruct (Z.leb_spec (2 ^ 31) (field4 mot b0 b1 b2 b3)); [eexists; reflexivity|lia].
  - rewrite dword_16 by auto. change (2 ^ 31) with 2147483648 in L. unfold field4, byte in *.
    replace (128 <=? (if mot then b0 else b3)) with true by (destruct mot; lia). eexists. reflexivity.
Qed.

Lemma byte_nth : forall l i, bytes l -> byte (Z.of_N (gb l i)).
Proof.
  intros l i B. unfold byte, gb. assert (nth (N.to_nat i) l 0 < 256)%N; [|lia].
  destruct (Nat.lt_ge_cases (N.to_nat i) (length l)); [|rewrite nth_overflow by auto; reflexivity].
  exact (proj1 (Forall_forall _ _) B _ (nth_In l 0%N H)).
Qed.
Theorem fields_agree : forall P c f i, int32 P -> bytes f ->
  yields (word_at P c f i) (Z.of_N (gw c f i)) /\
  ((gd c f i < 2 ^ 31)%N -> yields (dword_at P c f i) (Z.of_N (gd c f i))).
Proof.
  intros P c f i HP B. assert (X := fun j => byte_nth f j B). split.
  - unfold word_at. rewrite word_32 by auto. eexists. f_equal. unfold field2, gw. destruct (c_motorola c); lia.
  - intro L. unfold dword_at. rewrite dword_32 by auto.
    assert (E : field4 (c_motorola c) (Z.of_N (gb f i)) (Z.of_N (gb f (i + 1))) (Z.of_N (gb f (i + 2))) (Z.of_N (gb f (i + 3))) = Z.of_N (gd c f i)).
    { unfold field4, gd, gw. replace (i + 2 + 1)%N with (i + 3)%N by lia. destruct (c_motorola c); lia. }
    rewrite E. change (2 ^ 31)%N with 2147483648%N in L. change (2 ^ 31) with 2147483648.
    destruct (Z.leb_spec 2147483648 (Z.of_N (gd c f i))); [lia|]. eexists. reflexivity.
Qed.
Theorem address_field : forall P c r1 r2 ext a, int32 P \/ int16 P -> (a < 2 ^ 32)%N ->
  let f := ([0xF6; r1; r2; ext] ++ bytes4 (c_motorola c) a)%N in
  ((2 ^ 31 <= a)%N -> undefined (dword_at P c f 4)) /\
  (int32 P -> (a < 2 ^ 31)%N -> yields (dword_at P c f 4) (Z.of_N a)).
Proof.
  intros P c r1 r2 ext a HP A f. change (2 ^ 32)%N with 4294967296%N in A.
  assert (B : forall n, byte (Z.of_N (n mod 256))) by (intro; unfold byte; lia).
  assert (G : exists x0 x1 x2 x3, (gb f 4 = x0 /\ gb f (4 + 1) = x1 /\ gb f (4 + 2) = x2 /\ gb f (4 + 3) = x3 /\
     x0 < 256 /\ x1 < 256 /\ x2 < 256 /\ x3 < 256)%N /\
     field4 (c_motorola c) (Z.of_N x0) (Z.of_N x1) (Z.of_N x2) (Z.of_N x3) = Z.of_N a).
  { unfold f, bytes4, field4.
    assert (D1 : (a / 65536 = a / 256 / 256)%N) by (rewrite N.div_div by discriminate; reflexivity).
    assert (D2 : (a / 16777216 = a / 256 / 256 / 256)%N) by (rewrite !N.div_div by discriminate; reflexivity).
    pose proof (N.div_mod a 256 ltac:(discriminate)) as M0. pose proof (N.div_mod (a / 256) 256 ltac:(discriminate)) as M1.
    pose proof (N.div_mod (a / 256 / 256) 256 ltac:(discriminate)) as M2.
    assert (M3 : (a / 256 / 256 / 256 < 256)%N) by (rewrite <- D2; apply N.div_lt_upper_bound; [discriminate|exact A]).
    rewrite D1, D2. rewrite (N.mod_small (a / 256 / 256 / 256)) by exact M3.
    pose proof (N.mod_lt a 256 ltac:(discriminate)) as T0. pose proof (N.mod_lt (a / 256) 256 ltac:(discriminate)) as T1.
    pose proof (N.mod_lt (a / 256 / 256) 256 ltac:(discriminate)) as T2. clear D1 D2.
    set (y0 := (a mod 256)%N) in *. set (y1 := (a / 256 mod 256)%N) in *. set (y2 := (a / 256 / 256 mod 256)%N) in *.
    set (y3 := (a / 256 / 256 / 256)%N) in *. set (z2 := (a / 256 / 256)%N) in *. set (z1 := (a / 256)%N) in *. clearbody y0 y1 y2 y3 z1 z2.
    destruct (c_motorola c).
    - exists y3, y2, y1, y0.
      split; [repeat split; try reflexivity; lia|lia].
    - exists y0, y1, y2, y3.
      split; [repeat split; try reflexivity; lia|lia]. }
  destruct G as (x0 & x1 & x2 & x3 & (G0 & G1 & G2 & G3 & L0 & L1 & L2 & L3) & E).
  rewrite <- G0, <- G1, <- G2, <- G3 in E.
  assert (B4 : byte (Z.of_N (gb f 4)) /\ byte (Z.of_N (gb f (4 + 1))) /\ byte (Z.of_N (gb f (4 + 2))) /\ byte (Z.of_N (gb f (4 + 3)))).
  { rewrite G0, G1, G2, G3. unfold byte. lia. }
  destruct B4 as (X0 & X1 & X2 & X3). change (2 ^ 31)%N with 2147483648%N. unfold dword_at. split.
  - intro L. apply dword_undef; auto. rewrite E. change (2 ^ 31) with 2147483648. lia.
  - intros H L. rewrite <- E. apply dword_read; auto. rewrite E. change (2 ^ 31) with 2147483648. lia.
Qed.

Theorem words_written : forall P mot v, int32 P \/ int16 P -> 0 <= v < 65536 ->
  exists b0 b1, byte b0 /\ byte b1 /\ field2 mot b0 b1 = v /\
    yields (fst (x_set_word P mot v)) b0 /\ yields (snd (x_set_word P mot v)) b1.
Proof.
  intros P mot v HP V. unfold x_set_word, byte, field2.
  destruct mot; [exists (v / 256), (v mod 256)|exists (v mod 256), (v / 256)]; cbn [fst snd];
    repeat split; try lia; eexists; first [apply lo_of|apply hi_of]; auto.
Qed.
Theorem dwords_written : forall P (mot : bool) v, int32 P \/ int16 P -> 0 <= v < 2 ^ 32 ->
  exists w0 w1, 0 <= w0 < 65536 /\ 0 <= w1 < 65536 /\ v = (if mot then w0 * 65536 + w1 else w1 * 65536 + w0) /\
    yields (fst (x_set_dword P mot v)) w0 /\ yields (snd (x_set_dword P mot v)) w1.
Proof.
  intros P mot v HP V. change (2 ^ 32) with 4294967296 in V. unfold x_set_dword.
  destruct mot; [exists (v / 65536), (v mod 65536)|exists (v mod 65536), (v / 65536)]; cbn [fst snd];
    repeat split; try lia; eexists; first [apply low_of|apply hiw_of]; auto.
Qed.
Theorem macros_ok : forall P w d, int32 P \/ int16 P -> 0 <= w < 65536 -> 0 <= d < 2 ^ 32 ->
  yields (x_lobyte P w) (w mod 256) /\ yields (x_hibyte P w) (w / 256) /\
  yields (x_loword P d) (d mod 65536) /\ yields (x_hiword P d) (d / 65536).
Proof.
  intros P w d HP W D. change (2 ^ 32) with 4294967296 in D.
  repeat split; eexists; [apply mlo_of|apply mhi_of|apply mlow_of|apply mhiw_of]; auto.
Qed.

Theorem modify_defined : forall P v sh am xm, int32 P -> 0 <= v < 2 ^ 32 -> byte sh -> 0 <= am < 65536 -> 0 <= xm < 65536 ->
  let a := (65535 - am) * 2 ^ sh in
  let x := xm * 2 ^ sh in
  (sh < 32 /\ a < 2 ^ 31 /\ x < 2 ^ 31 -> yields (x_modify P v sh am xm) (Z.land v (Z.lxor (2 ^ 32 - 1 - a) x))) /\
  (~ (sh < 32 /\ a < 2 ^ 31 /\ x < 2 ^ 31) -> undefined (x_modify P v sh am xm)).
Proof.
  intros P v sh am xm HP V S A X a x. change (2 ^ 32) with 4294967296 in V.
  pose proof (modify_32 P v sh am xm HP V S A X) as M. cbv zeta in M. fold a x in M.
  change (2 ^ 31) with 2147483648 in *. split; intro H.
  - replace ((sh <? 32) && (a <? 2147483648) && (x <? 2147483648)) with true in M by lia. exact M.
  - replace ((sh <? 32) && (a <? 2147483648) && (x <? 2147483648)) with false in M by lia. exact M.
Qed.
Lemma yields_inj : forall e v w, yields e v -> yields e w -> v = w.
Proof. intros e v w (t & E) (t' & F). congruence. Qed.
Theorem modify_narrow : forall P v sh am xm r, int16 P -> 0 <= v < 2 ^ 32 -> byte sh -> 0 <= am < 65536 -> 0 <= xm < 65536 ->
  (16 <= sh -> undefined (x_modify P v sh am xm)) /\
  (yields (x_modify P v sh am xm) r -> r / 65536 = v / 65536).
Proof.
  intros P v sh am xm r HP V S A X. change (2 ^ 32) with 4294967296 in V.
  pose proof (modify_16 P v sh am xm HP V S A X) as M. split.
  - intro H. replace (sh <? 16) with false in M by lia. exact M.
  - intros (t & E). destruct (sh <? 16).
    + assert (A1 : 0 <= (65535 - am) * 2 ^ sh mod 65536 < 65536) by (apply Z.mod_pos_bound; reflexivity).
      assert (A2 : 0 <= xm * 2 ^ sh mod 65536 < 65536) by (apply Z.mod_pos_bound; reflexivity).
      set (ma := (65535 - am) * 2 ^ sh mod 65536) in *. set (mx := xm * 2 ^ sh mod 65536) in *. clearbody ma mx.
      rewrite (yields_inj _ _ _ (ex_intro _ t E) M). exact (bits_set_high v ma mx V A1 A2).
    + destruct M as (w & M). rewrite E in M. discriminate M.
Qed.

Theorem indices_ok : forall P i n a b, int32 P \/ int16 P -> byte i -> byte n -> byte a -> byte b ->
  yields (x_queue_next P i) ((i + 1) mod 5) /\
  yields (x_multi_size P n) (8 * n + 2) /\
  (8 * n + 2 <= 255 -> i < n -> yields (x_multi_offs P i) (8 * i + 2)) /\
  (b <= a -> yields (x_minus8 P a b) (a - b)) /\
  (a < b -> yields (x_minus8 P a b) (a - b + 256)).
Proof.
  intros P i n a b HP I N A B. pose proof (queue_next P i HP I) as Q1. destruct (multi_size P n HP N) as (t & Q2).
  pose proof (multi_offs P i HP I) as Q3. pose proof (minus8 P a b HP A B) as Q4. unfold byte in *.
  repeat split.
  - eexists. exact Q1.
  - exists t. rewrite Q2. f_equal. lia.
  - intros. eexists. rewrite Q3. f_equal. rewrite Z.mod_small; lia.
  - intros. eexists. rewrite Q4. f_equal. rewrite Z.mod_small; lia.
  - intros. eexists. rewrite Q4. f_equal. symmetry. apply Z.mod_unique with (-1); lia.
Qed.

Theorem transport_words : forall P b0 b1, byte b0 -> byte b1 ->
  (int32 P -> yields (x_sxi_word P b0 b1) (b1 * 256 + b0)) /\
  (int32 P \/ int16 P -> yields (x_eth_word P b1 b0) (b1 * 256 + b0)).
Proof. intros P b0 b1 B0 B1. split; intro HP; eexists; [apply sxi_32|apply eth_word]; auto. Qed.
