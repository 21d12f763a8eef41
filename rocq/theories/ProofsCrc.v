(** The table-driven CRC against the division of polynomials. *)
From Coq Require Import NArith ZArith List Bool Lia ZifyBool ZifyNat ZifyN.
From Verif Require Import Base Config Codec Checksum State Core Spec Lists SpecMem SpecCks.
Import ListNotations.
Open Scope N_scope.
Ltac Zify.zify_post_hook ::= Z.div_mod_to_equations.

(** ** The shift register is linear *)

Lemma testbit_r2 : forall w r i, N.testbit ((2 * r) mod 2 ^ w) i = (i <? w) && N.testbit (2 * r) i.
Proof.
  intros. destruct (N.ltb_spec i w); cbn [andb]; [now apply N.mod_pow2_bits_low|now apply N.mod_pow2_bits_high].
Qed.
Lemma testbit_dbl : forall r i, N.testbit (2 * r) i = negb (i =? 0) && N.testbit r (i - 1).
Proof.
  intros. destruct (N.eqb_spec i 0) as [->|Z]; cbn [negb andb]; [apply N.testbit_even_0|].
  replace i with (N.succ (i - 1)) at 1 by lia. now rewrite N.testbit_even_succ by lia.
Qed.

Lemma crc_bit_lin : forall w poly r r' b b',
  crc_bit w poly (N.lxor r r') (xorb b b') = N.lxor (crc_bit w poly r b) (crc_bit w poly r' b').
Proof.
  intros. unfold crc_bit. apply N.bits_inj. intro i. rewrite !N.lxor_spec.
  destruct (N.testbit r (w - 1)), (N.testbit r' (w - 1)), b, b'; cbn [xorb];
  rewrite ?N.lxor_spec, ?testbit_r2, ?testbit_dbl, ?N.lxor_spec;
  destruct (i <? w), (negb (i =? 0)), (N.testbit r (i - 1)), (N.testbit r' (i - 1)), (N.testbit poly i); reflexivity.
Qed.

Lemma reg_lin : forall w poly l r r', 
  crc_register w poly (N.lxor r r') l = N.lxor (crc_register w poly r l) (crc_register w poly r' (map (fun _ => false) l)).
Proof.
  unfold crc_register. induction l as [|b l IH]; intros; cbn [fold_left map]; [reflexivity|].
  replace b with (xorb b false) at 1 by apply xorb_false_r. now rewrite crc_bit_lin, IH.
Qed.
Lemma reg_app : forall w poly l l' r, crc_register w poly r (l ++ l') = crc_register w poly (crc_register w poly r l) l'.
Proof. intros. apply fold_left_app. Qed.

Lemma lxor_bound : forall w a b, a < 2 ^ w -> b < 2 ^ w -> N.lxor a b < 2 ^ w.
Proof.
  intros w a b Ha Hb. destruct (N.eq_dec (N.lxor a b) 0) as [->|Z]; [lia|]. apply N.log2_lt_pow2; [lia|].
  destruct (N.ltb_spec (N.log2 (N.lxor a b)) w) as [|X]; auto. exfalso.
  assert (T : N.testbit (N.lxor a b) (N.log2 (N.lxor a b)) = true) by (apply N.bit_log2; auto).
  assert (Hx : forall v, v < 2 ^ w -> N.testbit v (N.log2 (N.lxor a b)) = false).
  { intros v Hv. destruct (N.eq_dec v 0) as [->|]; [apply N.bits_0|]. apply N.bits_above_log2.
    apply N.lt_le_trans with w; auto. apply N.log2_lt_pow2; lia. }
  rewrite N.lxor_spec, (Hx a), (Hx b) in T by auto. discriminate.
Qed.
Lemma crc_bit_bound : forall w poly r b, poly < 2 ^ w -> crc_bit w poly r b < 2 ^ w.
Proof.
  intros. unfold crc_bit. assert ((2 * r) mod 2 ^ w < 2 ^ w) by (apply N.mod_lt, N.pow_nonzero; discriminate).
  destruct xorb; auto. now apply lxor_bound.
Qed.
Lemma reg_bound : forall w poly l r, poly < 2 ^ w -> r < 2 ^ w -> crc_register w poly r l < 2 ^ w.
Proof. unfold crc_register. induction l; intros; cbn [fold_left]; auto. apply IHl; auto. now apply crc_bit_bound. Qed.

(** ** A step of eight bits at once *)

Definition all256 : list N := map N.of_nat (seq 0 256).
Lemma in_256 : forall b, b < 256 -> In b all256.
Proof. intros. unfold all256. apply in_map_iff. exists (N.to_nat b). split; [lia|]. apply in_seq. lia. Qed.

Definition poly_of (m : cksum) : N := match m with CRC16 => 0x8005 | _ => 0x1021 end.

(** What has to be checked of a table, entry by entry. *)
Definition tab_ok (m : cksum) (b : N) : bool :=
  (crc_register 16 (poly_of m) (b * 256) (repeat false 8) =? nth (N.to_nat b) (crc_tab m) 0) &&
  (crc_register 16 (poly_of m) b (repeat false 8) =? b * 256) &&
  (crc_register 16 (poly_of m) 0 (bits (crc_refl m) b) =?
   nth (N.to_nat (if crc_refl m then u8 (reflect b 8) else b)) (crc_tab m) 0) &&
  ((if crc_refl m then u8 (reflect b 8) else b) <? 256).
Lemma tabs_ok : forall m b, (m = CRC16 \/ m = CRC16CITT) -> b < 256 -> tab_ok m b = true.
Proof.
  intros m b H Hb. assert (A : forallb (tab_ok m) all256 = true) by (destruct H as [-> | ->]; vm_compute; reflexivity).
  exact (proj1 (forallb_forall _ _) A b (in_256 b Hb)).
Qed.
(** The table is linear. *)
Definition tab_lin (m : cksum) : bool :=
  forallb (fun i => forallb (fun j => nth (N.to_nat (N.lxor i j)) (crc_tab m) 0 =? N.lxor (nth (N.to_nat i) (crc_tab m) 0) (nth (N.to_nat j) (crc_tab m) 0))
    all256) all256.
Lemma tabs_lin : forall m i j, (m = CRC16 \/ m = CRC16CITT) -> i < 256 -> j < 256 ->
  nth (N.to_nat (N.lxor i j)) (crc_tab m) 0 = N.lxor (nth (N.to_nat i) (crc_tab m) 0) (nth (N.to_nat j) (crc_tab m) 0).
Proof.
  intros m i j H Hi Hj. assert (A : tab_lin m = true) by (destruct H as [-> | ->]; vm_compute; reflexivity).
  unfold tab_lin in A. pose proof (proj1 (forallb_forall _ _) A i (in_256 i Hi)) as X. cbn beta in X.
  apply N.eqb_eq. exact (proj1 (forallb_forall _ _) X j (in_256 j Hj)).
Qed.

Lemma split_lxor : forall r, r = N.lxor (r / 256 * 256) (r mod 256).
Proof.
  intro r. apply N.bits_inj. intro i. rewrite N.lxor_spec. change 256 with (2 ^ 8).
  destruct (N.ltb_spec i 8).
  - rewrite N.mul_pow2_bits_low, N.mod_pow2_bits_low by auto. now rewrite xorb_false_l.
  - rewrite N.mul_pow2_bits_high, N.mod_pow2_bits_high, N.div_pow2_bits by auto. rewrite xorb_false_r. f_equal. lia.
Qed.

Lemma crc_byte_ok : forall m r b, (m = CRC16 \/ m = CRC16CITT) -> r < 2 ^ 16 -> b < 256 ->
  crc_byte m r b = crc_register 16 (poly_of m) r (bits (crc_refl m) b).
Proof.
  intros m r b H Hr Hb. unfold crc_byte.
  assert (E : ck_width m - 8 = 8) by (destruct H as [-> | ->]; reflexivity). rewrite E.
  set (d := if crc_refl m then u8 (reflect b 8) else b). 
  assert (Hh : r / 256 < 256) by lia. assert (Hl : r mod 256 < 256) by lia.
  assert (U1 : u8 (N.shiftr r 8) = r / 256) by (unfold u8; rewrite N.shiftr_div_pow2; change (2 ^ 8) with 256; lia).
  assert (U2 : u16 (N.shiftl r 8) = r mod 256 * 256) by (unfold u16; rewrite N.shiftl_mul_pow2; change (2 ^ 8) with 256; change (2 ^ 16) with 65536; lia).
  rewrite U1, U2. pose proof (tabs_ok m b H Hb) as T. unfold tab_ok in T. fold d in T.
  apply andb_true_iff in T. destruct T as (T & Td). apply andb_true_iff in T. destruct T as (T & T3).
  apply N.eqb_eq in T3. apply N.ltb_lt in Td.
  rewrite tabs_lin by auto.
  rewrite <- (N.lxor_0_l r) at 3. rewrite reg_lin, T3, N.lxor_assoc. f_equal.
  assert (Lb : length (bits (crc_refl m) b) = 8%nat) by (unfold bits; rewrite map_length; destruct (crc_refl m); reflexivity).
  assert (Z : map (fun _ => false) (bits (crc_refl m) b) = repeat false 8).
  { rewrite <- Lb. clear. induction (bits (crc_refl m) b); cbn [map length repeat]; congruence. }
  rewrite Z. rewrite (split_lxor r) at 3. rewrite reg_lin. change (map (fun _ : bool => false) (repeat false 8)) with (repeat false 8).
  pose proof (tabs_ok m _ H Hh) as T1. pose proof (tabs_ok m _ H Hl) as T2. unfold tab_ok in T1, T2.
  apply andb_true_iff in T1. destruct T1 as (T1 & _). apply andb_true_iff in T1. destruct T1 as (T1 & _). apply andb_true_iff in T1. destruct T1 as (T1 & _).
  apply andb_true_iff in T2. destruct T2 as (T2 & _). apply andb_true_iff in T2. destruct T2 as (T2 & _). apply andb_true_iff in T2. destruct T2 as (_ & T2).
  apply N.eqb_eq in T1, T2. now rewrite T1, T2.
Qed.

Lemma poly_bound : forall m, poly_of m < 2 ^ 16.
Proof. destruct m; reflexivity. Qed.
Lemma crc_bytes_ok : forall m bs r, (m = CRC16 \/ m = CRC16CITT) -> r < 2 ^ 16 -> bytes bs ->
  fold_left (crc_byte m) bs r = crc_register 16 (poly_of m) r (flat_map (bits (crc_refl m)) bs).
Proof.
  induction bs as [|b bs IH]; intros r H Hr Hb; cbn [fold_left flat_map]; [reflexivity|].
  inversion Hb; subst. rewrite reg_app, <- crc_byte_ok by auto. apply IH; auto.
  rewrite crc_byte_ok by auto. apply reg_bound; auto using poly_bound.
Qed.

(** ** Reflection *)

Lemma of_bits_snoc : forall l b, of_bits (l ++ [b]) = 2 * of_bits l + N.b2n b.
Proof. intros. unfold of_bits. now rewrite fold_left_app. Qed.
Lemma of_bits_app : forall l a, fold_left (fun a b => 2 * a + N.b2n b) l a = a * 2 ^ lenN l + of_bits l.
Proof.
  induction l as [|b l IH] using rev_ind; intro a; [unfold of_bits, lenN; cbn; lia|].
  rewrite fold_left_app. cbn [fold_left]. rewrite IH, of_bits_snoc, lenN_app.
  change (lenN [b]) with 1. rewrite N.pow_add_r. change (2 ^ 1) with 2. lia.
Qed.
Lemma of_bits_bound : forall l, of_bits l < 2 ^ lenN l.
Proof.
  induction l as [|b l IH] using rev_ind; [unfold of_bits, lenN; cbn; lia|].
  rewrite of_bits_snoc, lenN_app. change (lenN [b]) with 1. rewrite N.pow_add_r. change (2 ^ 1) with 2. destruct b; cbn [N.b2n]; lia.
Qed.

Lemma lor_add : forall a k, a mod 2 ^ (k + 1) = 0 -> N.lor a (2 ^ k) = a + 2 ^ k.
Proof.
  intros a k H. rewrite <- N.lxor_lor, <- N.add_nocarry_lxor; auto.
  all: apply N.bits_inj; intro i; rewrite N.land_spec, N.bits_0, N.pow2_bits_eqb;
    destruct (N.eqb_spec k i) as [<-|]; rewrite ?andb_false_r; auto; rewrite andb_true_r;
    apply N.mod_divide in H; [|apply N.pow_nonzero; discriminate]; destruct H as (z & ->);
    apply N.mul_pow2_bits_low; lia.
Qed.

Lemma reflect_loop_ok : forall k n bit data acc, N.of_nat k + bit = n -> acc mod 2 ^ N.of_nat k = 0 ->
  reflect_loop k n bit data acc = acc + of_bits (map (fun i => N.testbit data (N.of_nat i)) (seq 0 k)).
Proof.
  induction k; intros n bit data acc E A; cbn [reflect_loop]; [unfold of_bits; cbn; lia|].
  assert (P : 2 ^ N.of_nat (S k) = 2 * 2 ^ N.of_nat k) by (rewrite Nat2N.inj_succ, N.pow_succ_r'; reflexivity).
  assert (Hp : 0 < 2 ^ N.of_nat k) by (apply N.neq_0_lt_0, N.pow_nonzero; discriminate).
  set (p := 2 ^ N.of_nat k) in *.
  assert (Ex : n - 1 - bit = N.of_nat k) by lia. rewrite Ex. fold p.
  assert (Ea : (if N.odd data then N.lor acc p else acc) = acc + N.b2n (N.odd data) * p).
  { destruct (N.odd data); cbn [N.b2n]; [|lia]. unfold p. rewrite lor_add; [lia|].
    rewrite N.add_1_r, N.pow_succ_r'. fold p. rewrite <- P. exact A. }
  rewrite Ea. rewrite IHk; [|lia|].
  - rewrite <- cons_seq. cbn [map]. change (N.of_nat 0) with 0. rewrite N.bit0_odd.
    unfold of_bits at 2. cbn [fold_left]. rewrite of_bits_app. rewrite <- seq_shift, map_map. unfold lenN. rewrite map_length, seq_length. fold p.
    assert (Em : map (fun i => N.testbit (data / 2) (N.of_nat i)) (seq 0 k) = map (fun x => N.testbit data (N.of_nat (S x))) (seq 0 k)).
    { apply map_ext. intro i. rewrite Nat2N.inj_succ, <- N.div2_div, N.div2_spec, N.shiftr_spec by lia. f_equal. lia. }
    rewrite Em. replace (2 * 0 + N.b2n (N.odd data)) with (N.b2n (N.odd data)) by lia. lia.
  - rewrite P in A. fold p. apply N.mod_divide in A; [|lia]. destruct A as (z & ->).
    replace (z * (2 * p) + N.b2n (N.odd data) * p) with ((z * 2 + N.b2n (N.odd data)) * p) by lia. apply N.mod_mul. lia.
Qed.
Lemma reflect_ok : forall data n, reflect data n = mirror n data.
Proof.
  intros. unfold reflect, mirror. rewrite reflect_loop_ok; [lia|lia|]. apply N.mod_0_l, N.pow_nonzero. discriminate.
Qed.

(** ** The whole computation *)

Theorem crc16_thm : forall be bs x, bytes bs -> calc CRC16 be bs x true = crc_16 bs.
Proof.
  intros. unfold calc. cbn [is_crc]. rewrite crc_bytes_ok by (auto; exact eq_refl).
  unfold crc_final, crc_16, crc_def. cbn [crc_refl ck_width crc_xor crc_init poly_of]. now rewrite reflect_ok.
Qed.
Theorem citt_thm : forall be bs x, bytes bs -> calc CRC16CITT be bs x true = crc_16_citt bs.
Proof.
  intros. unfold calc. cbn [is_crc]. rewrite crc_bytes_ok by (auto; exact eq_refl).
  unfold crc_final, crc_16_citt, crc_def. cbn [crc_refl ck_width crc_xor crc_init poly_of]. reflexivity.
Qed.

(** ** Division of polynomials *)

Lemma clmul_dbl : forall q p, clmul (2 * q) p = 2 * clmul q p.
Proof. destruct q; reflexivity. Qed.
Lemma clmul_dbl1 : forall q p, clmul (2 * q + 1) p = N.lxor p (2 * clmul q p).
Proof. intros [|q] p; [cbn; now rewrite N.lxor_0_r|reflexivity]. Qed.

Lemma dbl_lxor : forall a b, 2 * N.lxor a b = N.lxor (2 * a) (2 * b).
Proof. intros. rewrite <- !N.double_spec. destruct a, b; reflexivity. Qed.
Lemma lxor_dbl1 : forall a b, N.lxor (2 * a + 1) b = N.lxor (2 * a) (N.lxor 1 b).
Proof. intros. rewrite <- N.lxor_assoc. f_equal. destruct a; reflexivity. Qed.

Lemma mod_add_bit : forall w r, r < 2 ^ (w + 1) -> 2 * r = N.lxor (if N.testbit r w then 2 ^ (w + 1) else 0) ((2 * r) mod 2 ^ (w + 1)).
Proof.
  intros w r H. apply N.bits_inj. intro i. rewrite N.lxor_spec, testbit_r2.
  assert (X : N.testbit (if N.testbit r w then 2 ^ (w + 1) else 0) i = (i =? w + 1) && N.testbit r w).
  { destruct (N.testbit r w); [rewrite N.pow2_bits_eqb, andb_true_r; apply N.eqb_sym|now rewrite N.bits_0, andb_false_r]. }
  rewrite X, testbit_dbl. destruct (N.ltb_spec i (w + 1)) as [L|L].
  - destruct (N.eqb_spec i (w + 1)); [lia|]. cbn [andb]. now rewrite xorb_false_l.
  - cbn [andb]. rewrite xorb_false_r. destruct (N.eqb_spec i 0); [lia|]. cbn [negb andb].
    destruct (N.eqb_spec i (w + 1)) as [Ei|Ei]; cbn [andb]; [f_equal; lia|].
    destruct (N.eq_dec r 0) as [->|Z]; [apply N.bits_0|].
    apply N.bits_above_log2. assert (N.log2 r < w + 1) by (apply N.log2_lt_pow2; lia). lia.
Qed.

Lemma lenN_snoc : forall {A} (l : list A) x, lenN (l ++ [x]) = lenN l + 1.
Proof. intros. now rewrite lenN_app. Qed.

Lemma pow_add_lxor : forall w poly, poly < 2 ^ w -> 2 ^ w + poly = N.lxor (2 ^ w) poly.
Proof.
  intros. apply N.add_nocarry_lxor. apply N.bits_inj. intro i. rewrite N.land_spec, N.bits_0, N.pow2_bits_eqb.
  destruct (N.eqb_spec w i) as [<-|]; cbn [andb]; auto.
  destruct (N.eq_dec poly 0) as [->|Z]; [apply N.bits_0|]. apply N.bits_above_log2. apply N.log2_lt_pow2; lia.
Qed.

Theorem register_divides : forall w poly init l, poly < 2 ^ (w + 1) -> init < 2 ^ (w + 1) ->
  remainder (w + 1) (2 ^ (w + 1) + poly) (N.lxor (of_bits l * 2 ^ (w + 1)) (init * 2 ^ lenN l)) (crc_register (w + 1) poly init l).
Proof.
  intros w poly init l Hp Hi. split; [now apply reg_bound|]. rewrite pow_add_lxor by auto.
  induction l as [|b l IH] using rev_ind.
  - exists 0. unfold of_bits, lenN. cbn [fold_left length clmul crc_register N.of_nat]. change (2 ^ 0) with 1.
    unfold crc_register. cbn [fold_left]. rewrite N.mul_0_l, N.mul_1_r, !N.lxor_0_l. reflexivity.
  - destruct IH as (q & IH). unfold crc_register. rewrite fold_left_app. cbn [fold_left]. fold (crc_register (w + 1) poly init l).
    pose proof (reg_bound (w + 1) poly l init Hp Hi) as Hr. set (r := crc_register (w + 1) poly init l) in *. clearbody r.
    rewrite of_bits_snoc, lenN_snoc. set (P := 2 ^ (w + 1)) in *.
    assert (E : N.lxor ((2 * of_bits l + N.b2n b) * P) (init * 2 ^ (lenN l + 1)) =
                N.lxor (if b then P else 0) (2 * N.lxor (of_bits l * P) (init * 2 ^ lenN l))).
    { rewrite dbl_lxor. rewrite N.add_1_r, N.pow_succ_r'.
      replace (init * (2 * 2 ^ lenN l)) with (2 * (init * 2 ^ lenN l)) by lia. rewrite <- N.lxor_assoc. f_equal.
      unfold P. rewrite <- !N.shiftl_mul_pow2. destruct b; cbn [N.b2n].
      - replace (2 ^ (w + 1)) with (N.shiftl 1 (w + 1)) by (now rewrite N.shiftl_1_l).
        replace (2 * N.shiftl (of_bits l) (w + 1)) with (N.shiftl (2 * of_bits l) (w + 1))
          by (rewrite !N.shiftl_mul_pow2; lia).
        rewrite <- N.shiftl_lxor. f_equal. destruct (of_bits l); reflexivity.
      - rewrite N.lxor_0_l, N.add_0_r, !N.shiftl_mul_pow2. lia. }
    rewrite E, IH. clear E IH. unfold crc_bit. replace (w + 1 - 1) with w by lia.
    rewrite dbl_lxor, <- clmul_dbl. fold P. pose proof (mod_add_bit w r Hr) as Md. fold P in Md. set (R2 := (2 * r) mod P) in *. clearbody R2. rewrite Md. clear Md.
    destruct (N.testbit r w), b; cbn [xorb].
    + exists (2 * q). rewrite (N.lxor_comm P (N.lxor (clmul _ _) _)), !N.lxor_assoc. f_equal.
      rewrite (N.lxor_comm R2), <- N.lxor_assoc, N.lxor_nilpotent. apply N.lxor_0_l.
    + exists (2 * q + 1). rewrite clmul_dbl1, clmul_dbl, N.lxor_0_l.
      apply N.bits_inj. intro i. rewrite !N.lxor_spec. destruct (N.testbit (2 * clmul q (N.lxor P poly)) i), (N.testbit P i), (N.testbit R2 i), (N.testbit poly i); reflexivity.
    + exists (2 * q + 1). rewrite clmul_dbl1, clmul_dbl, N.lxor_0_l.
      apply N.bits_inj. intro i. rewrite !N.lxor_spec. destruct (N.testbit (2 * clmul q (N.lxor P poly)) i), (N.testbit P i), (N.testbit R2 i), (N.testbit poly i); reflexivity.
    + exists (2 * q). rewrite !N.lxor_0_l. reflexivity.
Qed.

(** The remainder is unique. *)
Lemma clmul_lxor : forall p a b, clmul (N.lxor a b) p = N.lxor (clmul a p) (clmul b p).
Proof.
  intro p. assert (H : forall x y, clmul (2 * x + N.b2n y) p = N.lxor (if y then p else 0) (2 * clmul x p)).
  { intros x [|]; cbn [N.b2n]; [apply clmul_dbl1|]. rewrite N.add_0_r, N.lxor_0_l. apply clmul_dbl. }
  assert (Dx : forall a b (x y : bool), N.lxor (2 * a + N.b2n x) (2 * b + N.b2n y) = 2 * N.lxor a b + N.b2n (xorb x y)).
  { intros. destruct x, y; cbn [N.b2n xorb]; rewrite ?N.add_0_r; destruct a, b; try reflexivity; cbn; try (destruct (Pos.lxor _ _); reflexivity). }
  induction a as [a IH] using (well_founded_induction N.lt_wf_0). intro b.
  destruct (N.eq_dec a 0) as [->|Za]; [now rewrite !N.lxor_0_l|].
  rewrite (N.div2_odd a), (N.div2_odd b), Dx, !H, IH.
  2: rewrite N.div2_div; clear - Za; lia.
  rewrite dbl_lxor. apply N.bits_inj. intro i. rewrite !N.lxor_spec.
  destruct (N.odd a), (N.odd b); cbn [xorb]; rewrite ?N.bits_0; destruct (N.testbit (2 * clmul (N.div2 a) p) i), (N.testbit (2 * clmul (N.div2 b) p) i), (N.testbit p i); reflexivity.
Qed.

Lemma clmul_degree : forall w poly q, poly < 2 ^ w -> clmul q (2 ^ w + poly) < 2 ^ w -> q = 0.
Proof.
  intros w poly q Hp H. destruct q as [|q]; [reflexivity|exfalso].
  assert (X : exists k, N.testbit (pmul q (2 ^ w + poly)) (w + k) = true).
  { clear H. enough (N.testbit (pmul q (2 ^ w + poly)) (w + N.log2 (N.pos q)) = true) by eauto.
    assert (Top : forall i, w < i -> N.testbit (2 ^ w + poly) i = false).
    { intros i Hi. apply N.bits_above_log2. eapply N.le_lt_trans; [|exact Hi].
      assert (0 < 2 ^ w) by (apply N.neq_0_lt_0, N.pow_nonzero; discriminate).
      apply N.lt_succ_r. apply N.log2_lt_pow2; [lia|]. rewrite N.pow_succ_r'. lia. }
    assert (One : N.testbit (2 ^ w + poly) w = true).
    { rewrite pow_add_lxor, N.lxor_spec, N.pow2_bits_true by auto.
      destruct (N.eq_dec poly 0) as [->|]; [now rewrite N.bits_0|].
      rewrite N.bits_above_log2; [reflexivity|]. apply N.log2_lt_pow2; lia. }
    set (p := 2 ^ w + poly) in *. clearbody p.
    induction q; cbn [pmul].
    - assert (El : N.log2 (N.pos q~1) = N.log2 (N.pos q) + 1) by (change (N.pos q~1) with (2 * N.pos q + 1); rewrite N.log2_succ_double by lia; lia).
      rewrite El, N.lxor_spec, Top, xorb_false_l, testbit_dbl by lia.
      replace (w + (N.log2 (N.pos q) + 1) - 1) with (w + N.log2 (N.pos q)) by lia. rewrite IHq. destruct (N.eqb_spec (w + (N.log2 (N.pos q) + 1)) 0); [lia|reflexivity].
    - assert (El : N.log2 (N.pos q~0) = N.log2 (N.pos q) + 1) by (change (N.pos q~0) with (2 * N.pos q); rewrite N.log2_double by lia; lia).
      rewrite El, testbit_dbl.
      replace (w + (N.log2 (N.pos q) + 1) - 1) with (w + N.log2 (N.pos q)) by lia. rewrite IHq. destruct (N.eqb_spec (w + (N.log2 (N.pos q) + 1)) 0); [lia|reflexivity].
    - change (N.log2 1) with 0. now rewrite N.add_0_r. }
  destruct X as (k & X). cbn [clmul] in H. set (v := pmul q _) in *.
  destruct (N.eq_dec v 0) as [Z|Z]; [rewrite Z, N.bits_0 in X; discriminate|].
  rewrite N.bits_above_log2 in X; [discriminate|]. apply N.lt_le_trans with w; [|lia]. apply N.log2_lt_pow2; lia.
Qed.

Theorem remainder_unique : forall w poly a r r', poly < 2 ^ w ->
  remainder w (2 ^ w + poly) a r -> remainder w (2 ^ w + poly) a r' -> r = r'.
Proof.
  intros w poly a r r' Hp (Hr & q & E) (Hr' & q' & E').
  assert (X : clmul (N.lxor q q') (2 ^ w + poly) = N.lxor r r').
  { rewrite clmul_lxor. rewrite E in E'. apply N.bits_inj. intro i.
    assert (Y := f_equal (fun v => N.testbit v i) E'). cbn beta in Y. rewrite !N.lxor_spec in *.
    destruct (N.testbit (clmul q (2 ^ w + poly)) i), (N.testbit (clmul q' (2 ^ w + poly)) i), (N.testbit r i), (N.testbit r' i); cbn in *; congruence. }
  assert (Z : N.lxor q q' = 0) by (apply (clmul_degree w poly); auto; rewrite X; now apply lxor_bound).
  rewrite Z in X. cbn [clmul] in X. symmetry in X. now apply N.lxor_eq.
Qed.
