(** Proofs about checksums. *)
From Coq Require Import NArith ZArith List Bool Lia ZifyBool ZifyNat ZifyN.
From Verif Require Import Base Config Codec Checksum State Queue Daq Core Spec Lists Effects Handlers HTx HInv HInv2
  HFields HResp DaqInv HSpec Steps Demo Ops ProofsSession Exec ProofsFrames SpecProt ProofsProt SpecMem ProofsMem ProofsBlock
  SpecCks ProofsCrc.
Import ListNotations.
Open Scope N_scope.
Ltac Zify.zify_post_hook ::= Z.div_mod_to_equations.

(** ** Sums *)

Lemma skipn_plus : forall {A} (l : list A) k j, skipn (k + j) l = skipn j (skipn k l).
Proof. induction l; intros k j; [now rewrite !skipn_nil|]. destruct k; [reflexivity|]. cbn [Nat.add skipn]. apply IHl. Qed.

Lemma add_bytes_sum : forall w bs acc, acc < 2 ^ w -> add_bytes w acc bs = (acc + sum bs) mod 2 ^ w.
Proof.
  intros w. assert (P : 2 ^ w <> 0) by (apply N.pow_nonzero; discriminate).
  induction bs as [|b bs IH]; intros acc H; cbn [add_bytes sum fold_right]; [rewrite N.add_0_r; symmetry; now apply N.mod_small|].
  fold (sum bs). rewrite IH by (now apply N.mod_lt). rewrite N.add_mod_idemp_l by auto. f_equal. lia.
Qed.
Lemma add_words_sum : forall be k w n bs acc, acc < 2 ^ w ->
  add_words be k w acc bs n = (acc + sum (map (word_at be k bs) (seq 0 n))) mod 2 ^ w.
Proof.
  intros be k w. assert (P : 2 ^ w <> 0) by (apply N.pow_nonzero; discriminate).
  induction n as [|n IH]; intros bs acc H; [cbn [add_words seq map sum fold_right]; rewrite N.add_0_r; symmetry; now apply N.mod_small|].
  cbn [add_words]. rewrite IH by (now apply N.mod_lt). rewrite N.add_mod_idemp_l by auto. f_equal.
  rewrite <- cons_seq. cbn [map sum fold_right]. fold (sum (map (word_at be k bs) (seq 1 n))). rewrite <- N.add_assoc. f_equal.
  assert (E0 : word_val be (firstn k bs) = word_at be k bs 0) by (unfold word_at, word_val; rewrite Nat.mul_0_r; reflexivity).
  rewrite E0. f_equal. rewrite <- seq_shift, map_map. f_equal. apply map_ext. intro i. unfold word_at.
  assert (Es : skipn (k * S i) bs = skipn (k * i) (skipn k bs)) by (rewrite <- skipn_plus; f_equal; lia).
  now rewrite Es.
Qed.

Lemma sum_thm : forall m be bs x, is_crc m = false -> calc m be bs x true = checksum_spec m be bs.
Proof.
  intros m be bs x H. unfold calc. rewrite H. destruct m; try discriminate; cbn [checksum_spec ck_width add_step];
    rewrite ?add_words_sum, ?add_bytes_sum by (apply N.neq_0_lt_0, N.pow_nonzero; discriminate); reflexivity.
Qed.

Lemma calc_spec : forall m be bs x, m <> CRC32 -> bytes bs -> calc m be bs x true = checksum_spec m be bs.
Proof.
  intros m be bs x H B. destruct (is_crc m) eqn:E; [|now apply sum_thm].
  destruct m; try discriminate; try congruence; [now apply crc16_thm|now apply citt_thm].
Qed.

Lemma mirror_bound : forall w v, mirror w v < 2 ^ w.
Proof.
  intros. unfold mirror. eapply N.lt_le_trans; [apply of_bits_bound|]. unfold lenN. rewrite map_length, seq_length, N2Nat.id. lia.
Qed.
Lemma spec_bound : forall m be bs, m <> CRC32 -> checksum_spec m be bs < 2 ^ 32.
Proof.
  intros m be bs H. destruct m; try congruence; cbn [checksum_spec];
    try (eapply N.lt_le_trans; [apply N.mod_lt, N.pow_nonzero; discriminate|vm_compute; discriminate]).
  - unfold crc_16, crc_def. rewrite N.lxor_0_r. eapply N.lt_le_trans; [apply mirror_bound|vm_compute; discriminate].
  - unfold crc_16_citt, crc_def. rewrite N.lxor_0_r. eapply N.lt_le_trans; [apply reg_bound; exact eq_refl|vm_compute; discriminate].
Qed.

(** ** Parts of a block *)

Lemma add_bytes_app : forall w a acc b, add_bytes w acc (a ++ b) = add_bytes w (add_bytes w acc a) b.
Proof. induction a; intros; cbn [add_bytes app]; auto. Qed.
Lemma add_words_app : forall be k w b n j a acc, (length a = k * j)%nat ->
  add_words be k w acc (a ++ b) (j + n) = add_words be k w (add_words be k w acc a j) b n.
Proof.
  induction j as [|j IH]; intros a acc L.
  - rewrite Nat.mul_0_r in L. apply length_zero_iff_nil in L. subst a. reflexivity.
  - cbn [add_words Nat.add]. rewrite firstn_app, skipn_app. replace (k - length a)%nat with 0%nat by lia.
    rewrite app_nil_r. cbn [skipn firstn]. rewrite skipn_O || idtac. rewrite IH; [reflexivity|]. rewrite skipn_length. lia.
Qed.
Lemma calc_app : forall m be a b x f, composes m (lenN a) -> calc m be (a ++ b) x f = calc m be b (calc m be a x f) false.
Proof.
  intros m be a b x f H. unfold calc. destruct m; cbn [is_crc composes ck_width add_step] in *; try contradiction; try apply add_bytes_app.
  4: { unfold crc_final. cbn [crc_refl crc_xor]. rewrite !N.lxor_0_r. apply fold_left_app. }
  1-2: set (k := 2%nat). 3: set (k := 4%nat).
  all: assert (E : (length a = k * Nat.div (length a) k)%nat) by (unfold lenN in H; unfold k; lia).
  all: assert (Ed : (Nat.div (length (a ++ b)) k = Nat.div (length a) k + Nat.div (length b) k)%nat)
    by (rewrite app_length, E at 1; rewrite (Nat.mul_comm k), Nat.add_comm, Nat.div_add by (unfold k; lia); lia).
  all: rewrite Ed; apply add_words_app; auto.
Qed.
