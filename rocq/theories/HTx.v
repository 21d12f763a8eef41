(** Transmission and basic invariant: what every handler sends, and the ranges
    every handler respects. *)
From Coq Require Import NArith ZArith List Bool Lia ZifyBool ZifyNat ZifyN.
From Verif Require Import Base Config Codec Checksum State Queue Daq Core Spec Lists Effects Handlers.
Import ListNotations.
Open Scope N_scope.

(** ** Byte strings *)

Lemma bytes_app : forall a b, bytes a -> bytes b -> bytes (a ++ b).
Proof. intros. apply Forall_app. auto. Qed.
Lemma firstn_Forall : forall A (P : A -> Prop) n l, Forall P l -> Forall P (firstn n l).
Proof. induction n; intros; cbn; auto. destruct l; auto. inversion H; subst. constructor; auto. Qed.
Lemma skipn_Forall : forall A (P : A -> Prop) n l, Forall P l -> Forall P (skipn n l).
Proof. induction n; intros; cbn; auto. destruct l; auto. inversion H; subst. auto. Qed.
Lemma bytes_take : forall n l, bytes l -> bytes (takeN n l).
Proof. intros. apply firstn_Forall. auto. Qed.
Lemma bytes_drop : forall n l, bytes l -> bytes (dropN n l).
Proof. intros. apply skipn_Forall. auto. Qed.
Lemma bytes_splice : forall l off bs, bytes l -> bytes bs -> bytes (splice l off bs).
Proof. intros. unfold splice. auto using bytes_app, bytes_take, bytes_drop. Qed.
Lemma bytes_mread_nat : forall m n a, (forall x, m x < 256) -> bytes (mread_nat m a n).
Proof. induction n; intros; cbn; constructor; auto. apply IHn. auto. Qed.
Lemma bytes_mread : forall m a n, (forall x, m x < 256) -> bytes (mread m a n).
Proof. intros. apply bytes_mread_nat. auto. Qed.
Lemma bytes_nth : forall l i, bytes l -> nth i l 0 < 256.
Proof. induction l; intros; destruct i; cbn; try lia; inversion H; subst; auto. Qed.
Lemma gb_lt : forall l i, bytes l -> gb l i < 256.
Proof. intros. apply bytes_nth. auto. Qed.
Lemma mwrite_bytes : forall bs m a x, (forall y, m y < 256) -> bytes bs -> mwrite m a bs x < 256.
Proof.
  induction bs; intros; cbn; auto. inversion H0; subst.
  destruct (x =? a0); auto.
Qed.
Lemma gw_lt : forall c l i, bytes l -> gw c l i < 65536.
Proof. intros. unfold gw. pose proof (gb_lt l i H). pose proof (gb_lt l (i + 1) H). destruct (c_motorola c); lia. Qed.
Lemma gd_lt : forall c l i, bytes l -> gd c l i < 2 ^ 32.
Proof.
  intros. unfold gd. pose proof (gw_lt c l i H). pose proof (gw_lt c l (i + 2) H).
  change (2 ^ 32) with 4294967296. destruct (c_motorola c); lia.
Qed.
Lemma lobyte_lt : forall x, lobyte x < 256. Proof. intros. unfold lobyte. lia. Qed.
Lemma hibyte_lt : forall x, hibyte x < 256. Proof. intros. unfold hibyte. lia. Qed.
Lemma u8_lt : forall x, u8 x < 256. Proof. intros. unfold u8. change (2 ^ 8) with 256. lia. Qed.
Lemma bytes_le32 : forall x, bytes (le32 x).
Proof. intros. unfold le32. repeat constructor; auto using lobyte_lt, hibyte_lt. Qed.
Lemma ldiff_le : forall a b, N.ldiff a b <= a.
Proof. intros. apply N.ldiff_le, N.bits_inj_0. intro n. rewrite !N.ldiff_spec. destruct (N.testbit a n), (N.testbit b n); reflexivity. Qed.
Lemma lor_lt8 : forall a b, a < 256 -> b < 256 -> N.lor a b < 256.
Proof.
  intros a b Ha Hb. change 256 with (2 ^ 8) in *.
  destruct (N.eq_dec (N.lor a b) 0) as [->|Z]; [reflexivity|].
  apply N.log2_lt_pow2; [lia|]. rewrite N.log2_lor.
  destruct (N.eq_dec a 0) as [->|]; destruct (N.eq_dec b 0) as [->|]; cbn [N.log2 N.max] in *;
    try (apply N.max_lub_lt); try (apply N.log2_lt_pow2; lia); try reflexivity; try lia.
Qed.

Lemma cksum_code_lt : forall k, cksum_code k < 256.
Proof. destruct k; exact eq_refl. Qed.
Lemma daq_properties_lt : forall c, daq_properties c < 256.
Proof. intros. unfold daq_properties. destruct (c_prescaler c), (c_ts c); exact eq_refl. Qed.
Lemma getN_In : forall A (l : list A) i x, getN l i = Some x -> In x l.
Proof. unfold getN. intros. eapply nth_error_In; eauto. Qed.
Lemma event_lt : forall c i x, wf_cfg c -> getN (c_events c) i = Some x ->
  ev_nlen x < 256 /\ ev_props x < 256 /\ ev_unit x < 256 /\ ev_cycle x < 256.
Proof.
  intros c i x W H. apply getN_In in H.
  pose proof (proj1 (Forall_forall _ _) (wf_evs c W) x H) as F. cbn in F. tauto.
Qed.

(** ** Transmission *)

Definition tx (c : cfg) (s : st) (o : list pkt) (s' : st) : Prop :=
  (c_ctr_size c <> 0 -> s_ctr s' mod 2 ^ 16 = (s_ctr s + lenN o) mod 2 ^ 16) /\
  (c_ctr_size c = 0 -> s_ctr s' = s_ctr s) /\
  (c_stats c = true -> s_cros s' mod 2 ^ 32 = (s_cros s + lenN o) mod 2 ^ 32) /\
  (forall i p, nth_error o i = Some p ->
     1 <= lenN (p_data p) <= (if p_dto p then N.min (c_max_dto c) 255 else c_max_cto c) /\
     p_hdr p = mk_hdr c (lenN (p_data p)) (s_ctr s + N.of_nat i) /\ bytes (p_data p)).

Lemma tx_refl : forall c s s', s_ctr s' = s_ctr s -> s_cros s' = s_cros s -> tx c s [] s'.
Proof.
  intros c s s' H2 H3. unfold tx. rewrite H2, H3, lenN_nil, !N.add_0_r.
  repeat split; auto; destruct i; discriminate.
Qed.

Lemma mk_hdr_mod : forall c n a b, c_ctr_size c <= 2 -> (c_ctr_size c <> 0 -> a mod 2 ^ 16 = b mod 2 ^ 16) ->
  mk_hdr c n a = mk_hdr c n b.
Proof.
  intros c n a b Hc H. unfold mk_hdr. f_equal. unfold le_field.
  destruct (N.eqb_spec (c_ctr_size c) 1), (N.eqb_spec (c_ctr_size c) 2); auto;
    assert (E : a mod 2 ^ 16 = b mod 2 ^ 16) by (apply H; lia); unfold lobyte, hibyte;
    change (2 ^ 16) with 65536 in E.
  - f_equal. lia.
  - f_equal. lia.
  - f_equal; [lia|]. f_equal. lia.
Qed.

Lemma tx_trans : forall c s o1 s1 o2 s2, c_ctr_size c <= 2 ->
  tx c s o1 s1 -> tx c s1 o2 s2 -> tx c s (o1 ++ o2) s2.
Proof.
  intros c s o1 s1 o2 s2 Hc (A2 & A3 & A4 & A5) (B2 & B3 & B4 & B5).
  unfold tx. rewrite lenN_app. split; [|split; [|split]].
  - intro Z. rewrite (B2 Z), <- N.add_mod_idemp_l, (A2 Z), N.add_mod_idemp_l by lia. f_equal. lia.
  - intro Z. rewrite (B3 Z). auto.
  - intro Z. rewrite (B4 Z), <- N.add_mod_idemp_l, (A4 Z), N.add_mod_idemp_l by lia. f_equal. lia.
  - intros i p H. destruct (Nat.ltb_spec i (length o1)).
    + rewrite nth_error_app1 in H by lia. apply A5 in H. tauto.
    + rewrite nth_error_app2 in H by lia. apply B5 in H. destruct H as (H1 & H2 & H3).
      split; [tauto|split; [|tauto]]. rewrite H2.
      apply mk_hdr_mod; auto. intro Z.
      rewrite <- N.add_mod_idemp_l, (A2 Z), N.add_mod_idemp_l by lia. f_equal. unfold lenN. lia.
Qed.

(** One frame. *)
Lemma tx_pkt : forall c s s' p,
  s_ctr s' = (if c_ctr_size c =? 0 then s_ctr s else u16 (s_ctr s + 1)) ->
  s_cros s' = (if c_stats c then u32 (s_cros s + 1) else s_cros s) ->
  p_hdr p = mk_hdr c (lenN (p_data p)) (s_ctr s) ->
  1 <= lenN (p_data p) -> lenN (p_data p) <= (if p_dto p then N.min (c_max_dto c) 255 else c_max_cto c) -> bytes (p_data p) ->
  tx c s [p] s'.
Proof.
  intros c s s' p H3 H4 Hh H5 H6 Hb. unfold tx. rewrite H3, H4. change (lenN [_]) with 1.
  split; [|split; [|split]].
  - intro Z. destruct (N.eqb_spec (c_ctr_size c) 0); [lia|]. unfold u16. rewrite N.mod_mod by lia. reflexivity.
  - intro Z. destruct (N.eqb_spec (c_ctr_size c) 0); [auto|lia].
  - intros ->. unfold u32. rewrite N.mod_mod by lia. reflexivity.
  - intros i q H. destruct i; [|now destruct i]. cbn in H. injection H as <-.
    split; [lia|]. split; auto. rewrite Hh. f_equal. lia.
Qed.

Lemma tx_one : forall c s s' n ob k,
  s_ctr s' = (if c_ctr_size c =? 0 then s_ctr s else u16 (s_ctr s + 1)) ->
  s_cros s' = (if c_stats c then u32 (s_cros s + 1) else s_cros s) ->
  k = s_ctr s -> lenN ob = c_max_cto c -> 1 <= n -> n <= c_max_cto c -> bytes ob ->
  tx c s [mkPkt false (mk_hdr c n k) (takeN n ob)] s'.
Proof.
  intros. subst k. apply tx_pkt; cbn [p_data p_hdr p_dto]; auto; rewrite ?lenN_take; auto using bytes_take; try lia.
  rewrite N.min_l by lia. reflexivity.
Qed.

(** ** Ranges *)

Record binv (c : cfg) (s : st) : Prop := mkB {
  b_in : lenN (s_in s) = c_ctobuf c;
  b_inb : bytes (s_in s);
  b_out : lenN (s_out s) = c_max_cto c;
  b_outb : bytes (s_out s);
  b_prot : s_prot s < 256;
  b_seed : s_seed s < 256;
  b_mext : s_mext s < 256;
  b_maddr : s_maddr s < aspace c;
  b_srem : s_srem s < 256;
  b_mrem : s_mrem s < 256;
  b_held : s_held s = [];
  b_mem : forall x, s_mem s x < 256;
  b_ctr : s_ctr s < 2 ^ 16;
  b_cros : s_cros s < 2 ^ 32
}.

(** Opaque versions of the effect lemmas: the transmit buffer after the call is
    known only by its length and by being made of bytes. *)
Lemma poke_o : forall off bs s s', poke off bs s = Ok s' ->
  exists ob, lenN ob = lenN (s_out s) /\ (bytes (s_out s) -> bytes bs -> bytes ob) /\ s' = set_s_out ob s.
Proof.
  intros. apply poke_Ok in H. destruct H as (H & ->). eexists. split; [|split; [|reflexivity]].
  - now apply lenN_splice.
  - intros. apply bytes_splice; auto.
Qed.

Lemma copy_out_o : forall c e x a n off s s', copy_out c e x a n off s = Ok s' ->
  exists ob, lenN ob = lenN (s_out s) /\ (bytes (s_out s) -> (forall y, s_mem s y < 256) -> bytes ob) /\
    0 < n /\ s' = set_s_out ob s.
Proof.
  intros. apply copy_out_Ok in H. destruct H as (H1 & H2 & H3 & ->). eexists. split; [|split; [|split; [exact H1|reflexivity]]].
  - apply lenN_splice. rewrite lenN_mread. auto.
  - intros. apply bytes_splice; auto. apply bytes_mread. auto.
Qed.

Lemma send8_o : forall c len bs s s' o, send8 c len bs s = Ok (s', o) ->
  exists ob n, lenN ob = lenN (s_out s) /\ (bytes (s_out s) -> bytes bs -> bytes ob) /\
    n <= lenN (s_out s) /\ (8 <= c_max_cto c -> 1 <= len -> 1 <= n) /\
    s' = bump c (set_s_out ob s) /\ o = [mkPkt false (mk_hdr c n (s_ctr s)) (takeN n ob)].
Proof.
  intros. apply send8_Ok in H. destruct H as (ob & H1 & H2 & -> & -> & H3 & H4).
  exists ob, (len8 c len). split; [exact H1|]. split; [|split; [lia|split; [|split; reflexivity]]].
  - intros. destruct (N.leb_spec (len8 c len) 8).
    + rewrite H3 by lia. apply bytes_splice; auto using bytes_take.
    + rewrite H4 by lia. auto.
  - intros. unfold len8. destruct (c_max_dlc c); lia.
Qed.

Ltac leaf_o :=
  match goal with
  | H : send8 _ _ _ _ = Ok _ |- _ =>
      apply send8_o in H; destruct H as (? & ? & ? & ? & ? & ? & ? & ?)
  | H : send_cto _ _ _ = Ok _ |- _ => apply send_cto_Ok in H; destruct H as (? & ? & ?)
  | H : poke _ _ _ = Ok _ |- _ => apply poke_o in H; destruct H as (? & ? & ? & ?)
  | H : copy_out _ _ _ _ _ _ _ = Ok _ |- _ => apply copy_out_o in H; destruct H as (? & ? & ? & ? & ?)
  | _ => leaf
  end.
Ltac crush_o := unfold_h; repeat (first [inv1 | split1 | leaf_o]; subst; try discriminate).

Ltac bytes_tac :=
  repeat first [ assumption | exact eq_refl | apply bytes_app | apply bytes_take | apply bytes_drop | apply bytes_le32 | apply bytes_mread
    | match goal with |- bytes (_ :: _) => constructor | |- bytes [] => constructor | |- Forall _ (_ :: _) => constructor | |- Forall _ [] => constructor end
    | match goal with |- N.ldiff ?a _ < 256 => apply (N.le_lt_trans _ a); [apply ldiff_le|] end
    | match goal with W : wf_env _ ?e |- bytes (e_seed ?e _) => apply (wfe_seed _ e W) end
    | apply cksum_code_lt | apply daq_properties_lt
    | match goal with W : wf_cfg ?c, H : getN (c_events ?c) _ = Some ?x |- _ => apply (event_lt c _ x W H) end
    | apply u8_lt | apply lobyte_lt | apply hibyte_lt | apply gb_lt
    | match goal with |- (if ?b then _ else _) < 256 => destruct b end
    | match goal with |- N.lxor _ (if ?b then _ else _) < 256 => destruct b end ].
