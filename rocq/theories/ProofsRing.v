(** The queue of DAQ frames with one writer and one reader. *)
From Coq Require Import NArith ZArith List Bool Lia ZifyBool ZifyNat ZifyN.
From Verif Require Import Base Conc Ring SpecConc ProofsConc0.
Import ListNotations.
Open Scope N_scope.

Lemma mod_apart : forall M a b, M <> 0 -> a < b -> b < a + M -> a mod M <> b mod M.
Proof.
  intros M a b HM Hab Hb E. pose proof (N.div_mod a M HM) as E1. pose proof (N.div_mod b M HM) as E2.
  rewrite E in E1. assert (b - a = M * (b / M - a / M)).
  { rewrite N.mul_sub_distr_l. lia. }
  destruct (N.eq_dec (b / M - a / M) 0) as [H0|H0]; [rewrite H0 in H; lia|].
  assert (M * 1 <= M * (b / M - a / M)) by (apply N.mul_le_mono_l; lia). lia.
Qed.
Lemma mod_next : forall M a, M <> 0 -> (a mod M + 1) mod M = (a + 1) mod M.
Proof. intros M a HM. rewrite N.add_mod_idemp_l; auto. Qed.

Ltac lia0 := repeat match goal with H : context [N.modulo] |- _ => clear H end;
  repeat match goal with H : @eq (list _) _ _ |- _ => clear H end; lia.

Lemma thin_all : forall A (l : list A), thinned l l.
Proof. induction l; [apply thin_nil|apply thin_keep; auto]. Qed.
Lemma thin_app : forall A (l m p q : list A), thinned l m -> thinned p q -> thinned (l ++ p) (m ++ q).
Proof. induction 1; intros Hp; cbn [app]; [auto|apply thin_drop; auto|apply thin_keep; auto]. Qed.

Section Ring.
(** [K]: the number of frames that are offered. *)
Variables slots K : N.
Notation M := (slots + 1).

Definition cnt {A} (l : list A) : N := N.of_nat (length l).
Definition dto (r : ring) (j : N) : list N := nth (N.to_nat j) (g_put r) [].
Arguments dto : simpl never.
Notation okp := queueable.

Record inv (r : ring) : Prop := {
  i_le : cnt (g_got r) <= cnt (g_put r);
  i_room : cnt (g_put r) - cnt (g_got r) <= slots;
  i_head : g_head r = cnt (g_put r) mod M;
  i_tail : g_tail r = cnt (g_got r) mod M;
  i_got : g_got r = firstn (length (g_got r)) (g_put r);
  i_len : forall j, cnt (g_got r) <= j < cnt (g_put r) -> g_len r (j mod M) = lenN (dto r j);
  i_slot : forall j i, cnt (g_got r) <= j < cnt (g_put r) -> i < lenN (dto r j) ->
    g_slot r (j mod M) i = nth (N.to_nat i) (dto r j) 0;
  i_okp : Forall okp (g_put r);
  i_bad : g_bad r = true -> slots <= cnt (g_put r);
  i_late : slots < cnt (g_put r) -> g_bad r = true;
  i_tot : cnt (g_put r) <= K;
  i_small : K <= slots -> g_bad r = false /\ g_ovl r = false }.

(** What the reader may do, what the writer may do. *)
Definition reads (a b : ring) : Prop :=
  g_head b = g_head a /\ g_put b = g_put a /\ (exists l, g_got b = g_got a ++ l) /\
  g_len b = g_len a /\ g_slot b = g_slot a /\ g_ovl b = g_ovl a /\ (g_bad a = true -> g_bad b = true).
Definition writes (a b : ring) : Prop :=
  g_tail b = g_tail a /\ g_got b = g_got a /\ (exists l, g_put b = g_put a ++ l) /\
  (forall j, cnt (g_got a) <= j < cnt (g_put a) ->
    g_len b (j mod M) = g_len a (j mod M) /\ g_slot b (j mod M) = g_slot a (j mod M)) /\
  (g_bad a = true -> g_bad b = true).

Lemma cnt_app : forall A (l l' : list A), cnt (l ++ l') = cnt l + cnt l'.
Proof. intros. unfold cnt. rewrite app_length. lia. Qed.
Lemma dto_app : forall r r' l j, g_put r' = g_put r ++ l -> j < cnt (g_put r) -> dto r' j = dto r j.
Proof. intros r r' l j E H. unfold dto, cnt in *. rewrite E. apply app_nth1. lia. Qed.

Lemma reads_refl : forall a, reads a a.
Proof. intros a. repeat split; auto. exists []. rewrite app_nil_r. reflexivity. Qed.
Lemma reads_trans : forall a b c, reads a b -> reads b c -> reads a c.
Proof.
  intros a b c (A1 & A2 & (l & A3) & A4 & A5 & A7 & A6) (B1 & B2 & (l' & B3) & B4 & B5 & B7 & B6).
  repeat split; try congruence; auto. exists (l ++ l'). rewrite B3, A3, app_assoc. reflexivity.
Qed.
Lemma writes_refl : forall a, writes a a.
Proof. intros a. repeat split; auto. exists []. rewrite app_nil_r. reflexivity. Qed.
Lemma writes_trans : forall a b c, writes a b -> writes b c -> writes a c.
Proof.
  intros a b c (A1 & A2 & (l & A3) & A4 & A6) (B1 & B2 & (l' & B3) & B4 & B6).
  split; [congruence|]. split; [congruence|].
  split; [exists (l ++ l'); rewrite B3, A3, app_assoc; reflexivity|].
  split; auto. intros j Hj. destruct (A4 j Hj) as [E1 E2].
  destruct (B4 j) as [F1 F2]; [|split; congruence].
  rewrite A2, A3, cnt_app. lia.
Qed.

(** ** The writer *)
Notation SafeW Q := (safe inv reads writes Q).

(** Frames are missing only after the overload flag has been set. *)
Definition sofar (d : list (list N)) (r : ring) : Prop :=
  thinned (g_put r) d /\ (g_ovl r = false -> g_put r = d).
Lemma sofar_stable : forall d a b, sofar d a -> reads a b -> sofar d b.
Proof. unfold sofar. intros d a b H (A1 & A2 & A3 & A4 & A5 & A7 & A6). rewrite A7, A2. auto. Qed.
(** [P] holds of what the reader leaves alone, and there is room for a frame. *)
Definition room (n : N) (d : list (list N)) (r : ring) : Prop :=
  cnt (g_put r) = n /\ n < K /\ n - cnt (g_got r) < slots /\ sofar d r.
Lemma room_stable : forall n d a b, room n d a -> reads a b -> room n d b.
Proof.
  intros n d a b (H1 & HK & H2 & H3) Hr. pose proof (sofar_stable _ _ _ H3 Hr).
  destruct Hr as (A1 & A2 & (l & A3) & _). split; [congruence|]. split; [auto|]. split; [|auto].
  rewrite A3, cnt_app. lia.
Qed.

(** A slot outside of the readable ones is changed. *)
Lemma put_len_ok : forall n d v r, room n d r -> inv r ->
  writes r (put_slot_len slots (n mod M) v r) /\ inv (put_slot_len slots (n mod M) v r).
Proof.
  intros n d v r (Hn & HK & Hr & Hd) Hi.
  assert (Hap : forall j, cnt (g_got r) <= j < cnt (g_put r) -> (j mod M =? n mod M) = false).
  { intros j Hj. apply N.eqb_neq. apply mod_apart; lia. }
  split.
  - repeat split; cbn; auto.
    + exists []. rewrite app_nil_r. reflexivity.
    + rewrite (Hap j H). reflexivity.
    + unfold oob. intros ->. reflexivity.
  - destruct Hi. constructor; cbn; auto.
    + intros j Hj. rewrite (Hap j Hj). apply i_len0; auto.
    + unfold oob. intros H. apply orb_true_iff in H. destruct H as [H|H]; auto.
      apply N.leb_le in H. eapply N.le_trans; [exact H|].
      eapply N.le_trans; [apply N.mod_le; lia0|lia0].
    + unfold oob. intros H. rewrite i_late0; auto.
    + intros H. destruct (i_small0 H) as [E1 E2]. unfold oob. rewrite E1. split; [|auto].
      rewrite N.mod_small by lia0. cbn. apply N.leb_gt. lia0.
Qed.
Lemma put_byte_ok : forall n d i v r, room n d r -> inv r ->
  writes r (put_slot slots (n mod M) i v r) /\ inv (put_slot slots (n mod M) i v r).
Proof.
  intros n d i v r (Hn & HK & Hr & Hd) Hi.
  assert (Hap : forall j, cnt (g_got r) <= j < cnt (g_put r) -> (j mod M =? n mod M) = false).
  { intros j Hj. apply N.eqb_neq. apply mod_apart; lia. }
  split.
  - repeat split; cbn; auto.
    + exists []. rewrite app_nil_r. reflexivity.
    + rewrite (Hap j H). reflexivity.
    + unfold oob. intros ->. reflexivity.
  - destruct Hi. constructor; cbn; auto.
    + intros j k Hj Hk. rewrite (Hap j Hj). apply i_slot0; auto.
    + unfold oob. intros H. apply orb_true_iff in H. destruct H as [H|H]; auto.
      apply N.leb_le in H. eapply N.le_trans; [exact H|].
      eapply N.le_trans; [apply N.mod_le; lia0|lia0].
    + unfold oob. intros H. rewrite i_late0; auto.
    + intros H. destruct (i_small0 H) as [E1 E2]. unfold oob. rewrite E1. split; [|auto].
      rewrite N.mod_small by lia0. cbn. apply N.leb_gt. lia0.
Qed.

Definition filled (n : N) (d : list (list N)) (p : list N) (i : N) (r : ring) : Prop :=
  room n d r /\ g_len r (n mod M) = u8 (lenN p) /\
  (forall k, k < i -> g_slot r (n mod M) k = nth (N.to_nat k) p 0) /\
  (slots <= n -> (slots =? n mod M) = true -> g_bad r = true).
Lemma filled_stable : forall n d p i a b, filled n d p i a -> reads a b -> filled n d p i b.
Proof.
  intros n d p i a b (H1 & H2 & H3 & H4) Hr. split; [eapply room_stable; eauto|].
  destruct Hr as (A1 & A2 & A3 & A4 & A5 & A7 & A6). rewrite A4, A5. auto.
Qed.

Lemma fill_safe : forall Q n d p bs i k r, filled n d p i r -> skipn (N.to_nat i) p = bs ->
  (forall r, filled n d p (lenN p) r -> inv r -> SafeW Q k r) -> inv r ->
  SafeW Q (fill slots (n mod M) i bs k) r.
Proof.
  intros Q n d p. induction bs as [|b t IH]; intros i k r Hf Hs Hk Hi; cbn [fill].
  - apply Hk; auto. destruct Hf as (H1 & H2 & H3 & H4). split; [auto|]. split; [auto|]. split; [|auto].
    intros j Hj. apply H3. assert (E : length (skipn (N.to_nat i) p) = 0%nat) by (rewrite Hs; reflexivity).
    rewrite skipn_length in E. unfold lenN in Hj. lia.
  - apply (safe_wr inv reads writes Q) with (P := filled n d p i); [intros; eapply filled_stable; eauto|auto|].
    intros r1 Hf1 Hi1. destruct (put_byte_ok n d i b r1 (proj1 Hf1) Hi1) as [Hw Hi2].
    split; [auto|]. split; [auto|].
    assert (Hb : nth (N.to_nat i) p 0 = b).
    { rewrite <- (firstn_skipn (N.to_nat i) p) at 1. rewrite Hs.
      assert (L : length (firstn (N.to_nat i) p) = N.to_nat i).
      { apply firstn_length_le. assert (E : length (skipn (N.to_nat i) p) = length (b :: t)) by (rewrite Hs; reflexivity).
        rewrite skipn_length in E. cbn [length] in E. lia. }
      rewrite app_nth2; rewrite L; [|lia]. rewrite Nat.sub_diag. reflexivity. }
    apply IH; auto.
    + destruct Hf1 as (H1 & H2 & H3 & H4). split; [exact H1|]. split; [exact H2|]. split.
      * intros j Hj. cbn. rewrite N.eqb_refl. destruct (N.eqb_spec j i) as [->|Hne]; [auto|apply H3; lia].
      * intros Ha Hb'. cbn. unfold oob. rewrite (H4 Ha Hb'). reflexivity.
    + replace (N.to_nat (i + 1)) with (S (N.to_nat i)) by lia.
      clear - Hs. revert Hs. generalize (N.to_nat i). intros j. revert j.
      induction p as [|x p IHp]; intros [|j] Hs; cbn in *; try discriminate; [congruence|auto].
Qed.

Lemma put_head_ok : forall n d p r, okp p -> filled n d p (lenN p) r -> inv r ->
  writes r (put_head ((n + 1) mod M) p r) /\ inv (put_head ((n + 1) mod M) p r).
Proof.
  intros n d p r Hp ((Hn & HK & Hr & Hso) & Hl & Hd & Hb) Hi.
  split.
  - repeat split; cbn; auto. exists [p]. reflexivity.
  - pose proof Hi as Hi0. destruct Hi.
    assert (Hold : forall j, j < n -> dto (put_head ((n + 1) mod M) p r) j = dto r j).
    { intros j Hj. eapply dto_app; [reflexivity|]. lia0. }
    assert (Hnew : dto (put_head ((n + 1) mod M) p r) n = p).
    { unfold dto. cbn. rewrite app_nth2; [|unfold cnt in Hn; lia0].
      replace (N.to_nat n - length (g_put r))%nat with 0%nat by (unfold cnt in Hn; lia0). reflexivity. }
    constructor; cbn; rewrite ?cnt_app; change (cnt [p]) with 1; try lia0.
    + rewrite Hn. reflexivity.
    + auto.
    + rewrite firstn_app. assert (L : (length (g_got r) - length (g_put r))%nat = 0%nat) by (unfold cnt in *; lia0).
      rewrite L. cbn [firstn]. rewrite app_nil_r. exact i_got0.
    + intros j Hj. destruct (N.eq_dec j n) as [->|Hne].
      * rewrite Hnew, Hl. unfold u8. apply N.mod_small. destruct Hp. change (2 ^ 8) with 256. lia0.
      * rewrite Hold by lia0. apply i_len0. lia0.
    + intros j i Hj Hk. destruct (N.eq_dec j n) as [->|Hne].
      * rewrite Hnew in *. auto.
      * rewrite Hold in * by lia0. apply i_slot0; auto. lia0.
    + apply Forall_app. auto.
    + intros H. destruct (N.lt_ge_cases slots n); [apply i_late0; lia0|].
      assert (slots = n) by lia0. apply Hb; [lia0|]. apply N.eqb_eq. subst n. rewrite N.mod_small; lia0.
Qed.

Lemma enqueue_safe : forall Q d p k m, okp p -> m < K ->
  (forall r, cnt (g_put r) <= m + 1 -> sofar (d ++ [p]) r -> inv r -> SafeW Q k r) ->
  forall r, cnt (g_put r) <= m -> sofar d r -> inv r -> SafeW Q (enqueue slots p k) r.
Proof.
  intros Q d p k m Hp Hm Hk r Hc0 Hso0 Hi. unfold enqueue.
  apply (safe_rd inv reads writes Q writes_refl) with (P := fun r => cnt (g_put r) <= m /\ sofar d r); auto.
  { intros a b [H1 H2] Hr. split; [|eapply sofar_stable; eauto]. destruct Hr as (_ & E & _). congruence. }
  intros r1 [Hc1 Hso1] Hi1. set (n := cnt (g_put r1)).
  apply (safe_rd inv reads writes Q writes_refl) with (P := fun r => cnt (g_put r) = n /\ sofar d r).
  { intros a b [H1 H2] Hr. split; [|eapply sofar_stable; eauto]. destruct Hr as (_ & E & _). congruence. }
  { split; [reflexivity|auto]. }
  intros r2 [Hn2 Hso2] Hi2. rewrite (i_head r1 Hi1). fold n. rewrite mod_next by lia.
  destruct (N.eqb_spec ((n + 1) mod M) (g_tail r2)) as [Hfull|Hnf].
  - assert (Hbig : slots <= n).
    { rewrite (i_tail r2 Hi2) in Hfull. destruct (N.le_gt_cases slots n) as [|Hlt]; [auto|exfalso].
      pose proof (i_le r2 Hi2). revert Hfull. apply not_eq_sym. apply mod_apart; lia0. }
    apply (safe_wr inv reads writes Q) with (P := fun r => cnt (g_put r) = n /\ sofar d r).
    { intros a b [H1 H2] Hr. split; [|eapply sofar_stable; eauto]. destruct Hr as (_ & E & _). congruence. } { auto. }
    intros r3 [Hn3 [Hso3 _]] Hi3. split.
    + repeat split; cbn; auto. exists []. rewrite app_nil_r. reflexivity.
    + assert (inv (set_ovl r3)) by (destruct Hi3; constructor; auto; intros; exfalso; lia0).
      split; [auto|]. apply Hk; auto; [cbn; lia0|]. split; [|intros H2; discriminate H2].
      cbn. rewrite <- (app_nil_r (g_put r3)). apply thin_app; [exact Hso3|]. apply thin_drop, thin_nil.
  - assert (Hroom : room n d r2).
    { split; [auto|]. split; [lia0|]. split; [|auto]. destruct (N.eq_dec (n - cnt (g_got r2)) slots) as [E|E].
      - exfalso. apply Hnf. rewrite (i_tail r2 Hi2). replace (n + 1) with (cnt (g_got r2) + 1 * M).
        + apply N.mod_add. lia.
        + pose proof (i_le r2 Hi2). lia.
      - pose proof (i_room r2 Hi2). lia. }
    apply (safe_rd inv reads writes Q writes_refl) with (P := room n d); [intros; eapply room_stable; eauto|auto|].
    intros r3 Hr3 Hi3. rewrite (i_head r3 Hi3), (proj1 Hr3).
    apply (safe_wr inv reads writes Q) with (P := room n d); [intros; eapply room_stable; eauto|auto|].
    intros r4 Hr4 Hi4. destruct (put_len_ok n d (u8 (lenN p)) r4 Hr4 Hi4) as [Hw Hi5].
    split; [auto|]. split; [auto|].
    assert (Hf5 : filled n d p 0 (put_slot_len slots (n mod M) (u8 (lenN p)) r4)).
    { split; [exact Hr4|]. split; [cbn; rewrite N.eqb_refl; reflexivity|]. split; [intros; lia|].
      intros Ha Hb. cbn. unfold oob. apply N.eqb_eq in Hb. rewrite <- Hb, N.leb_refl. apply orb_true_r. }
    revert Hf5 Hi5. generalize (put_slot_len slots (n mod M) (u8 (lenN p)) r4). intros r5 Hf5 Hi5.
    apply (safe_rd inv reads writes Q writes_refl) with (P := filled n d p 0); [intros; eapply filled_stable; eauto|auto|].
    intros r6 Hf6 Hi6. rewrite (i_head r6 Hi6), (proj1 (proj1 Hf6)).
    apply fill_safe with (p := p) (d := d); auto.
    intros r7 Hf7 Hi7.
    apply (safe_rd inv reads writes Q writes_refl) with (P := filled n d p (lenN p)); [intros; eapply filled_stable; eauto|auto|].
    intros r8 Hf8 Hi8. rewrite (i_head r8 Hi8), (proj1 (proj1 Hf8)), mod_next by lia.
    apply (safe_wr inv reads writes Q) with (P := filled n d p (lenN p)); [intros; eapply filled_stable; eauto|auto|].
    intros r9 Hf9 Hi9. destruct (put_head_ok n d p r9 Hp Hf9 Hi9) as [Hw9 Hi10].
    split; [auto|]. split; [auto|]. destruct Hf9 as ((E1 & E2 & E3 & E4) & _).
    apply Hk; auto.
    + cbn. rewrite cnt_app, E1. change (cnt [p]) with 1. lia0.
    + destruct E4 as [E4 E5]. split; [cbn; apply thin_app; [exact E4|apply thin_all]|].
      intros Hov. cbn. rewrite (E5 Hov). reflexivity.
Qed.

Lemma producer_safe : forall ps, Forall okp ps -> forall d r, cnt d + cnt ps <= K ->
  cnt (g_put r) <= cnt d -> sofar d r -> inv r -> SafeW (sofar (d ++ ps)) (producer slots ps) r.
Proof.
  induction 1 as [|p ps Hp Hps IH]; intros d r Hk Hc Hso Hi; cbn [producer].
  - rewrite app_nil_r. cbn. intros r' Hr _. eapply sofar_stable; eauto.
  - change (p :: ps) with ([p] ++ ps) in *. rewrite app_assoc.
    apply enqueue_safe with (d := d) (m := cnt d); auto.
    { rewrite cnt_app in Hk. change (cnt [p]) with 1 in Hk. lia. }
    intros r' Hc' Hso' Hi'. apply IH; auto; rewrite cnt_app in *; change (cnt [p]) with 1 in *; lia.
Qed.

(** ** The reader *)
Notation SafeR Q := (safe inv writes reads Q).

(** The oldest frame [p] is present. *)
Definition avail (n : N) (p : list N) (r : ring) : Prop :=
  cnt (g_got r) = n /\ n < cnt (g_put r) /\ dto r n = p.
Lemma avail_stable : forall n p a b, avail n p a -> writes a b -> avail n p b.
Proof.
  intros n p a b (H1 & H2 & H3) (A1 & A2 & (l & A3) & _). split; [congruence|].
  split; [rewrite A3, cnt_app; lia|]. rewrite <- H3. eapply dto_app; eauto.
Qed.
Lemma touch_ok : forall n p r, avail n p r -> inv r ->
  reads r (touch slots (n mod M) r) /\ inv (touch slots (n mod M) r).
Proof.
  intros n p r (H1 & H2 & H3) Hi. split.
  - repeat split; cbn; auto; [exists []; rewrite app_nil_r; reflexivity|]. unfold oob. intros ->. reflexivity.
  - destruct Hi. constructor; cbn; auto.
    + unfold oob. intros H. apply orb_true_iff in H. destruct H as [H|H]; auto.
      apply N.leb_le in H. eapply N.le_trans; [exact H|].
      eapply N.le_trans; [apply N.mod_le; lia0|lia0].
    + unfold oob. intros H. rewrite i_late0; auto.
    + intros H. destruct (i_small0 H) as [E1 E2]. unfold oob. rewrite E1. split; [|auto].
      rewrite N.mod_small by lia0. cbn. apply N.leb_gt. lia0.
Qed.
Lemma safe_slot : forall Q n p A (g : ring -> A) k r, avail n p r ->
  (forall r, avail n p r -> inv r -> SafeR Q (k (g r)) (touch slots (n mod M) r)) ->
  SafeR Q (rd_slot slots (n mod M) g k) r.
Proof.
  intros Q n p A g k r Ha Hk. cbn. intros r1 Hr Hi.
  pose proof (avail_stable _ _ _ _ Ha Hr) as Ha1. destruct (touch_ok n p r1 Ha1 Hi). auto.
Qed.

Lemma drain_safe : forall Q n p m i acc k r, avail n p r -> (N.to_nat i + m = length p)%nat ->
  rev acc = firstn (N.to_nat i) p ->
  (forall r, avail n p r -> inv r -> SafeR Q (k p) r) -> inv r ->
  SafeR Q (drain slots (n mod M) i m acc k) r.
Proof.
  intros Q n p. induction m as [|m IH]; intros i acc k r Ha Hm He Hk Hi; cbn [drain].
  - rewrite He, firstn_all2 by lia. auto.
  - apply safe_slot with (p := p); auto. intros r1 Ha1 Hi1.
    apply IH; auto.
    + lia.
    + cbn [rev]. replace (N.to_nat (i + 1)) with (S (N.to_nat i)) by lia.
      rewrite He. destruct Ha1 as (H1 & H2 & H3).
      rewrite (i_slot r1 Hi1) by (rewrite ?H3; unfold lenN; lia). rewrite H3.
      clear - Hm. revert Hm. generalize (N.to_nat i). intros j Hm.
      assert (j < length p)%nat by lia. clear Hm. revert j H.
      induction p as [|x t IHp]; intros [|j] H; cbn in *; try lia; auto.
      f_equal. apply IHp. lia.
    + apply (touch_ok n p r1 Ha1 Hi1).
Qed.

Lemma put_tail_ok : forall n p r, avail n p r -> inv r ->
  reads r (put_tail ((n + 1) mod M) p r) /\ inv (put_tail ((n + 1) mod M) p r).
Proof.
  intros n p r (H1 & H2 & H3) Hi. split.
  - repeat split; cbn; auto. exists [p]. reflexivity.
  - destruct Hi. constructor; cbn; rewrite ?cnt_app; change (cnt [p]) with 1; try lia0; auto.
    + rewrite H1. reflexivity.
    + rewrite app_length. cbn [length]. unfold dto in H3. rewrite i_got0 at 1. unfold cnt in *.
      replace (N.to_nat n) with (length (g_got r)) in H3 by lia0.
      assert (length (g_got r) < length (g_put r))%nat by lia0.
      revert H H3. generalize (length (g_got r)) (g_put r). clear.
      intros j l. revert j. induction l as [|x t IH]; intros [|j] Hj Hp; cbn in *; try lia0; subst; auto.
      f_equal. apply IH; auto. lia0.
    + intros j Hj. apply i_len0. lia0.
    + intros j i Hj Hk. apply i_slot0; auto. lia0.
Qed.

Lemma dequeue_safe : forall Q k, (forall r, inv r -> SafeR Q k r) ->
  forall r, inv r -> SafeR Q (dequeue slots k) r.
Proof.
  intros Q k Hk r Hi. unfold dequeue.
  apply (safe_rd inv writes reads Q reads_refl) with (P := fun _ => True); auto.
  intros r1 _ Hi1.
  apply (safe_rd inv writes reads Q reads_refl)
    with (P := fun r => g_got r = g_got r1 /\ g_tail r = g_tail r1 /\ exists l, g_put r = g_put r1 ++ l).
  { intros a b (E1 & E2 & l & E3) (F1 & F2 & (l' & F3) & _). split; [congruence|]. split; [congruence|].
    exists (l ++ l'). rewrite F3, E3, app_assoc. reflexivity. }
  { split; [auto|]. split; [auto|]. exists []. rewrite app_nil_r. reflexivity. }
  intros r2 (E1 & E2 & l & E3) Hi2.
  destruct (N.eqb_spec (g_head r1) (g_tail r2)) as [He|Hne]; [auto|].
  set (n := cnt (g_got r2)).
  assert (Hav : avail n (dto r2 n) r2).
  { split; [reflexivity|]. split; [|reflexivity].
    destruct (N.lt_ge_cases n (cnt (g_put r2))) as [|Hge]; auto. exfalso. apply Hne.
    rewrite E2, (i_head r1 Hi1), (i_tail r1 Hi1).
    unfold n in Hge. rewrite E3, E1, cnt_app in Hge. pose proof (i_le r1 Hi1).
    replace (cnt (g_put r1)) with (cnt (g_got r1)) by lia. reflexivity. }
  revert Hav. generalize (dto r2 n). intros p Hav.
  apply (safe_rd inv writes reads Q reads_refl) with (P := avail n p); [intros; eapply avail_stable; eauto|auto|].
  intros r3 Ha3 Hi3. rewrite (i_tail r3 Hi3), (proj1 Ha3).
  apply safe_slot with (p := p); auto. intros r4 Ha4 Hi4.
  replace (g_len r4 (n mod M)) with (lenN p).
  2: { destruct Ha4 as (F1 & F2 & F3). rewrite (i_len r4 Hi4) by lia. congruence. }
  pose proof (proj2 (touch_ok n p r4 Ha4 Hi4)) as Hi5.
  assert (Ha5 : avail n p (touch slots (n mod M) r4)) by exact Ha4.
  apply (safe_rd inv writes reads Q reads_refl) with (P := avail n p); [intros; eapply avail_stable; eauto|auto|].
  intros r6 Ha6 Hi6. rewrite (i_tail r6 Hi6), (proj1 Ha6).
  apply drain_safe with (p := p); auto.
  { unfold lenN. lia. }
  intros r7 Ha7 Hi7.
  apply (safe_rd inv writes reads Q reads_refl) with (P := avail n p); [intros; eapply avail_stable; eauto|auto|].
  intros r8 Ha8 Hi8. rewrite (i_tail r8 Hi8), (proj1 Ha8), mod_next by lia.
  apply (safe_wr inv writes reads Q) with (P := avail n p); [intros; eapply avail_stable; eauto|auto|].
  intros r9 Ha9 Hi9. destruct (put_tail_ok n p r9 Ha9 Hi9) as [Hw9 Hi10]. auto.
Qed.

Lemma consumer_safe : forall n r, inv r -> SafeR (fun _ => True) (consumer slots n) r.
Proof.
  induction n as [|n IH]; intros r Hi; cbn [consumer].
  - cbn. auto.
  - apply dequeue_safe; auto.
Qed.

Lemma inv0 : inv ring0.
Proof.
  constructor; cbn; auto; try discriminate; intros; try lia.
Qed.

End Ring.

Theorem ring_thm : forall slots ps n sched, Forall queueable ps ->
  let x := run sched (producer slots ps) (consumer slots n) ring0 in
  inv slots (lenN ps) (shared x) /\ (finished x -> sofar ps (shared x)).
Proof.
  intros slots ps n sched Hp x. pose proof (inv0 slots (lenN ps)) as H0.
  assert (Hs : safe (inv slots (lenN ps)) reads (writes slots) (sofar ps) (producer slots ps) ring0).
  { apply (producer_safe slots (lenN ps) ps Hp [] ring0); auto.
    - change (cnt (@nil (list N))) with 0. unfold cnt, lenN. lia.
    - cbn. lia.
    - split; [constructor|intros _; reflexivity]. }
  pose proof (consumer_safe slots (lenN ps) n ring0 H0) as Hc.
  split.
  - pose proof (par _ _ _ _ _ _ _ reads_refl reads_trans (writes_refl slots) (writes_trans slots)
      (fun _ _ h => h) (fun _ _ h => h) sched _ _ ring0 H0 Hs Hc) as H.
    unfold x, shared. destruct (run sched _ _ _) as [[a b] s]. apply H.
  - intros Hf. exact (proj1 (par_end _ _ _ _ _ _ _ reads_refl reads_trans (writes_refl slots)
      (writes_trans slots) (fun _ _ h => h) (fun _ _ h => h) sched _ _ ring0 H0 Hs Hc Hf)).
Qed.

(** The same with the invariant spelt out. *)
Theorem ring_fifo : forall slots ps n sched, Forall queueable ps ->
  let x := run sched (producer slots ps) (consumer slots n) ring0 in
  (exists l, g_put (shared x) = g_got (shared x) ++ l /\ lenN l <= slots) /\
  (finished x -> thinned (g_put (shared x)) ps /\ (g_ovl (shared x) = false -> g_put (shared x) = ps)).
Proof.
  intros slots ps n sched Hp x. destruct (ring_thm slots ps n sched Hp) as [Hi Hf]. fold x in Hi, Hf.
  split; [|exact Hf]. destruct Hi. exists (skipn (length (g_got (shared x))) (g_put (shared x))). split.
  - rewrite i_got0 at 1. symmetry. apply firstn_skipn.
  - unfold lenN. rewrite skipn_length. unfold cnt in *. lia.
Qed.
Theorem ring_small : forall slots ps n sched, Forall queueable ps -> lenN ps <= slots ->
  let x := run sched (producer slots ps) (consumer slots n) ring0 in
  g_bad (shared x) = false /\ g_ovl (shared x) = false /\ (finished x -> g_put (shared x) = ps).
Proof.
  intros slots ps n sched Hp Hs x. destruct (ring_thm slots ps n sched Hp) as [Hi Hf]. fold x in Hi, Hf.
  destruct (i_small _ _ _ Hi Hs) as [H1 H2]. split; [auto|]. split; [auto|]. intros H. apply (Hf H). exact H2.
Qed.
Theorem ring_overrun : forall slots ps n sched, Forall queueable ps ->
  let x := run sched (producer slots ps) (consumer slots n) ring0 in
  slots < lenN (g_put (shared x)) -> g_bad (shared x) = true.
Proof.
  intros slots ps n sched Hp x H. destruct (ring_thm slots ps n sched Hp) as [Hi Hf]. fold x in Hi, Hf.
  apply (i_late _ _ _ Hi). exact H.
Qed.
