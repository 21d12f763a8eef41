(** Responses and DAQ frames sent by two threads; races on the shared variables. *)
From Coq Require Import NArith ZArith List Bool Lia ZifyBool ZifyNat ZifyN.
From Verif Require Import Base Config Conc Race SpecConc ProofsConc0.
Import ListNotations.
Open Scope N_scope.

Lemma chan_eqb_refl : forall ch, chan_eqb ch ch = true. Proof. destruct ch; reflexivity. Qed.
Definition other (ch : chan) : chan := match ch with Cto => Dto | Dto => Cto end.

Lemma sent_add : forall ch bs s, sent ch (add_wire ch bs s) = sent ch s ++ [bs].
Proof.
  intros. unfold sent. cbn [h_wire add_wire]. rewrite filter_app, map_app. cbn [filter fst].
  rewrite chan_eqb_refl. reflexivity.
Qed.
Lemma sent_other : forall ch bs s, sent (other ch) (add_wire ch bs s) = sent (other ch) s.
Proof.
  intros. unfold sent. cbn [h_wire add_wire]. rewrite filter_app, map_app. cbn [filter fst].
  replace (chan_eqb ch (other ch)) with false by (destruct ch; reflexivity). apply app_nil_r.
Qed.

(** [n] numbers from [i] on. *)
Fixpoint from (i : N) (n : nat) : list N := match n with O => [] | S m => i :: from (i + 1) m end.
Lemma from_app : forall a b i, from i (a + b) = from i a ++ from (i + N.of_nat a) b.
Proof.
  induction a as [|a IH]; intros b i; cbn [from Nat.add app].
  - f_equal. lia.
  - rewrite IH. do 3 f_equal. lia.
Qed.
Lemma map_from : forall D p i, (forall k, k < lenN p -> D (i + k) = nth (N.to_nat k) p 0) ->
  map D (from i (length p)) = p.
Proof.
  intros D p. induction p as [|x t IH]; intros i H; cbn [from map length]; auto. f_equal.
  - rewrite <- (N.add_0_r i). rewrite (H 0) by (unfold lenN; cbn [length]; lia). reflexivity.
  - apply IH. intros k Hk. replace (i + 1 + k) with (i + (1 + k)) by lia. rewrite H by (unfold lenN in *; cbn [length]; lia).
    replace (N.to_nat (1 + k)) with (S (N.to_nat k)) by lia. reflexivity.
Qed.
Lemma map_from_len : forall (D : N -> N) n i, length (map D (from i n)) = n.
Proof. intros D n. induction n; intros; cbn; auto. Qed.

Lemma sizes : forall n, n <= 2 -> n = 0 \/ n = 1 \/ n = 2. Proof. lia. Qed.
Lemma le_bytes1 : forall v, le_bytes 1 v = [lobyte v].
Proof. intros. unfold le_bytes, lobyte. change (seq 0 (N.to_nat 1)) with [0%nat]. cbn [map].
  change (256 ^ N.of_nat 0) with 1. rewrite N.div_1_r. reflexivity. Qed.
Lemma le_bytes2 : forall v, le_bytes 2 v = [lobyte v; hibyte v].
Proof.
  intros. unfold le_bytes, lobyte, hibyte. change (seq 0 (N.to_nat 2)) with [0%nat; 1%nat]. cbn [map].
  change (256 ^ N.of_nat 0) with 1. change (256 ^ N.of_nat 1) with 256. rewrite N.div_1_r. reflexivity.
Qed.
Lemma le_bytes_len : forall n v, lenN (le_bytes n v) = n.
Proof. intros. unfold lenN, le_bytes. rewrite map_length, seq_length. lia. Qed.

Section Header.
Variable c : cfg.
(** The payload [p] is in the buffer; the first [j] bytes of the length field, too. *)
Definition loaded (p : list N) (D : N -> N) : Prop :=
  forall k, k < lenN p -> D (c_offset c + k) = nth (N.to_nat k) p 0.
Definition headed (p : list N) (D : N -> N) : Prop :=
  loaded p D /\ map D (from 0 (N.to_nat (c_len_size c))) = le_bytes (c_len_size c) (lenN p).

Lemma loaded_hdr : forall p i v D, i < c_offset c -> loaded p D -> loaded p (fun j => if j =? i then v else D j).
Proof.
  intros p i v D Hi H k Hk. destruct (N.eqb_spec (c_offset c + k) i); [lia|]. auto.
Qed.

Lemma headed_ctr : forall p i v D, c_len_size c <= i < c_offset c -> headed p D ->
  headed p (fun j => if j =? i then v else D j).
Proof.
  intros p i v D [Hi Hi2] [H1 H2]. split; [apply loaded_hdr; auto|]. rewrite <- H2.
  assert (Hg : forall n k, k + N.of_nat n <= i ->
    map (fun j => if j =? i then v else D j) (from k n) = map D (from k n)).
  { induction n as [|n IH]; intros k Hk; cbn [from map]; auto. f_equal; [|apply IH; lia].
    destruct (N.eqb_spec k i); [lia|reflexivity]. }
  apply Hg. lia.
Qed.

Lemma frame_of : forall p D, headed p D ->
  carries c (map D (from 0 (N.to_nat (lenN p + c_offset c)))) p.
Proof.
  intros p D [Hl Hh]. exists (map D (from (c_len_size c) (N.to_nat (c_ctr_size c)))). split.
  - unfold lenN. rewrite map_from_len. lia.
  - replace (N.to_nat (lenN p + c_offset c)) with
      (N.to_nat (c_len_size c) + (N.to_nat (c_ctr_size c) + length p))%nat by (unfold c_offset, lenN; lia).
    rewrite !from_app, !map_app, Hh. f_equal. f_equal.
    + f_equal. f_equal. lia.
    + apply map_from. intros k Hk. rewrite <- Hl by auto. f_equal. unfold c_offset. lia.
Qed.

End Header.

(** ** Both buffers, any schedule *)
Section Payload.
Variable c : cfg.
Hypothesis Wf : wf_sizes c.
(** The payloads to be sent from each buffer. *)
Variable pl : chan -> list (list N).
Hypothesis Hpl : forall ch, Forall (sendable c) (pl ch).

Definition progress (ch : chan) (s : sh) : Prop := exists i, Forall2 (carries c) (sent ch s) (firstn i (pl ch)).
Definition I (s : sh) : Prop := forall ch, progress ch s.
(** The buffer [ch] and its frames are left alone. *)
Definition R (ch : chan) (a b : sh) : Prop :=
  h_len b ch = h_len a ch /\ h_data b ch = h_data a ch /\ sent ch b = sent ch a.
Definition G (ch : chan) := R (other ch).

Lemma R_refl : forall ch s, R ch s s. Proof. repeat split. Qed.
Lemma R_trans : forall ch a b d, R ch a b -> R ch b d -> R ch a d.
Proof. intros ch a b d (A1 & A2 & A3) (B1 & B2 & B3). repeat split; congruence. Qed.
Lemma I_wire : forall a b, h_wire b = h_wire a -> I a -> I b.
Proof. unfold I, progress, sent. intros a b E H ch. rewrite E. apply H. Qed.

Section Chan.
Variables (ch : chan) (Q : sh -> Prop).
Notation Safe := (safe I (R ch) (G ch) Q).

Definition holds (n : N) (d : list (list N)) (P : (N -> N) -> Prop) (s : sh) : Prop :=
  h_len s ch = n /\ P (h_data s ch) /\ sent ch s = d.
Lemma holds_stable : forall n d P a b, holds n d P a -> R ch a b -> holds n d P b.
Proof. unfold holds. intros n d P a b (H1 & H2 & H3) (A1 & A2 & A3). rewrite A1, A2, A3. auto. Qed.

Lemma byte_safe : forall n d (P P' : (N -> N) -> Prop) i v k s, holds n d P s ->
  (forall D, P D -> P' (fun j => if j =? i then v else D j)) ->
  (forall s, holds n d P' s -> I s -> Safe k s) -> Safe (wr (set_byte ch i v) k) s.
Proof.
  intros n d P P' i v k s Hh Hp Hk.
  apply (safe_wr I (R ch) (G ch) Q) with (P := holds n d P); [intros; eapply holds_stable; eauto|auto|].
  intros s1 (H1 & H2 & H3) Hi. split; [|split].
  - destruct ch; repeat split; reflexivity.
  - eapply I_wire; [|exact Hi]. reflexivity.
  - apply Hk; [|eapply I_wire; [|exact Hi]; reflexivity].
    split; [exact H1|]. split; [|exact H3]. cbn [h_data set_byte]. rewrite chan_eqb_refl. apply Hp. exact H2.
Qed.
Lemma len_safe : forall n n' d P k s, holds n d P s ->
  (forall s, holds n' d P s -> I s -> Safe k s) -> Safe (wr (set_len ch n') k) s.
Proof.
  intros n n' d P k s Hh Hk.
  apply (safe_wr I (R ch) (G ch) Q) with (P := holds n d P); [intros; eapply holds_stable; eauto|auto|].
  intros s1 (H1 & H2 & H3) Hi. split; [|split].
  - destruct ch; repeat split; reflexivity.
  - eapply I_wire; [|exact Hi]. reflexivity.
  - apply Hk; [|eapply I_wire; [|exact Hi]; reflexivity].
    split; [|split; assumption]. cbn [h_len set_len]. rewrite chan_eqb_refl. reflexivity.
Qed.
Lemma ctr_safe : forall n d P (g : N -> N) k s, holds n d P s ->
  (forall s, holds n d P s -> I s -> Safe k s) -> Safe (rd h_ctr (fun v => wr (set_ctr (g v)) k)) s.
Proof.
  intros n d P g k s Hh Hk.
  apply (safe_rd I (R ch) (G ch) Q (R_refl _)) with (P := holds n d P); [intros; eapply holds_stable; eauto|auto|].
  intros s1 Hh1 Hi1.
  apply (safe_wr I (R ch) (G ch) Q) with (P := holds n d P); [intros; eapply holds_stable; eauto|auto|].
  intros s2 (H1 & H2 & H3) Hi. split; [|split].
  - destruct ch; repeat split; reflexivity.
  - eapply I_wire; [|exact Hi]. reflexivity.
  - apply Hk; [|eapply I_wire; [|exact Hi]; reflexivity]. repeat split; assumption.
Qed.

Lemma rd_bytes_safe : forall n d D m i acc k s, holds n d (fun E => E = D) s -> I s ->
  (forall s, holds n d (fun E => E = D) s -> I s -> Safe (k (rev acc ++ map D (from i m))) s) ->
  Safe (rd_bytes ch i m acc k) s.
Proof.
  intros n d D. induction m as [|m IH]; intros i acc k s Hh Hi Hk; cbn [rd_bytes].
  - specialize (Hk s Hh Hi). cbn [from map] in Hk. rewrite app_nil_r in Hk. exact Hk.
  - apply (safe_rd I (R ch) (G ch) Q (R_refl _)) with (P := holds n d (fun E => E = D));
      [intros; eapply holds_stable; eauto|auto|].
    intros s1 Hh1 Hi1. apply IH; auto. intros s2 Hh2 Hi2. specialize (Hk s2 Hh2 Hi2).
    cbn [from map] in Hk. cbn [rev]. rewrite <- app_assoc. destruct Hh1 as (_ & -> & _). exact Hk.
Qed.

Lemma put_len_safe : forall p d k s, holds (lenN p) d (loaded c p) s -> I s ->
  (forall s, holds (lenN p) d (headed c p) s -> I s -> Safe k s) -> Safe (put_len c ch (lenN p) k) s.
Proof.
  intros p d k s Hh Hi Hk. destruct Wf as [Hl Hc]. unfold put_len.
  destruct (sizes _ Hl) as [E|[E|E]]; rewrite E; cbn [N.eqb Pos.eqb].
  - apply Hk; auto. destruct Hh as (H1 & H2 & H3). split; [auto|]. split; [|auto].
    split; [auto|]. rewrite E. reflexivity.
  - eapply byte_safe with (P' := headed c p); [exact Hh| |auto].
    intros D HD. split; [apply loaded_hdr; auto; unfold c_offset; lia|]. rewrite E, le_bytes1. reflexivity.
  - eapply byte_safe with (P' := fun D => loaded c p D /\ D 0 = lobyte (lenN p)); [exact Hh| |].
    { intros D HD. split; [apply loaded_hdr; auto; unfold c_offset; lia|reflexivity]. }
    intros s1 Hh1 _. eapply byte_safe with (P' := headed c p); [exact Hh1| |auto].
    intros D [HD H0]. split; [apply loaded_hdr; auto; unfold c_offset; lia|].
    rewrite E, le_bytes2. change (N.to_nat 2) with 2%nat. cbn [from map]. rewrite <- H0. reflexivity.
Qed.

Lemma put_ctr_safe : forall p d k s, holds (lenN p) d (headed c p) s -> I s ->
  (forall s, holds (lenN p) d (headed c p) s -> I s -> Safe k s) -> Safe (put_ctr c ch k) s.
Proof.
  intros p d k s Hh Hi Hk. destruct Wf as [Hl Hc]. unfold put_ctr.
  assert (Hinc : forall s, holds (lenN p) d (headed c p) s -> I s ->
    Safe (rd h_ctr (fun n => wr (set_ctr (u16 (n + 1))) k)) s).
  { intros s1 Hh1 Hi1. apply ctr_safe with (n := lenN p) (d := d) (P := headed c p) (g := fun n => u16 (n + 1)); auto. }
  destruct (sizes _ Hc) as [E|[E|E]]; rewrite E; cbn [N.eqb Pos.eqb].
  - auto.
  - apply (safe_rd I (R ch) (G ch) Q (R_refl _)) with (P := holds (lenN p) d (headed c p));
      [intros; eapply holds_stable; eauto|auto|].
    intros s1 Hh1 Hi1. eapply byte_safe with (P' := headed c p); [exact Hh1| |auto].
    intros D HD. apply headed_ctr; auto. unfold c_offset. lia.
  - apply (safe_rd I (R ch) (G ch) Q (R_refl _)) with (P := holds (lenN p) d (headed c p));
      [intros; eapply holds_stable; eauto|auto|].
    intros s1 Hh1 Hi1. eapply byte_safe with (P' := headed c p); [exact Hh1| |].
    { intros D HD. apply headed_ctr; auto. unfold c_offset. lia. }
    intros s2 Hh2 Hi2.
    apply (safe_rd I (R ch) (G ch) Q (R_refl _)) with (P := holds (lenN p) d (headed c p));
      [intros; eapply holds_stable; eauto|auto|].
    intros s3 Hh3 Hi3. eapply byte_safe with (P' := headed c p); [exact Hh3| |auto].
    intros D HD. apply headed_ctr; auto. unfold c_offset. lia.
Qed.

Lemma tl_send_safe : forall p done rest d k s, pl ch = done ++ p :: rest -> Forall2 (carries c) d done ->
  holds (lenN p) d (headed c p) s ->
  (forall s f, carries c f p -> sent ch s = d ++ [f] -> I s -> Safe k s) ->
  Safe (tl_send ch (lenN p + c_offset c) k) s.
Proof.
  intros p done rest d k s Epl Hd Hh Hk. unfold tl_send.
  apply (safe_acquire I (R ch) (G ch) Q) with (P := holds (lenN p) d (headed c p));
    [intros; eapply holds_stable; eauto|auto|].
  intros s1 (H1 & H2 & H3) Hi1. split; [destruct ch; repeat split; reflexivity|].
  split; [eapply I_wire; [|exact Hi1]; reflexivity|].
  set (D := h_data s1 ch) in *.
  apply rd_bytes_safe with (n := lenN p) (d := d) (D := D).
  { repeat split; auto. }
  { eapply I_wire; [|exact Hi1]; reflexivity. }
  intros s2 Hh2 Hi2. cbn [rev app]. pose proof (frame_of c p D H2) as Hf.
  set (f := map D _) in *. clearbody f.
  apply (safe_wr I (R ch) (G ch) Q) with (P := holds (lenN p) d (fun E => E = D));
    [intros; eapply holds_stable; eauto|auto|].
  intros s3 (A1 & A2 & A3) Hi3.
  assert (Hi4 : I (add_wire ch f s3)).
  { intros x. destruct (chan_eqb x ch) eqn:Ex.
    - assert (x = ch) by (destruct x, ch; auto; discriminate). subst x.
      exists (S (length done)). rewrite sent_add, A3, Epl.
      change (p :: rest) with ([p] ++ rest). rewrite app_assoc.
      rewrite firstn_app. replace (S (length done) - length (done ++ [p]))%nat with 0%nat by (rewrite app_length; cbn [length]; lia).
      rewrite firstn_O, app_nil_r, firstn_all2 by (rewrite app_length; cbn [length]; lia).
      apply Forall2_app; auto.
    - assert (x = other ch) by (destruct x, ch; auto; discriminate). subst x.
      destruct (Hi3 (other ch)) as [i H]. exists i. rewrite sent_other. exact H. }
  split; [|split].
  - split; [reflexivity|]. split; [reflexivity|]. apply sent_other.
  - exact Hi4.
  - apply (safe_wr I (R ch) (G ch) Q) with (P := fun s => sent ch s = d ++ [f]).
    { intros a b H (_ & _ & E). congruence. } { rewrite sent_add, A3. reflexivity. }
    intros s5 H5 Hi5. split; [destruct ch; repeat split; reflexivity|].
    split; [eapply I_wire; [|exact Hi5]; reflexivity|].
    apply (Hk _ f); auto.
Qed.

Lemma send_safe : forall p done rest d k s, pl ch = done ++ p :: rest -> Forall2 (carries c) d done ->
  holds (lenN p) d (loaded c p) s ->
  (forall s f, carries c f p -> sent ch s = d ++ [f] -> I s -> Safe k s) ->
  Safe (send c ch k) s.
Proof.
  intros p done rest d k s Epl Hd Hh Hk. unfold send.
  assert (Hs : sendable c p).
  { pose proof (Hpl ch) as H. rewrite Forall_forall in H. apply H. rewrite Epl. apply in_elt. }
  apply (safe_rd I (R ch) (G ch) Q (R_refl _)) with (P := holds (lenN p) d (loaded c p));
    [intros; eapply holds_stable; eauto|auto|].
  intros s1 Hh1 Hi1. rewrite (proj1 Hh1). apply put_len_safe with (d := d); auto.
  intros s2 Hh2 Hi2. apply put_ctr_safe with (p := p) (d := d); auto.
  intros s3 Hh3 Hi3.
  apply (safe_rd I (R ch) (G ch) Q (R_refl _)) with (P := holds (lenN p) d (headed c p));
    [intros; eapply holds_stable; eauto|auto|].
  intros s4 Hh4 Hi4. rewrite (proj1 Hh4).
  replace (u16 (lenN p + c_offset c)) with (lenN p + c_offset c)
    by (unfold u16; rewrite N.mod_small; [reflexivity|exact Hs]).
  eapply tl_send_safe; eauto.
Qed.

(** The bytes [done ++ rest] are being written upwards, [done] are there. *)
Lemma put_up_safe : forall n d bs done k s,
  holds n d (fun D => loaded c done D) s -> I s ->
  (forall s, holds n d (loaded c (done ++ bs)) s -> I s -> Safe k s) ->
  Safe (put_up ch (c_offset c + lenN done) bs k) s.
Proof.
  intros n d. induction bs as [|b t IH]; intros done k s Hh Hi Hk; cbn [put_up].
  - rewrite app_nil_r in Hk. auto.
  - eapply byte_safe with (P' := loaded c (done ++ [b])); [exact Hh| |].
    + intros D HD j Hj. unfold lenN in *. rewrite app_length in Hj. cbn [length] in Hj.
      destruct (N.eqb_spec (c_offset c + j) (c_offset c + N.of_nat (length done))) as [E|E].
      * replace (N.to_nat j) with (length done) by lia. rewrite nth_middle. reflexivity.
      * rewrite HD by (unfold lenN; lia). rewrite app_nth1 by lia. reflexivity.
    + intros s1 Hh1 Hi1. replace (c_offset c + lenN done + 1) with (c_offset c + lenN (done ++ [b]))
        by (unfold lenN; rewrite app_length; cbn [length]; lia).
      apply IH; auto. rewrite <- app_assoc. exact Hk.
Qed.

(** The same downwards: [bs] from [i] on. *)
Definition at_ (i : N) (bs : list N) (D : N -> N) : Prop :=
  forall k, k < lenN bs -> D (i + k) = nth (N.to_nat k) bs 0.
Lemma put_down_safe : forall n d bs i k s, holds n d (fun _ => True) s -> I s ->
  (forall s, holds n d (at_ i bs) s -> I s -> Safe k s) -> Safe (put_down ch i bs k) s.
Proof.
  intros n d. induction bs as [|b t IH]; intros i k s Hh Hi Hk; cbn [put_down].
  - apply Hk; auto. destruct Hh as (H1 & _ & H3). split; [auto|]. split; [|auto].
    intros j Hj. unfold lenN in Hj. cbn in Hj. lia.
  - apply IH; auto. intros s1 Hh1 Hi1.
    eapply byte_safe with (P' := at_ i (b :: t)); [exact Hh1| |auto].
    intros D HD j Hj. destruct (N.eqb_spec (i + j) i) as [E|E].
    + replace j with 0 by lia. reflexivity.
    + replace (N.to_nat j) with (S (N.to_nat (j - 1))) by lia. cbn [nth].
      rewrite <- HD; [f_equal; lia|]. unfold lenN in *. cbn [length] in Hj. lia.
Qed.
End Chan.

Lemma responses_safe : forall rest done d s, pl Cto = done ++ rest -> Forall2 (carries c) d done ->
  sent Cto s = d -> I s ->
  safe I (R Cto) (G Cto) (fun s => Forall2 (carries c) (sent Cto s) (pl Cto)) (responses c rest) s.
Proof.
  induction rest as [|p rest IH]; intros done d s Epl Hd Hs Hi; cbn [responses].
  - rewrite app_nil_r in Epl. apply safe_halt with (P := fun s => sent Cto s = d).
    { intros a b H (_ & _ & E). congruence. } { exact Hs. }
    intros s1 H1 _. rewrite H1, Epl. exact Hd.
  - unfold response. eapply len_safe with (P := fun _ => True) (d := d) (n := h_len s Cto).
    { repeat split; auto. }
    intros s1 Hh1 Hi1. apply put_down_safe with (n := lenN p) (d := d); auto.
    intros s2 Hh2 Hi2. eapply send_safe; eauto.
    intros s3 f Hf Hs3 Hi3. apply IH with (done := done ++ [p]) (d := d ++ [f]); auto.
    + rewrite <- app_assoc. exact Epl.
    + apply Forall2_app; auto.
Qed.
Lemma samples_safe : forall rest done d s, pl Dto = done ++ rest -> Forall2 (carries c) d done ->
  sent Dto s = d -> I s ->
  safe I (R Dto) (G Dto) (fun s => Forall2 (carries c) (sent Dto s) (pl Dto)) (samples c rest) s.
Proof.
  induction rest as [|p rest IH]; intros done d s Epl Hd Hs Hi; cbn [samples].
  - rewrite app_nil_r in Epl. apply safe_halt with (P := fun s => sent Dto s = d).
    { intros a b H (_ & _ & E). congruence. } { exact Hs. }
    intros s1 H1 _. rewrite H1, Epl. exact Hd.
  - unfold sample. replace (c_offset c) with (c_offset c + lenN (@nil N)) by (cbn; lia).
    apply put_up_safe with (n := h_len s Dto) (d := d); auto.
    { split; [reflexivity|]. split; [|auto]. intros j Hj. unfold lenN in Hj. cbn in Hj. lia. }
    intros s1 Hh1 Hi1. cbn [app] in Hh1. eapply len_safe with (P := loaded c p) (d := d); [exact Hh1|].
    intros s2 Hh2 Hi2. eapply send_safe; eauto.
    intros s3 f Hf Hs3 Hi3. apply IH with (done := done ++ [p]) (d := d ++ [f]); auto.
    + rewrite <- app_assoc. exact Epl.
    + apply Forall2_app; auto.
Qed.
End Payload.

Theorem payload_thm : forall c ps qs sched s, wf_sizes c -> Forall (sendable c) ps -> Forall (sendable c) qs ->
  quiet s ->
  let x := run sched (responses c ps) (samples c qs) s in
  (exists i, Forall2 (carries c) (sent Cto (shared x)) (firstn i ps)) /\
  (exists j, Forall2 (carries c) (sent Dto (shared x)) (firstn j qs)) /\
  (finished x -> Forall2 (carries c) (sent Cto (shared x)) ps /\ Forall2 (carries c) (sent Dto (shared x)) qs).
Proof.
  intros c ps qs sched s Wf Hp Hq [Hw _] x.
  pose (pl := fun ch => match ch with Cto => ps | Dto => qs end).
  assert (Hpl : forall ch, Forall (sendable c) (pl ch)) by (destruct ch; assumption).
  assert (Hs : forall ch, sent ch s = []) by (intros; unfold sent; rewrite Hw; reflexivity).
  assert (H0 : I c pl s) by (intros ch; exists 0%nat; rewrite Hs; constructor).
  pose proof (responses_safe c Wf pl Hpl ps [] [] s eq_refl (Forall2_nil _) (Hs Cto) H0) as HA.
  pose proof (samples_safe c Wf pl Hpl qs [] [] s eq_refl (Forall2_nil _) (Hs Dto) H0) as HB.
  assert (H12 : forall a b, G Cto a b -> R Dto a b) by (intros a b h; exact h).
  assert (H21 : forall a b, G Dto a b -> R Cto a b) by (intros a b h; exact h).
  pose proof (par _ _ _ _ _ _ _ (R_refl Cto) (R_trans Cto) (R_refl Dto) (R_trans Dto) H12 H21
    sched _ _ s H0 HA HB) as H.
  pose proof (par_end _ _ _ _ _ _ _ (R_refl Cto) (R_trans Cto) (R_refl Dto) (R_trans Dto) H12 H21
    sched _ _ s H0 HA HB) as He.
  fold x in He. assert (HI : I c pl (shared x)).
  { unfold x, shared. destruct (run sched _ _ _) as [[a b] s']. exact (proj1 H). }
  split; [exact (HI Cto)|]. split; [exact (HI Dto)|]. intros Hf. exact (He Hf).
Qed.
