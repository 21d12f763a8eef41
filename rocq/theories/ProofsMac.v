From Coq Require Import ZArith NArith List Bool Lia.
From Coq Require Import ZifyBool ZifyNat ZifyN.
From Verif Require Import Base Config Codec State Queue Daq Core Spec SpecFrames SpecDaq Exec ProofsFrames Mac SpecMac.
Import ListNotations.
Open Scope N_scope.

(** ** Ticks *)

Lemma mac_run_app : forall a b s, mac_run (a ++ b) s = mac_run b (mac_run a s).
Proof. induction a as [|j a IH]; intros b s; cbn; auto. Qed.

Definition minv (s : mac) (n1 n2 : N) : Prop :=
  mc_i s <= n1 + n2 /\
  (mc_ended s = false -> mc_on1 s = true -> n1 <= mc_i s /\ n1 < 20) /\
  (mc_ended s = false -> mc_on1 s = false -> mc_due1 s = true) /\
  (mc_on1 s = false -> 20 <= mc_i s) /\
  (mc_ended s = true \/ mc_due1 s = true -> 20 <= mc_i s) /\
  (mc_due1 s = true -> mc_on1 s = false) /\
  (mc_ended s = true -> mc_on1 s = false).

Lemma minv_run : forall l s n1 n2, minv s n1 n2 -> minv (mac_run l s) (n1 + ticks1 l) (n2 + ticks2 l).
Proof.
  induction l as [|j l IH]; intros s n1 n2 H.
  - cbn [mac_run ticks1 ticks2]. now rewrite !N.add_0_r.
  - cbn [mac_run].
    assert (E : minv (mac_job j s) (n1 + match j with Tick1 => 1 | _ => 0 end) (n2 + match j with Tick2 => 1 | _ => 0 end)).
    { clear IH. unfold minv in *. destruct s as [i [] [] [] [] []], j; unfold mac_job, vector1, vector2;
        cbn [mc_i mc_on1 mc_on2 mc_due1 mc_due2 mc_ended] in *; rewrite ?N.add_0_r;
        try (destruct (20 <=? i + 1) eqn:L); cbn [mc_i mc_on1 mc_on2 mc_due1 mc_due2 mc_ended];
        intuition (try discriminate; try lia). }
    apply IH in E.
    replace (n1 + ticks1 (j :: l)) with (n1 + match j with Tick1 => 1 | _ => 0 end + ticks1 l) by (destruct j; cbn [ticks1]; lia).
    replace (n2 + ticks2 (j :: l)) with (n2 + match j with Tick2 => 1 | _ => 0 end + ticks2 l) by (destruct j; cbn [ticks2]; lia).
    exact E.
Qed.

Lemma minv_init : forall l, minv (mac_run l mac_init) (ticks1 l) (ticks2 l).
Proof.
  intros l. apply (minv_run l mac_init 0 0). unfold minv, mac_init. cbn. repeat split; intros; try discriminate; try lia.
Qed.

Lemma ended_stays : forall l s, mc_ended s = true -> mc_ended (mac_run l s) = true.
Proof. induction l as [|j l IH]; intros s H; cbn [mac_run]; auto. apply IH. unfold mac_job. now rewrite H. Qed.

Lemma mac_ends : forall l l', 20 <= ticks1 l -> ~ alive (l ++ Cancelled1 :: l').
Proof.
  intros l l' H A. unfold alive in A. rewrite mac_run_app in A. cbn [mac_run] in A.
  destruct (minv_init l) as (_ & B & C & _). set (s := mac_run l mac_init) in *.
  rewrite ended_stays in A; [discriminate|]. unfold mac_job. destruct (mc_ended s) eqn:E; auto.
  destruct (mc_on1 s) eqn:O; [specialize (B eq_refl eq_refl); lia|]. now rewrite (C eq_refl eq_refl).
Qed.

(** Ticks are counted as long as both timers run. *)
Definition cinv (s : mac) (n : N) : Prop :=
  (mc_ended s = false -> mc_on1 s = true -> n <= mc_i s \/ 20 <= mc_i s) /\
  (mc_ended s = false -> mc_on1 s = false -> mc_due1 s = true) /\ (mc_on2 s = false -> 20 <= mc_i s).
Lemma cinv_run : forall l s n, cinv s n -> cinv (mac_run l s) (n + ticks1 l + ticks2 l).
Proof.
  induction l as [|j l IH]; intros s n H.
  - cbn [mac_run ticks1 ticks2]. now rewrite !N.add_0_r.
  - cbn [mac_run].
    assert (E : cinv (mac_job j s) (n + match j with Tick1 | Tick2 => 1 | _ => 0 end)).
    { clear IH. unfold cinv in *. destruct s as [i [] [] [] [] []], j; unfold mac_job, vector1, vector2;
        cbn [mc_i mc_on1 mc_on2 mc_due1 mc_due2 mc_ended] in *; rewrite ?N.add_0_r;
        try (destruct (20 <=? i + 1) eqn:L); cbn [mc_i mc_on1 mc_on2 mc_due1 mc_due2 mc_ended];
        intuition (try discriminate; try lia). }
    apply IH in E.
    replace (n + ticks1 (j :: l) + ticks2 (j :: l)) with (n + match j with Tick1 | Tick2 => 1 | _ => 0 end + ticks1 l + ticks2 l)
      by (destruct j; cbn [ticks1 ticks2]; lia).
    exact E.
Qed.

Lemma due_stays : forall l s, mc_ended s = true \/ mc_due1 s = true -> mc_ended (mac_run l s) = true \/ mc_due1 (mac_run l s) = true.
Proof.
  induction l as [|j l IH]; intros s H; cbn [mac_run]; auto. apply IH.
  destruct s as [i [] [] [] [] []], j; unfold mac_job, vector1, vector2; cbn in *; auto;
    try (destruct (20 <=? i + 1); cbn; auto); destruct H; discriminate.
Qed.

Lemma mac_soon : forall l l1 l', 20 <= ticks1 l + ticks2 l -> ~ alive (l ++ Tick1 :: l1 ++ Cancelled1 :: l').
Proof.
  intros l l1 l' H A. unfold alive in A. rewrite mac_run_app in A. cbn [mac_run] in A. rewrite mac_run_app in A. cbn [mac_run] in A.
  assert (C0 : cinv mac_init 0) by (unfold cinv, mac_init; cbn; intuition (try discriminate; try lia)).
  destruct (cinv_run l _ _ C0) as (B & C & _). set (s := mac_run l mac_init) in *.
  assert (D : mc_ended (mac_job Tick1 s) = true \/ mc_due1 (mac_job Tick1 s) = true).
  { unfold mac_job. destruct (mc_ended s) eqn:E; [auto|]. destruct (mc_on1 s) eqn:O; [|right; apply C; auto].
    right. unfold vector1. replace (20 <=? mc_i s + 1) with true; [reflexivity|]. symmetry. apply N.leb_le.
    destruct (B eq_refl eq_refl); lia. }
  apply (due_stays l1) in D. rewrite ended_stays in A; [discriminate|].
  unfold mac_job at 1. destruct (mc_ended (mac_run l1 (mac_job Tick1 s))) eqn:E; [exact E|]. destruct D as [D|D]; [discriminate|]. now rewrite D.
Qed.

Lemma mac_counts_gen : forall l s,
  (mc_i s <= 19 /\ mc_on1 s = true /\ mc_on2 s = true) \/
  (mc_i s <= 20 /\ (mc_on1 s = false \/ mc_on2 s = false)) \/
  (mc_i s <= 21 /\ mc_on1 s = false /\ mc_on2 s = false) \/ False ->
  mc_i (mac_run l s) <= 21.
Proof.
  induction l as [|j l IH]; intros s H; cbn [mac_run]; [lia|]. apply IH. clear IH.
  destruct s as [i [] [] [] [] []], j; unfold mac_job, vector1, vector2;
    cbn [mc_i mc_on1 mc_on2 mc_due1 mc_due2 mc_ended] in *;
    try (destruct (20 <=? i + 1) eqn:L; [apply N.leb_le in L|apply N.leb_gt in L]);
    cbn [mc_i mc_on1 mc_on2 mc_due1 mc_due2 mc_ended]; intuition (try discriminate; try lia).
Qed.
Lemma mac_counts : forall l, mc_i (mac_run l mac_init) <= 21.
Proof. intros l. apply mac_counts_gen. left. cbn. repeat split. lia. Qed.

Lemma mac_only_gen : forall l s, ~ In Cancelled1 l -> mc_ended s = false -> mc_ended (mac_run l s) = false.
Proof.
  induction l as [|j l IH]; intros s H E; cbn [mac_run]; auto. apply IH; [intro K; apply H; now right|].
  destruct j; unfold mac_job, vector1, vector2; rewrite E.
  - destruct (mc_on1 s); [destruct (20 <=? mc_i s + 1)|]; cbn; auto.
  - destruct (mc_on2 s); [destruct (20 <=? mc_i s + 1)|]; cbn; auto.
  - exfalso. apply H. now left.
  - destruct (mc_due2 s); cbn; auto.
Qed.
Lemma mac_only : forall l, ~ In Cancelled1 l -> alive l.
Proof. intros l H. apply mac_only_gen; auto. Qed.

Lemma mac_lives : forall l, ticks1 l + ticks2 l < 20 -> alive l.
Proof.
  intros l H. unfold alive. destruct (minv_init l) as (A & _ & _ & _ & E & _).
  destruct (mc_ended (mac_run l mac_init)); auto. specialize (E (or_introl eq_refl)). lia.
Qed.

(** ** The clock *)

Lemma table_timeless : forall c k h, getN (table c) k = Some h -> k <> 35 -> forall t e s, h (at_time t e) s = h e s.
Proof.
  intros c k h H N t e s.
  assert (exists n, k = N.of_nat n) as (n & ->) by (exists (N.to_nat k); lia).
  unfold getN in H. rewrite Nat2N.id in H. unfold table in H.
  do 57 (destruct n as [|n]; [try (exfalso; apply N; reflexivity); cbn [nth_error] in H; injection H as <-;
    repeat match goal with |- context [if ?b then _ else _] => destruct b end; reflexivity|cbn [nth_error] in H]).
  destruct n; discriminate.
Qed.

Lemma step_timeless : forall c e o s t, timeless o -> step c (at_time t e) o s = step c e o s.
Proof.
  intros c e o s t H. destruct o; try reflexivity; [|contradiction].
  cbn [step]. unfold receive. destruct frame as [|b f]; [reflexivity|].
  destruct (lenN (b :: f) =? 0); [reflexivity|]. destruct (c_ctobuf c <? lenN (b :: f)); [reflexivity|].
  assert (N : b <> 0xDC) by (intros ->; exact H).
  unfold dispatch. set (s0 := set_s_in _ s). destruct (lenN (s_in s0) <? 8) eqn:L8; [reflexivity|].
  change (gb (s_in s0) 0) with b. destruct (s_conn s0); [|destruct (b =? 0xFF); reflexivity].
  destruct (s_busy s0); [reflexivity|]. destruct (getN (table c) (255 - b)) as [h|] eqn:E; [|reflexivity].
  apply (table_timeless c (255 - b)); auto. lia.
Qed.

Lemma event_timeless : forall c e ev s t, c_ts c = false \/ N.testbit (d_mode (s_daq s)) 4 = false ->
  step c (at_time t e) (OTrigger ev) s = step c e (OTrigger ev) s.
Proof.
  intros c e ev s t H. cbn [step]. unfold trigger, sample_event. cbn [e_timer at_time].
  assert (E : c_ts c && (N.land (d_mode (s_daq s)) 0x10 =? 0x10) = false).
  { destruct H as [->|H]; [reflexivity|]. apply andb_false_intro2. apply N.eqb_neq. intros E.
    assert (N.testbit (N.land (d_mode (s_daq s)) 0x10) 4 = true) by now rewrite E.
    rewrite N.land_spec, H in H0. discriminate. }
  rewrite E. reflexivity.
Qed.

Lemma run_timeless : forall c l l', other_times l l' ->
  (c_ts c = false /\ Forall (fun x => match snd x with OTrigger _ => True | o => timeless o end) l \/ Forall (fun x => timeless (snd x)) l) ->
  forall s, run c l' s = run c l s.
Proof.
  intros c l l' O. induction O as [|e t o l l' O IH]; intros H s; [reflexivity|]. cbn [run].
  assert (E : step c (at_time t e) o s = step c e o s).
  { destruct H as [(T & F)|F]; apply Forall_inv in F; cbn [snd] in F.
    - destruct o; try (apply step_timeless; exact F). apply event_timeless. auto.
    - now apply step_timeless. }
  rewrite E. unfold andthen. destruct (step c e o s) as [(s1 & o1)|w]; [|reflexivity]. cbn.
  rewrite IH; [reflexivity|]. destruct H as [(T & F)|F]; apply Forall_inv_tail in F; auto.
Qed.

Lemma mac_one : forall c e o s, timeless o -> forall r, mac_outcome c e o s r <-> r = step c e o s.
Proof.
  intros c e o s H r. unfold mac_outcome. split.
  - intros (t & _ & ->). exact (step_timeless c e o s t H).
  - intros ->. exists 0. split; [reflexivity|]. symmetry. exact (step_timeless c e o s 0 H).
Qed.

Lemma mac_any : forall c m l s o e f bs, reachable c m l s o -> dlc_ok c -> ready s -> wf_env c e ->
  c_daq c = true -> c_opt c 0xDC = true -> ~ programming s -> ~ locked c 4 s -> lenN (0xDC :: f) <= c_ctobuf c ->
  lenN bs = 4 -> bytes bs ->
  exists s' o', mac_outcome c e (ORecv (0xDC :: f)) s (Ok (s', o')) /\ sends o' (padded c ([0xFF; 0; 0; 0] ++ bs)).
Proof.
  intros c m l s o e f bs R D Hr We Hd Ho P Lk L Lb B.
  destruct bs as [|b0 [|b1 [|b2 [|b3 [|? ?]]]]]; try (exfalso; cbn [lenN length N.of_nat] in Lb; unfold lenN in Lb; cbn [length] in Lb; lia).
  assert (Hb : b0 < 256 /\ b1 < 256 /\ b2 < 256 /\ b3 < 256).
  { unfold bytes in B. repeat match goal with H : Forall _ (_ :: _) |- _ => inversion H; clear H; subst end. auto. }
  clear B. set (t := b0 + 256 * b1 + 65536 * b2 + 16777216 * b3).
  assert (T : t < 2 ^ 32) by (unfold t; change (2 ^ 32) with 4294967296; lia).
  assert (E : le_bytes 4 t = [b0; b1; b2; b3]).
  { unfold t. cbn [le_bytes]. repeat f_equal; lia. }
  assert (We' : wf_env c (at_time t e)) by (destruct We; constructor; auto).
  destruct (clock_thm c m l s o (at_time t e) f R D Hr We' Hd Ho P Lk L) as (s' & o' & S & Se & _).
  cbn [e_timer at_time] in Se. rewrite E in Se. exists s', o'. split; [|exact Se].
  exists t. split; [exact T|]. symmetry. exact S.
Qed.
