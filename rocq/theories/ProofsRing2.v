(** The queue of DAQ frames with two writers. *)
From Coq Require Import NArith ZArith List Bool Lia ZifyBool ZifyNat ZifyN.
From Verif Require Import Base Conc Ring SpecConc ProofsConc0 ProofsRace.
Import ListNotations.
Open Scope N_scope.

Lemma solo_fill : forall slots i bs j k r, exists r', solo (fill slots i j bs k) r k r' /\
  g_head r' = g_head r /\ g_tail r' = g_tail r /\ g_ovl r' = g_ovl r /\ g_len r' = g_len r /\
  g_put r' = g_put r /\ g_got r' = g_got r /\
  forall x y, g_slot r' x y = if (x =? i) && (j <=? y) && (y <? j + lenN bs) then nth (N.to_nat (y - j)) bs 0 else g_slot r x y.
Proof.
  intros slots i. induction bs as [|b t IH]; intros j k r; cbn [fill].
  - exists r. split; [apply solo_refl|]. repeat (split; [reflexivity|]). intros x y.
    change (lenN (@nil N)) with 0. replace ((x =? i) && (j <=? y) && (y <? j + 0)) with false by lia. reflexivity.
  - destruct (IH (j + 1) k (put_slot slots i j b r)) as (r' & H1 & H2 & H3 & H4 & H5 & H6 & H7 & H8).
    exists r'. split; [apply solo_wr; exact H1|]. repeat (split; [assumption|]). intros x y. rewrite H8.
    cbn [put_slot g_slot]. unfold lenN. cbn [length].
    destruct (N.eqb_spec x i) as [->|Hx]; cbn [andb]; [|reflexivity].
    destruct (N.eqb_spec y j) as [->|Hy].
    + replace (j + 1 <=? j) with false by lia. cbn [andb].
      replace ((j <=? j) && (j <? j + N.of_nat (S (length t)))) with true by lia.
      rewrite N.sub_diag. reflexivity.
    + replace ((j <=? y) && (y <? j + N.of_nat (S (length t))))
        with ((j + 1 <=? y) && (y <? j + 1 + N.of_nat (length t))) by lia.
      destruct ((j + 1 <=? y) && (y <? j + 1 + N.of_nat (length t))) eqn:E; [|reflexivity].
      replace (N.to_nat (y - j)) with (S (N.to_nat (y - (j + 1)))) by lia. reflexivity.
Qed.

Definition same_shown (r r' : ring) : Prop :=
  g_head r' = g_head r /\ g_tail r' = g_tail r /\ g_len r' = g_len r /\ g_slot r' = g_slot r /\ g_got r' = g_got r.
Lemma solo_drain : forall slots i n j acc k r, exists r',
  solo (drain slots i j n acc k) r (k (rev acc ++ map (g_slot r i) (from j n))) r' /\ same_shown r r'.
Proof.
  intros slots i. induction n as [|n IH]; intros j acc k r; cbn [drain from map].
  - rewrite app_nil_r. exists r. split; [apply solo_refl|]. repeat split.
  - destruct (IH (j + 1) (g_slot r i j :: acc) k (touch slots i r)) as (r' & H1 & H2).
    exists r'. split; [|exact H2]. eapply solo_step; [reflexivity|].
    cbn [rev] in H1. rewrite <- app_assoc in H1. exact H1.
Qed.

(** One call of the reader. *)
Lemma solo_dequeue : forall slots k r, g_head r <> g_tail r -> exists r',
  solo (dequeue slots k) r k r' /\ g_head r' = g_head r /\ g_tail r' = (g_tail r + 1) mod (slots + 1) /\
  g_len r' = g_len r /\ g_slot r' = g_slot r /\
  g_got r' = g_got r ++ [map (g_slot r (g_tail r)) (from 0 (N.to_nat (g_len r (g_tail r))))].
Proof.
  intros slots k r Hne. unfold dequeue.
  destruct (solo_drain slots (g_tail r) (N.to_nat (g_len r (g_tail r))) 0 []
    (fun bs => rd g_tail (fun t => wr (put_tail ((t + 1) mod (slots + 1)) bs) k)) (touch slots (g_tail r) r))
    as (r' & H1 & (H2 & H3 & H4 & H5 & H6)).
  cbn [rev app] in H1. eexists. split.
  - apply solo_rd, solo_rd. rewrite (proj2 (N.eqb_neq _ _) Hne). apply solo_rd.
    eapply solo_step; [reflexivity|]. apply solo_rd.
    eapply solo_trans; [exact H1|]. apply solo_rd, solo_wr, solo_refl.
  - cbn [put_tail g_head g_tail g_len g_slot g_got]. rewrite H2, H3, H4, H5, H6. repeat split.
Qed.

(** The writer alone. *)
Lemma solo_enqueue : forall slots p k r, (g_head r + 1) mod (slots + 1) <> g_tail r -> exists r',
  solo (enqueue slots p k) r k r' /\ g_head r' = (g_head r + 1) mod (slots + 1) /\ g_tail r' = g_tail r /\
  g_ovl r' = g_ovl r /\ g_put r' = g_put r ++ [p] /\ g_got r' = g_got r /\
  g_len r' = (fun j => if j =? g_head r then u8 (lenN p) else g_len r j).
Proof.
  intros slots p k r Hnf. unfold enqueue.
  destruct (solo_fill slots (g_head r) p 0 (rd g_head (fun h => wr (put_head ((h + 1) mod (slots + 1)) p) k))
    (put_slot_len slots (g_head r) (u8 (lenN p)) r)) as (r' & H1 & H2 & H3 & H4 & H5 & H6 & H7 & H8).
  eexists. split.
  - apply solo_rd, solo_rd. rewrite (proj2 (N.eqb_neq _ _) Hnf). apply solo_rd, solo_wr, solo_rd.
    eapply solo_trans; [exact H1|]. apply solo_rd, solo_wr, solo_refl.
  - cbn [put_head g_head g_tail g_len g_ovl g_put g_got]. rewrite H2, H3, H4, H5, H6, H7. repeat split.
Qed.

(** Both writers find the same slot free. *)
Theorem two_writers : forall slots p q, 2 <= slots -> queueable p -> queueable q -> lenN p = lenN q ->
  exists sched, let x := run sched (producer slots [p]) (producer slots [q]) ring0 in
  finished x /\ g_put (shared x) = [q; p] /\ g_ovl (shared x) = false /\
  exists sched', let y := run sched' (consumer slots 2) Halt (shared x) in
  finished y /\ g_got (shared y) = [p; []].
Proof.
  intros slots p q Hs Hp Hq Hl. cbn [producer].
  pose (fin := rd g_head (fun h => wr (put_head ((h + 1) mod (slots + 1)) p) (@Halt ring))).
  set (r1 := put_slot_len slots 0 (u8 (lenN p)) ring0).
  assert (M1 : 1 mod (slots + 1) = 1) by (apply N.mod_small; lia).
  assert (M2 : 2 mod (slots + 1) = 2) by (apply N.mod_small; lia).
  assert (A1 : solo (enqueue slots p Halt) ring0 (fill slots 0 0 p fin) r1).
  { unfold enqueue. apply solo_rd, solo_rd. cbn [ring0 g_head g_tail]. change (0 + 1) with 1. rewrite M1.
    cbn [N.eqb]. apply solo_rd, solo_wr. apply solo_rd, solo_refl. }
  destruct (solo_enqueue slots q Halt r1) as (r2 & B1 & B2 & B3 & B4 & B5 & B6 & B7).
  { cbn [r1 put_slot_len ring0 g_head g_tail]. change (0 + 1) with 1. rewrite M1. discriminate. }
  cbn [r1 put_slot_len ring0 g_head g_tail g_len g_ovl g_put g_got app] in B2, B3, B4, B5, B6, B7.
  change (0 + 1) with 1 in B2. rewrite M1 in B2.
  destruct (solo_fill slots 0 p 0 fin r2) as (r3 & C1 & C2 & C3 & C4 & C5 & C6 & C7 & C8).
  set (r4 := put_head ((g_head r3 + 1) mod (slots + 1)) p r3).
  assert (D1 : solo (fill slots 0 0 p fin) r2 Halt r4).
  { eapply solo_trans; [exact C1|]. unfold fin. apply solo_rd, solo_wr, solo_refl. }
  destruct (relay _ (enqueue slots q Halt) ring0 _ r1 _ r2 _ r4 _ r4 A1 B1 D1 (solo_refl _ _)) as [l1 H1].
  exists l1. cbv zeta. rewrite H1. cbn [shared snd]. split; [reflexivity|].
  split; [cbn [r4 put_head g_put]; rewrite C6, B5; reflexivity|].
  split; [cbn [r4 put_head g_ovl]; rewrite C4; exact B4|].
  assert (E1 : g_head r4 = 2) by (cbn [r4 put_head g_head]; rewrite C2, B2; exact M2).
  assert (E2 : g_tail r4 = 0) by (cbn [r4 put_head g_tail]; rewrite C3; exact B3).
  destruct (solo_dequeue slots (dequeue slots Halt) r4) as (r5 & F1 & F2 & F3 & F4 & F5 & F6); [rewrite E1, E2; discriminate|].
  rewrite E2 in F3, F6. change (0 + 1) with 1 in F3. rewrite M1 in F3.
  destruct (solo_dequeue slots Halt r5) as (r6 & G1 & G2 & G3 & G4 & G5 & G6); [rewrite F2, F3, E1; discriminate|].
  rewrite F3, F4 in G6.
  assert (X : solo (consumer slots 2) r4 Halt r6) by (cbn [consumer]; eapply solo_trans; eauto).
  destruct (solo_run1 _ _ _ _ Halt X) as [l2 H2].
  exists l2. rewrite H2. cbn [shared snd]. split; [reflexivity|].
  assert (L : forall j, g_len r4 j = if j =? 0 then u8 (lenN q) else if j =? 0 then u8 (lenN p) else 0).
  { intros j. cbn [r4 put_head g_len]. rewrite C5, B7. reflexivity. }
  rewrite !L in *. cbn [N.eqb Pos.eqb] in *. change (N.to_nat 0) with 0%nat in G6. cbn [from map] in G6.
  rewrite G6, F6. cbn [r4 put_head g_got]. rewrite C7, B6. cbn [app]. f_equal.
  unfold queueable in *. unfold u8. rewrite N.mod_small by lia. rewrite <- Hl. unfold lenN. rewrite Nat2N.id.
  change (map (g_slot r3 0) (from 0 (length p)) = p).
  apply map_from. intros i Hi. rewrite N.add_0_l, C8. unfold lenN in *.
  replace ((0 =? 0) && (0 <=? i) && (i <? 0 + N.of_nat (length p))) with true by lia.
  rewrite N.sub_0_r. reflexivity.
Qed.
