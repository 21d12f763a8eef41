(** Proofs for C163. *)
From Coq Require Import ZArith NArith List Bool Lia ZifyBool ZifyNat ZifyN.
From Verif Require Import Base Hw SpecHw ProofsHw Clocks SpecClocks.
Open Scope N_scope.
Ltac Zify.zify_post_hook ::= Z.div_mod_to_equations.

Lemma counter_any : forall a b, normal a -> normal b -> linux_counter_ns a b = Z.to_N ((nanoseconds b - nanoseconds a) mod 2 ^ 64).
Proof.
  intros a b H1 H2. destruct (diff_thm a b H1 H2) as [D1 D2]. unfold linux_counter_ns. cbv zeta.
  destruct (timespec_diff a b) as [s n]. unfold normal, nanoseconds in D1. cbn [tv_sec tv_nsec] in *. rewrite <- D2. clear D2.
  unfold nanoseconds. cbn [tv_sec tv_nsec].
  assert (P : (0 <= s mod 2 ^ 64 < 2 ^ 64)%Z) by (apply Z.mod_pos_bound; reflexivity).
  rewrite (Z.mod_small n) by (change (2 ^ 64)%Z with 18446744073709551616%Z; lia).
  set (r := (s mod 2 ^ 64)%Z) in *.
  replace (Z.to_N r * 1000 * 1000 * 1000 + Z.to_N n) with (Z.to_N (r * 1000000000 + n)) by (clearbody r; lia).
  change (2 ^ 64) with (Z.to_N (2 ^ 64)). rewrite <- Z2N.inj_mod by (clearbody r; lia). f_equal. unfold r.
  rewrite <- Zplus_mod_idemp_l, Zmult_mod_idemp_l, Zplus_mod_idemp_l. reflexivity.
Qed.

Section Running.
Variables (k : clocks) (ahead : N -> Z).
Hypothesis R : running k ahead.

Definition since (t0 t : N) : N := Z.to_N ((Z.of_N t - Z.of_N t0 - ahead t0) mod 2 ^ 64).

Lemma ns_since : forall t0 t, linux_counter_ns (starting_time k t0) (monotonic_raw k t) = since t0 t.
Proof.
  intros t0 t. unfold starting_time, since. rewrite counter_any by apply (r_normal _ _ R).
  rewrite (r_raw _ _ R), (r_mono _ _ R). do 2 f_equal. lia.
Qed.

Lemma ms_since : forall t0 t, ms_clock k t0 t = (since t0 t / 1000000) mod 2 ^ 32.
Proof.
  intros. unfold ms_clock, linux_timer_ms, linux_elapsed. rewrite ns_since, land_mask. change (2 ^ (8 * 4)) with (2 ^ 32). apply N.mod_mod. lia.
Qed.
Lemma daq_since : forall ps t0 t, daq_clock ps 4 k t0 t = since t0 t mod (2 ^ 32 - 1).
Proof.
  intros. unfold daq_clock, linux_timer. cbv zeta. rewrite ns_since, land_mask. change (2 ^ (8 * 4)) with (2 ^ 32).
  assert (B : since t0 t mod (2 ^ 32 - 1) < 2 ^ 32 - 1) by (apply N.mod_lt; discriminate).
  change (2 ^ 32 - 1) with 4294967295 in *. change (2 ^ 32) with 4294967296. set (x := since t0 t mod 4294967295) in *. clearbody x.
  rewrite (N.mod_small x 4294967296) by lia. apply N.mod_small. lia.
Qed.

Lemma since_behind : forall t0 e d, ahead t0 = (- Z.of_N d)%Z -> e + d < 2 ^ 64 -> since t0 (t0 + e) = e + d.
Proof.
  intros t0 e d H B. unfold since. rewrite H. replace (Z.of_N (t0 + e) - Z.of_N t0 - - Z.of_N d)%Z with (Z.of_N (e + d)) by lia.
  rewrite Z.mod_small by (change (2 ^ 64)%Z with (Z.of_N (2 ^ 64)); lia). apply N2Z.id.
Qed.
Lemma since_ahead : forall t0 e d, ahead t0 = Z.of_N d -> d <= e -> e < 2 ^ 64 -> since t0 (t0 + e) = e - d.
Proof.
  intros t0 e d H B C. unfold since. rewrite H. replace (Z.of_N (t0 + e) - Z.of_N t0 - Z.of_N d)%Z with (Z.of_N (e - d)) by lia.
  rewrite Z.mod_small by (change (2 ^ 64)%Z with (Z.of_N (2 ^ 64)); lia). apply N2Z.id.
Qed.
Lemma since_before : forall t0 e d, ahead t0 = Z.of_N d -> e < d -> d <= 2 ^ 64 -> since t0 (t0 + e) = 2 ^ 64 - (d - e).
Proof.
  intros t0 e d H B C. unfold since. rewrite H.
  replace (Z.of_N (t0 + e) - Z.of_N t0 - Z.of_N d)%Z with (Z.of_N (2 ^ 64 - (d - e)) + (-1) * 2 ^ 64)%Z by (change (2 ^ 64)%Z with (Z.of_N (2 ^ 64)); lia).
  rewrite Z.mod_add by discriminate. rewrite Z.mod_small by (change (2 ^ 64)%Z with (Z.of_N (2 ^ 64)); lia). apply N2Z.id.
Qed.

Lemma ms_behind : forall t0 e d, ahead t0 = (- Z.of_N d)%Z -> e + d < 2 ^ 64 -> ms_clock k t0 (t0 + e) = counter 4 ((e + d) / 1000000).
Proof. intros t0 e d H B. rewrite ms_since, (since_behind t0 e d H B). reflexivity. Qed.
Lemma ms_ahead : forall t0 e d, ahead t0 = Z.of_N d -> d <= e -> e < 2 ^ 64 -> ms_clock k t0 (t0 + e) = counter 4 ((e - d) / 1000000).
Proof. intros t0 e d H B C. rewrite ms_since, (since_ahead t0 e d H B C). reflexivity. Qed.
Lemma ms_same : forall t0 e, ahead t0 = 0%Z -> e < 2 ^ 64 -> ms_clock k t0 (t0 + e) = counter 4 (e / 1000000).
Proof. intros t0 e H B. rewrite (ms_behind t0 e 0); rewrite ?N.add_0_r; auto. Qed.

Lemma ms_falls : forall t0 d, ahead t0 = Z.of_N d -> 1 <= d -> d < 2 ^ 64 ->
  ms_clock k t0 (t0 + (d - 1)) = 4154504685 /\ ms_clock k t0 (t0 + d) = 0.
Proof.
  intros t0 d H B C. split.
  - rewrite ms_since, (since_before t0 (d - 1) d H) by lia. replace (d - (d - 1)) with 1 by lia. reflexivity.
  - rewrite ms_since, (since_ahead t0 d d H) by lia. rewrite N.sub_diag. reflexivity.
Qed.

Lemma ms_start : forall t0 d, ahead t0 = Z.of_N d -> 1 <= d -> d <= 1000000 * 10 ^ 9 -> 3154504685 <= ms_clock k t0 t0.
Proof.
  intros t0 d H B C. rewrite ms_since. replace t0 with (t0 + 0) at 2 by lia. rewrite (since_before t0 0 d H) by (try lia; change (10 ^ 9) with 1000000000 in C; lia).
  rewrite N.sub_0_r. change (10 ^ 9) with 1000000000 in C. change (2 ^ 64) with 18446744073709551616. change (2 ^ 32) with 4294967296.
  set (x := (18446744073709551616 - d) / 1000000).
  assert (X1 : 18445744073709 <= x) by (apply N.div_le_lower_bound; lia).
  assert (X2 : x <= 18446744073709) by (apply N.lt_succ_r; apply N.div_lt_upper_bound; lia).
  replace x with (x - 4294 * 4294967296 + 4294 * 4294967296) by lia. rewrite N.mod_add by lia. rewrite N.mod_small by lia. lia.
Qed.

Lemma daq_start : forall ps t0 d, ahead t0 = Z.of_N d -> 2 <= d -> d < 2 ^ 32 -> daq_clock ps 4 k t0 t0 = 2 ^ 32 - d.
Proof.
  intros ps t0 d H B C. rewrite daq_since. replace t0 with (t0 + 0) at 2 by lia. rewrite (since_before t0 0 d H) by (change (2 ^ 64) with 18446744073709551616; change (2 ^ 32) with 4294967296 in C; lia).
  rewrite N.sub_0_r. change (2 ^ 32 - 1) with 4294967295. change (2 ^ 32) with 4294967296 in *. change (2 ^ 64) with 18446744073709551616.
  replace (18446744073709551616 - d) with (4294967296 - d + 4294967296 * 4294967295) by lia. rewrite N.mod_add by lia. apply N.mod_small. lia.
Qed.
Lemma daq_behind : forall ps t0 e d, ahead t0 = (- Z.of_N d)%Z -> e + d < 2 ^ 32 - 1 -> daq_clock ps 4 k t0 (t0 + e) = e + d.
Proof.
  intros ps t0 e d H B. rewrite daq_since, (since_behind t0 e d H) by (change (2 ^ 32 - 1) with 4294967295 in B; change (2 ^ 64) with 18446744073709551616; lia).
  apply N.mod_small. exact B.
Qed.
End Running.

(** Clocks for the examples. *)
Definition at_ns (z : Z) : timespec := mkTs (z / 1000000000) (z mod 1000000000).
Definition drifted (d : Z) : clocks := mkClocks (fun t => at_ns (Z.of_N t + d)) (fun t => at_ns (Z.of_N t)).
Lemma drifted_runs : forall d, running (drifted d) (fun _ => d).
Proof.
  intros d. constructor; intros t; unfold drifted, normal, nanoseconds, at_ns; cbn [monotonic monotonic_raw tv_sec tv_nsec]; [split|..]; lia.
Qed.
