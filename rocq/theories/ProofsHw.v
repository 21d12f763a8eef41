From Coq Require Import ZArith NArith List Bool Lia.
From Coq Require Import ZifyBool ZifyNat ZifyN.
From Verif Require Import Base Hw SpecHw.
Import ListNotations.
Ltac Zify.zify_post_hook ::= Z.div_mod_to_equations.
Open Scope N_scope.

Theorem diff_thm : forall a b, normal a -> normal b -> normal (timespec_diff a b) /\ nanoseconds (timespec_diff a b) = (nanoseconds b - nanoseconds a)%Z.
Proof.
  intros [s1 n1] [s2 n2]. unfold normal, nanoseconds, timespec_diff. cbn [tv_sec tv_nsec]. intros H1 H2.
  destruct (n2 - n1 <? 0)%Z eqn:E; cbn [tv_sec tv_nsec]; lia.
Qed.

Lemma counter_ns : forall a b e, passed a b e -> linux_counter_ns a b = e.
Proof.
  intros a b e [H1 [H2 [H3 H4]]]. destruct (diff_thm a b H1 H2) as [D1 D2]. unfold linux_counter_ns. cbv zeta.
  destruct (timespec_diff a b) as [s n]. unfold normal, nanoseconds in D1, D2. cbn [tv_sec tv_nsec] in *.
  assert (Q : (s * 1000000000 + n = Z.of_N e)%Z) by (unfold nanoseconds in H3; lia). clear D2 H3 H1 H2.
  assert (0 <= s < 2 ^ 64)%Z by lia. rewrite !Z.mod_small by lia. rewrite N.mod_small; lia.
Qed.

Lemma land_mask : forall x size, N.land x (timer_mask size) = x mod 2 ^ (8 * size).
Proof. intros. unfold timer_mask. rewrite N.sub_1_r, <- N.ones_equiv. apply N.land_ones. Qed.

Lemma small_size : forall x size, size <= 4 -> x mod 2 ^ (8 * size) < 2 ^ 32.
Proof.
  intros. assert (2 ^ (8 * size) <> 0) by (apply N.pow_nonzero; lia). pose proof (N.mod_lt x _ H0).
  assert (2 ^ (8 * size) <= 2 ^ 32) by (apply N.pow_le_mono_r; lia). lia.
Qed.

Theorem linux_timer_exact : forall ps size a b e, passed a b e -> size <= 4 -> linux_timer ps size a b = counter size (e mod (2 ^ 32 - 1)).
Proof.
  intros ps size a b e P S. unfold linux_timer. cbv zeta. rewrite (counter_ns a b e P), land_mask, N.mod_small by (apply small_size; exact S). reflexivity.
Qed.

Theorem linux_ms : forall a b e, passed a b e -> linux_timer_ms a b = counter 4 (e / 1000000).
Proof.
  intros a b e P. unfold linux_timer_ms, linux_elapsed. rewrite (counter_ns a b e P), land_mask. unfold counter.
  change (2 ^ (8 * 4)) with (2 ^ 32). apply N.mod_mod. lia.
Qed.

(** With nanoseconds as unit, the counter is right if and only if ... *)
Theorem linux_ns : forall a b e size, passed a b e -> 1 <= size -> size <= 4 ->
  (linux_timer 1 size a b = counter size e <-> (e / (2 ^ 32 - 1)) mod 2 ^ (8 * size) = 0).
Proof.
  intros a b e size P S1 S2. rewrite (linux_timer_exact 1 size a b e P S2). unfold counter.
  assert (D : exists w, 2 ^ 32 = 2 ^ (8 * size) * w /\ 2 ^ (8 * size) <> 0).
  { exists (2 ^ (32 - 8 * size)). split; [rewrite <- N.pow_add_r; f_equal; lia|apply N.pow_nonzero; lia]. }
  destruct D as [w [W Z]]. set (m := 2 ^ (8 * size)) in *.
  set (q := e / (2 ^ 32 - 1)). set (r := e mod (2 ^ 32 - 1)).
  assert (E : e = (2 ^ 32 - 1) * q + r) by (apply N.div_mod; lia).
  assert (R : e + q = r + (w * q) * m) by (rewrite E, W in *; nia).
  assert (K : (e + q) mod m = r mod m) by (rewrite R; apply N.mod_add; exact Z).
  split.
  - intros H. rewrite <- K in H. rewrite N.add_mod in H by exact Z.
    pose proof (N.mod_lt e m Z). pose proof (N.mod_lt q m Z). set (x := e mod m) in *. set (y := q mod m) in *. clearbody x y. clear - H H0 H1 Z.
    destruct (N.lt_ge_cases (x + y) m) as [L|L].
    + rewrite N.mod_small in H by exact L. lia.
    + replace (x + y) with (x + y - m + 1 * m) in H by lia. rewrite N.mod_add in H by exact Z. rewrite N.mod_small in H by lia. lia.
  - intros H. rewrite <- K, N.add_mod by exact Z. fold q in H. rewrite H, N.add_0_r. apply N.mod_mod. exact Z.
Qed.

(** With any other unit, it is wrong from the second nanosecond on. *)
Theorem linux_units : forall a b e ps size, passed a b e -> 1 <= size -> size <= 4 -> 2 <= ps -> 1 <= e -> e < ps -> e < 2 ^ (8 * size) -> e < 2 ^ 32 - 1 ->
  linux_timer ps size a b = e /\ counter size (e / ps) = 0.
Proof.
  intros a b e ps size P S1 S2 PS E1 E2 E3 E4. rewrite (linux_timer_exact ps size a b e P S2). unfold counter.
  rewrite (N.mod_small e) by lia. rewrite N.mod_small by exact E3. split; [reflexivity|]. rewrite N.div_small by exact E2. apply N.mod_0_l. apply N.pow_nonzero. lia.
Qed.

(** ** Windows *)
Theorem win_exact : forall ps size tps start e k, size <= 4 -> 0 < ps -> 0 < k -> tps = k * ps ->
  win_timer ps size tps start (start + e) = Ok (counter size (e * ps / tps)) /\
  (ps = 1000 -> win_timer_ms tps start (start + e) = Ok (counter 4 (e * ps / tps))).
Proof.
  intros ps size tps start e k S PS K E.
  assert (X : win_elapsed ps tps start (start + e) = Ok (e * ps / tps)).
  { unfold win_elapsed. rewrite E, N.div_mul by lia. replace (k =? 0) with false by lia. replace (start + e - start) with e by lia.
    rewrite N.div_mul_cancel_r by lia. reflexivity. }
  split.
  - unfold win_timer. rewrite X. cbn [bind]. rewrite land_mask. unfold counter. f_equal.
    assert (D : exists w, 2 ^ 32 = 2 ^ (8 * size) * w /\ 2 ^ (8 * size) <> 0).
    { exists (2 ^ (32 - 8 * size)). split; [rewrite <- N.pow_add_r; f_equal; lia|apply N.pow_nonzero; lia]. }
    destruct D as [w [W Z]]. set (m := 2 ^ (8 * size)) in *. set (x := e * ps / tps). assert (W0 : w <> 0) by nia. rewrite W.
    rewrite N.mod_mul_r by lia. rewrite N.mul_comm, N.mod_add by exact Z. apply N.mod_mod. exact Z.
  - intros ->. unfold win_timer_ms. rewrite X. cbn [bind]. rewrite land_mask. unfold counter. f_equal. change (2 ^ (8 * 4)) with (2 ^ 32). apply N.mod_mod. lia.
Qed.

Theorem win_div0 : forall ps size tps start now, tps < ps -> win_timer ps size tps start now = UB DivZero.
Proof. intros. unfold win_timer, win_elapsed. rewrite N.div_small by assumption. reflexivity. Qed.

Theorem win_drift : forall ps tps start, 0 < ps -> ps <= tps -> tps < 2 ^ 32 -> tps mod ps <> 0 ->
  exists e, win_timer ps 4 tps start (start + e) = Ok tps /\ counter 4 (e * ps / tps) = tps - tps mod ps.
Proof.
  intros ps tps start P1 P2 P3 P4. set (k := tps / ps).
  assert (K : 0 < k) by (apply N.div_str_pos; lia). assert (E : tps = ps * k + tps mod ps) by (apply N.div_mod; lia).
  exists (k * tps). split.
  - unfold win_timer, win_elapsed. fold k. replace (k =? 0) with false by lia. replace (start + k * tps - start) with (k * tps) by lia.
    cbn [bind]. rewrite land_mask. change (2 ^ (8 * 4)) with (2 ^ 32). rewrite N.mod_mod by lia. rewrite (N.mul_comm k tps), N.div_mul by lia. rewrite N.mod_small by lia. reflexivity.
  - unfold counter. change (2 ^ (8 * 4)) with (2 ^ 32). replace (k * tps * ps) with (k * ps * tps) by lia. rewrite N.div_mul by lia. rewrite N.mod_small by nia. lia.
Qed.

(** ** Signalling *)
Theorem second_signal : forall m t u m1, call_monitor t Signal m = Done m1 -> call_monitor u Signal m1 = Blocks.
Proof.
  intros m t u m1. cbn [call_monitor]. destruct (m_owner m); [discriminate|].
  destruct (m_waiting m); intros E; injection E as <-; reflexivity.
Qed.

(** Only a thread that has signalled or waited successfully can be the owner. *)
Lemma owner_signalled : forall l m m' t, calls_monitor l m = Done m' -> ~ In (t, Signal) l ->
  m_owner m <> Some t -> ~ In t (m_waiting m) -> ~ In t (m_woken m) ->
  m_owner m' <> Some t /\ ~ In t (m_waiting m') /\ ~ In t (m_woken m').
Proof.
  induction l as [|[u r] l IH]; intros m m' t E NS O W K; cbn [calls_monitor] in E.
  - injection E as <-. auto.
  - destruct (call_monitor u r m) as [m1| |] eqn:C; try discriminate E. apply (IH m1 m' t E); clear IH E.
    + intros I. apply NS. right. exact I.
    + destruct r; cbn [call_monitor] in C; destruct (m_owner m) as [x|] eqn:OW; try discriminate C.
      * destruct (m_waiting m) as [|y w]; injection C as <-; cbn [m_owner]; intros Q; injection Q as ->; apply NS; left; reflexivity.
      * destruct (x =? u) eqn:XU; [|discriminate C]. injection C as <-. unfold reacquire. cbn [m_owner m_woken].
        destruct (m_woken m) as [|z w]; cbn [m_owner]; [discriminate|]. intros Q. injection Q as ->. apply K. left. reflexivity.
    + destruct r; cbn [call_monitor] in C; destruct (m_owner m) as [x|] eqn:OW; try discriminate C.
      * destruct (m_waiting m) as [|y w] eqn:MW; injection C as <-; cbn [m_waiting]; [exact W|]. intros I. apply W. right. exact I.
      * destruct (x =? u) eqn:XU; [|discriminate C]. injection C as <-. assert (x = u) by lia. subst x.
        assert (N : ~ In t (m_waiting m ++ [u])). { rewrite in_app_iff. intros [I|[I|[]]]; [tauto|subst; apply O; reflexivity]. }
        unfold reacquire. cbn [m_owner m_woken m_waiting]. destruct (m_woken m); exact N.
    + destruct r; cbn [call_monitor] in C; destruct (m_owner m) as [x|] eqn:OW; try discriminate C.
      * destruct (m_waiting m) as [|y w] eqn:MW; injection C as <-; cbn [m_woken]; [exact K|]. rewrite in_app_iff. intros [I|[I|[]]]; [tauto|subst; apply W; left; reflexivity].
      * destruct (x =? u) eqn:XU; [|discriminate C]. injection C as <-. unfold reacquire. cbn [m_owner m_woken m_waiting].
        destruct (m_woken m) as [|z w]; cbn [m_woken]; [auto|]. intros I. apply K. right. exact I.
Qed.

Theorem waiter_never_owner : forall l m t, calls_monitor l monitor0 = Done m -> ~ In (t, Signal) l -> call_monitor t Wait m = NotOwner.
Proof.
  intros l m t E NS. destruct (owner_signalled l monitor0 m t E NS) as [O _]; try (cbn; auto; discriminate).
  cbn [call_monitor]. destruct (m_owner m) as [u|]; [|reflexivity]. destruct (u =? t) eqn:X; [|reflexivity]. exfalso. apply O. f_equal. lia.
Qed.
