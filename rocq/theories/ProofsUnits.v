(** Proofs for C161 and C162. *)
From Coq Require Import NArith ZArith List Bool Lia ZifyBool ZifyNat ZifyN.
From Verif Require Import Base Config Cfgs Codec Checksum State Queue Daq Core Spec Lists Effects Handlers HTx HInv HInv2
  HFields HResp DaqInv HSpec Steps Demo ProofsSession Exec ProofsFrames SpecMem SpecDaq ProofsDaqB ProofsDaqD ProofsInfo
  ProofsMem ProofsWrite Hw SpecHw ProofsHw Units SpecUnits.
Import ListNotations.
Open Scope N_scope.

Lemma upto : forall (P : N -> Prop) k, (forall i, In i (map N.of_nat (seq 0 k)) -> P i) -> (forall n, N.of_nat k <= n -> P n) -> forall n, P n.
Proof.
  intros P k A B n. destruct (N.lt_ge_cases n (N.of_nat k)); [|auto]. apply A. apply in_map_iff. exists (N.to_nat n).
  split; [lia|]. apply in_seq. lia.
Qed.
Lemma ps_linux_big : forall n, 10 <= n -> ps_linux n = Unsupported.
Proof. intros n H. unfold ps_linux. destruct n as [|p]; [lia|]. do 4 (destruct p as [p|p|]; try reflexivity; try lia). Qed.
Lemma ps_win_big : forall n, 10 <= n -> ps_win n = Unsupported.
Proof. intros n H. unfold ps_win. destruct n as [|p]; [lia|]. do 4 (destruct p as [p|p|]; try reflexivity; try lia). Qed.
Lemma arduino_big : forall e n, 10 <= n -> clock_arduino n e = None.
Proof. intros e n H. unfold clock_arduino. destruct n as [|p]; [lia|]. do 4 (destruct p as [p|p|]; try reflexivity; try lia). Qed.

Ltac each H := cbn [map seq] in H; repeat (destruct H as [ <- |H]; [|]); try destruct H.

Lemma linux_compiles : forall u size a b, clock_linux u size a b <> None <-> In u [0; 1; 2; 3; 5; 6; 7].
Proof.
  intros u size a b. revert u. apply (upto _ 10).
  - intros u H. each H; unfold clock_linux; cbn [ps_linux]; cbn [In]; intuition (try discriminate; try congruence).
  - intros n H. unfold clock_linux. rewrite ps_linux_big by exact H. cbn [In]. split; [congruence|]. intros Q. exfalso. clear - H Q. lia.
Qed.
Lemma win_compiles : forall u size tps a b, clock_win u size tps a b <> None <-> In u [3; 4; 5; 6; 7; 8; 9].
Proof.
  intros u size tps a b. revert u. apply (upto _ 10).
  - intros u H. each H; unfold clock_win; cbn [ps_win]; cbn [In]; intuition (try discriminate; try congruence).
  - intros n H. unfold clock_win. rewrite ps_win_big by exact H. cbn [In]. split; [congruence|]. intros Q. exfalso. clear - H Q. lia.
Qed.
Lemma arduino_compiles : forall u e, clock_arduino u e <> None <-> In u [3; 6].
Proof.
  intros u e. revert u. apply (upto _ 10).
  - intros u H. each H; cbn [clock_arduino]; cbn [In]; intuition (try discriminate; try congruence).
  - intros n H. rewrite arduino_big by exact H. cbn [In]. split; [congruence|]. intros Q. exfalso. clear - H Q. lia.
Qed.

(** What a master is told. *)
Lemma tells_thm : forall c m l s o en, reachable c m l s o -> ready s -> dlc_ok c -> wf_env c en -> daq_open c s ->
  c_opt c 0xD9 = true -> c_opt c 0xDC = true -> c_motorola c = false -> tells c en s 3 (e_timer en).
Proof.
  intros c m l s o en R RD D We (Hd & P & Lk) O9 OC Mo.
  assert (L : lenN [0xD9] <= c_ctobuf c) by (pose proof (wf_cto c (proj1 R)); unfold c_ctobuf; cbn; lia).
  destruct (resolution_thm c m l s o en R RD D P [] Hd O9 Lk L) as (s1 & o1 & E1 & (p & -> & _ & Dp) & Q).
  assert (R1 : reachable c m (l ++ [(en, ORecv [0xD9])]) s1 (o ++ [p])).
  { eapply reach_step; eauto. split; [exact We|]. repeat constructor. }
  unfold same_session in Q. ss_in Q. destruct Q as (Q1 & Q2 & Q3 & Q4 & Q5 & Q6 & Q7 & Q8 & Q9 & Q10 & Q11 & Q12 & Q13 & Q14 & Q15).
  assert (RD1 : ready s1) by (unfold ready in *; rewrite Q1, Q2; exact RD).
  assert (P1 : ~ programming s1) by (unfold programming in *; rewrite Q3; exact P).
  assert (Lk1 : ~ locked c 4 s1) by (unfold locked in *; rewrite ?Q4, ?Q5; exact Lk).
  destruct (clock_thm c m _ s1 _ en [] R1 D RD1 We Hd OC P1 Lk1 L) as (s2 & o2 & E2 & (q & -> & _ & Dq) & _).
  exists s1, p, s2, q. split; [exact E1|]. split; [exact E2|].
  unfold told_unit, told_ticks, told_time, field. rewrite Mo, Dp, Dq. clear Dp Dq.
  assert (Pd : forall x, length x = 8%nat -> padded c x = x).
  { intros x H. unfold padded. destruct (c_max_dlc c); [|reflexivity]. rewrite H. cbn. apply app_nil_r. }
  rewrite !Pd; [|reflexivity|reflexivity]. repeat split.
  unfold at_. cbn [skipn app firstn le_bytes]. pose proof (le_value_bytes 4 (e_timer en)) as V. cbn [le_bytes] in V. rewrite V.
  apply N.mod_small. change (256 ^ N.of_nat 4) with (2 ^ 32). apply We.
Qed.

Lemma linux_any : forall u size a b e v, passed a b e -> size <= 4 -> clock_linux u size a b = Some v -> v = counter size (e mod (2 ^ 32 - 1)).
Proof.
  intros u size a b e v H S C. unfold clock_linux in C. destruct (ps_linux u); try discriminate. inversion C. now apply linux_timer_exact.
Qed.

Lemma linux_told : forall c m l s o en u a b e, reachable c m l s o -> ready s -> dlc_ok c -> wf_env c en -> daq_open c s ->
  c_opt c 0xD9 = true -> c_opt c 0xDC = true -> c_motorola c = false ->
  passed a b e -> 1 <= e -> e < 2 ^ 32 - 1 -> clock_linux u 4 a b = Some (e_timer en) ->
  exists w v, tells c en s w v /\ v <> e / 10 ^ w.
Proof.
  intros c m l s o en u a b e R RD D We Op O9 OC Mo Pa E1 E2 C. exists 3, (e_timer en). split; [eapply tells_thm; eauto|].
  rewrite (linux_any u 4 a b e _ Pa (N.le_refl 4) C). unfold counter. rewrite N.mod_small with (a := e) by exact E2.
  change (2 ^ (8 * 4)) with 4294967296. change (10 ^ 3) with 1000. change (2 ^ 32 - 1) with 4294967295 in E2.
  rewrite N.mod_small by lia. clear - E1. pose proof (N.div_lt e 1000 ltac:(lia) ltac:(lia)). lia.
Qed.

Lemma win_unit : forall u, In u [3; 4; 5; 6; 7; 8; 9] -> ps_win u = Number (10 ^ (9 - u)).
Proof. intros u H. cbn [In] in H. repeat (destruct H as [ <- |H]; [reflexivity|]). destruct H. Qed.

Lemma win_value : forall u tps start e k, In u [3; 4; 5; 6; 7; 8; 9] -> 0 < k -> tps = k * 10 ^ (9 - u) ->
  clock_win u 4 tps start (start + e) = Some (Ok (counter 4 (e * 10 ^ (9 - u) / tps))).
Proof.
  intros u tps start e k H K T. unfold clock_win. rewrite (win_unit u H). f_equal.
  apply (win_exact (10 ^ (9 - u)) 4 tps start e k); auto; [lia|]. apply N.neq_0_lt_0. apply N.pow_nonzero. lia.
Qed.

Lemma win_told : forall c m l s o en tps start e k, reachable c m l s o -> ready s -> dlc_ok c -> wf_env c en -> daq_open c s ->
  c_opt c 0xD9 = true -> c_opt c 0xDC = true -> c_motorola c = false ->
  0 < k -> tps = k * 10 ^ 6 -> clock_win 3 4 tps start (start + e) = Some (Ok (e_timer en)) ->
  tells c en s 3 ((e * 10 ^ 6 / tps) mod 2 ^ 32).
Proof.
  intros c m l s o en tps start e k R RD D We Op O9 OC Mo K T C.
  rewrite (win_value 3 tps start e k) in C; [|cbn; auto|exact K|exact T].
  assert (Q : e_timer en = (e * 10 ^ 6 / tps) mod 2 ^ 32) by (injection C; intros X; symmetry; exact X).
  rewrite <- Q. eapply tells_thm; eauto.
Qed.

Lemma win_mistold : forall c m l s o en u tps start e k, reachable c m l s o -> ready s -> dlc_ok c -> wf_env c en -> daq_open c s ->
  c_opt c 0xD9 = true -> c_opt c 0xDC = true -> c_motorola c = false ->
  In u [4; 5; 6; 7; 8; 9] -> 0 < k -> tps = k * 10 ^ (9 - u) -> clock_win u 4 tps start (start + e) = Some (Ok (e_timer en)) ->
  tps <= e * 10 ^ 6 -> e * 10 ^ 6 < tps * 2 ^ 32 ->
  exists w v, tells c en s w v /\ v <> (e * 10 ^ (9 - w) / tps).
Proof.
  intros c m l s o en u tps start e k R RD D We Op O9 OC Mo U K T C B1 B2. exists 3, (e_timer en). split; [eapply tells_thm; eauto|].
  rewrite (win_value u tps start e k) in C; [|right; exact U|exact K|exact T].
  assert (Q : e_timer en = (e * 10 ^ (9 - u) / tps) mod 2 ^ 32) by (injection C; intros X; symmetry; exact X).
  rewrite Q. clear Q C R RD D We Op. change (10 ^ (9 - 3)) with (10 ^ 6).
  assert (Z : 0 < tps) by (rewrite T; apply N.mul_pos_pos; [exact K|apply N.neq_0_lt_0, N.pow_nonzero; lia]).
  set (q := 10 ^ (9 - u)) in *.
  assert (Qs : q * 10 <= 10 ^ 6) by (unfold q; cbn [In] in U; repeat (destruct U as [ <- |U]; [vm_compute; discriminate|]); destruct U).
  set (y := e * 10 ^ 6 / tps). assert (Y1 : 1 <= y) by (apply N.div_le_lower_bound; lia).
  assert (Y2 : y < 2 ^ 32) by (apply N.div_lt_upper_bound; lia).
  set (x := e * q / tps). assert (X : x * 10 <= y).
  { apply N.div_le_lower_bound; [lia|]. pose proof (N.mul_div_le (e * q) tps ltac:(lia)) as M. fold x in M. nia. }
  rewrite N.mod_small by lia. lia.
Qed.

Lemma arduino_told : forall c m l s o en e, reachable c m l s o -> ready s -> dlc_ok c -> wf_env c en -> daq_open c s ->
  c_opt c 0xD9 = true -> c_opt c 0xDC = true -> c_motorola c = false ->
  clock_arduino 3 e = Some (e_timer en) -> tells c en s 3 ((e / 10 ^ 3) mod 2 ^ 32).
Proof.
  intros c m l s o en e R RD D We Op O9 OC Mo C. assert (Q : e_timer en = (e / 10 ^ 3) mod 2 ^ 32) by (injection C; intros X; symmetry; exact X).
  rewrite <- Q. eapply tells_thm; eauto.
Qed.
Lemma arduino_mistold : forall c m l s o en e, reachable c m l s o -> ready s -> dlc_ok c -> wf_env c en -> daq_open c s ->
  c_opt c 0xD9 = true -> c_opt c 0xDC = true -> c_motorola c = false ->
  clock_arduino 6 e = Some (e_timer en) -> 10 ^ 3 <= e -> e < 10 ^ 3 * 2 ^ 32 ->
  exists w v, tells c en s w v /\ v <> e / 10 ^ w.
Proof.
  intros c m l s o en e R RD D We Op O9 OC Mo C B1 B2. exists 3, (e_timer en). split; [eapply tells_thm; eauto|].
  assert (Q : e_timer en = (e / 10 ^ 6) mod 2 ^ 32) by (injection C; intros X; symmetry; exact X).
  rewrite Q. clear - B1 B2. change (10 ^ 3) with 1000 in *. change (10 ^ 6) with 1000000. change (2 ^ 32) with 4294967296 in *.
  change 1000000 with (1000 * 1000). rewrite <- N.div_div by lia. set (y := e / 1000).
  assert (Y1 : 1 <= y) by (apply N.div_le_lower_bound; lia). assert (Y2 : y < 4294967296) by (apply N.div_lt_upper_bound; lia).
  pose proof (N.div_lt y 1000 ltac:(lia) ltac:(lia)). rewrite N.mod_small by lia. lia.
Qed.
Lemma arduino_value : forall u e v, clock_arduino u e = Some v -> v = (e / 10 ^ u) mod 2 ^ 32.
Proof.
  intros u e v H. assert (U : In u [3; 6]) by (apply (arduino_compiles u e); congruence). cbn [In] in U.
  destruct U as [ <- |[ <- |[]]]; injection H; intros X; symmetry; exact X.
Qed.
