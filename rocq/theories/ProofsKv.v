(** Proofs of the properties of the Kvaser transport layer. *)
From Coq Require Import NArith ZArith List Bool Lia ZifyBool ZifyNat ZifyN.
From Verif Require Import Base Config State Core Spec Lists Can SpecFrames ProofsFrames SpecCan ProofsCan Kv SpecKv.
Import ListNotations.
Open Scope N_scope.

Lemma tb_hi : forall n k i, i < 2 ^ n -> n <= k -> N.testbit i k = false.
Proof.
  intros n k i H L. destruct (N.eq_dec i 0) as [->|Z]; [apply N.bits_0|]. apply N.bits_above_log2.
  apply N.log2_lt_pow2; [lia|]. eapply N.lt_le_trans; [exact H|]. apply N.pow_le_mono_r; lia.
Qed.
Lemma land_bit31 : forall ext i, in_range ext i -> strip (configured ext i) = i /\ is_extended (configured ext i) = ext.
Proof.
  intros ext i H. assert (L : i < 2 ^ 31). { destruct ext; unfold in_range in H; [change (2^29) with 536870912 in H|change (2^11) with 2048 in H]; change (2^31) with 2147483648; lia. }
  assert (D : forall x, N.testbit 0x80000000 x = (x =? 31)).
  { intros x. change 0x80000000 with (2 ^ 31). destruct (N.eqb_spec x 31) as [->|Z]; [apply N.pow2_bits_true|apply N.pow2_bits_false; auto]. }
  assert (C : configured ext i = N.lor (if ext then 2 ^ 31 else 0) i).
  { unfold configured. destruct ext; [|reflexivity].
    assert (A : N.land (2 ^ 31) i = 0).
    { apply N.bits_inj. intros k. rewrite N.land_spec, N.bits_0. change (2 ^ 31) with 0x80000000. rewrite D. destruct (N.eqb_spec k 31) as [->|]; [|reflexivity].
      apply (tb_hi 31); [exact L|lia]. }
    rewrite <- N.lxor_lor by exact A. apply N.add_nocarry_lxor. exact A. }
  rewrite C. split.
  - unfold strip. apply N.bits_inj. intros k. rewrite N.ldiff_spec, N.lor_spec, D. destruct (N.eqb_spec k 31) as [->|Z].
    + rewrite andb_false_r. symmetry. apply (tb_hi 31); [exact L|lia].
    + rewrite andb_true_r. destruct ext; [|now rewrite N.bits_0]. change (2 ^ 31) with 0x80000000. rewrite D. replace (k =? 31) with false by lia. reflexivity.
  - unfold is_extended. assert (E : N.land (N.lor (if ext then 2 ^ 31 else 0) i) 0x80000000 = if ext then 0x80000000 else 0).
    { apply N.bits_inj. intros k. rewrite N.land_spec, N.lor_spec, D. destruct (N.eqb_spec k 31) as [->|Z].
      - rewrite (tb_hi 31 31 i L) by lia. rewrite andb_true_r, orb_false_r. now destruct ext.
      - rewrite andb_false_r. destruct ext; [|now rewrite N.bits_0]. change 2147483648 with (2 ^ 31). rewrite N.pow2_bits_false by auto. reflexivity. }
    rewrite E. now destruct ext.
Qed.

(** ** C97 *)
Lemma ones_tb : forall n k, N.testbit (N.ones n) k = (k <? n).
Proof. intros. destruct (N.ltb_spec k n); [apply N.ones_spec_low|apply N.ones_spec_high]; lia. Qed.
Lemma mask_bits : forall w i0 i1 i, i0 < 2 ^ w -> i1 < 2 ^ w -> i < 2 ^ w ->
  (N.land (N.lxor (N.land i0 i1) i) (N.lxor (N.lxor (N.lor i0 i1) (N.land i0 i1)) (N.ones w)) =? 0) = true <-> agrees w i0 i1 i.
Proof.
  intros w i0 i1 i H0 H1 H. rewrite N.eqb_eq. split.
  - intros E k K A. apply (f_equal (fun x => N.testbit x k)) in E. rewrite N.land_spec, !N.lxor_spec, N.lor_spec, N.land_spec, N.bits_0, ones_tb in E.
    replace (k <? w) with true in E by lia. rewrite <- A in E. destruct (N.testbit i0 k), (N.testbit i k); cbn in E; congruence.
  - intros A. apply N.bits_inj. intros k. rewrite N.land_spec, !N.lxor_spec, N.lor_spec, N.land_spec, N.bits_0, ones_tb.
    destruct (N.ltb_spec k w) as [K|K].
    + specialize (A k K). destruct (N.testbit i0 k), (N.testbit i1 k), (N.testbit i k); cbn; try reflexivity; try (discriminate (A eq_refl)).
    + rewrite (tb_hi w k i0), (tb_hi w k i1), (tb_hi w k i) by auto. reflexivity.
Qed.
Lemma filter_thm : forall x0 x1 i0 i1 x i, in_range x0 i0 -> in_range x1 i1 -> in_range x i ->
  kv_passes (kv_filter (configured x0 i0) (configured x1 i1)) x i = true <->
  (x = x0 || x1 -> agrees (if x then 29 else 11) i0 i1 i).
Proof.
  intros x0 x1 i0 i1 x i H0 H1 H. unfold kv_filter.
  destruct (land_bit31 x0 i0 H0) as (-> & ->), (land_bit31 x1 i1 H1) as (-> & ->).
  change 0x1FFFFFFF with (N.ones 29). change 0x7FF with (N.ones 11).
  assert (U : forall y j, in_range y j -> in_range true j). { intros [] j; unfold in_range; change (2^29) with 536870912; change (2^11) with 2048; lia. }
  destruct x0, x1; cbn [orb]; unfold kv_passes; destruct x; cbn [negb Bool.eqb orb]; split; intros; try discriminate; try reflexivity; try (apply mask_bits; eauto; exact (U _ _ H0) || exact (U _ _ H1)); 
   auto.
Qed.
Lemma filter_own : forall x0 x1 i0 i1, in_range x0 i0 -> in_range x1 i1 ->
  let p := kv_passes (kv_filter (configured x0 i0) (configured x1 i1)) in p x0 i0 = true /\ p x1 i1 = true.
Proof. intros x0 x1 i0 i1 H0 H1 p. split; apply filter_thm; auto; intros _ k _ A; congruence. Qed.

(** ** C98 *)
(** The frames the slave sends when these arrive. *)
Fixpoint kv_frames (c : cfg) (a : N) (l : list kvframe) (s : st) : list pkt :=
  match l with
  | [] => []
  | f :: t => match kv_notify c a 0x222 env_yes f s with Ok (s1, o) => o ++ kv_frames c a t s1 | UB _ => [] end
  end.
Lemma notify_cases : forall c a b e f s, lenN (k_data f) <= c_ctobuf c ->
  let i := if k_remote f then s_in s else splice (s_in s) 0 (k_data f) in
  kv_notify c a b e f s =
  if (c_max_dlc c && negb (lenN (k_data f) =? c_max_cto c)) || (lenN (k_data f) =? 0) || negb (kv_matches a (k_id f) (k_flag f)) then Ok (set_s_in i s, [])
  else dispatch c e (set_s_in i s).
Proof.
  intros c a b e f s L i. unfold kv_notify. replace (c_ctobuf c <? lenN (k_data f)) with false by lia.
  replace (if k_remote f then s else set_s_in (splice (s_in s) 0 (k_data f)) s) with (set_s_in i s) by (unfold i; destruct (k_remote f); [now destruct s|reflexivity]).
  destruct (c_max_dlc c && negb (lenN (k_data f) =? c_max_cto c)), (lenN (k_data f) =? 0), (kv_matches a (k_id f) (k_flag f)); reflexivity.
Qed.
Lemma recv_kv : forall c e f s, lenN f <> 0 -> lenN f <= c_ctobuf c -> step c e (ORecv f) s = dispatch c e (set_s_in (splice (s_in s) 0 f) s).
Proof. intros. cbn [step]. unfold receive. replace (lenN f =? 0) with false by lia. replace (c_ctobuf c <? lenN f) with false by lia. reflexivity. Qed.
Lemma matches_cfg : forall xa a i fl, in_range xa a -> kv_matches (configured xa a) i fl = (a =? i) && Bool.eqb xa (fl mod 65536 =? 4).
Proof. intros xa a i fl H. unfold kv_matches. now destruct (land_bit31 xa a H) as (-> & ->). Qed.
Lemma own_frames : forall c xa a b e d s, in_range xa a -> 1 <= lenN d <= c_ctobuf c -> dlc_good c d ->
  kv_notify c (configured xa a) b e (data_frame xa a d) s = step c e (ORecv d) s.
Proof.
  intros c xa a b e d s R L G. rewrite notify_cases by (cbn; lia). cbn [data_frame k_data k_id k_flag]. rewrite recv_kv by lia.
  rewrite matches_cfg by auto. rewrite N.eqb_refl. replace (lenN d =? 0) with false by lia.
  replace (c_max_dlc c && negb (lenN d =? c_max_cto c)) with false.
  2:{ destruct (c_max_dlc c) eqn:M; [|reflexivity]. rewrite (G M), N.eqb_refl. reflexivity. }
  destruct xa; reflexivity.
Qed.
Lemma other_frames : forall c xa a b e x i d s, in_range xa a -> lenN d <= c_ctobuf c -> (x, i) <> (xa, a) \/ lenN d = 0 \/ ~ dlc_good c d ->
  exists s', kv_notify c (configured xa a) b e (data_frame x i d) s = Ok (s', []) /\ same_but_input s s'.
Proof.
  intros c xa a b e x i d s R L H. rewrite notify_cases by (cbn; lia). cbn [data_frame k_data k_id k_flag]. rewrite matches_cfg by auto.
  match goal with |- context [if ?g then _ else _] => assert (G : g = true) end.
  { destruct H as [H|[H|H]].
    - replace ((a =? i) && Bool.eqb xa ((if x then 4 else 2) mod 65536 =? 4)) with false; [apply orb_true_r|].
      symmetry. apply not_true_iff_false. intros E. apply andb_prop in E. destruct E as (E1 & E2). apply H. apply N.eqb_eq in E1. apply eqb_prop in E2. subst. now destruct x.
    - rewrite H. cbn [N.eqb]. now rewrite orb_true_r.
    - unfold dlc_good in H. destruct (c_max_dlc c); [|exfalso; apply H; discriminate]. destruct (N.eqb_spec (lenN d) (c_max_cto c)); [exfalso; apply H; auto|reflexivity]. }
  rewrite G. eexists. split; [reflexivity|]. eexists. reflexivity.
Qed.
(** Remote frames, and frames with other flags. *)
Lemma any_flags : forall c xa a b e fl d s, in_range xa a -> 1 <= lenN d <= c_ctobuf c -> c_max_dlc c = false -> lenN (s_in s) = c_ctobuf c ->
  (xa = true <-> fl mod 65536 = 4) ->
  kv_notify c (configured xa a) b e (mkKv a fl d) s = step c e (ORecv (if N.testbit fl 0 then takeN (lenN d) (s_in s) else d)) s.
Proof.
  intros c xa a b e fl d s R L M I F. rewrite notify_cases by (cbn; lia). cbn [k_data k_id k_flag]. rewrite matches_cfg by auto.
  rewrite M, N.eqb_refl. replace (lenN d =? 0) with false by lia. replace (Bool.eqb xa (fl mod 65536 =? 4)) with true by (symmetry; destruct (N.eqb_spec (fl mod 65536) 4) as [E|E]; [rewrite (proj2 F E); reflexivity|destruct xa; [elim E; apply F; reflexivity|reflexivity]]). cbn [orb andb negb].
  unfold k_remote. cbn [k_flag]. destruct (N.testbit fl 0).
  - rewrite recv_kv by (rewrite lenN_take; lia). unfold splice. rewrite take_0. cbn [app]. rewrite N.add_0_l, lenN_take.
    replace (N.min (lenN d) (lenN (s_in s))) with (lenN d) by lia. now rewrite take_drop.
  - now rewrite recv_kv by lia.
Qed.
Lemma lost_flags : forall c a b e fl d s, in_range true a -> lenN d <= c_ctobuf c -> fl mod 65536 <> 4 ->
  exists s', kv_notify c (configured true a) b e (mkKv a fl d) s = Ok (s', []) /\ same_but_input s s'.
Proof.
  intros c a b e fl d s R L F. rewrite notify_cases by (cbn; lia). cbn [k_data k_id k_flag]. rewrite matches_cfg by auto.
  replace (fl mod 65536 =? 4) with false by lia. cbn [Bool.eqb]. rewrite andb_false_r. cbn [negb]. rewrite orb_true_r. eexists. split; [reflexivity|]. eexists. reflexivity.
Qed.

(** ** C99 *)
Lemma send_all : forall out l fr d, fold_left (fun x b => kv_send out b x) l (fr, d) =
  (fr ++ map (fun b => (strip out, is_extended out, b)) (filter (fun b => negb (long b)) l), d + lenN (filter long l)).
Proof.
  intros out l. induction l as [|b l IH]; intros fr d; cbn [fold_left filter map]; [now rewrite app_nil_r, N.add_0_r|].
  assert (K : kv_send out b (fr, d) = if long b then (fr, d + 1) else (fr ++ [(strip out, is_extended out, b)], d + 1 - 1)) by reflexivity.
  rewrite K. clear K. destruct (long b); cbn [negb].
  - rewrite IH. f_equal. rewrite lenN_cons. lia.
  - rewrite IH. cbn [map]. rewrite <- app_assoc. cbn [app]. f_equal. lia.
Qed.
Lemma send_thm : forall xo o l, in_range xo o -> fold_left (fun x b => kv_send (configured xo o) b x) l ([], 0) =
  (map (fun b => (o, xo, b)) (filter (fun b => negb (long b)) l), lenN (filter long l)).
Proof. intros xo o l R. rewrite send_all. destruct (land_bit31 xo o R) as (-> & ->). reflexivity. Qed.
Lemma fits_thm : forall c m l s o xo i, reachable c m l s o -> in_range xo i -> c_len_size c = 0 -> c_ctr_size c = 0 -> c_max_cto c <= 8 -> c_max_dto c <= 8 ->
  fold_left (fun x b => kv_send (configured xo i) b x) (map wire o) ([], 0) = (map (fun p => (i, xo, p_data p)) o, 0).
Proof.
  intros c m l s o xo i R Hi L C M D. rewrite send_thm by auto.
  assert (F : forall p, In p o -> long (wire p) = false /\ wire p = p_data p).
  { intros p I. destruct (frames_thm c m l s o p R I) as [[n [F1 [F2 _]]] _].
    rewrite L, C in F2. cbn [N.to_nat] in F2. change (le_bytes 0 (lenN (p_data p)) ++ le_bytes 0 n) with (@nil N) in F2.
    unfold long, wire. rewrite F2. cbn [app]. split; [|reflexivity]. destruct (p_dto p); lia. }
  clear R. induction o as [|p o IH]; [reflexivity|]. cbn [map filter].
  destruct (F p (or_introl eq_refl)) as (A & B). rewrite A. cbn [negb map]. rewrite B.
  assert (F' : forall q, In q o -> long (wire q) = false /\ wire q = p_data q) by (intros q I; apply F; now right).
  specialize (IH F'). injection IH as I1 I2. rewrite I1, I2. reflexivity.
Qed.
