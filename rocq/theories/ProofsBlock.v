(** Proofs about slave block mode. *)
From Coq Require Import NArith ZArith List Bool Lia ZifyBool ZifyNat ZifyN.
From Verif Require Import Base Config Codec Checksum State Queue Daq Core Spec Lists Effects Handlers HTx HInv HInv2
  HFields HResp DaqInv HSpec Steps Demo Ops ProofsSession Exec ProofsFrames SpecProt ProofsProt SpecMem ProofsMem.
Import ListNotations.
Open Scope N_scope.
Ltac Zify.zify_post_hook ::= Z.div_mod_to_equations.

Lemma active_val : forall c b s, c_lock c = LockRecursive -> sbm_set_active c b s = Ok (set_s_sact b (set_s_busy b s)).
Proof. intros c b s L. unfold sbm_set_active, set_busy, enter, leave. rewrite L. destruct s. reflexivity. Qed.

Lemma upl_same : forall s0 c n d s s', same_session s s' -> upl s0 c n d s -> upl s0 c n d s'.
Proof.
  intros s0 c n d s s' S U. unfold same_session in S. destruct U as [? ? ? ? ? ? ? ? R]. unfold no_job in *. fold (daq_but_queue (s_daq s0) (s_daq s)) in R.
  decompose [and] S. decompose [and] R. constructor; unfold no_job; try congruence.
  fold (daq_but_queue (s_daq s0) (s_daq s')).
  all: repeat (split; [congruence|]); congruence.
Qed.

Lemma aspace_pos : forall c, 0 < aspace c.
Proof. intro c. unfold aspace. apply N.neq_0_lt_0, N.pow_nonzero. discriminate. Qed.

Lemma upload_block_val : forall c e s0 n d s b, wf_cfg c -> c_lock c = LockRecursive -> lenN (s_out s) = c_max_cto c ->
  upl s0 c n d s -> d < n < 256 -> maps_block c (s_mext s0) (s_maddr s0) n b e -> in_space c b n ->
  let k := N.min (c_max_cto c - 1) (n - d) in
  exists s' o, upload_block c e s = Ok (s', o) /\ sends_data c o (0xFF :: mem_at (s_mem s0) (b + d) k) /\ upl s0 c n (d + k) s'.
Proof.
  intros c e s0 n d s b W K L U Hd M I k. unfold upload_block. pose proof (wf_cto _ W) as Wc.
  rewrite (u_act _ _ _ _ _ U). destruct (N.ltb_spec d n); [|lia]. cbn [negb].
  assert (Hk : 1 <= k < c_max_cto c) by lia.
  assert (A : target c e (s_mext s) (s_maddr s) = b + d).
  { rewrite (u_ext _ _ _ _ _ U), (u_addr _ _ _ _ _ U). apply M. lia. }
  assert (El : (if s_srem s <=? c_max_cto c - 1 then s_srem s else c_max_cto c - 1) = k).
  { rewrite (u_rem _ _ _ _ _ U). destruct (N.leb_spec (n - d) (c_max_cto c - 1)); lia. }
  rewrite El.
  assert (Ef : (if s_srem s <=? c_max_cto c - 1 then if c_max_dlc c then c_max_cto c else k + 1 else c_max_cto c) = flen c k).
  { unfold flen. rewrite (u_rem _ _ _ _ _ U). destruct (N.leb_spec (n - d) (c_max_cto c - 1)); auto. destruct (c_max_dlc c); auto. lia. }
  rewrite Ef.
  destruct (up_fill c e (s_mext s) (s_maddr s) k s L Hk) as (ob & Lo & T & E).
  { rewrite A. unfold in_space in *. lia. }
  apply bind_Ok in E. destruct E as (s1 & E1 & E2). rewrite E1. cbn [bind]. rewrite E2. cbn [bind]. rewrite A in T.
  destruct (up_send c k (set_s_srem (s_srem (set_s_out ob s) - k) (inc_mta c k (set_s_out ob s)))
              (mread (s_mem s) (b + d) k) Lo (lenN_mread _ _ _) Hk T) as (o & Es & So).
  change (s_srem (set_s_out ob s)) with (s_srem s) in Es. unfold andthen. rewrite Es. cbn [bind]. unfold inc_mta at 1, bump at 1. ss.
  rewrite (u_rem _ _ _ _ _ U). rewrite <- mem_at_read in So. rewrite (u_mem _ _ _ _ _ U) in So.
  assert (Am : (s_maddr s + u32 k) mod aspace c = (s_maddr s0 + (d + k)) mod aspace c).
  { rewrite (u_addr _ _ _ _ _ U). unfold u32. rewrite (N.mod_small k) by lia.
    rewrite N.add_mod_idemp_l by (pose proof (aspace_pos c); lia). f_equal. lia. }
  pose proof U as [Uc Ub Ua Ur Ux Uad Um Uj Urest]. unfold no_job in Uj. clear - Uc Ub Ua Ur Ux Am Um Uj Urest So K H Hd Hk.
  destruct (N.eqb_spec (n - d - k) 0) as [Z|Z].
  - rewrite active_val by auto. cbn [bind app]. eexists _, o.
    split; [rewrite app_nil_r; reflexivity|]. split; [exact So|].
    assert (E0 : (d + k <? n) = false) by (apply N.ltb_ge; lia).
    constructor; rewrite ?E0; unfold inc_mta, no_job; ss.
    exact Uc. reflexivity. reflexivity. lia. exact Ux. exact Am. exact Um. exact Uj. exact Urest.
  - cbn [bind]. eexists _, o. split; [rewrite app_nil_r; reflexivity|]. split; [exact So|].
    assert (E0 : (d + k <? n) = true) by (apply N.ltb_lt; lia). assert (E1 : (d <? n) = true) by (apply N.ltb_lt; lia). rewrite E1 in *.
    constructor; rewrite ?E0; unfold inc_mta, no_job; ss.
    exact Uc. exact Ub. exact Ua. lia. exact Ux. exact Am. exact Um. exact Uj. exact Urest.
Qed.

Lemma job_idle_main : forall c s, no_job s -> checksum_main c s = Ok (s, []).
Proof. intros c s H. unfold checksum_main. now rewrite H. Qed.

Lemma main_block_val : forall c e s0 n d s b, wf_cfg c -> c_sbm c = true -> c_lock c = LockRecursive -> sinv c s ->
  upl s0 c n d s -> d < n < 256 -> maps_block c (s_mext s0) (s_maddr s0) n b e -> in_space c b n ->
  let k := N.min (c_max_cto c - 1) (n - d) in
  exists s' o, step c e OMain s = Ok (s', o) /\ sends_data c o (0xFF :: mem_at (s_mem s0) (b + d) k) /\ upl s0 c n (d + k) s'.
Proof.
  intros c e s0 n d s b W B K I U Hd M Sp k.
  destruct (upload_block_val c e s0 n d s b W K (b_out _ _ (i_b _ _ I)) U Hd M Sp) as (s' & o & E & So & U').
  cbn [step]. unfold main_function. rewrite B. unfold andthen. rewrite E. cbn [bind]. exists s', o.
  assert (X : (if job_on c then checksum_main c s' else Ok (s', [])) = Ok (s', [])).
  { destruct (job_on c); auto. apply job_idle_main, U'. }
  rewrite X. cbn [bind]. rewrite app_nil_r. auto.
Qed.

(** Frames other than upload frames. *)
Definition none_positive (o : list pkt) : Prop := filter positive o = [].
Lemma np_payload : forall o1 o2, none_positive o1 -> payload (o1 ++ o2) = payload o2 /\ filter positive (o1 ++ o2) = filter positive o2.
Proof. intros. unfold payload, none_positive in *. rewrite filter_app, H. auto. Qed.

Lemma transmit_dto : forall c n s s' o, transmit c n s = Ok (s', o) -> none_positive o.
Proof.
  induction n; intros s s' o H; cbn [transmit] in H.
  - inv. reflexivity.
  - apply bind_Ok in H. destruct H as ((data & q) & _ & H). unfold send_dto in H.
    apply bind_Ok in H. destruct H as ((s2 & o2) & H & H2). inv. apply IHn in H. unfold none_positive in *. cbn. exact H.
Qed.
Lemma trigger_dto : forall c e ev s s' o, trigger c e ev s = Ok (s', o) -> none_positive o.
Proof.
  intros c e ev s s' o H. unfold trigger in H. destruct (negb (c_daq c)); [inv; reflexivity|].
  apply bind_Ok in H. destruct H as (r & H1 & H). destruct r; [|inv; reflexivity]. eapply transmit_dto; eauto.
Qed.
Lemma special_np : forall c ty code info s s' o, wf_cfg c -> ty <> 0xFF -> special c ty code info s = Ok (s', o) -> none_positive o.
Proof.
  intros c ty code info s s' o W T H. unfold special in H. pose proof (wf_cto _ W).
  apply bind_Ok in H. destruct H as (s1 & H1 & H). apply poke_Ok in H1. destruct H1 as (L & ->).
  apply send_cto_Ok in H. destruct H as (L2 & -> & ->). unfold none_positive, positive. cbn [filter p_dto negb andb p_data]. ss.
  set (q := if c_max_dlc c then _ else _). assert (1 <= q) by (unfold q; destruct (c_max_dlc c); lia).
  unfold splice. rewrite take_0. cbn [app]. rewrite take_cons by lia. destruct (N.eqb_spec ty 0xFF); [congruence|]. reflexivity.
Qed.

Lemma sinv_out : forall c s, sinv c s -> lenN (s_out s) = c_max_cto c.
Proof. intros. apply b_out, i_b. auto. Qed.

(** An operation that is not a main-function call leaves a running upload alone. *)
Lemma other_upl : forall c e x s0 n d s s' o, wf_cfg c -> dlc_ok c -> sinv c s -> upl s0 c n d s -> d < n ->
  may_interleave (e, x) -> x <> OMain -> step c e x s = Ok (s', o) -> upl s0 c n d s' /\ none_positive o.
Proof.
  intros c e x s0 n d s s' o W D I U Hd Q N H.
  assert (Hb : s_busy s = true) by (rewrite (u_busy _ _ _ _ _ U); apply N.ltb_lt; auto).
  destruct x; cbn in Q; try contradiction; try congruence; clear Q N.
  - destruct frame as [|k t]; [cbn [step] in H; rewrite receive_nil in H; inv; split; [auto|reflexivity]|].
    destruct (N.leb_spec (lenN (k :: t)) (c_ctobuf c)) as [L|L].
    + destruct (busy_frame c e (k :: t) s W D I (u_conn _ _ _ _ _ U) Hb ltac:(discriminate) L) as (s2 & o2 & E & S & Q & _).
      rewrite E in H. inv. split; [eapply upl_same; eauto|]. destruct S as (p & -> & Pd & Pp).
      unfold none_positive, positive. cbn [filter]. rewrite Pd, Pp. unfold padded. destruct (c_max_dlc c); reflexivity.
    + exfalso. cbn [step] in H. unfold receive in H. rewrite lenN_cons in *.
      destruct (N.eqb_spec (lenN t + 1) 0); [lia|]. destruct (N.ltb_spec (c_ctobuf c) (lenN t + 1)); [discriminate|lia].
  - cbn [step] in H. split; [|eapply trigger_dto; eauto]. apply trigger_kept in H. unfold kept in H. decompose [and] H.
    destruct U as [? ? ? ? ? ? ? Uj R]. unfold no_job in *. decompose [and] R.
    constructor; unfold no_job; try congruence. repeat (split; [congruence|]). eapply dbq_trans; eauto.
  - cbn [step] in H. destruct (c_ev_api c); [|inv; split; [auto|reflexivity]].
    split; [|eapply special_np; eauto; discriminate]. eapply upl_same; [eapply special_kept; eauto|auto].
  - cbn [step] in H. destruct (c_srv_api c); [|inv; split; [auto|reflexivity]].
    split; [|eapply special_np; eauto; discriminate]. eapply upl_same; [eapply special_kept; eauto|auto].
Qed.

Lemma sends_positive : forall c o d, sends_data c o (0xFF :: d) ->
  exists pad, payload o = d ++ pad /\ lenN (filter positive o) = 1 /\ lenN pad = if c_max_dlc c then c_max_cto c - (lenN d + 1) else 0.
Proof.
  intros c o d (p & pad & -> & Pd & Pp & Lp). exists pad.
  assert (F : filter positive [p] = [p]) by (cbn [filter]; unfold positive; rewrite Pd, Pp; reflexivity).
  unfold payload. rewrite F. cbn [map concat]. rewrite app_nil_r, Pp. split; [reflexivity|]. split; [reflexivity|].
  rewrite Lp, lenN_cons. reflexivity.
Qed.
Lemma payload_app : forall a b, payload (a ++ b) = payload a ++ payload b.
Proof. intros. unfold payload. now rewrite filter_app, map_app, concat_app. Qed.
Lemma positives_app : forall a b, lenN (filter positive (a ++ b)) = lenN (filter positive a) + lenN (filter positive b).
Proof. intros. now rewrite filter_app, lenN_app. Qed.
Lemma mem_at_app : forall m a n k, mem_at m a (n + k) = mem_at m a n ++ mem_at m (a + n) k.
Proof. intros. rewrite !mem_at_read. apply mread_app. Qed.

Lemma upl_run : forall c s0 n b l d s s' o, wf_cfg c -> dlc_ok c -> c_sbm c = true -> c_lock c = LockRecursive ->
  sinv c s -> wf_run c l -> Forall may_interleave l -> Forall (fun x => maps_block c (s_mext s0) (s_maddr s0) n b (fst x)) l ->
  in_space c b n -> n < 256 -> upl s0 c n d s -> d + mains l * full c < n -> run c l s = Ok (s', o) ->
  upl s0 c n (d + mains l * full c) s' /\ payload o = mem_at (s_mem s0) (b + d) (mains l * full c) /\ lenN (filter positive o) = mains l.
Proof.
  intros c s0 n b l. induction l as [|[e x] l IH]; intros d s s' o W D B K I Wr Q M Sp Hn U Hd H.
  - cbn [run] in H. inv. change (mains []) with 0. rewrite N.mul_0_l, N.add_0_r. split; [auto|]. split; reflexivity.
  - apply run_cons in H. destruct H as (s1 & o1 & o2 & H1 & H2 & ->).
    inversion Wr; subst. inversion Q; subst. inversion M; subst. cbn [fst] in *.
    assert (I1 : sinv c s1) by (eapply step_inv; eauto).
    assert (DX : x = OMain \/ x <> OMain) by (destruct x; auto; right; discriminate).
    destruct DX as [->|NX].
    + assert (Em : mains ((e, OMain) :: l) * full c = full c + mains l * full c) by (unfold mains; cbn [filter snd]; rewrite lenN_cons; lia).
      assert (Ec : mains ((e, OMain) :: l) = 1 + mains l) by (unfold mains; cbn [filter snd]; rewrite lenN_cons; lia).
      rewrite Em in *. rewrite Ec. clear Em Ec.
      destruct (main_block_val c e s0 n d s b W B K I U ltac:(lia) ltac:(auto) Sp) as (s2 & o3 & E & So & U').
      rewrite E in H1. inv. fold (full c) in *. replace (N.min (full c) (n - d)) with (full c) in * by lia.
      destruct (IH _ _ _ _ W D B K I1 ltac:(auto) ltac:(auto) ltac:(auto) Sp Hn U' ltac:(lia) H2) as (U2 & P2 & C2).
      apply sends_positive in So. destruct So as (pad & P1 & C1 & Lp). rewrite lenN_mem_at in Lp.
      assert (pad = []) as -> by (apply lenN_0; clear - Lp; unfold full in *; destruct (c_max_dlc c); lia). rewrite app_nil_r in P1.
      split; [rewrite N.add_assoc; auto|].
      split; [|rewrite positives_app; clear - C1 C2; lia].
      rewrite payload_app, P1, P2, mem_at_app. f_equal. f_equal. lia.
    + assert (Em : mains ((e, x) :: l) = mains l) by (unfold mains; cbn [filter snd]; destruct x; congruence).
      rewrite Em in *. destruct (other_upl c e x s0 n d s s1 o1 W D I U ltac:(lia) ltac:(auto) NX H1) as (U1 & P1).
      destruct (IH _ _ _ _ W D B K I1 ltac:(auto) ltac:(auto) ltac:(auto) Sp Hn U1 Hd H2) as (U2 & P2 & C2).
      destruct (np_payload o1 o2 P1) as (-> & ->). auto.
Qed.

Section Block.
Variables (c : cfg) (m : mem) (l : list (env * op)) (s : st) (o : list pkt).
Hypothesis (R : reachable c m l s o) (RD : ready s).
Hypotheses (B : c_sbm c = true) (K : c_lock c = LockRecursive) (Jb : no_job s) (P : ~ programming s).
Let W : wf_cfg c := proj1 R.

(** The command itself. *)
Lemma block_upload : forall e x a n sx, s_mext sx = x -> s_maddr sx = a -> same_session (mta_at c x a s) sx -> s_maddr sx < aspace c ->
  lenN (s_out sx) = c_max_cto c -> 1 <= n < 256 -> forall b, maps_block c x a n b e -> in_space c b n ->
  let k := N.min (full c) n in
  exists s' o', upload c e n sx = Ok (s', o') /\ sends_data c o' (0xFF :: mem_at (s_mem s) b k) /\ upl (mta_at c x a s) c n k s'.
Proof.
  intros e x a n sx Ex Ea S La Lo Hn b M Sp k. unfold upload. rewrite B, active_val by auto. cbn [bind].
  set (s1 := set_s_sact true (set_s_busy true (set_s_srem n sx))).
  assert (U : upl (mta_at c x a s) c n 0 s1).
  { unfold same_session, mta_at in S. ss_in S. decompose [and] S. unfold no_job in Jb. destruct RD.
    constructor; unfold s1, mta_at, no_job; ss; try congruence; try (symmetry; apply N.ltb_lt; lia); try lia.
    - rewrite Ea in *. rewrite N.add_0_r, (N.mod_small a) by auto. symmetry. now apply N.mod_small.
    - repeat (split; [congruence|]). exists (d_q (s_daq s)). replace (s_daq sx) with (s_daq s) by congruence. destruct (s_daq s). reflexivity. }
  destruct (upload_block_val c e (mta_at c x a s) n 0 s1 b W K Lo U ltac:(lia)) as (s' & o' & E & So & U'); auto.
  { unfold mta_at. ss. rewrite N.mod_small by (rewrite <- Ea; auto). exact M. }
  exists s', o'. split; [exact E|]. rewrite N.sub_0_r, N.add_0_r in So. rewrite N.sub_0_r, N.add_0_l in U'. auto.
Qed.

Lemma upl_end : forall s0 n s', upl s0 c n n s' -> s_busy s' = false /\ s_sact s' = false /\ s_srem s' = 0.
Proof.
  intros s0 n s' U. rewrite (u_busy _ _ _ _ _ U), (u_act _ _ _ _ _ U), (u_rem _ _ _ _ _ U).
  rewrite N.ltb_irrefl. repeat split; lia.
Qed.

Lemma mta_self : upl (mta_at c (s_mext s) (s_maddr s) s) = upl s.
Proof.
  unfold mta_at. pose proof (b_maddr _ _ (i_b _ _ (reach_inv _ _ _ _ _ R))). rewrite N.mod_small by auto.
  destruct s. reflexivity.
Qed.

Lemma block_start : forall e n t, c_opt c 0xF5 = true -> lenN (0xF5 :: n :: t) <= c_ctobuf c ->
  granted c e (s_mext s) (s_maddr s) n false false -> 1 <= n < 256 -> forall b, maps_block c (s_mext s) (s_maddr s) n b e -> in_space c b n ->
  exists s' o', step c e (ORecv (0xF5 :: n :: t)) s = Ok (s', o') /\ sends_data c o' (0xFF :: mem_at (s_mem s) b (N.min (full c) n)) /\
    upl s c n (N.min (full c) n) s'.
Proof.
  intros e n t O L G N1 b M Sp.
  assert (E : step c e (ORecv (0xF5 :: n :: t)) s = h_upload c e (rx c (0xF5 :: n :: t) s)).
  { apply (exec_val c m l s o); auto. tbl. }
  rewrite E. unfold h_upload. rewrite rx_in, rx1. rewrite pgm_idle_no by exact P.
  rewrite check_mem_yes by exact G. rewrite B. cbn [negb andb]. rewrite <- mta_self.
  pose proof (b_maddr _ _ (i_b _ _ (reach_inv _ _ _ _ _ R))) as Hm.
  apply (block_upload e (s_mext s) (s_maddr s) n (rx c (0xF5 :: n :: t) s)); auto.
  - unfold mta_at, same_session, rx. ss. rewrite N.mod_small by auto. repeat split.
  - apply (rx_out _ _ _ _ _ _ R).
Qed.

(** SHORT_UPLOAD never needs more than one frame. *)
Lemma short_upload_block : forall e n r x a0 a1 a2 a3 t, let f := 0xF4 :: n :: r :: x :: a0 :: a1 :: a2 :: a3 :: t in
  let a := field c [a0; a1; a2; a3] in
  c_opt c 0xF4 = true -> lenN f <= c_ctobuf c -> a < aspace c ->
  granted c e (s_mext s) (s_maddr s) n false false -> 1 <= n < c_max_cto c -> forall b, maps_block c x a n b e -> in_space c b n ->
  exists s' o', step c e (ORecv f) s = Ok (s', o') /\ sends_data c o' (0xFF :: mem_at (s_mem s) b n) /\ upl (mta_at c x a s) c n n s'.
Proof.
  intros e n r x a0 a1 a2 a3 t f a O L La G N1 b M I.
  assert (E : step c e (ORecv f) s = h_short_upload c e (rx c f s)).
  { apply (exec_val c m l s o); auto. tbl. }
  rewrite E. unfold h_short_upload. rewrite rx_in. destruct (rx4 c s 0xF4 n r x a0 a1 a2 a3 t) as (X & A). fold f a in X, A.
  rewrite X, A. change (gb (rxbuf s f) 1) with n. rewrite pgm_idle_no by exact P. rewrite check_mem_yes by exact G. pose proof (wf_cto _ W).
  rewrite u8_small by lia. destruct (N.ltb_spec (c_max_cto c - 1) n); [lia|].
  destruct (block_upload e x a n (set_mta x a (rx c f s))) with (b := b) as (s' & o' & E' & So & U); auto; try lia.
  - unfold mta_at, same_session, rx, set_mta. ss. rewrite N.mod_small by auto. repeat split.
  - exact (rx_out c m l s o f R).
  - replace (N.min (full c) n) with n in * by (unfold full; lia). eauto.
Qed.

(** The whole transfer, interleaved with other activities. *)
Lemma block_progress : forall e n t l' s' o' b, dlc_ok c -> c_opt c 0xF5 = true -> lenN (0xF5 :: n :: t) <= c_ctobuf c ->
  granted c e (s_mext s) (s_maddr s) n false false -> 1 <= n < 256 -> in_space c b n ->
  wf_run c ((e, ORecv (0xF5 :: n :: t)) :: l') -> Forall may_interleave l' ->
  Forall (fun x => maps_block c (s_mext s) (s_maddr s) n b (fst x)) ((e, ORecv (0xF5 :: n :: t)) :: l') ->
  run c ((e, ORecv (0xF5 :: n :: t)) :: l') s = Ok (s', o') -> (1 + mains l') * full c < n ->
  upl s c n ((1 + mains l') * full c) s' /\ payload o' = mem_at (s_mem s) b ((1 + mains l') * full c) /\
  lenN (filter positive o') = 1 + mains l' /\ sinv c s'.
Proof.
  intros e n t l' s' o' b D O L G Hn Sp Wr Q M H Hl.
  apply run_cons in H. destruct H as (s1 & o1 & o2 & H1 & H2 & ->). inversion M; subst. inversion Wr; subst. cbn [fst] in *.
  destruct (block_start e n t O L G Hn b ltac:(auto) Sp) as (s2 & o3 & E & So & U). rewrite E in H1. apply Ok_inj in H1. inversion H1; subst s2 o3.
  replace (N.min (full c) n) with (full c) in * by lia.
  assert (I1 : sinv c s1) by (eapply step_inv; [| |eapply reach_inv; eauto|exact E]; auto).
  destruct (upl_run c s n b l' (full c) s1 s' o2) as (U2 & P2 & C2); auto; try lia.
  apply sends_positive in So. destruct So as (pad & P1 & C1 & Lp). rewrite lenN_mem_at in Lp. pose proof (wf_cto _ W).
  assert (pad = []) as -> by (apply lenN_0; clear - Lp; unfold full in *; destruct (c_max_dlc c); lia). rewrite app_nil_r in P1.
  split; [replace ((1 + mains l') * full c) with (full c + mains l' * full c) by lia; auto|].
  split; [|split].
  - rewrite payload_app, P1, P2. replace ((1 + mains l') * full c) with (full c + mains l' * full c) by lia. now rewrite mem_at_app.
  - rewrite positives_app. lia.
  - eapply run_inv; eauto.
Qed.

Lemma block_complete : forall e n t l' e' b s1 o1, dlc_ok c -> c_opt c 0xF5 = true -> lenN (0xF5 :: n :: t) <= c_ctobuf c ->
  granted c e (s_mext s) (s_maddr s) n false false -> 1 <= n < 256 -> in_space c b n ->
  wf_run c ((e, ORecv (0xF5 :: n :: t)) :: l') -> Forall may_interleave l' ->
  Forall (fun x => maps_block c (s_mext s) (s_maddr s) n b (fst x)) ((e, ORecv (0xF5 :: n :: t)) :: l') -> maps_block c (s_mext s) (s_maddr s) n b e' ->
  run c ((e, ORecv (0xF5 :: n :: t)) :: l') s = Ok (s1, o1) -> (1 + mains l') * full c < n <= (2 + mains l') * full c ->
  exists s' o' pad, step c e' OMain s1 = Ok (s', o') /\ payload (o1 ++ o') = mem_at (s_mem s) b n ++ pad /\
    lenN pad = (if c_max_dlc c then (2 + mains l') * full c - n else 0) /\
    lenN (filter positive (o1 ++ o')) = 2 + mains l' /\ upl s c n n s'.
Proof.
  intros e n t l' e' b s1 o1 D O L G Hn Sp Wr Q M M' H Hl.
  destruct (block_progress e n t l' s1 o1 b D O L G Hn Sp Wr Q M H ltac:(lia)) as (U & Pl & Cn & I).
  destruct (main_block_val c e' s n ((1 + mains l') * full c) s1 b W B K I U ltac:(lia) M' Sp) as (s' & o' & E & So & U').
  fold (full c) in *. replace ((2 + mains l') * full c) with ((1 + mains l') * full c + full c) in * by lia.
  set (d := (1 + mains l') * full c) in *. clearbody d. replace (N.min (full c) (n - d)) with (n - d) in * by lia.
  replace (d + (n - d)) with n in U' by lia.
  apply sends_positive in So. destruct So as (pad & P1 & C1 & Lp). rewrite lenN_mem_at in Lp. pose proof (wf_cto _ W).
  exists s', o', pad. split; [exact E|]. split.
  - rewrite payload_app, P1, Pl. replace n with (d + (n - d)) at 2 by lia. rewrite mem_at_app, app_assoc. reflexivity.
  - split; [rewrite Lp; destruct (c_max_dlc c); unfold full in *; lia|]. split; [rewrite positives_app; lia|auto].
Qed.
End Block.
