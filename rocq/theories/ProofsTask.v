(** Proofs that the slave refines the reference slave with tasks. *)
From Coq Require Import NArith ZArith List Bool Lia ZifyBool ZifyNat ZifyN.
From Verif Require Import Base Config Codec Checksum State Queue Daq Core Spec Lists Effects Handlers HTx HInv HInv2
  HFields HResp DaqInv HSpec Steps Demo Ops ProofsSession Exec ProofsFrames SpecProt ProofsProt SpecMem ProofsMem ProofsBlock ProofsModify ProofsWrite SpecDaq ProofsDaqC ProofsDaqB
  PropertiesDaq2 SpecInfo SpecE2e ProofsE2e SpecCks ProofsCks ProofsCks2 SpecMisc PropertiesMisc SpecRef ProofsRef ProofsRef2 SpecTask.
Import ListNotations.
Open Scope N_scope.
Ltac Zify.zify_post_hook ::= Z.div_mod_to_equations.

(** ** The relation *)
(** The same session, perhaps another MTA, nothing under way. *)
Lemma rel_move : forall c a s s' mt, related c a s -> s_conn s' = s_conn s -> s_pgm s' = s_pgm s -> s_mem s' = s_mem s -> s_prot s' = s_prot s -> s_seed s' = s_seed s ->
  s_daq s' = s_daq s -> s_busy s' = false /\ s_sact s' = false /\ no_job s' -> (forall x b, mt = Some (x, b) -> s_mext s' = x /\ s_maddr s' = b) ->
  related c (to_mta mt a) s'.
Proof.
  intros c a s s' mt [A B C D F G H I J] E1 E2 E3 E4 E5 E6 Id Mt. unfold programming, measuring in *.
  constructor; cbn [to_mta a_on a_pgm a_mta a_mem a_prot a_seed a_meas]; unfold programming, measuring; rewrite ?E1, ?E2, ?E3, ?E4, ?E5, ?E6; auto.
  intro Z. eapply measures_daq; [exact E6|auto].
Qed.
Lemma rel_keep : forall c a s s', related c a s -> s_conn s' = s_conn s -> s_pgm s' = s_pgm s -> s_mem s' = s_mem s -> s_prot s' = s_prot s -> s_seed s' = s_seed s ->
  s_daq s' = s_daq s -> s_mext s' = s_mext s -> s_maddr s' = s_maddr s -> s_busy s' = false /\ s_sact s' = false /\ no_job s' -> related c a s'.
Proof.
  intros c a s s' V E1 E2 E3 E4 E5 E6 E7 E8 Id. pose proof (rel_move c a s s' (a_mta a) V E1 E2 E3 E4 E5 E6 Id) as X. destruct a. apply X.
  intros x b Mt. rewrite E7, E8. exact (v_mta _ _ _ V x b Mt).
Qed.
Lemma hush_idle : forall s, s_busy (hushed s) = false /\ s_sact (hushed s) = false /\ no_job (hushed s).
Proof. intro s. repeat split. Qed.
Lemma hush : forall c a s, related c a s -> related c a (hushed s).
Proof. intros c a s V. eapply rel_keep; [exact V|reflexivity..|apply hush_idle]. Qed.
Lemma unhush : forall c a s, related c a (hushed s) -> s_busy s = false /\ s_sact s = false /\ no_job s -> related c a s.
Proof. intros c a s V Id. eapply rel_keep; [exact V|reflexivity..|exact Id]. Qed.
Lemma hush_same : forall c a s s', same_session s s' -> related c a (hushed s) -> related c a (hushed s').
Proof.
  intros c a s s' (E1 & E2 & E3 & E4 & E5 & E6 & E7 & E8 & E9 & E10 & E11 & E12 & E13 & E14 & E15) V.
  eapply rel_keep; [exact V|..|apply hush_idle]; assumption.
Qed.

(** What the application's operations leave alone. *)
Definition task_same (s s' : st) : Prop :=
  s_busy s' = s_busy s /\ s_sact s' = s_sact s /\ s_srem s' = s_srem s /\ s_job s' = s_job s /\ s_mact s' = s_mact s /\ s_mrem s' = s_mrem s.
Lemma ts_session : forall s s', same_session s s' -> task_same s s'.
Proof. intros s s' (E1 & E2 & E3 & E4 & E5 & E6 & E7 & E8 & E9 & E10 & E11 & E12 & E13 & E14 & E15). unfold task_same. auto 8. Qed.
Lemma trelated_same : forall c a t s s' a', trelated c a t s -> task_same s s' -> a_on a' = a_on a -> related c a' (hushed s') -> trelated c a' t s'.
Proof.
  intros c a t s s' a' V (T1 & T2 & T3 & T4 & T5 & T6) On W. destruct t; cbn [trelated] in *.
  - apply unhush; [exact W|]. unfold no_job. rewrite T1, T2, T4. exact (v_idle _ _ _ V).
  - destruct V as (_ & V). unfold no_job in *. rewrite T1, T2, T3, T4, On. auto.
  - destruct V as (_ & V). rewrite T1, T2, T4, On. auto.
  - destruct V as (V & V2). rewrite T5, T6. split; [|exact V2]. apply unhush; [exact W|]. unfold no_job. rewrite T1, T2, T4. exact (v_idle _ _ _ V).
Qed.
Lemma tr_hush : forall c a t s, trelated c a t s -> related c a (hushed s).
Proof. intros c a [|n|b n r|n] s V; cbn [trelated] in V; try apply V; apply hush; try exact V; apply V. Qed.

(** ** One piece of an upload *)
Definition ended (b : bool) (s : st) : st := if b then set_s_sact false (set_s_busy false s) else s.
Lemma piece : forall c e s, wf_cfg c -> c_lock c = LockRecursive -> lenN (s_out s) = c_max_cto c -> s_sact s = true -> 1 <= s_srem s -> 
  let k := N.min (full c) (s_srem s) in let b := target c e (s_mext s) (s_maddr s) in in_space c b k -> k < 2 ^ 32 ->
  exists s' o, upload_block c e s = Ok (s', o) /\ sends_data c o (0xFF :: mem_at (s_mem s) b k) /\
    same_session (ended (s_srem s - k =? 0) (set_s_srem (s_srem s - k) (advanced c k s))) s'.
Proof.
  intros c e s W K L A Hr k b Sp K32. pose proof (wf_cto _ W) as Wc. unfold full in k. assert (Hk : 1 <= k < c_max_cto c) by lia.
  unfold upload_block. rewrite A. cbn [negb].
  assert (El : (if s_srem s <=? c_max_cto c - 1 then s_srem s else c_max_cto c - 1) = k) by (destruct (N.leb_spec (s_srem s) (c_max_cto c - 1)); lia).
  rewrite El.
  assert (Ef : (if s_srem s <=? c_max_cto c - 1 then if c_max_dlc c then c_max_cto c else k + 1 else c_max_cto c) = flen c k).
  { unfold flen. destruct (N.leb_spec (s_srem s) (c_max_cto c - 1)); auto. destruct (c_max_dlc c); auto. lia. }
  rewrite Ef.
  destruct (up_fill c e (s_mext s) (s_maddr s) k s L Hk Sp) as (ob & Lo & T & E). fold b in T.
  apply bind_Ok in E. destruct E as (s1 & E1 & E2). rewrite E1. cbn [bind]. rewrite E2. cbn [bind].
  destruct (up_send c k (set_s_srem (s_srem (set_s_out ob s) - k) (inc_mta c k (set_s_out ob s)))
              (mread (s_mem s) b k) Lo (lenN_mread _ _ _) Hk T) as (o & Es & So).
  change (s_srem (set_s_out ob s)) with (s_srem s) in Es. unfold andthen. rewrite Es. cbn [bind]. unfold inc_mta at 1, bump at 1. ss.
  rewrite <- mem_at_read in So. clear El Ef E1 E2 Es.
  assert (U : u32 k = k) by (unfold u32; now apply N.mod_small).
  destruct (s_srem s - k =? 0).
  - rewrite active_val by auto. cbn [bind app]. eexists _, o.
    split; [rewrite app_nil_r; reflexivity|]. split; [exact So|].
    unfold same_session, ended, advanced, mta_at, inc_mta, bump. ss. rewrite U. repeat split.
  - cbn [bind]. eexists _, o. split; [rewrite app_nil_r; reflexivity|]. split; [exact So|].
    unfold same_session, ended, advanced, mta_at, inc_mta, bump. ss. rewrite U. repeat split.
Qed.

(** What has to be shown for a rule. *)
Definition tsim (c : cfg) (e : env) (s : st) (q : treq) (rs : list reply) (a' : ref) (t' : task) : Prop :=
  exists s' o, step c e (toperation c q) s = Ok (s', o) /\ Forall2 (shows c) rs o /\ trelated c a' t' s'.

Section Rules.
Variables (c : cfg) (m : mem) (l0 : list (env * op)) (s : st) (o0 : list pkt) (e : env) (a : ref).
Variables (R : reachable c m l0 s o0) (D : dlc_ok c) (Sm : c_max_ent c < 65536) (St : stamp_ok c) (We : wf_env c e).
Let W : wf_cfg c := proj1 R.
Let I : sinv c s := reach_inv _ _ _ _ _ R.

Lemma t_free_sim : forall q rs a', related c a s -> ref_step c e a q rs a' -> encodable c q -> tsim c e s (Plain q) rs a' Free.
Proof. intros q rs a' V H En. exact (sim_step c m l0 s o0 e a R D Sm St We V q rs a' H En). Qed.

Lemma sent_shows : forall o bs, sends_data c o bs -> Forall2 (shows c) [Data bs] o.
Proof. intros o bs (p & pad & -> & P1 & P2 & P3). constructor; [split; eauto|constructor]. Qed.

(** A piece, and the task after it. *)
Lemma after_piece : forall a x b n k s1 s2, related c a (hushed s1) -> a_on a = true -> s_mext s1 = x -> s_maddr s1 = b -> s_srem s1 = n -> s_busy s1 = true -> s_sact s1 = true ->
  no_job s1 -> n < 256 -> same_session (ended (n - k =? 0) (set_s_srem (n - k) (advanced c k s1))) s2 ->
  trelated c (to_mta (Some (x, (b + k) mod aspace c)) a) (to_send (n - k)) s2.
Proof.
  clear Sm St We a. intros a x b n k s1 s2 V On Ex Eb Er Bu Sa J Hn S. unfold same_session, ended, advanced, mta_at in S.
  unfold to_send. destruct (n - k =? 0) eqn:Z; ss_in S; decompose [and] S; clear S; cbn [trelated].
  - eapply rel_move; [exact V|assumption..| |].
    + split; [assumption|]. split; [assumption|]. unfold no_job in *. congruence.
    + intros y z [= <- <-]. split; congruence.
  - split; [|split; [exact On|repeat split; try congruence; try lia; unfold no_job in *; congruence]].
    eapply rel_move; [exact V|assumption..|apply hush_idle|]. intros y z [= <- <-]. change (s_mext s2 = x /\ s_maddr s2 = (b + k) mod aspace c). split; congruence.
Qed.

Lemma t_upload_sim : forall n x b, related c a s -> idle a -> c_opt c 0xF5 = true -> c_sbm c = true -> c_lock c = LockRecursive -> a_mta a = Some (x, b) ->
  granted c e x b n false false -> 1 <= n < 256 -> let k := N.min (full c) n in in_space c (target c e x b) k ->
  tsim c e s (Plain (QUpload n)) [Data (0xFF :: mem_at (a_mem a) (target c e x b) k)] (to_mta (Some (x, (b + k) mod aspace c)) a) (to_send (n - k)).
Proof.
  intros n x b V (H & P) O B K Mt G Hn k Sp. destruct (v_mta _ _ _ V x b Mt) as (E1 & E2).
  assert (E : step c e (ORecv [0xF5; n]) s = h_upload c e (rx c [0xF5; n] s)).
  { pose proof (rdy c s a V H) as Rd. apply (exec_val c m l0 s o0); auto; [|tbl]. pose proof (eight c m l0 s o0 R). unfold c_ctobuf. change (lenN [0xF5; n]) with 2. lia. }
  set (sx := rx c [0xF5; n] s) in *. assert (Eb : gb (s_in sx) 1 = n) by (unfold sx; rewrite rx_in; reflexivity).
  unfold h_upload in E. rewrite Eb in E. rewrite pgm_idle_no in E by exact (npgm c s a V P).
  change (s_mext sx) with (s_mext s) in E. change (s_maddr sx) with (s_maddr s) in E. rewrite E1, E2, check_mem_yes, B in E by exact G. cbn [negb andb] in E.
  unfold upload in E. rewrite B, active_val in E by exact K. cbn [bind] in E.
  set (s1 := set_s_sact true (set_s_busy true (set_s_srem n sx))) in E.
  destruct (piece c e s1 W K (rx_out c m l0 s o0 [0xF5; n] R) eq_refl) as (s2 & o & E3 & So & S2).
  { change (1 <= n). lia. }
  { change (in_space c (target c e (s_mext s) (s_maddr s)) k). now rewrite E1, E2. }
  { change (k < 2 ^ 32). unfold k. lia. }
  change (s_srem s1) with n in *. change (s_mem s1) with (s_mem s) in So. change (target c e (s_mext s1) (s_maddr s1)) with (target c e (s_mext s) (s_maddr s)) in So. fold k in So, S2.
  exists s2, o. split; [change (step c e (ORecv [0xF5; n]) s = Ok (s2, o)); rewrite E; exact E3|]. split.
  - apply sent_shows. rewrite E1, E2 in So. now rewrite <- (mem_at_eq (s_mem s) (a_mem a)) by apply (v_mem _ _ _ V).
  - apply (after_piece a x b n k s1 s2); auto; [|exact (proj2 (proj2 (v_idle _ _ _ V)))|lia]. eapply rel_keep; [exact V|reflexivity..|apply hush_idle].
Qed.
Lemma t_send_sim : forall n x b, trelated c a (Sending n) s -> c_sbm c = true -> c_lock c = LockRecursive -> a_mta a = Some (x, b) ->
  let k := N.min (full c) n in in_space c (target c e x b) k ->
  tsim c e s (Plain QMain) [Data (0xFF :: mem_at (a_mem a) (target c e x b) k)] (to_mta (Some (x, (b + k) mod aspace c)) a) (to_send (n - k)).
Proof.
  intros n x b (V & On & Bu & Sa & Sr & J & Hn) B K Mt k Sp. destruct (v_mta _ _ _ V x b Mt) as (E1 & E2). change (s_mext s = x) in E1. change (s_maddr s = b) in E2.
  destruct (piece c e s W K (sinv_out _ _ I) Sa) as (s2 & o & E3 & So & S2); rewrite ?Sr, ?E1, ?E2 in *; fold k; auto; [lia|unfold k; lia|]. fold k in So, S2.
  assert (J2 : no_job s2).
  { unfold same_session, ended, advanced, mta_at in S2. unfold no_job in *. destruct (n - k =? 0); ss_in S2; decompose [and] S2; congruence. }
  exists s2, o. split.
  - change (main_function c e s = Ok (s2, o)). unfold main_function, andthen. rewrite B, E3. cbn [bind].
    assert (Y : (if job_on c then checksum_main c s2 else Ok (s2, [])) = Ok (s2, [])) by (destruct (job_on c); [now apply job_idle_main|reflexivity]).
    rewrite Y. cbn [bind]. now rewrite app_nil_r.
  - split.
    + apply sent_shows. now rewrite <- (mem_at_eq (s_mem s) (a_mem a)) by apply (v_mem _ _ _ V).
    + apply (after_piece a x b n k s s2); auto. lia.
Qed.


Lemma t_short_upload_sim : forall n x b, related c a s -> idle a -> c_opt c 0xF4 = true -> c_sbm c = true -> c_lock c = LockRecursive ->
  (forall y d, granted c e y d n false false) -> 1 <= n < c_max_cto c -> in_space c (target c e x b) n -> encodable c (QShortUpload n x b) ->
  tsim c e s (Plain (QShortUpload n x b)) [Data (0xFF :: mem_at (a_mem a) (target c e x b) n)] (to_mta (Some (x, (b + n) mod aspace c)) a) Free.
Proof.
  intros n x b V (H & P) O B K G Hn Sp (N1 & N2 & N3). destruct (coded4 c b N3) as (a0 & a1 & a2 & a3 & E & F & _). pose proof (wf_cto _ W) as Wc.
  set (f := [0xF4; n; 0; x; a0; a1; a2; a3]). assert (Ef : toperation c (Plain (QShortUpload n x b)) = ORecv f) by (cbn [toperation operation frame]; rewrite E; reflexivity).
  assert (X : step c e (ORecv f) s = h_short_upload c e (rx c f s)).
  { pose proof (rdy c s a V H) as Rd. apply (exec_val c m l0 s o0); auto; [|tbl]. unfold c_ctobuf, f, lenN. cbn [length]. lia. }
  set (sx := rx c f s) in *. assert (Ei : s_in sx = rxbuf s f) by apply rx_in.
  assert (E0 : gb (s_in sx) 1 = n) by (rewrite Ei; reflexivity). assert (E1 : gb (s_in sx) 3 = x) by (rewrite Ei; reflexivity).
  assert (E2 : gd c (s_in sx) 4 = b) by (rewrite Ei; unfold f; rewrite (proj2 (rx4 _ _ _ _ _ _ _ _ _ _ _)); exact F).
  unfold h_short_upload in X. rewrite E0, E1, E2 in X. rewrite pgm_idle_no in X by exact (npgm c s a V P). rewrite check_mem_yes in X by apply G.
  assert (U8 : u8 (c_max_cto c - 1) = c_max_cto c - 1) by (unfold u8; apply N.mod_small; clear - Wc; change (2 ^ 8) with 256; lia). rewrite U8 in X. destruct (N.ltb_spec (c_max_cto c - 1) n); [lia|].
  unfold upload in X. rewrite B, active_val in X by exact K. cbn [bind] in X.
  set (s1 := set_s_sact true (set_s_busy true (set_s_srem n (set_mta x b sx)))) in X.
  assert (Ek : N.min (full c) (s_srem s1) = n) by (change (s_srem s1) with n; unfold full; lia).
  destruct (piece c e s1 W K (rx_out c m l0 s o0 f R) eq_refl) as (s2 & o & E3 & So & S2); rewrite ?Ek.
  { change (1 <= n). lia. }
  { exact Sp. }
  { lia. }
  rewrite Ek in So, S2. change (s_srem s1) with n in *. change (s_mem s1) with (s_mem s) in So. change (target c e (s_mext s1) (s_maddr s1)) with (target c e x b) in So.
  exists s2, o. split; [rewrite Ef, X; exact E3|]. split.
  - apply sent_shows. now rewrite <- (mem_at_eq (s_mem s) (a_mem a)) by apply (v_mem _ _ _ V).
  - replace Free with (to_send (n - n)) by (now rewrite N.sub_diag). apply (after_piece (to_mta (Some (x, b)) a) x b n n s1 s2); auto; [|exact (proj2 (proj2 (v_idle _ _ _ V)))].
    eapply rel_move; [exact V|reflexivity..|apply hush_idle|]. intros y z [= <- <-]. split; reflexivity.
Qed.

(** ** Checksums *)
Lemma t_checksum_sim : forall n x b, related c a s -> idle a -> c_opt c 0xF3 = true -> c_lock c = LockRecursive -> a_mta a = Some (x, b) ->
  granted c e x b n false false -> within_limit c n -> c_chunked c = true -> 2 * c_chunk c <= n -> composes (c_cks c) (c_chunk c) -> in_space c b n -> encodable c (QChecksum n) ->
  tsim c e s (Plain (QChecksum n)) [] (to_mta None a) (Summing b n []).
Proof.
  intros n x b V (H & P) O K Mt G Wl Ck H2 Co Sp En. destruct (v_mta _ _ _ V x b Mt) as (E1 & E2). destruct (coded4 c n En) as (a0 & a1 & a2 & a3 & E & F & _).
  pose proof (wf_cto _ W) as Wc. pose proof (wf_chunk _ W) as Hk.
  assert (M : may_sum c e s (field c [a0; a1; a2; a3])) by (rewrite F; constructor; auto; [now apply (rdy c s a V)|now apply (npgm c s a V)|now rewrite E1, E2]).
  pose proof (cks_cmd c m l0 s o0 e 0 0 0 a0 a1 a2 a3 [] R M) as X. set (f := checksum_cmd 0 0 0 a0 a1 a2 a3 []) in X. cbv zeta in X. rewrite F in X.
  specialize (X ltac:(unfold c_ctobuf, f, checksum_cmd, lenN; cbn [length]; lia)).
  assert (Lb : (0 <? c_max_blk c) && (c_max_blk c <? n) = false) by (unfold within_limit in Wl; lia). rewrite Lb, Ck in X. cbn [negb orb] in X.
  rewrite (proj2 (N.leb_gt n (c_chunk c)) ltac:(lia)) in X. unfold start_checksum, set_busy, enter, leave in X. rewrite K in X. cbn [bind] in X.
  destruct (v_idle _ _ _ V) as (Hb & Hs & Hj).
  assert (Ej : j_state (s_job (set_s_held (0 :: s_held (rx c f s)) (rx c f s))) = JIdle) by exact Hj.
  assert (Eb : s_busy (set_s_held (0 :: s_held (rx c f s)) (rx c f s)) = false) by exact Hb.
  rewrite Ej, Eb in X. cbn [orb bind] in X. eexists _, []. split; [cbn [toperation operation frame]; rewrite E; exact X|]. split; [constructor|]. cbn [trelated].
  split; [eapply rel_move; [exact V|reflexivity..|apply hush_idle|discriminate]|]. split; [exact H|]. split; [reflexivity|]. split; [exact Hs|]. split; [exact O|]. split; [exact Ck|].
  unfold job_is. pose proof (b_maddr _ _ (i_b _ _ I)) as Ma. cbn [length]. change (lenN (@nil N)) with 0. unfold upd_job. ss. cbn [j_size j_addr j_state j_sum].
  split; [lia|]. split; [cbn [encodable] in En; lia|]. split; [lia|]. split; [apply N.mod_0_l; lia|]. split; [constructor|]. split; [exact Co|]. split; [exact Sp|].
  split; [lia|]. split; [change (s_maddr s = (b + 0) mod aspace c); rewrite N.add_0_r, <- E2; symmetry; now apply N.mod_small|]. split; [reflexivity|]. intro Z. now contradiction Z.
Qed.

Lemma composes_mod : forall mm k n, 1 <= k -> composes mm k -> n mod k = 0 -> composes mm n.
Proof.
  clear. intros mm k n Hk C H. apply N.mod_divide in H; [|lia]. destruct H as (q & ->). destruct mm; cbn [composes] in *; auto; rewrite N.mul_mod, C, N.mul_0_r by discriminate; reflexivity.
Qed.
Lemma main_job : forall b n r, trelated c a (Summing b n r) s -> step c e OMain s = checksum_main c s.
Proof.
  intros b n r (V & On & Bu & Sa & O & Ck & J). cbn [step]. unfold main_function, andthen. assert (Y : job_on c = true) by (unfold job_on; now rewrite O, Ck). rewrite Y.
  assert (X : (if c_sbm c then upload_block c e s else Ok (s, [])) = Ok (s, [])) by (destruct (c_sbm c); [unfold upload_block; now rewrite Sa|reflexivity]).
  rewrite X. cbn [bind]. destruct (checksum_main c s) as [(s2 & o2)|w]; reflexivity.
Qed.
Lemma mem_of : forall b n, related c a (hushed s) -> mread (s_mem s) b n = mem_at (a_mem a) b n /\ bytes (mem_at (a_mem a) b n).
Proof.
  intros b n V. assert (E : mread (s_mem s) b n = mem_at (a_mem a) b n) by (rewrite <- mem_at_read; apply mem_at_eq; apply (v_mem _ _ _ V)).
  split; [exact E|]. rewrite <- E. apply bytes_mread. apply (i_b _ _ I).
Qed.

Lemma mod_one : forall L k, 1 <= k -> L mod k = 0 -> L < 2 * k -> L <= k.
Proof.
  clear. intros L k Hk H L2. apply N.mod_divide in H; [|lia]. destruct H as (q & ->). assert (q < 2) by nia. assert (Q : q = 0 \/ q = 1) by lia. destruct Q; subst q; lia.
Qed.
Lemma mod_ge : forall L k, 1 <= k -> L mod k = 0 -> L <> 0 -> k <= L.
Proof. clear. intros L k Hk H Z. destruct (N.ltb_spec L k); [|lia]. rewrite N.mod_small in H by lia. lia. Qed.
Lemma t_sum_sim : forall b n r, trelated c a (Summing b n r) s -> lenN r < 2 * c_chunk c \/ lenN r + c_chunk c < n ->
  tsim c e s (Plain QMain) [] a (Summing b n (r ++ mem_at (a_mem a) (b + lenN r) (c_chunk c))).
Proof.
  intros b n r T H. pose proof T as (V & On & Bu & Sa & O & Ck & J). unfold tsim. cbn [toperation operation]. rewrite (main_job b n r T).
  set (k := c_chunk c) in *. destruct J as (J1 & J2 & J3 & J4 & J5 & J6 & J7 & J8 & J9 & J10 & J11). fold k in J1, J2, J4, J6, J10. set (L := lenN r) in *.
  assert (Lk : L + k <= n).
  { destruct H as [H|H]; [|lia]. pose proof (mod_one L k J1 J4 H). lia. }
  assert (Ad : (b + L) mod aspace c + k <= aspace c) by (unfold in_space in J7; rewrite N.mod_small; lia).
  assert (Ea : (b + L) mod aspace c = b + L) by (apply N.mod_small; unfold in_space in J7; lia).
  destruct (mem_of (b + L) k V) as (Em & Bm).
  assert (Sb : sub32 (n - L) k = n - (L + k)).
  { unfold sub32. replace (n - L + (2 ^ 32 - k)) with (n - (L + k) + 1 * 2 ^ 32) by lia. rewrite N.mod_add by discriminate. apply N.mod_small. lia. }
  assert (Go : forall v st0, v = calc (c_cks c) (c_host_be c) (r ++ mem_at (a_mem a) (b + L) k) 0 true ->
     st0 = (if (2 * k <=? L + k) && (n <=? L + k + k) then JFinal else JRem) ->
     exists s' o, Ok (set_s_job (mkJob st0 ((j_addr (s_job s) + k) mod aspace c) (sub32 (j_size (s_job s)) k) v) s, []) = Ok (s', o) /\ Forall2 (shows c) [] o /\
       trelated c a (Summing b n (r ++ mem_at (a_mem a) (b + L) k)) s').
  { intros v st0 Ev Es. eexists _, []. split; [reflexivity|]. split; [constructor|]. cbn [trelated].
    split; [eapply rel_keep; [exact V|reflexivity..|apply hush_idle]|]. split; [exact On|]. split; [exact Bu|]. split; [exact Sa|]. split; [exact O|]. split; [exact Ck|].
    unfold job_is. ss. cbn [j_size j_addr j_state j_sum]. fold k. rewrite lenN_app, lenN_mem_at. fold L.
    split; [exact J1|]. split; [exact J2|]. split; [exact Lk|]. split; [rewrite <- N.add_mod_idemp_l, J4, N.add_0_l by lia; apply N.mod_same; lia|].
    split; [apply Forall_app; split; assumption|]. split; [exact J6|]. split; [exact J7|]. split; [now rewrite J8, Sb|]. split; [rewrite J9, Ea; f_equal; lia|].
    split; [|intros _; exact Ev]. destruct (N.eqb_spec (L + k) 0); [lia|]. exact Es. }
  unfold checksum_main. fold k. rewrite J10. destruct (N.eqb_spec L 0) as [Z|Z].
  - assert (r = []) by (destruct r; [reflexivity|unfold L in Z; rewrite lenN_cons in Z; lia]). unfold calc_mem.
    rewrite J9. destruct (N.ltb_spec (aspace c) ((b + L) mod aspace c + k)); [lia|]. cbn [bind]. rewrite <- J9. apply Go.
    + rewrite J9, Ea, Em. subst r. reflexivity.
    + destruct (N.leb_spec (2 * k) (L + k)); [lia|]. reflexivity.
  - assert (Nf : (2 * k <=? L) && (n <=? L + k) = false) by (destruct (N.leb_spec (2 * k) L), (N.leb_spec n (L + k)); cbn [andb]; auto; lia). rewrite Nf. unfold calc_mem.
    rewrite J9. destruct (N.ltb_spec (aspace c) ((b + L) mod aspace c + k)); [lia|]. cbn [bind]. rewrite <- J9. cbv zeta. apply Go.
    + rewrite J9, Ea, Em, J11 by (intro Y; apply Z; unfold L; now rewrite Y). symmetry. apply calc_app. apply (composes_mod _ k); auto.
    + rewrite J8, Sb. assert (K2 : 2 * k <= L + k) by (pose proof (mod_ge L k J1 J4 Z); lia).
      rewrite (proj2 (N.leb_le _ _) K2). cbn [andb]. destruct (N.leb_spec (n - (L + k)) k), (N.leb_spec n (L + k + k)); try reflexivity; lia.
Qed.
Lemma t_sum_last_sim : forall b n r, trelated c a (Summing b n r) s -> c_lock c = LockRecursive -> 2 * c_chunk c <= lenN r -> n <= lenN r + c_chunk c ->
  let bs := r ++ mem_at (a_mem a) (b + lenN r) (n - lenN r) in
  tsim c e s (Plain QMain) [Response (checksum_answer (c_cks c) (checksum_spec (c_cks c) (c_host_be c) bs))] a Free.
Proof.
  intros b n r T K H1 H2 bs. pose proof T as (V & On & Bu & Sa & O & Ck & J). unfold tsim. cbn [toperation operation]. rewrite (main_job b n r T).
  set (k := c_chunk c) in *. destruct J as (J1 & J2 & J3 & J4 & J5 & J6 & J7 & J8 & J9 & J10 & J11). fold k in J1, J2, J4, J6, J10. set (L := lenN r) in *.
  destruct (mem_of (b + L) (n - L) V) as (Em & Bm). unfold in_space in J7. pose proof (aspace_pos c) as Ap.
  assert (Nr : r <> []) by (intro Z; unfold L in H1; rewrite Z in H1; change (lenN (@nil N)) with 0 in H1; lia).
  assert (Nc : c_cks c <> CRC32) by (destruct (c_cks c); cbn [composes] in J6; try contradiction; discriminate).
  unfold checksum_main. rewrite J10. destruct (N.eqb_spec L 0); [lia|]. rewrite (proj2 (N.leb_le _ _) H1), (proj2 (N.leb_le _ _) H2). cbn [andb].
  assert (Rd : calc_mem c s (j_addr (s_job s)) (j_size (s_job s)) (j_sum (s_job s)) false = Ok (checksum_spec (c_cks c) (c_host_be c) bs)).
  { unfold calc_mem. rewrite J8, J9, (J11 Nr).
    assert (Ad : (b + L) mod aspace c + (n - L) <= aspace c).
    { destruct (N.eq_dec L n) as [Z|Z]; [rewrite Z, N.sub_diag; pose proof (N.mod_lt (b + n) (aspace c) ltac:(lia)); lia|rewrite N.mod_small; lia]. }
    destruct (N.ltb_spec (aspace c) ((b + L) mod aspace c + (n - L))); [lia|]. f_equal.
    assert (Er : mread (s_mem s) ((b + L) mod aspace c) (n - L) = mem_at (a_mem a) (b + L) (n - L)).
    { destruct (N.eq_dec L n) as [Z|Z]; [rewrite Z, N.sub_diag; reflexivity|rewrite N.mod_small by lia; exact Em]. }
    rewrite Er, <- (calc_spec _ _ _ 0 Nc) by (apply Forall_app; split; assumption). symmetry. apply calc_app. apply (composes_mod _ k); auto. }
  rewrite Rd. cbn [bind]. unfold set_busy, enter, leave. rewrite K. cbn [bind]. set (s3 := set_s_held _ _).
  destruct (send_checksum_ans c (checksum_spec (c_cks c) (c_host_be c) bs) s3 s3 W D (sinv_out _ _ I) (spec_bound _ _ _ Nc) (ss_refl _)) as (s4 & o4 & E4 & (p & -> & P1 & P2) & S4).
  unfold andthen. rewrite E4. cbn [bind]. eexists _, _. split; [reflexivity|]. rewrite app_nil_r. split.
  - constructor; [split; [exact P1|]|constructor]. rewrite P2. unfold padded. destruct (c_max_dlc c); [now rewrite app_nil_r|reflexivity].
  - cbn [trelated]. unfold same_session in S4. decompose [and] S4. eapply rel_keep; [exact V|assumption..|].
    split; [assumption|]. split; [|reflexivity]. match goal with Hd : s_sact s4 = _ |- _ => change (s_sact s4 = false); rewrite Hd end. exact Sa.
Qed.

(** ** Downloads *)
Lemma stored : forall q f b bs s1 rs a1 t1, toperation c q = ORecv f ->
  (exists ans, stores c e f s b bs s1 ans /\ (forall o, ans o -> Forall2 (shows c) rs o)) ->
  (forall m', (forall y, m' y = patch (s_mem s) b bs y) -> trelated c a1 t1 (set_s_mem m' s1)) -> 
  (forall s' s2, same_session s2 s' -> trelated c a1 t1 s2 -> trelated c a1 t1 s') ->
  tsim c e s q rs a1 t1.
Proof.
  intros q f b bs s1 rs a1 t1 E (ans & (s' & o & m' & H & A & Wr & T) & K) V Sv. exists s', o. rewrite E. split; [exact H|]. split; [now apply K|].
  eapply Sv; [exact T|]. apply V. intro y. apply Wr.
Qed.
Lemma taking_same : forall n a1 s' s2, same_session s2 s' -> trelated c a1 (to_take n) s2 -> trelated c a1 (to_take n) s'.
Proof.
  intros n a1 s' s2 S V. unfold to_take in *. destruct (n =? 0); cbn [trelated] in *; [eapply related_same; eauto|]. destruct V as (V & V1 & V2 & V3).
  split; [eapply related_same; eauto|]. unfold same_session in S. decompose [and] S. repeat split; congruence || apply V3.
Qed.
(** The memory written, the MTA moved. *)
Lemma rel_write : forall x b bs s1 m', related c a s -> (forall y, m' y = patch (s_mem s) (target c e x b) bs y) -> s_mext s = x -> s_maddr s = b ->
  s_conn s1 = s_conn s -> s_pgm s1 = s_pgm s -> s_prot s1 = s_prot s -> s_seed s1 = s_seed s -> s_daq s1 = s_daq s -> s_busy s1 = s_busy s -> s_sact s1 = s_sact s -> s_job s1 = s_job s ->
  s_mext s1 = x -> s_maddr s1 = (b + lenN bs) mod aspace c ->
  related c (to_mta (Some (x, (b + lenN bs) mod aspace c)) (to_mem (patch (a_mem a) (target c e x b) bs) a)) (set_s_mem m' s1).
Proof.
  clear Sm St We. intros x b bs s1 m' [A B C X F G H J Y] Hm E1 E2 T1 T2 T3 T4 T5 T6 T7 T8 T9 T10. unfold programming, measuring, no_job in *.
  constructor; cbn [to_mta to_mem a_on a_pgm a_mta a_mem a_prot a_seed a_meas]; unfold programming, measuring, no_job; ss; rewrite ?T1, ?T2, ?T3, ?T4, ?T5, ?T6, ?T7, ?T8; auto.
  - intros y z [= <- <-]. auto.
  - intro y. rewrite Hm. apply patch_eq. exact F.
  - intro Z. eapply measures_daq; [|exact (J Z)]. exact T5.
Qed.
Lemma t_block_sim : forall n bs x b, related c a s -> idle a -> c_cal c = true -> c_mbm c = true -> a_mta a = Some (x, b) ->
  c_buf_addr c + 2 < 2 ^ 32 -> granted c e x b n true false -> lenN bs = c_max_cto c - 2 -> lenN bs < n <= c_max_bs c * (c_max_cto c - 2) ->
  target c e x b <> 0 -> in_space c (target c e x b) (lenN bs) -> n < 256 ->
  tsim c e s (QBlock n bs) [] (to_mta (Some (x, (b + lenN bs) mod aspace c)) (to_mem (patch (a_mem a) (target c e x b) bs) a)) (Taking (n - lenN bs)).
Proof.
  intros n bs x b V (H & P) C Mb Mt Ba G Lb Hn Nz Sp N8. destruct (v_mta _ _ _ V x b Mt) as (E1 & E2). pose proof (wf_cto _ W) as Wc.
  pose proof (block_first c m l0 s o0 e R (rdy c s a V H) n bs []) as X. cbv zeta in X. rewrite app_nil_r, E1, E2 in X.
  eapply stored; [reflexivity|eexists; split; [apply X; auto; [now apply (npgm c s a V)|unfold c_ctobuf; rewrite !lenN_cons; lia]|intros o ->; constructor]| |].
  - intros m' Hm. cbn [trelated]. split; [|unfold advanced, mta_at; ss; repeat split; lia]. apply rel_write; auto; unfold advanced, mta_at; ss; auto. now rewrite E2.
  - intros s' s2 S Vt. pose proof (taking_same (n - lenN bs) (to_mta (Some (x, (b + lenN bs) mod aspace c)) (to_mem (patch (a_mem a) (target c e x b) bs) a)) s' s2 S) as Y.
    unfold to_take in Y. destruct (N.eqb_spec (n - lenN bs) 0); [lia|]. now apply Y.
Qed.
Lemma t_next_sim : forall n bs x b, trelated c a (Taking n) s -> idle a -> c_cal c = true -> c_opt c 0xEF = true -> a_mta a = Some (x, b) ->
  c_buf_addr c + 2 < 2 ^ 32 -> lenN bs = N.min n (c_max_cto c - 2) -> target c e x b <> 0 -> in_space c (target c e x b) (lenN bs) ->
  tsim c e s (QNext n bs) (if n =? lenN bs then SpecRef.done else [])
      (to_mta (Some (x, (b + lenN bs) mod aspace c)) (to_mem (patch (a_mem a) (target c e x b) bs) a)) (to_take (n - lenN bs)).
Proof.
  intros n bs x b (V & Ma & Mr & Hn) (H & P) C O Mt Ba Lb Nz Sp. destruct (v_mta _ _ _ V x b Mt) as (E1 & E2). pose proof (wf_cto _ W) as Wc.
  pose proof (next_thm c m l0 s o0 e R (rdy c s a V H) n bs []) as X. cbv zeta in X. rewrite app_nil_r, E1, E2, Mr in X.
  assert (El : (n + 256 - lenN bs) mod 256 = n - lenN bs) by (replace (n + 256 - lenN bs) with (n - lenN bs + 1 * 256) by lia; rewrite N.mod_add by discriminate; apply N.mod_small; lia).
  rewrite El in X. assert (Ez : (n - lenN bs =? 0) = (n =? lenN bs)) by lia. 
  eapply stored; [reflexivity|eexists; split; [apply X; auto; [now apply (npgm c s a V)|unfold c_ctobuf; rewrite !lenN_cons; lia|lia]|]| |].
  - intros o. rewrite Ez. destruct (n =? lenN bs); [intros (p & -> & P1 & P2); repeat constructor; auto|intros ->; constructor].
  - intros m' Hm. unfold to_take. rewrite Ez. destruct (N.eqb_spec n (lenN bs)); cbn [trelated negb].
    + apply rel_write; auto; unfold advanced, mta_at; ss; auto. now rewrite E2.
    + split; [|unfold advanced, mta_at; ss; repeat split; lia]. apply rel_write; auto; unfold advanced, mta_at; ss; auto. now rewrite E2.
  - intros s' s2. apply taking_same.
Qed.

(** ** Meanwhile *)
Lemma coded_length : forall k v, length (coded c k v) = k.
Proof. clear. intros k v. unfold coded. destruct (c_motorola c); rewrite ?rev_length; apply ProofsFrames.le_bytes_len. Qed.
Lemma frame_fits : forall q, tencodable c q -> lenN (tframe c q) <= c_max_cto c.
Proof.
  clear Sm St. intros q En. pose proof (wf_cto _ W) as H8.
  destruct q as [q|n bs|n bs]; [|cbn [tframe tencodable] in *; rewrite !lenN_cons; lia..].
  destruct q; cbn [tframe frame tencodable encodable] in *; try (apply En; fail); unfold lenN in *; cbn [length app] in *;
    repeat rewrite ?app_length, ?coded_length; cbn [length] in *; try lia.
  destruct En as (E1 & E2 & E3). pose proof (many_len c xs) as Ml. change (N.of_nat (length (0xC7 :: lenN xs :: body c xs)) <= c_max_cto c). fold (lenN (0xC7 :: lenN xs :: body c xs)). rewrite Ml. exact E3.
Qed.
Lemma t_busy_sim : forall q t, busy t -> trelated c a t s -> commands q -> tencodable c q -> tsim c e s q (fails 0x10) a t.
Proof.
  intros q t B V C En. pose proof (frame_fits q En) as L. assert (Hb : s_conn s = true /\ s_busy s = true).
  { destruct t; try contradiction; destruct V as (V & On & Bu & _); (split; [exact (v_on _ _ _ V On)|exact Bu]). }
  assert (E : toperation c q = ORecv (tframe c q) /\ tframe c q <> []).
  { destruct q as [q|n bs|n bs]; [|split; [reflexivity|discriminate]..]. destruct q; cbn [commands] in C; try contradiction; (split; [reflexivity|try discriminate]). destruct f; [contradiction|discriminate]. }
  destruct E as (E & Ne). destruct (busy_frame c e (tframe c q) s W D I (proj1 Hb) (proj2 Hb) Ne) as (s' & o & H & (p & -> & P1 & P2) & S & _); [unfold c_ctobuf; lia|].
  exists s', [p]. rewrite E. split; [exact H|]. split; [repeat constructor; auto|]. eapply trelated_same; [exact V|now apply ts_session|reflexivity|]. eapply hush_same; [exact S|eapply tr_hush; exact V].
Qed.
Lemma beside_step : forall q rs a', related c a (hushed s) -> beside q -> ref_step c e a q rs a' -> encodable c q ->
  exists s' o, step c e (operation c q) s = Ok (s', o) /\ Forall2 (shows c) rs o /\ related c a' (hushed s') /\ task_same s s' /\ a_on a' = a_on a.
Proof.
  intros q rs a' V B H En. destruct H; cbn [beside] in B; try contradiction; try (destruct q; contradiction);
    try (destruct q; try contradiction; match goal with X : allocates _ _ _ _ |- _ => destruct X as (_ & X); contradiction end); cbn [operation encodable] in *.
  - exists (set_s_mem (mwrite (s_mem s) b bs) s), []. split; [reflexivity|]. split; [constructor|]. split; [|split; [repeat split|reflexivity]].
    destruct V as [A B' C X F G H J Y]. constructor; auto; try (intro; eapply measures_daq; [|eauto]; reflexivity).
    intro y. change (mwrite (s_mem s) b bs y = patch (a_mem a) b bs y). rewrite (mwrite_wrote (s_mem s) b bs y). apply patch_eq. exact F.
  - destruct En as (Hk & _ & Hi). destruct (C53_event c m l0 s o0 e k i R H Hk Hi) as (s' & o & X & (p & pad & -> & P1 & P2 & P3) & Ss & _).
    exists s', [p]. split; [exact X|]. split; [constructor; [split; [exact P1|exists pad; split; [exact P2|exact P3]]|constructor]|]. split; [eapply hush_same; eauto|]. split; [now apply ts_session|reflexivity].
  - destruct En as (Hk & _ & Hi). destruct (C53_service c m l0 s o0 e k i R H Hk Hi) as (s' & o & X & (p & pad & -> & P1 & P2 & P3) & Ss & _).
    exists s', [p]. split; [exact X|]. split; [constructor; [split; [exact P1|exists pad; split; [exact P2|exact P3]]|constructor]|]. split; [eapply hush_same; eauto|]. split; [now apply ts_session|reflexivity].
  - assert (Hc : c_daq c = true) by assumption. pose proof (v_meas _ _ _ V Hc) as M. change (measures c x (hushed s)) in M.
    assert (M1 : measures c x s) by (eapply measures_daq; [|exact M]; reflexivity).
    match goal with Hs : m_stamps x = Some b, He : m_event x ev = Some l, Hr : m_run x = true, Hg : getN (m_tree x) l = Some os, Hu : m_sent x + lenN os <= 4 |- _ =>
      pose proof (x_stamps _ _ _ M1 b e Hs) as Et; fold ts in Et; assert (Q : measuring s) by (now apply (x_run _ _ _ M1));
      destruct (C40_event c m l0 s o0 e (m_tree x) ev l os R We Sm St (x_tree _ _ _ M1) Q (x_event _ _ _ M1 ev l He) Hg) as (s' & o' & X & (E1 & E2) & (q & T) & U); [now rewrite Et|now rewrite (x_sent _ _ _ M1)|] end.
    exists s', o'. split; [exact X|]. split.
    + rewrite Et, (dtos_eq (s_mem s) (a_mem a) os _ _ (v_mem _ _ _ V)) in E1. rewrite <- E1. clear - E2. induction E2 as [|p o' Hp F IH]; [constructor|]. cbn [map]. constructor; [split; auto|exact IH].
    + assert (Wr : related c (to_meas (sent (lenN os) x) a) (hushed (set_s_daq (set_d_q q (s_daq s)) s))).
      { assert (Eq : used s' = q_head q) by (unfold used; assert (Es : s_daq s' = set_d_q q (s_daq s)) by apply T; now rewrite Es).
        destruct V as [A1 B1 C1 D1 E1' F1 G1 H1' J1]. constructor; auto; intros _.
        destruct M1 as [A B' C X' Fx Gx Hx]. constructor; auto.
        - destruct A as (fo & fe & A). exists fo, fe. eapply rep_tables; [|exact A]. repeat split.
        - change (q_head q = m_sent x + lenN os). change (used s = m_sent x) in Hx. rewrite <- Hx, <- U, Eq. reflexivity. }
      split; [eapply hush_same; [exact T|exact Wr]|]. split; [|reflexivity]. exact (ts_session _ _ T).
  - exists s, []. split; [apply C41_idle; exact (quiet c (hushed s) a V H)|]. split; [constructor|]. split; [exact V|]. split; [repeat split|reflexivity].
Qed.

Lemma tsim_step : forall t q rs a' t', trelated c a t s -> task_step c e a t q rs a' t' -> tencodable c q -> tsim c e s q rs a' t'.
Proof.
  intros t q rs a' t' V H En. destruct H.
  - apply t_free_sim; auto.
  - apply t_upload_sim; auto.
  - apply t_short_upload_sim; auto.
  - apply t_send_sim; auto.
  - eapply t_checksum_sim; eauto.
  - now apply t_sum_sim.
  - now apply t_sum_last_sim.
  - apply t_block_sim; auto; [|apply En]. destruct H as [-> | (i & ->)]; [exact V|apply V].
  - now apply t_next_sim.
  - now apply t_busy_sim.
  - destruct (beside_step q rs a' (tr_hush _ _ _ _ V) H0 H1 En) as (s' & o & E & F & V' & T & On). exists s', o. split; [exact E|]. split; [exact F|]. eapply trelated_same; eauto.
  - destruct V as (V & V2). destruct (sim_main c s e a V) as (s' & o & E & F & V').
    destruct (main_kept c e s s' o E) as ((K1 & K2 & K3 & K4 & K5 & K6 & K7 & _) & _). exists s', o. split; [exact E|]. split; [exact F|]. split; [exact V'|]. rewrite K6, K7. exact V2.
  - destruct V as (V & V2). now apply t_free_sim.
Qed.
End Rules.

(** ** Runs *)
Lemma top_wf : forall c e q, wf_cfg c -> wf_env c e -> tencodable c q -> wf_op c (e, toperation c q).
Proof.
  intros c e [q|n bs|n bs] W We En; [now apply op_wf|..]; (split; [exact We|]); cbn [toperation snd tframe]; destruct En as (E1 & E2 & _);
    (apply Forall_cons; [lia|apply Forall_cons; [exact E1|exact E2]]).
Qed.
Lemma task_run_thm : forall c m, dlc_ok c -> c_max_ent c < 65536 -> stamp_ok c -> forall l a t rs a' t', task_run c a t l rs a' t' ->
  forall l0 s o0, reachable c m l0 s o0 -> trelated c a t s ->
  exists s' o, run c (toperations c l) s = Ok (s', o) /\ reachable c m (l0 ++ toperations c l) s' (o0 ++ o) /\ Forall2 (shows c) rs o /\ trelated c a' t' s'.
Proof.
  intros c m D Sm St l a t rs a' t' H. induction H as [a t|a t e q rs a1 t1 l rs' a2 t2 We En Hs Hr IH]; intros l0 s o0 R V.
  - exists s, []. cbn [toperations map run]. rewrite !app_nil_r. auto.
  - destruct (tsim_step c m l0 s o0 e a R D Sm St We t q rs a1 t1 V Hs En) as (s1 & o1 & E1 & F1 & V1).
    assert (R1 : reachable c m (l0 ++ [(e, toperation c q)]) s1 (o0 ++ o1)) by (eapply reach_step; [exact R|apply top_wf; auto; apply R|exact E1]).
    destruct (IH _ _ _ R1 V1) as (s2 & o2 & E2 & R2 & F2 & V2). exists s2, (o1 ++ o2). unfold toperations in *. cbn [map fst snd].
    split; [cbn [run]; unfold andthen; rewrite E1; cbn [bind]; rewrite E2; reflexivity|]. rewrite <- !app_assoc in R2. cbn [app] in R2. split; [exact R2|]. split; [now apply Forall2_app|exact V2].
Qed.
Lemma task_refines : forall c m s0 l rs a t, wf_cfg c -> wf_mem m -> dlc_ok c -> c_max_ent c < 65536 -> stamp_ok c -> boot c m = Ok s0 ->
  task_run c (power_up c m) Free l rs a t ->
  exists s o, reachable c m (toperations c l) s o /\ Forall2 (shows c) rs o /\ trelated c a t s.
Proof.
  intros c m s0 l rs a t W Wm D Sm St B H.
  destruct (task_run_thm c m D Sm St l _ _ rs a t H [] s0 []) as (s & o & E & R & F & V); [|now apply boot_related|exists s, o; auto].
  split; [exact W|]. split; [exact Wm|]. split; [constructor|]. exists s0. split; [exact B|reflexivity].
Qed.

(** ** Determinism *)
Ltac none := exfalso; unfold idle, daq_idle, shut, allocates, at_once in *; cbn in *; repeat match goal with H : _ /\ _ |- _ => destruct H end; try contradiction; try congruence;
  repeat match goal with H : ?t = Some _, K : ?t = Some _ |- _ => rewrite H in K; injection K; clear K; intros; subst end; try contradiction; try lia.
Lemma only_upload : forall c e a n rs a' x b, ref_step c e a (QUpload n) rs a' -> idle a -> c_sbm c = true -> a_mta a = Some (x, b) -> granted c e x b n false false -> False.
Proof. intros c e a n rs a' x b H Id B Mt G. inversion H; subst; none. Qed.
Lemma only_short : forall c e a n x b rs a', ref_step c e a (QShortUpload n x b) rs a' -> c_sbm c = true -> False.
Proof. intros c e a n x b rs a' H B. inversion H; subst; none. Qed.
Lemma only_checksum : forall c e a n rs a' x b, ref_step c e a (QChecksum n) rs a' -> a_mta a = Some (x, b) -> granted c e x b n false false -> within_limit c n -> c_chunked c = true ->
  c_chunk c < n -> False.
Proof. intros c e a n rs a' x b H Mt G Wl Ck L. inversion H; subst; try (none; fail). match goal with X : at_once _ _ |- _ => destruct X; [congruence|lia] end. Qed.
Lemma apart : forall q, beside q -> commands (Plain q) -> False.
Proof. intros q. destruct q; cbn; auto. Qed.
Lemma task_det : forall c e a t q r1 a1 t1 r2 a2 t2, wf_cfg c -> task_step c e a t q r1 a1 t1 -> task_step c e a t q r2 a2 t2 -> r1 = r2 /\ a1 = a2 /\ t1 = t2.
Proof.
  intros c e a t q r1 a1 t1 r2 a2 t2 W H1 H2. pose proof (wf_chunk _ W) as Hk.
  destruct H1; cbv zeta in *; inversion H2; subst; cbv zeta in *; auto.
  all: try (match goal with H : ?t = Some ?u, K : ?t = Some ?v |- _ => rewrite H in K; injection K; clear K; intros; subst end; auto; fail).
  all: try (match goal with H : ref_step _ _ _ _ _ _, K : ref_step _ _ _ _ _ _ |- _ => destruct (det _ _ _ _ _ _ _ _ H K); subst; auto end; fail).
  all: exfalso; try (match goal with H : Free <> Free |- _ => now apply H | H : busy _ |- _ => contradiction H | H : beside _ |- _ => contradiction H | H : commands _ |- _ => contradiction H end; fail).
  all: try (eapply only_upload; eassumption); try (eapply only_short; eassumption).
  all: try (match goal with H : ref_step _ _ _ (QChecksum _) _ _ |- _ => eapply only_checksum; [exact H|eassumption..|lia] end; fail).
  all: try (eapply apart; eassumption).
  all: try lia.
  all: try (match goal with H : _ \/ _ |- _ => destruct H as [H | (? & H)] end; subst; contradiction).
Qed.
Lemma task_run_det : forall c l a t r1 a1 t1, wf_cfg c -> task_run c a t l r1 a1 t1 -> forall r2 a2 t2, task_run c a t l r2 a2 t2 -> r1 = r2 /\ a1 = a2 /\ t1 = t2.
Proof.
  intros c l a t r1 a1 t1 W H. induction H as [a t|a t e q rs b u l rs' a1 t1 We En Hs Hr IH]; intros r2 a2 t2 K; inversion K; subst; [auto|].
  match goal with X : task_step _ _ _ _ _ _ _ _ |- _ => destruct (task_det _ _ _ _ _ _ _ _ _ _ _ W Hs X) as (-> & -> & ->) end.
  match goal with X : task_run _ _ _ _ _ a2 _ |- _ => destruct (IH _ _ _ X) as (-> & -> & ->) end. auto.
Qed.
