(** Proofs about BUILD_CHECKSUM. *)
From Coq Require Import NArith ZArith List Bool Lia ZifyBool ZifyNat ZifyN.
From Verif Require Import Base Config Cfgs Codec Checksum State Queue Daq Core Spec Lists Effects Handlers HTx HInv HInv2
  HFields HResp DaqInv HSpec Steps Demo Ops ProofsSession Exec ProofsFrames SpecProt ProofsProt SpecMem ProofsMem ProofsBlock
  SpecCks ProofsCrc ProofsCks.
Import ListNotations.
Open Scope N_scope.
Ltac Zify.zify_post_hook ::= Z.div_mod_to_equations.

Lemma send_checksum_ans : forall c v s s1, wf_cfg c -> dlc_ok c -> lenN (s_out s) = c_max_cto c -> v < 2 ^ 32 -> same_session s1 s ->
  exists s' o, send_checksum c v s = Ok (s', o) /\ sends o (checksum_answer (c_cks c) v) /\ same_session s1 s'.
Proof.
  intros c v s s1 W D L V S. unfold send_checksum. rewrite le32_le_bytes by auto. fold (checksum_answer (c_cks c) v).
  destruct (send8_full c (checksum_answer (c_cks c) v) s s1 W D L eq_refl S) as (s' & o & E & P & S').
  exists s', o. split; [exact E|]. split; [|exact S'].
  assert (Ep : padded c (checksum_answer (c_cks c) v) = checksum_answer (c_cks c) v) by (unfold padded; destruct (c_max_dlc c); [apply app_nil_r|reflexivity]).
  now rewrite Ep in P.
Qed.

Section Cks.
Variables (c : cfg) (m : mem) (l : list (env * op)) (s : st) (o : list pkt) (e : env) (r1 r2 r3 n0 n1 n2 n3 : N) (t : list N).
Let f := checksum_cmd r1 r2 r3 n0 n1 n2 n3 t.
Let n := field c [n0; n1; n2; n3].
Hypothesis (R : reachable c m l s o) (D : dlc_ok c) (M : may_sum c e s n) (L : lenN f <= c_ctobuf c).
Let W : wf_cfg c := proj1 R.

Lemma cks_cmd : step c e (ORecv f) s =
  (let sx := rx c f s in
   if (0 <? c_max_blk c) && (c_max_blk c <? n) then send_checksum_oor c sx
   else if negb (c_chunked c) || (n <=? c_chunk c) then
     v <- calc_mem c sx (s_maddr s) n 0 true ;; send_checksum c v sx
   else s1 <- start_checksum c (s_maddr s) n sx ;; Ok (s1, [])).
Proof.
  destruct M as [RD P O G].
  assert (E : step c e (ORecv f) s = h_checksum c e (rx c f s)).
  { apply (exec_val c m l s o); auto. tbl. }
  rewrite E. unfold h_checksum. rewrite rx_in.
  assert (En : gd c (rxbuf s f) 4 = n) by (unfold f, checksum_cmd; now rewrite (proj2 (rx4 _ _ _ _ _ _ _ _ _ _ _))).
  rewrite En. rewrite pgm_idle_no by exact P. rewrite check_mem_yes by exact G. reflexivity.
Qed.

Lemma limit_b : within_limit c n -> (0 <? c_max_blk c) && (c_max_blk c <? n) = false.
Proof. unfold within_limit. intros. lia. Qed.

Lemma cks_oor : ~ within_limit c n -> answers c e f s ([0xFE; 0x22; 0; 0] ++ le_bytes 4 (c_max_blk c)) s.
Proof.
  intro H. unfold answers. rewrite cks_cmd. cbv zeta.
  destruct (N.ltb_spec 0 (c_max_blk c)), (N.ltb_spec (c_max_blk c) n); cbn [andb]; try (exfalso; apply H; unfold within_limit; lia).
  unfold send_checksum_oor. rewrite le32_le_bytes by apply W. apply send8_full; auto; [exact (rx_out c m l s o f R)|apply ss_rx].
Qed.

Lemma cks_once_val : within_limit c n -> at_once c n -> in_space c (s_maddr s) n ->
  step c e (ORecv f) s = send_checksum c (calc (c_cks c) (c_host_be c) (mem_at (s_mem s) (s_maddr s) n) 0 true) (rx c f s).
Proof.
  intros Hl Ho Sp. rewrite cks_cmd. cbv zeta. rewrite (limit_b Hl).
  assert (E : negb (c_chunked c) || (n <=? c_chunk c) = true) by (destruct Ho as [->|]; [reflexivity|apply orb_true_iff; right; now apply N.leb_le]).
  rewrite E. unfold calc_mem. unfold in_space in Sp. destruct (N.ltb_spec (aspace c) (s_maddr s + n)); [lia|].
  cbn [bind]. rewrite mem_at_read. reflexivity.
Qed.

Lemma mem_bytes : bytes (mem_at (s_mem s) (s_maddr s) n).
Proof. rewrite mem_at_read. apply bytes_mread. apply (i_b _ _ (reach_inv _ _ _ _ _ R)). Qed.

Lemma cks_ans : forall bs v s1, padded c (checksum_answer (c_cks c) v) = bs -> v < 2 ^ 32 -> 
  (exists s' o', send_checksum c v (rx c f s) = Ok (s', o') /\ sends o' (checksum_answer (c_cks c) v) /\ same_session s1 s') ->
  exists s' o', send_checksum c v (rx c f s) = Ok (s', o') /\ sends o' bs /\ same_session s1 s'.
Proof.
  intros bs v s1 <- V H. assert (Ep : padded c (checksum_answer (c_cks c) v) = checksum_answer (c_cks c) v)
    by (unfold padded; destruct (c_max_dlc c); [apply app_nil_r|reflexivity]). now rewrite Ep.
Qed.

Lemma cks_once : c_cks c <> CRC32 -> within_limit c n -> at_once c n -> in_space c (s_maddr s) n ->
  answers c e f s (checksum_answer (c_cks c) (checksum_spec (c_cks c) (c_host_be c) (mem_at (s_mem s) (s_maddr s) n))) s.
Proof.
  intros N Hl Ho Sp. unfold answers. rewrite cks_once_val by auto. rewrite calc_spec by (auto; apply mem_bytes).
  apply cks_ans; auto; [now apply spec_bound|]. apply send_checksum_ans; auto; [exact (rx_out c m l s o f R)|now apply spec_bound|apply ss_rx].
Qed.

(** One byte with CRC-32: always wrong. *)
Lemma all256_P : forall P : N -> bool, forallb P all256 = true -> forall b, b < 256 -> P b = true.
Proof. intros P A b Hb. exact (proj1 (forallb_forall _ _) A b (in_256 b Hb)). Qed.
Lemma crc32_wrong : forall be b, b < 256 -> exists v, calc CRC32 be [b] 0 true = v /\ v < 2 ^ 32 /\ v <> crc_32 [b].
Proof.
  intros be b Hb.
  assert (A : forall b, b < 256 -> calc CRC32 be [b] 0 true <? 2 ^ 32 = true) by (destruct be; apply all256_P; vm_compute; reflexivity).
  assert (B : forall b, b < 256 -> negb (calc CRC32 be [b] 0 true =? crc_32 [b]) = true) by (destruct be; apply all256_P; vm_compute; reflexivity).
  specialize (A b Hb). specialize (B b Hb). set (v := calc CRC32 be [b] 0 true) in *. set (w := crc_32 [b]) in *. clearbody v w.
  apply N.ltb_lt in A. apply negb_true_iff, N.eqb_neq in B. exists v. auto.
Qed.
Lemma cks_crc32 : c_cks c = CRC32 -> n = 1 -> within_limit c n -> at_once c n -> in_space c (s_maddr s) n ->
  exists v, v < 2 ^ 32 /\ v <> crc_32 (mem_at (s_mem s) (s_maddr s) n) /\ answers c e f s (checksum_answer CRC32 v) s.
Proof.
  intros E32 N1 Hl Ho Sp. pose proof mem_bytes as B.
  assert (Em : mem_at (s_mem s) (s_maddr s) n = [s_mem s (s_maddr s)]).
  { rewrite N1. unfold mem_at. change (N.to_nat 1) with 1%nat. cbn [seq map]. change (N.of_nat 0) with 0. rewrite N.add_0_r. reflexivity. }
  rewrite Em in B. inversion B as [|? ? Hb _]. clear B.
  destruct (crc32_wrong (c_host_be c) _ Hb) as (v & Ev & Vb & Vn). exists v. split; [exact Vb|]. rewrite Em. split; [exact Vn|].
  unfold answers. rewrite cks_once_val by auto. rewrite Em, E32, Ev. rewrite <- E32.
  apply cks_ans; auto. apply send_checksum_ans; auto; [exact (rx_out c m l s o f R)|apply ss_rx].
Qed.

(** ** In the background *)

Hypotheses (K : c_lock c = LockRecursive) (J : no_job s) (U : no_upload c s) (Ck : c_chunked c = true).
Hypotheses (Wl : within_limit c n) (Big : c_chunk c < n).

Hypothesis (Nb : n < 2 ^ 32).

(** Bytes that will be read. *)
Let k := c_chunk c.
Let total : N := if n <? 2 * k then n + 2 ^ 32 else n.
Let block (d : N) : list N := mem_at (s_mem s) (s_maddr s) d.

(** The job after [i] calls. *)
Definition job_at (i : N) (j : jobst) : Prop := exists v,
  (i = 0 /\ j = mkJob JInit (s_maddr s) n v) \/
  (1 <= i /\ j = mkJob (if i + 1 =? calls k total then JFinal else JRem)
             ((s_maddr s + i * k) mod aspace c) ((total - i * k) mod 2 ^ 32) v /\
   (composes (c_cks c) k -> in_space c (s_maddr s) (i * k) -> v = calc (c_cks c) (c_host_be c) (block (i * k)) 0 true)).

Lemma kk : 1 <= k < 2 ^ 32. Proof. apply W. Qed.
Lemma total_ge : 2 * k <= total.
Proof. pose proof kk. unfold total. destruct (N.ltb_spec n (2 * k)); lia. Qed.

Lemma calls_q : exists q, calls k total = N.max 3 q /\ k * q <= total + k - 1 < k * q + k.
Proof.
  pose proof kk. exists ((total + k - 1) / k). split; [reflexivity|].
  pose proof (N.div_mod (total + k - 1) k ltac:(lia)). pose proof (N.mod_lt (total + k - 1) k ltac:(lia)).
  set (q := (total + k - 1) / k) in *. clearbody q. lia.
Qed.
Lemma done_le : forall i, i < calls k total -> i * k <= total.
Proof.
  intros i H. pose proof kk. pose proof total_ge. destruct calls_q as (q & E & Q). rewrite E in H.
  destruct (N.leb_spec i 2); [nia|]. assert (i + 1 <= q) by lia. nia.
Qed.
Lemma last_iff : forall i, 2 <= i < calls k total -> (total - i * k <=? k) = (i + 1 =? calls k total).
Proof.
  intros i H. pose proof (done_le i ltac:(lia)). pose proof kk. pose proof total_ge. destruct calls_q as (q & E & Q). rewrite E in *.
  destruct (N.eqb_spec (i + 1) (N.max 3 q)); [apply N.leb_le|apply N.leb_gt].
  - destruct (N.leb_spec q 3); [assert (i = 2) by lia; subst i; nia|]. assert (i + 1 = q) by lia. nia.
  - assert (i + 2 <= q) by lia. nia.
Qed.
Lemma done_lt : forall i, i + 1 < calls k total -> (i + 1) * k <= total.
Proof. intros. now apply done_le. Qed.

Lemma sub32_ok : forall a b, b <= a -> b < 2 ^ 32 -> sub32 (a mod 2 ^ 32) b = (a - b) mod 2 ^ 32.
Proof.
  intros. unfold sub32. rewrite N.add_mod_idemp_l by discriminate.
  replace (a + (2 ^ 32 - b)) with (a - b + 1 * 2 ^ 32) by lia. apply N.mod_add. discriminate.
Qed.

Lemma composes_mul : forall mm i, composes mm k -> composes mm (i * k).
Proof.
  intros mm i H. destruct mm; cbn [composes] in *; auto.
  all: rewrite N.mul_mod, H, N.mul_0_r by discriminate; reflexivity.
Qed.

Lemma step_addr : forall i, (((s_maddr s + i * k) mod aspace c) + k) mod aspace c = (s_maddr s + (i + 1) * k) mod aspace c.
Proof. intros. pose proof (aspace_pos c). rewrite N.add_mod_idemp_l by lia. f_equal. lia. Qed.

(** One call that does not finish the job. *)
Lemma main_more : forall i s1, summing true s s1 -> job_at i (s_job s1) -> i + 1 < calls k total ->
  (s_maddr s + i * k) mod aspace c + k <= aspace c ->
  exists s2, checksum_main c s1 = Ok (s2, []) /\ summing true s s2 /\ job_at (i + 1) (s_job s2).
Proof.
  intros i s1 Sm (v & Jv) Hi Sp. pose proof kk as Hk. pose proof (aspace_pos c) as Ap.
  assert (Ma : s_maddr s < aspace c) by apply (b_maddr _ _ (i_b _ _ (reach_inv _ _ _ _ _ R))).
  assert (Sj : forall j, summing true s (set_s_job j s1)) by (intro j; destruct Sm; constructor; ss; auto).
  assert (Mem : s_mem s1 = s_mem s) by apply Sm.
  unfold checksum_main. fold k. destruct Jv as [(I0 & Ej)|(I1 & Ej & Ev)]; rewrite Ej; cbn [j_state j_addr j_size j_sum].
  - subst i. rewrite N.mul_0_l, N.add_0_r, N.mod_small in Sp by auto. unfold calc_mem.
    destruct (N.ltb_spec (aspace c) (s_maddr s + k)); [lia|]. cbn [bind]. eexists. split; [reflexivity|]. split; [apply Sj|]. ss.
    exists (calc (c_cks c) (c_host_be c) (mread (s_mem s1) (s_maddr s) k) 0 true). right. split; [lia|]. replace (0 + 1) with 1 by lia. rewrite !N.mul_1_l.
    destruct (N.eqb_spec (1 + 1) (calls k total)); [exfalso; destruct calls_q as (q & E & _); lia|].
    split; [|intros _ _; unfold block; rewrite Mem, mem_at_read; reflexivity].
    f_equal. rewrite <- (N.mod_small n (2 ^ 32)) at 1 by auto. rewrite sub32_ok by lia. unfold total.
    destruct (N.ltb_spec n (2 * k)); [|reflexivity]. replace (n + 2 ^ 32 - k) with (n - k + 1 * 2 ^ 32) by lia.
    symmetry. apply N.mod_add. discriminate.
  - destruct (N.eqb_spec (i + 1) (calls k total)); [lia|]. unfold calc_mem.
    destruct (N.ltb_spec (aspace c) ((s_maddr s + i * k) mod aspace c + k)); [lia|]. cbn [bind]. eexists. split; [reflexivity|]. split; [apply Sj|]. ss.
    pose proof (done_le (i + 1) ltac:(lia)) as Hd.
    rewrite sub32_ok by lia. rewrite step_addr. replace (total - i * k - k) with (total - (i + 1) * k) by lia.
    assert (Es : (total - (i + 1) * k) mod 2 ^ 32 = total - (i + 1) * k).
    { apply N.mod_small. unfold total in *. destruct (N.ltb_spec n (2 * k)); nia. }
    rewrite Es. rewrite last_iff by lia. eexists. right. split; [lia|]. rewrite Es. split; [reflexivity|].
    intros Cm Spc. unfold in_space in Spc, Ev. rewrite (Ev Cm) by lia.
    assert (Ea : (s_maddr s + i * k) mod aspace c = s_maddr s + i * k) by (apply N.mod_small; nia). rewrite Ea, Mem, <- mem_at_read.
    unfold block. replace ((i + 1) * k) with (i * k + k) by lia. rewrite mem_at_app. symmetry. apply calc_app.
    rewrite lenN_mem_at. now apply composes_mul.
Qed.
(** The call that finishes it. *)
Lemma main_last : forall i s1, summing true s s1 -> lenN (s_out s1) = c_max_cto c -> job_at i (s_job s1) -> i + 1 = calls k total ->
  2 * k <= n -> in_space c (s_maddr s) n -> composes (c_cks c) k ->
  exists s2 o2, checksum_main c s1 = Ok (s2, o2) /\ sends o2 (checksum_answer (c_cks c) (checksum_spec (c_cks c) (c_host_be c) (block n))) /\
    summing false s s2 /\ no_job s2.
Proof.
  intros i s1 Sm Lo (v & Jv) Hi H2 Sp Cm. pose proof kk as Hk. pose proof (aspace_pos c) as Ap.
  destruct calls_q as (q & Eq & _). assert (I2 : 2 <= i) by lia.
  assert (Et : total = n) by (unfold total; destruct (N.ltb_spec n (2 * k)); lia).
  pose proof (done_le i ltac:(lia)) as Hd. pose proof (last_iff i ltac:(lia)) as Hl. rewrite Hi, N.eqb_refl, Et in Hl. apply N.leb_le in Hl.
  destruct Jv as [(I0 & _)|(_ & Ej & Ev)]; [lia|]. specialize (Ev Cm ltac:(unfold in_space in *; lia)).
  unfold checksum_main. rewrite Ej. destruct (N.eqb_spec (i + 1) (calls k total)); [|lia]. cbn [j_state j_addr j_size j_sum].
  rewrite Et in *. rewrite (N.mod_small (n - i * k)) by lia. unfold in_space in Sp. unfold calc_mem.
  set (v2 := calc (c_cks c) (c_host_be c) (mread (s_mem s1) ((s_maddr s + i * k) mod aspace c) (n - i * k)) v false).
  assert (Nc : c_cks c <> CRC32) by (destruct (c_cks c); cbn [composes] in Cm; try contradiction; discriminate).
  assert (V2 : v2 = checksum_spec (c_cks c) (c_host_be c) (block n)).
  { rewrite <- (calc_spec _ _ _ 0 Nc) by apply mem_bytes. unfold v2. rewrite Ev. unfold block. replace n with (i * k + (n - i * k)) at 2 by lia.
    rewrite mem_at_app, calc_app by (rewrite lenN_mem_at; now apply composes_mul). f_equal.
    rewrite (sm_mem _ _ _ Sm), mem_at_read.
    destruct (N.eq_dec (i * k) n) as [En|En]; [rewrite En, N.sub_diag; reflexivity|]. now rewrite N.mod_small by lia. }
  destruct (N.ltb_spec (aspace c) ((s_maddr s + i * k) mod aspace c + (n - i * k))) as [X|X].
  { exfalso. destruct (N.eq_dec (i * k) n) as [En|En].
    - rewrite En, N.sub_diag, N.add_0_r in X. pose proof (N.mod_lt (s_maddr s + n) (aspace c) ltac:(lia)). lia.
    - rewrite N.mod_small in X by lia. lia. }
  cbn [bind]. unfold set_busy, enter, leave. rewrite K. cbn [bind].
  set (s3 := set_s_held _ _).
  assert (S3 : summing false s s3 /\ lenN (s_out s3) = c_max_cto c) by (unfold s3; split; [destruct Sm; constructor; ss; auto|ss; auto]). destruct S3 as (S3 & L3).
  fold v2. rewrite V2.
  destruct (send_checksum_ans c (checksum_spec (c_cks c) (c_host_be c) (block n)) s3 s3 W D L3 (spec_bound _ _ _ Nc) (ss_refl _)) as (s4 & o4 & E4 & P4 & S4).
  unfold andthen. rewrite E4. cbn [bind]. eexists _, _. split; [reflexivity|]. rewrite app_nil_r. split; [exact P4|].
  split; [|unfold no_job, upd_job; ss; reflexivity].
  destruct S3 as [A1 A2 A3 A4 A5]. unfold same_session in S4. decompose [and] S4. unfold upd_job.
  destruct A3. decompose [and] A5. constructor; ss; try congruence; [split; congruence|].
  repeat (split; [congruence|]). match goal with Hd : s_daq s4 = _ |- _ => rewrite Hd end. assumption.
Qed.

(** Reading beyond the end of the address space. *)
Lemma main_wild : forall i s1, summing true s s1 -> job_at i (s_job s1) -> 1 <= i -> i + 1 < calls k total ->
  s_maddr s + i * k < aspace c -> aspace c < s_maddr s + (i + 1) * k -> checksum_main c s1 = UB WildAddr.
Proof.
  intros i s1 Sm (v & Jv) I1 Hi H1 H2. destruct Jv as [(I0 & _)|(_ & Ej & _)]; [lia|].
  unfold checksum_main. rewrite Ej. fold k. destruct (N.eqb_spec (i + 1) (calls k total)); [lia|]. cbn [j_state j_addr j_size j_sum].
  unfold calc_mem. rewrite (N.mod_small (s_maddr s + i * k)) by auto.
  destruct (N.ltb_spec (aspace c) (s_maddr s + i * k + k)); [reflexivity|lia].
Qed.

(** ** Runs *)

Lemma main_is : forall e' s1, summing true s s1 -> step c e' OMain s1 = checksum_main c s1.
Proof.
  intros e' s1 Sm. cbn [step]. unfold main_function.
  assert (Ju : job_on c = true) by (unfold job_on; rewrite (ms_opt _ _ _ _ M), Ck; reflexivity). rewrite Ju.
  assert (E : (if c_sbm c then upload_block c e' s1 else Ok (s1, [])) = Ok (s1, [])).
  { destruct (c_sbm c) eqn:Es; [|reflexivity]. unfold upload_block. destruct Sm as [_ _ _ _ A5]. decompose [and] A5.
    match goal with Hd : s_sact s1 = _ |- _ => rewrite Hd end. rewrite (U Es). reflexivity. }
  unfold andthen. rewrite E. cbn [bind]. destruct (checksum_main c s1) as [(s2 & o2)|w]; reflexivity.
Qed.

Lemma sum_same : forall b s1 s2, same_session s1 s2 -> summing b s s1 -> summing b s s2.
Proof.
  intros b s1 s2 S [A1 A2 A3 A4 A5]. unfold same_session in S. decompose [and] S. decompose [and] A5.
  destruct A3. constructor; try congruence; [split; congruence|]. repeat (split; [congruence|]).
  match goal with Hd : s_daq s2 = _ |- _ => rewrite Hd end. assumption.
Qed.

(** An operation other than the main function leaves the job alone. *)
Lemma other_sum : forall e' x i s1 s2 o2, sinv c s1 -> summing true s s1 -> job_at i (s_job s1) ->
  may_interleave (e', x) -> x <> OMain -> step c e' x s1 = Ok (s2, o2) ->
  summing true s s2 /\ job_at i (s_job s2) /\ filter positive o2 = [].
Proof.
  intros e' x i s1 s2 o2 I Sm Ji Q N H. fold (none_positive o2).
  pose proof (sm_busy _ _ _ Sm) as Hb. pose proof (sm_conn _ _ _ Sm) as Hc.
  assert (Same : same_session s1 s2 -> summing true s s2 /\ job_at i (s_job s2)).
  { intro S. split; [eapply sum_same; eauto|]. assert (Ej : s_job s2 = s_job s1) by (unfold same_session in S; tauto). now rewrite Ej. }
  destruct x; cbn in Q; try contradiction; try congruence; clear Q N.
  - destruct frame as [|k0 t0]; [cbn [step] in H; rewrite receive_nil in H; inv; split; [auto|split; [auto|reflexivity]]|].
    destruct (N.leb_spec (lenN (k0 :: t0)) (c_ctobuf c)) as [Lf|Lf].
    + destruct (busy_frame c e' (k0 :: t0) s1 W D I Hc Hb ltac:(discriminate) Lf) as (s3 & o3 & E & S & Q & _).
      rewrite E in H. inv. destruct (Same Q). split; [auto|split; [auto|]]. destruct S as (p & -> & Pd & Pp).
      unfold none_positive, positive. cbn [filter]. rewrite Pd, Pp. unfold padded. destruct (c_max_dlc c); reflexivity.
    + exfalso. cbn [step] in H. unfold receive in H. rewrite lenN_cons in *.
      destruct (N.eqb_spec (lenN t0 + 1) 0); [lia|]. destruct (N.ltb_spec (c_ctobuf c) (lenN t0 + 1)); [discriminate|lia].
  - cbn [step] in H. assert (Np : none_positive o2) by (eapply trigger_dto; eauto). apply trigger_kept in H. unfold kept in H. decompose [and] H.
    destruct Sm as [A1 A2 A3 A4 A5]. decompose [and] A5.
    split; [|split; [|exact Np]].
    + destruct A3. constructor; try congruence; [split; congruence|]. repeat (split; [congruence|]). eapply dbq_trans; eauto.
    + match goal with Hd : s_job s2 = _ |- _ => now rewrite Hd end.
  - cbn [step] in H. destruct (c_ev_api c); [|inv; split; [auto|split; [auto|reflexivity]]].
    destruct (Same ltac:(eapply special_kept; eauto)). split; [auto|split; [auto|]]. eapply special_np; eauto; discriminate.
  - cbn [step] in H. destruct (c_srv_api c); [|inv; split; [auto|split; [auto|reflexivity]]].
    destruct (Same ltac:(eapply special_kept; eauto)). split; [auto|split; [auto|]]. eapply special_np; eauto; discriminate.
Qed.

(** The command starts the job. *)
Lemma cks_start : exists s1, step c e (ORecv f) s = Ok (s1, []) /\ summing true s s1 /\ job_at 0 (s_job s1).
Proof.
  rewrite cks_cmd. cbv zeta. rewrite (limit_b Wl), Ck. cbn [negb orb]. rewrite (proj2 (N.leb_gt n (c_chunk c)) Big).
  unfold start_checksum, set_busy, enter, leave. rewrite K. ss.
  assert (Ej : j_state (s_job (rx c f s)) = JIdle) by exact J.
  assert (Eb : s_busy (rx c f s) = false) by apply (ms_ready _ _ _ _ M).
  cbn [bind]. ss. rewrite Ej, Eb. cbn [orb bind]. ss. eexists. split; [reflexivity|].
  destruct (ms_ready _ _ _ _ M) as (Hc & Hb). split.
  - constructor; unfold rx, upd_job; ss; auto. repeat (split; [reflexivity|]). exists (d_q (s_daq s)). destruct (s_daq s). reflexivity.
  - unfold rx, upd_job. ss. eexists. left. split; reflexivity.
Qed.

Lemma step_reach_inv : forall e' x s1 s2 o2, sinv c s1 -> wf_op c (e', x) -> step c e' x s1 = Ok (s2, o2) -> sinv c s2.
Proof. intros. eapply step_inv; eauto. Qed.

Lemma cks_run : forall l' i s1 s2 o2, sinv c s1 -> wf_run c l' -> Forall may_interleave l' ->
  summing true s s1 -> job_at i (s_job s1) -> i + mains l' < calls k total ->
  run c l' s1 = Ok (s2, o2) ->
  summing true s s2 /\ job_at (i + mains l') (s_job s2) /\ filter positive o2 = [] /\ sinv c s2.
Proof.
  induction l' as [|[e' x] l' IH]; intros i s1 s2 o2 I Wr Q Sm Ji Hi H.
  - cbn [run] in H. inv. change (mains []) with 0. rewrite N.add_0_r. split; [exact Sm|]. split; [exact Ji|]. split; [reflexivity|exact I].
  - apply run_cons in H. destruct H as (s3 & o3 & o4 & H1 & H2 & ->). inversion Wr; subst. inversion Q; subst.
    assert (I1 : sinv c s3) by (eapply step_inv; eauto).
    assert (DX : x = OMain \/ x <> OMain) by (destruct x; auto; right; discriminate).
    destruct DX as [->|NX].
    + assert (Ec : mains ((e', OMain) :: l') = 1 + mains l') by (unfold mains; cbn [filter snd]; rewrite lenN_cons; lia).
      rewrite Ec in *. rewrite main_is in H1 by auto.
      assert (Fit : (s_maddr s + i * k) mod aspace c + k <= aspace c).
      { destruct Ji as (v & [(I0 & Ej)|(Ip & Ej & _)]); unfold checksum_main in H1; rewrite Ej in H1; cbn [j_state j_addr j_size j_sum] in H1; fold k in H1.
        - subst i. rewrite N.mul_0_l, N.add_0_r, N.mod_small by apply (b_maddr _ _ (i_b _ _ (reach_inv _ _ _ _ _ R))).
          unfold calc_mem in H1. destruct (N.ltb_spec (aspace c) (s_maddr s + k)); [discriminate|auto].
        - destruct (N.eqb_spec (i + 1) (calls k total)); [lia|]. unfold calc_mem in H1.
          destruct (N.ltb_spec (aspace c) ((s_maddr s + i * k) mod aspace c + k)); [discriminate|auto]. }
      destruct (main_more i s1 Sm Ji ltac:(lia) Fit) as (s4 & E4 & S4 & J4).
      rewrite E4 in H1. apply Ok_inj in H1. inversion H1; subst s4 o3. cbn [app].
      destruct (IH (i + 1) s3 s2 o4 I1 ltac:(auto) ltac:(auto) S4 J4 ltac:(lia)) as (R1 & R2 & R3 & R4); auto.
      replace (i + (1 + mains l')) with (i + 1 + mains l') by lia. auto.
    + assert (Em : mains ((e', x) :: l') = mains l') by (unfold mains; cbn [filter snd]; destruct x; congruence).
      rewrite Em in *. destruct (other_sum e' x i s1 s3 o3 I Sm Ji ltac:(auto) NX H1) as (S1 & J1 & P1).
      destruct (IH i s3 s2 o4 I1 ltac:(auto) ltac:(auto) S1 J1 Hi H2) as (R1 & R2 & R3 & R4).
      rewrite filter_app, P1. auto.
Qed.

Lemma cks_background : forall l' s2 o2, bytes f -> wf_run c ((e, ORecv f) :: l') -> Forall may_interleave l' -> mains l' < calls k total ->
  run c ((e, ORecv f) :: l') s = Ok (s2, o2) ->
  summing true s s2 /\ job_at (mains l') (s_job s2) /\ filter positive o2 = [] /\ sinv c s2.
Proof.
  intros l' s2 o2 _ Wr Q Hm H. apply run_cons in H. destruct H as (s1 & o1 & o3 & H1 & H2 & ->). inversion Wr; subst.
  destruct cks_start as (s4 & E & S & Jb). 
  assert (I1 : sinv c s1) by (eapply step_inv; [| |eapply reach_inv; eauto|exact H1]; auto).
  rewrite E in H1. apply Ok_inj in H1. inversion H1; subst s4 o1.
  cbn [app]. destruct (cks_run l' 0 s1 s2 o3) as (A1 & A2 & A3 & A4); auto.
Qed.
End Cks.

Lemma field4_bound : forall c a b x y, bytes [a; b; x; y] -> field c [a; b; x; y] < 2 ^ 32.
Proof.
  intros c a b x y H. inversion H as [|? ? Q1 T1]. inversion T1 as [|? ? Q2 T2]. inversion T2 as [|? ? Q3 T3]. inversion T3 as [|? ? Q4 _].
  change (2 ^ 32) with 4294967296. unfold field, be_value. cbn [rev app le_value]. destruct (c_motorola c); lia.
Qed.
Lemma cmd_bound : forall c r1 r2 r3 n0 n1 n2 n3 t e l, wf_run c ((e, ORecv (checksum_cmd r1 r2 r3 n0 n1 n2 n3 t)) :: l) ->
  field c [n0; n1; n2; n3] < 2 ^ 32 /\ bytes (checksum_cmd r1 r2 r3 n0 n1 n2 n3 t).
Proof.
  intros c r1 r2 r3 n0 n1 n2 n3 t e l H. inversion H as [|? ? (_ & B) _]. cbn [snd] in B. split; [|exact B].
  apply field4_bound. unfold checksum_cmd in B. do 4 (inversion B as [|? ? _ B']; clear B; rename B' into B).
  inversion B as [|? ? ? B1]. inversion B1 as [|? ? ? B2]. inversion B2 as [|? ? ? B3]. inversion B3 as [|? ? ? B4]. repeat (constructor; auto).
Qed.

Section Bg.
Variables (c : cfg) (m : mem) (l : list (env * op)) (s : st) (o : list pkt) (e : env) (r1 r2 r3 n0 n1 n2 n3 : N) (t : list N).
Let f := checksum_cmd r1 r2 r3 n0 n1 n2 n3 t.
Let n := field c [n0; n1; n2; n3].
Hypothesis (R : reachable c m l s o) (D : dlc_ok c) (B : background c e s n) (L : lenN f <= c_ctobuf c).
Variables (l' : list (env * op)) (s1 : st) (o1 : list pkt).
Hypotheses (Wr : wf_run c ((e, ORecv f) :: l')) (Q : Forall may_interleave l').
Hypothesis (H : run c ((e, ORecv f) :: l') s = Ok (s1, o1)).

Let tot : N := if n <? 2 * c_chunk c then n + 2 ^ 32 else n.
Lemma bg_run : mains l' < calls (c_chunk c) tot ->
  summing true s s1 /\ job_at c s n0 n1 n2 n3 (mains l') (s_job s1) /\ filter positive o1 = [] /\ sinv c s1.
Proof.
  intros Hm. destruct B as [B1 B2 B3 B4 B5 B6 B7]. destruct (cmd_bound _ _ _ _ _ _ _ _ _ _ _ Wr) as (Nb & Fb).
  eapply (cks_background c m l s o e r1 r2 r3 n0 n1 n2 n3 t); eauto.
Qed.

Lemma bg_progress : 2 * c_chunk c <= n -> in_space c (s_maddr s) n -> composes (c_cks c) (c_chunk c) -> mains l' < calls (c_chunk c) n ->
  summing true s s1 /\ filter positive o1 = [] /\
  forall e', mains l' + 1 < calls (c_chunk c) n -> exists s2, step c e' OMain s1 = Ok (s2, []) /\ summing true s s2.
Proof.
  intros H2 Sp Cm Hm. destruct (cmd_bound _ _ _ _ _ _ _ _ _ _ _ Wr) as (Nb & Fb). fold n in Nb.
  assert (Et : tot = n) by (unfold tot; destruct (N.ltb_spec n (2 * c_chunk c)); lia).
  pose proof B as [B1 B2 B3 B4 B5 B6 B7]. pose proof (proj1 R) as W. fold n in B4.
  assert (Hd : mains l' * c_chunk c <= n).
  { pose proof (done_le c m l s o r1 r2 r3 n0 n1 n2 n3 t R L B4 Nb (mains l')) as X. fold n tot in X. rewrite Et in X. auto. }
  destruct bg_run as (S & Jb & P & I); [rewrite Et; auto|]. split; [exact S|]. split; [exact P|].
  intros e' Hl. assert (Hd1 : (mains l' + 1) * c_chunk c <= n).
  { pose proof (done_le c m l s o r1 r2 r3 n0 n1 n2 n3 t R L B4 Nb (mains l' + 1)) as X. fold n tot in X. rewrite Et in X. auto. }
  rewrite (main_is c s e n0 n1 n2 n3 B1 B6 B3) by auto.
  destruct (main_more c m l s o r1 r2 r3 n0 n1 n2 n3 t R L B4 Nb (mains l') s1 S Jb) as (s2 & E & S2 & _); fold n tot; rewrite ?Et; auto.
  - unfold in_space in Sp. pose proof (wf_chunk _ W). rewrite N.mod_small by nia. nia.
  - exists s2. auto.
Qed.

Lemma bg_complete : forall e', 2 * c_chunk c <= n -> in_space c (s_maddr s) n -> composes (c_cks c) (c_chunk c) -> mains l' + 1 = calls (c_chunk c) n ->
  exists s2 o2, step c e' OMain s1 = Ok (s2, o2) /\
    sends o2 (checksum_answer (c_cks c) (checksum_spec (c_cks c) (c_host_be c) (mem_at (s_mem s) (s_maddr s) n))) /\
    summing false s s2 /\ no_job s2.
Proof.
  intros e' H2 Sp Cm Hm. destruct (cmd_bound _ _ _ _ _ _ _ _ _ _ _ Wr) as (Nb & Fb). fold n in Nb.
  assert (Et : tot = n) by (unfold tot; destruct (N.ltb_spec n (2 * c_chunk c)); lia).
  pose proof B as [B1 B2 B3 B4 B5 B6 B7]. pose proof (proj1 R) as W. fold n in B4.
  assert (Hd : mains l' * c_chunk c <= n).
  { pose proof (done_le c m l s o r1 r2 r3 n0 n1 n2 n3 t R L B4 Nb (mains l')) as X. fold n tot in X. rewrite Et in X. apply X. lia. }
  destruct bg_run as (S & Jb & P & I); [rewrite Et; lia|].
  rewrite (main_is c s e n0 n1 n2 n3 B1 B6 B3) by auto.
  apply (main_last c m l s o r1 r2 r3 n0 n1 n2 n3 t R D L B7 B4 Nb (mains l') s1); fold n tot; rewrite ?Et; auto. now apply sinv_out.
Qed.

Lemma bg_short : n < 2 * c_chunk c -> mains l' < calls (c_chunk c) (n + 2 ^ 32) -> summing true s s1 /\ filter positive o1 = [].
Proof.
  intros X Hm. assert (Et : tot = n + 2 ^ 32) by (unfold tot; destruct (N.ltb_spec n (2 * c_chunk c)); lia).
  destruct bg_run as (S & Jb & P & I); [rewrite Et; auto|]. auto.
Qed.

Lemma bg_wild : forall e', n < 2 * c_chunk c -> in_space c (s_maddr s) n -> ~ in_space c (s_maddr s) (2 * c_chunk c) -> mains l' = 1 ->
  step c e' OMain s1 = UB WildAddr.
Proof.
  intros e' X Sp Ns Hm. assert (Et : tot = n + 2 ^ 32) by (unfold tot; destruct (N.ltb_spec n (2 * c_chunk c)); lia).
  assert (C3 : 3 <= calls (c_chunk c) tot) by (unfold calls; lia).
  destruct bg_run as (S & Jb & P & I); [lia|]. pose proof B as [B1 B2 B3 B4 B5 B6 B7]. fold n in B4.
  rewrite (main_is c s e n0 n1 n2 n3 B1 B6 B3) by auto. rewrite Hm in Jb. unfold in_space in *.
  apply (main_wild c s r1 r2 r3 n0 n1 n2 n3 t L B4 (proj1 (cmd_bound _ _ _ _ _ _ _ _ _ _ _ Wr)) 1 s1 S Jb); fold n tot; lia.
Qed.
End Bg.

(** ** Statements of the properties *)

Lemma register_iff : forall w poly init l r, poly < 2 ^ (w + 1) -> init < 2 ^ (w + 1) ->
  remainder (w + 1) (2 ^ (w + 1) + poly) (N.lxor (of_bits l * 2 ^ (w + 1)) (init * 2 ^ lenN l)) r <->
  r = crc_register (w + 1) poly init l.
Proof.
  intros w poly init l r Hp Hi. pose proof (register_divides w poly init l Hp Hi) as X. split; [|now intros ->].
  intro Y. exact (remainder_unique _ _ _ _ _ Hp Y X).
Qed.

Lemma crc_16_ans : forall c m l s o e r1 r2 r3 n0 n1 n2 n3 t,
  let f := checksum_cmd r1 r2 r3 n0 n1 n2 n3 t in let n := field c [n0; n1; n2; n3] in
  reachable c m l s o -> dlc_ok c -> may_sum c e s n -> lenN f <= c_ctobuf c -> c_cks c = CRC16 ->
  within_limit c n -> at_once c n -> in_space c (s_maddr s) n ->
  answers c e f s ([0xFF; 7; 0; 0] ++ le_bytes 4 (crc_16 (mem_at (s_mem s) (s_maddr s) n))) s.
Proof.
  intros c m l s o e r1 r2 r3 n0 n1 n2 n3 t f n R D M L E Hl Ho Sp.
  pose proof (cks_once c m l s o e r1 r2 r3 n0 n1 n2 n3 t R D M L) as X. rewrite E in X. apply X; auto. discriminate.
Qed.
Lemma crc_16_citt_ans : forall c m l s o e r1 r2 r3 n0 n1 n2 n3 t,
  let f := checksum_cmd r1 r2 r3 n0 n1 n2 n3 t in let n := field c [n0; n1; n2; n3] in
  reachable c m l s o -> dlc_ok c -> may_sum c e s n -> lenN f <= c_ctobuf c -> c_cks c = CRC16CITT ->
  within_limit c n -> at_once c n -> in_space c (s_maddr s) n ->
  answers c e f s ([0xFF; 8; 0; 0] ++ le_bytes 4 (crc_16_citt (mem_at (s_mem s) (s_maddr s) n))) s.
Proof.
  intros c m l s o e r1 r2 r3 n0 n1 n2 n3 t f n R D M L E Hl Ho Sp.
  pose proof (cks_once c m l s o e r1 r2 r3 n0 n1 n2 n3 t R D M L) as X. rewrite E in X. apply X; auto. discriminate.
Qed.
Lemma sums_ans : forall c m l s o e r1 r2 r3 n0 n1 n2 n3 t,
  let f := checksum_cmd r1 r2 r3 n0 n1 n2 n3 t in let n := field c [n0; n1; n2; n3] in
  let bs := mem_at (s_mem s) (s_maddr s) n in let be := c_host_be c in
  reachable c m l s o -> dlc_ok c -> may_sum c e s n -> lenN f <= c_ctobuf c ->
  within_limit c n -> at_once c n -> in_space c (s_maddr s) n ->
  let says code v := answers c e f s ([0xFF; code; 0; 0] ++ le_bytes 4 v) s in
  match c_cks c with
  | ADD11 => says 1 (sum bs mod 2 ^ 8)
  | ADD12 => says 2 (sum bs mod 2 ^ 16)
  | ADD14 => says 3 (sum bs mod 2 ^ 32)
  | ADD22 => says 4 (sum (words be 2 bs) mod 2 ^ 16)
  | ADD24 => says 5 (sum (words be 2 bs) mod 2 ^ 32)
  | ADD44 => says 6 (sum (words be 4 bs) mod 2 ^ 32)
  | _ => True
  end.
Proof.
  intros c m l s o e r1 r2 r3 n0 n1 n2 n3 t f n bs be R D M L Hl Ho Sp says.
  pose proof (cks_once c m l s o e r1 r2 r3 n0 n1 n2 n3 t R D M L) as X.
  destruct (c_cks c); try exact I; exact (X ltac:(discriminate) Hl Ho Sp).
Qed.

Lemma bg_start : forall c m l s o e r1 r2 r3 n0 n1 n2 n3 t,
  let f := checksum_cmd r1 r2 r3 n0 n1 n2 n3 t in let n := field c [n0; n1; n2; n3] in
  reachable c m l s o -> background c e s n -> lenN f <= c_ctobuf c ->
  exists s1, step c e (ORecv f) s = Ok (s1, []) /\ summing true s s1.
Proof.
  intros c m l s o e r1 r2 r3 n0 n1 n2 n3 t f n R [B1 B2 B3 B4 B5 B6 B7] L.
  destruct (cks_start c m l s o e r1 r2 r3 n0 n1 n2 n3 t R B1 L B7 B5 B3 B2 B4) as (s1 & E & S & _). eauto.
Qed.

Lemma send8_mta : forall c n bs s s' o, send8 c n bs s = Ok (s', o) -> s_maddr s' = s_maddr s.
Proof. intros c n bs s s' o H. apply send8_o in H. destruct H as (ob & k & _ & _ & _ & _ & -> & _). reflexivity. Qed.
Lemma cks_mta : forall c m l s o e r1 r2 r3 n0 n1 n2 n3 t s' o',
  let f := checksum_cmd r1 r2 r3 n0 n1 n2 n3 t in let n := field c [n0; n1; n2; n3] in
  reachable c m l s o -> may_sum c e s n -> lenN f <= c_ctobuf c -> 1 <= n < aspace c ->
  step c e (ORecv f) s = Ok (s', o') -> s_maddr s' = s_maddr s /\ s_maddr s' <> (s_maddr s + n) mod aspace c.
Proof.
  intros c m l s o e r1 r2 r3 n0 n1 n2 n3 t s' o' f n R M L Hn H.
  pose proof (cks_cmd c m l s o e r1 r2 r3 n0 n1 n2 n3 t R M L) as X. fold f n in X. rewrite X in H. clear X. cbv zeta in H.
  assert (E : s_maddr s' = s_maddr s).
  { assert (Er : s_maddr (rx c f s) = s_maddr s) by reflexivity. rewrite <- Er.
    destruct ((0 <? c_max_blk c) && (c_max_blk c <? n)); [eapply send8_mta; exact H|].
    destruct (negb (c_chunked c) || (n <=? c_chunk c)); apply bind_Ok in H; destruct H as (v & H1 & H).
    - eapply send8_mta; exact H.
    - apply Ok_inj in H. inversion H; subst v. apply start_checksum_Ok in H1. destruct H1 as [(-> & _)|(-> & _)]; reflexivity. }
  split; [exact E|]. rewrite E. pose proof (b_maddr _ _ (i_b _ _ (reach_inv _ _ _ _ _ R))).
  destruct (N.ltb_spec (s_maddr s + n) (aspace c)); [rewrite N.mod_small by auto; lia|].
  replace (s_maddr s + n) with (s_maddr s + n - aspace c + 1 * aspace c) by lia. rewrite N.mod_add, N.mod_small by lia. lia.
Qed.

(** Computed runs. *)
Definition ex_cks : list op := [ORecv [0xFF; 0]; ORecv [0xF6; 0; 0; 1; 0; 0x20; 0; 0]].
Lemma crc16_chunks : let c := w_cks CRC16 cfg_eth in let f := checksum_cmd 0 0 0 200 0 0 0 [] in
  let s := demo_st c env_yes ex_cks in
  reachable c mem0 (map (pair env_yes) ex_cks) s (demo_out c env_yes ex_cks) /\
  background c env_yes s 200 /\ in_space c (s_maddr s) 200 /\
  exists s' p, run c (map (pair env_yes) (ORecv f :: repeat OMain 4)) s = Ok (s', [p]) /\
    firstn 4 (p_data p) = [0xFF; 7; 0; 0] /\ skipn 4 (p_data p) <> le_bytes 4 (crc_16 (mem_at (s_mem s) (s_maddr s) 200)).
Proof.
  assert (W : wf_cfg (w_cks CRC16 cfg_eth)) by wf_cfg_tac. cbv zeta.
  split; [apply demo_at; [exact W|apply wf_yes; exact W|vm_compute; reflexivity]|].
  split; [constructor; [constructor|..]; vm_compute; try (split; reflexivity); try (left; reflexivity); congruence || reflexivity|].
  split; [vm_compute; congruence|]. eexists _, _. split; [vm_compute; reflexivity|]. split; vm_compute; congruence || reflexivity.
Qed.
Lemma add22_chunks : let c := w_chunk 63 (w_cks ADD22 cfg_eth) in let f := checksum_cmd 0 0 0 200 0 0 0 [] in
  let s := demo_st c env_yes ex_cks in
  reachable c mem0 (map (pair env_yes) ex_cks) s (demo_out c env_yes ex_cks) /\
  background c env_yes s 200 /\ in_space c (s_maddr s) 200 /\
  exists s' p, run c (map (pair env_yes) (ORecv f :: repeat OMain 4)) s = Ok (s', [p]) /\
    firstn 4 (p_data p) = [0xFF; 4; 0; 0] /\
    skipn 4 (p_data p) <> le_bytes 4 (sum (words false 2 (mem_at (s_mem s) (s_maddr s) 200)) mod 2 ^ 16).
Proof.
  assert (W : wf_cfg (w_chunk 63 (w_cks ADD22 cfg_eth))) by wf_cfg_tac. cbv zeta.
  split; [apply demo_at; [exact W|apply wf_yes; exact W|vm_compute; reflexivity]|].
  split; [constructor; [constructor|..]; vm_compute; try (split; reflexivity); try (left; reflexivity); congruence || reflexivity|].
  split; [vm_compute; congruence|]. eexists _, _. split; [vm_compute; reflexivity|]. split; vm_compute; congruence || reflexivity.
Qed.
