(** Schedules that lose or falsify a checksum. *)
From Coq Require Import NArith ZArith List Bool Lia ZifyBool ZifyNat ZifyN.
From Verif Require HTx.
From Verif Require Import Base Config Codec Checksum State Core Spec Lists SpecMem SpecCks ProofsMem ProofsBlock ProofsModify ProofsCks ProofsFrames
  ProofsConc0 Conc Job SpecJob ProofsJob.
Import ListNotations.
Open Scope N_scope.
Ltac Zify.zify_post_hook ::= Z.div_mod_to_equations.

(** ** A thread alone *)

Lemma solo_enter : forall c t k s p s', y_lock s = None -> solo k (set_lock (Some (t, 0%nat)) s) p s' -> solo (enter c t k) s p s'.
Proof. intros c t k s p s' L H. econstructor; [|exact H]. rewrite L. reflexivity. Qed.
Lemma solo_again : forall c t d k s p s', c_lock c = LockRecursive -> y_lock s = Some (t, d) ->
  solo k (set_lock (Some (t, S d)) s) p s' -> solo (enter c t k) s p s'.
Proof. intros c t d k s p s' C L H. econstructor; [|exact H]. rewrite L, C, eqb_reflx. reflexivity. Qed.
Lemma solo_look : forall c a n k s p s', in_space c a n -> solo (k (mem_at (y_mem s) a n)) s p s' -> solo (look c a n k) s p s'.
Proof.
  intros c a n k s p s' H H1. econstructor; [|exact H1]. unfold in_space in H. rewrite mem_at_read.
  destruct (N.ltb_spec (aspace c) (a + n)); [lia|reflexivity].
Qed.

Ltac fields := cbn [y_state y_addr y_size y_sum y_busy y_lock y_mem y_wire y_wild set_state set_addr set_size set_sum set_flag set_lock add_frame set_wild].

(** Up to the access that marks the job as running. *)
Lemma solo_mark : forall c a n k s, c_lock c = LockRecursive -> at_rest s ->
  solo (start_job c a n k) s (wr (set_addr a) (wr (set_size n) (leave k)))
    (set_state JInit (set_lock (Some (true, 0%nat)) (set_flag true s))).
Proof.
  intros c a n k s C (A & B & D & E & F). unfold start_job, set_busy, leave.
  apply solo_enter; auto. apply solo_rd. fields. rewrite A. cbn [is_idle negb]. apply solo_rd. fields. rewrite B.
  eapply solo_again; [exact C|reflexivity|]. apply solo_wr, solo_wr, solo_wr. fields. unfold set_state, set_flag, set_lock. fields. apply solo_refl.
Qed.

Lemma start_thm : forall c a n s, c_lock c = LockRecursive -> c_chunk c < n -> at_rest s ->
  exists s1, started a n s1 /\ y_mem s1 = y_mem s /\
  forall qs b, exists sched, ~ In false sched /\ run sched (serve c (Build a n :: qs)) b s = (serve c qs, b, s1).
Proof.
  intros c a n s C Hn R. pose proof R as (A & B & D & E & F).
  exists (set_lock None (set_size n (set_addr a (set_state JInit (set_lock (Some (true, 0%nat)) (set_flag true s)))))).
  split; [repeat split; auto|]. split; [reflexivity|]. intros qs b.
  assert (H : solo (serve c (Build a n :: qs)) s (serve c qs)
    (set_lock None (set_size n (set_addr a (set_state JInit (set_lock (Some (true, 0%nat)) (set_flag true s))))))).
  { cbn [serve]. apply solo_rd. rewrite B. unfold build. destruct (N.leb_spec n (c_chunk c)); [lia|].
    eapply solo_trans; [apply solo_mark; auto|]. apply solo_wr, solo_wr, solo_wr. fields. apply solo_refl. }
  clear - H. induction H as [p s|f s s1 p1 p2 s2 Hf Hs (l & Hl & E)].
  - exists []. split; [intros []|reflexivity].
  - exists (true :: l). split; [intros [X|X]; [discriminate|auto]|]. cbn [run access]. rewrite Hf. exact E.
Qed.

(** One call of the main function. *)
Lemma solo_sum : forall c sz bb (first : bool) k s p s', (sz = Some bb \/ (sz = None /\ y_size s = bb)) -> in_space c (y_addr s) bb ->
  solo k (set_sum (calc (c_cks c) (c_host_be c) (mem_at (y_mem s) (y_addr s) bb) (if first then 0 else y_sum s) first) s) p s' ->
  solo (sum_next c sz first k) s p s'.
Proof.
  intros c sz bb first k s p s' H Sp H1. unfold sum_next. apply solo_rd. destruct H as [->|(-> & E)].
  - apply solo_rd. apply solo_look; auto. apply solo_wr. exact H1.
  - apply solo_rd. rewrite E. apply solo_rd. apply solo_look; auto. apply solo_wr. exact H1.
Qed.
Lemma solo_advance : forall c k s p s',
  solo k (set_addr ((y_addr s + c_chunk c) mod aspace c) (set_size (sub32 (y_size s) (c_chunk c)) s)) p s' -> solo (advance c k) s p s'.
Proof. intros. unfold advance. apply solo_rd, solo_wr, solo_rd, solo_wr. exact H. Qed.

Lemma solo_init : forall c k s, y_state s = JInit -> in_space c (y_addr s) (c_chunk c) ->
  solo (main_job c k) s k (mkJm JRem ((y_addr s + c_chunk c) mod aspace c) (sub32 (y_size s) (c_chunk c))
    (calc (c_cks c) (c_host_be c) (mem_at (y_mem s) (y_addr s) (c_chunk c)) 0 true) (y_busy s) (y_lock s) (y_mem s) (y_wire s) (y_wild s)).
Proof.
  intros c k s H Sp. unfold main_job. apply solo_rd. rewrite H. cbn [is_idle]. apply solo_rd. rewrite H.
  eapply solo_sum; [left; reflexivity|exact Sp|]. apply solo_advance. apply solo_wr. fields. apply solo_refl.
Qed.
Lemma solo_rem : forall c k s, y_state s = JRem -> in_space c (y_addr s) (c_chunk c) ->
  let z := sub32 (y_size s) (c_chunk c) in
  solo (main_job c k) s k (mkJm (if z <=? c_chunk c then JFinal else JRem) ((y_addr s + c_chunk c) mod aspace c) z
    (calc (c_cks c) (c_host_be c) (mem_at (y_mem s) (y_addr s) (c_chunk c)) (y_sum s) false) (y_busy s) (y_lock s) (y_mem s) (y_wire s) (y_wild s)).
Proof.
  intros c k s H Sp z. unfold main_job. apply solo_rd. rewrite H. cbn [is_idle]. apply solo_rd. rewrite H. apply solo_rd. rewrite H.
  eapply solo_sum; [left; reflexivity|exact Sp|]. apply solo_advance. apply solo_rd. fields. fold z.
  destruct (z <=? c_chunk c); [apply solo_wr|]; fields; unfold set_state, set_addr, set_size, set_sum; fields; rewrite <- ?H; apply solo_refl.
Qed.
(** The last call up to the response, and the response. *)
Definition answered (c : cfg) (k : prog jm) : prog jm := rd y_sum (fun v => reply false (checksum_frame c v) (wr (set_state JIdle) k)).
Lemma solo_final : forall c k s, y_state s = JFinal -> in_space c (y_addr s) (y_size s) -> y_lock s = None ->
  solo (main_job c k) s (answered c k)
    (set_flag false (set_sum (calc (c_cks c) (c_host_be c) (mem_at (y_mem s) (y_addr s) (y_size s)) (y_sum s) false) s)).
Proof.
  intros c k s H Sp L. unfold main_job. apply solo_rd. rewrite H. cbn [is_idle]. do 3 (apply solo_rd; rewrite H).
  eapply solo_sum; [right; split; reflexivity|exact Sp|]. unfold set_busy. apply solo_enter; [exact L|]. apply solo_wr, solo_wr.
  fold (answered c k). unfold set_flag, set_sum, set_lock. fields. rewrite L. apply solo_refl.
Qed.
Lemma solo_answered : forall c k s, solo (answered c k) s k (set_state JIdle (add_frame false (checksum_frame c (y_sum s)) s)).
Proof. intros. unfold answered, reply. apply solo_rd, solo_wr, solo_wr. apply solo_refl. Qed.
Lemma solo_idle : forall c j s, y_state s = JIdle -> solo (mains c j) s Halt s.
Proof.
  induction j as [|j IH]; intros s H; cbn [mains]; [apply solo_refl|]. unfold main_job. apply solo_rd. rewrite H. cbn [is_idle]. auto.
Qed.

Lemma iter_add : forall A (f : A -> A) i j x, Nat.iter (i + j) f x = Nat.iter i f (Nat.iter j f x).
Proof. induction i as [|i IH]; intros; [reflexivity|]. change (f (Nat.iter (i + j) f x) = f (Nat.iter i f (Nat.iter j f x))). now rewrite IH. Qed.

(** From the second phase on: [z] bytes remain, [pre] has been summed up. *)
Section Rest.
Variables (c : cfg) (mm : mem).
Let k := c_chunk c.
Hypotheses (Wk : 1 <= k < 2 ^ 32) (Cm : composes (c_cks c) k).

Definition rest (pre : list N) (s : jm) : Prop :=
  y_mem s = mm /\ y_lock s = None /\ y_busy s = true /\ y_wire s = [] /\ y_wild s = false /\
  composes (c_cks c) (lenN pre) /\ y_sum s = calc (c_cks c) (c_host_be c) pre 0 true.

Lemma composes_add : forall x y, composes (c_cks c) x -> composes (c_cks c) y -> composes (c_cks c) (x + y).
Proof. intros x y. destruct (c_cks c); cbn [composes]; auto; lia. Qed.

Lemma rest_thm : forall j pre s, rest pre s -> y_state s = JRem -> k <= y_size s < 2 ^ 32 -> (N.to_nat (y_size s) <= j)%nat ->
  y_addr s + y_size s <= aspace c ->
  exists i s', (1 <= i)%nat /\ (forall p, solo (Nat.iter i (main_job c) p) s p s') /\ rest (pre ++ mem_at mm (y_addr s) (y_size s - y_size s')) s' /\
    y_state s' = JFinal /\ y_size s' <= y_size s /\ in_space c (y_addr s') (y_size s') /\
    mem_at mm (y_addr s') (y_size s') = mem_at mm (y_addr s + (y_size s - y_size s')) (y_size s') /\
    (y_size s' = 0 \/ y_size s' <= k).
Proof.
  induction j as [|j IH]; intros pre s R Hs Hz Hj Sp; [lia|].
  destruct R as (R1 & R2 & R3 & R4 & R5 & R6 & R7).
  pose proof (solo_rem c) as H1. assert (Sk : in_space c (y_addr s) k) by (unfold in_space; lia).
  assert (Ez : sub32 (y_size s) k = y_size s - k).
  { unfold sub32. replace (y_size s + (2 ^ 32 - k)) with (y_size s - k + 1 * 2 ^ 32) by lia. rewrite N.mod_add by discriminate. apply N.mod_small. lia. }
  set (s1 := mkJm (if sub32 (y_size s) k <=? k then JFinal else JRem) ((y_addr s + k) mod aspace c) (sub32 (y_size s) k)
    (calc (c_cks c) (c_host_be c) (mem_at (y_mem s) (y_addr s) k) (y_sum s) false) (y_busy s) (y_lock s) (y_mem s) (y_wire s) (y_wild s)).
  assert (S1 : forall p, solo (main_job c p) s p s1) by (intro p; apply (H1 p s Hs Sk)).
  assert (Rs1 : rest (pre ++ mem_at mm (y_addr s) k) s1).
  { unfold rest, s1. fields. repeat split; auto.
    - rewrite lenN_app, lenN_mem_at. now apply composes_add.
    - rewrite R1, R7. symmetry. now apply calc_app. }
  assert (Na : aspace c <> 0) by (unfold aspace; apply N.pow_nonzero; discriminate).
  assert (Am : k < y_size s -> (y_addr s + k) mod aspace c = y_addr s + k) by (intro; apply N.mod_small; lia).
  destruct (N.leb_spec (y_size s - k) k) as [Hl|Hl].
  - exists 1%nat, s1. split; [lia|]. split; [intro p; apply S1|].
    assert (E1 : y_size s1 = y_size s - k) by (unfold s1; fields; exact Ez). rewrite E1.
    replace (y_size s - (y_size s - k)) with k by lia. split; [exact Rs1|].
    split; [unfold s1; fields; rewrite Ez; destruct (N.leb_spec (y_size s - k) k); [reflexivity|lia]|].
    split; [lia|]. destruct (N.eq_dec (y_size s) k) as [Ek|Ek].
    + rewrite Ek, N.sub_diag. split; [|split; [reflexivity|now left]]. unfold in_space, s1. fields.
      pose proof (N.mod_lt (y_addr s + k) (aspace c) Na). lia.
    + assert (E2 : y_addr s1 = y_addr s + k) by (unfold s1; fields; apply Am; lia). rewrite E2.
      split; [unfold in_space; lia|]. split; [reflexivity|]. now right.
  - assert (E1 : y_size s1 = y_size s - k) by (unfold s1; fields; exact Ez).
    assert (E2 : y_addr s1 = y_addr s + k) by (unfold s1; fields; apply Am; lia).
    assert (E3 : y_state s1 = JRem) by (unfold s1; fields; rewrite Ez; destruct (N.leb_spec (y_size s - k) k); [lia|reflexivity]).
    destruct (IH _ s1 Rs1 E3 ltac:(lia) ltac:(lia) ltac:(lia)) as (i & s' & Hi & Hsolo & Hr & Hst & Hsz & Hsp & Hmem & Hend).
    exists (S i), s'. split; [lia|]. split.
    { intro p. change (Nat.iter (S i) (main_job c) p) with (main_job c (Nat.iter i (main_job c) p)). eapply solo_trans; [apply S1|apply Hsolo]. }
    split; [|split; [exact Hst|]; split; [lia|]; split; [exact Hsp|]; split; [|exact Hend]].
    + rewrite <- app_assoc in Hr. rewrite E1, E2 in Hr. rewrite <- mem_at_app in Hr.
      replace (k + (y_size s - k - y_size s')) with (y_size s - y_size s') in Hr by lia. exact Hr.
    + rewrite Hmem, E1, E2. f_equal. lia.
Qed.

(** ... to the response. *)
Lemma rest_end : forall pre s, rest pre s -> y_state s = JRem -> k <= y_size s < 2 ^ 32 -> y_addr s + y_size s <= aspace c ->
  exists i s', (forall p, solo (Nat.iter i (main_job c) p) s (answered c p) s') /\ y_state s' = JFinal /\ y_busy s' = false /\ y_lock s' = None /\
    y_wire s' = [] /\ y_wild s' = false /\
    y_sum s' = calc (c_cks c) (c_host_be c) (pre ++ mem_at mm (y_addr s) (y_size s)) 0 true.
Proof.
  intros pre s R Hs Hz Sp. destruct (rest_thm _ pre s R Hs Hz (le_n _) Sp) as (i & s1 & Hi & Hsolo & Hr & Hst & Hsz & Hsp & Hmem & _).
  destruct Hr as (R1 & R2 & R3 & R4 & R5 & R6 & R7).
  pose (s2 := set_flag false (set_sum (calc (c_cks c) (c_host_be c) (mem_at (y_mem s1) (y_addr s1) (y_size s1)) (y_sum s1) false) s1)).
  exists (i + 1)%nat, s2. split.
  { intro p. rewrite iter_add.
    eapply solo_trans; [apply Hsolo|]. change (Nat.iter 1 (main_job c) p) with (main_job c p). apply solo_final; auto. }
  unfold s2. fields. repeat split; auto.
  rewrite R1, R7, Hmem, <- calc_app by exact R6. rewrite <- app_assoc, <- mem_at_app. do 4 f_equal. lia.
Qed.
End Rest.

Lemma mains_iter : forall c i j, mains c (i + j) = Nat.iter i (main_job c) (mains c j).
Proof. induction i as [|i IH]; intro j; [reflexivity|]. cbn [Nat.add mains Nat.iter]. now rewrite IH. Qed.

(** ** The main function finds the mark before the address *)
Theorem stale_thm : forall c a n s, wf_job c s -> c_lock c = LockRecursive -> at_rest s -> c_chunk c < n < 2 ^ 32 -> in_space c a n ->
  in_space c (y_addr s) (c_chunk c) -> composes (c_cks c) (c_chunk c) ->
  exists m sched, let x := run sched (serve c [Build a n]) (mains c m) s in
    finished x /\
    y_wire (shared x) = [(false, sum_answer c (mem_at (y_mem s) (y_addr s) (c_chunk c) ++ mem_at (y_mem s) a n))].
Proof.
  intros c a n s (Wk & Wm) C R Hn Sp So Cm. pose proof R as (A & B & D & E & F). unfold in_space in Sp.
  assert (Nc : c_cks c <> CRC32) by (destruct (c_cks c); cbn [composes] in Cm; try contradiction; discriminate).
  set (s1 := set_state JInit (set_lock (Some (true, 0%nat)) (set_flag true s))).
  assert (H1 : solo (serve c [Build a n]) s (wr (set_addr a) (wr (set_size n) (leave Halt))) s1).
  { cbn [serve]. apply solo_rd. rewrite B. unfold build. destruct (N.leb_spec n (c_chunk c)); [lia|]. apply solo_mark; auto. }
  pose proof (solo_init c) as H2.
  set (s2 := mkJm JRem ((y_addr s1 + c_chunk c) mod aspace c) (sub32 (y_size s1) (c_chunk c))
    (calc (c_cks c) (c_host_be c) (mem_at (y_mem s1) (y_addr s1) (c_chunk c)) 0 true) (y_busy s1) (y_lock s1) (y_mem s1) (y_wire s1) (y_wild s1)).
  set (s3 := set_lock None (set_size n (set_addr a s2))).
  assert (H3 : solo (wr (set_addr a) (wr (set_size n) (leave Halt))) s2 Halt s3) by (apply solo_wr, solo_wr, solo_wr; fields; apply solo_refl).
  assert (Rs : rest c (y_mem s) (mem_at (y_mem s) (y_addr s) (c_chunk c)) s3).
  { unfold rest. repeat split; auto. now rewrite lenN_mem_at. }
  destruct (rest_end c (y_mem s) Wk Cm _ s3 Rs eq_refl) as (i & s4 & H4 & S4 & B4 & L4 & W4 & F4 & V4); [change (c_chunk c <= n < 2 ^ 32); lia|exact Sp|].
  assert (Hall : solo (mains c i) s3 Halt (set_state JIdle (add_frame false (checksum_frame c (y_sum s4)) s4))).
  { replace i with (i + 0)%nat by lia. rewrite mains_iter. cbn [mains]. eapply solo_trans; [apply H4|]. apply solo_answered. }
  destruct (relay _ _ _ _ _ _ _ _ _ _ _ H1 (H2 (mains c i) s1 eq_refl So) H3 Hall) as (l & El).
  exists (S i), l. cbv zeta. cbn [mains]. rewrite El. split; [reflexivity|]. unfold shared. cbn [snd]. fields. rewrite W4. cbn [app].
  do 2 f_equal. rewrite V4. unfold s3. fields. f_equal. apply frame_is; [|exact Nc].
  apply bytes_app; now apply mem_at_bytes.
Qed.

(** With sums the answer is wrong unless the other bytes sum up to nothing. *)
Lemma sum_app : forall l1 l2, sum (l1 ++ l2) = sum l1 + sum l2.
Proof. induction l1 as [|x l1 IH]; intro l2; [reflexivity|]. cbn [app sum fold_right]. fold (sum (l1 ++ l2)). rewrite IH. unfold sum. cbn [fold_right]. lia. Qed.
Lemma wrong_sum : forall c old bs, c_cks c = ADD14 -> sum old mod 2 ^ 32 <> 0 -> sum_answer c (old ++ bs) <> sum_answer c bs.
Proof.
  intros c old bs Ec H E. unfold sum_answer, checksum_answer in E. rewrite Ec in E. apply app_inv_head in E. cbn [checksum_spec] in E.
  assert (P : 2 ^ 32 <> 0) by discriminate.
  apply (f_equal le_value) in E. rewrite <- !le32_le_bytes, !le32_value in E by (now apply N.mod_lt).
  rewrite sum_app in E. apply H. change (2 ^ 32) with 4294967296 in *. lia.
Qed.

Theorem wrong_thm : forall c a n s, wf_job c s -> c_lock c = LockRecursive -> at_rest s -> c_chunk c < n < 2 ^ 32 -> in_space c a n ->
  in_space c (y_addr s) (c_chunk c) -> c_cks c = ADD14 -> sum (mem_at (y_mem s) (y_addr s) (c_chunk c)) mod 2 ^ 32 <> 0 ->
  exists m sched f, let x := run sched (serve c [Build a n]) (mains c m) s in
    finished x /\ y_wire (shared x) = [(false, f)] /\ f <> sum_answer c (mem_at (y_mem s) a n).
Proof.
  intros c a n s W C R Hn Sp So Ec Hs.
  destruct (stale_thm c a n s W C R Hn Sp So) as (m & l & F & E); [rewrite Ec; exact Logic.I|].
  exists m, l. eexists. cbv zeta. split; [exact F|]. split; [exact E|]. now apply wrong_sum.
Qed.

(** ** A command between the two steps that end the job *)
Theorem lost_thm : forall c a n s b m, wf_job c s -> computable c a n -> started a n s -> c_chunk c < m ->
  exists i, forall j, exists sched, let x := run sched (serve c [Build b m]) (mains c (i + j)) s in
    finished x /\ y_wire (shared x) = [(false, sum_answer c (mem_at (y_mem s) a n))] /\
    y_state (shared x) = JIdle /\ y_busy (shared x) = false.
Proof.
  intros c a n s b m (Wk & Wm) (Hn & Sp & Cm) (A & B & C & D & E & F & G) Hm. unfold in_space in Sp.
  assert (Nc : c_cks c <> CRC32) by (destruct (c_cks c); cbn [composes] in Cm; try contradiction; discriminate).
  pose proof (solo_init c) as H1. assert (So : in_space c (y_addr s) (c_chunk c)) by (unfold in_space; rewrite B; lia).
  set (s1 := mkJm JRem ((y_addr s + c_chunk c) mod aspace c) (sub32 (y_size s) (c_chunk c))
    (calc (c_cks c) (c_host_be c) (mem_at (y_mem s) (y_addr s) (c_chunk c)) 0 true) (y_busy s) (y_lock s) (y_mem s) (y_wire s) (y_wild s)).
  assert (Rs : rest c (y_mem s) (mem_at (y_mem s) a (c_chunk c)) s1).
  { unfold rest, s1. fields. rewrite B. repeat split; auto. now rewrite lenN_mem_at. }
  assert (E1 : y_size s1 = n - c_chunk c).
  { unfold s1. fields. rewrite C. unfold sub32. replace (n + (2 ^ 32 - c_chunk c)) with (n - c_chunk c + 1 * 2 ^ 32) by lia.
    rewrite N.mod_add by discriminate. apply N.mod_small. lia. }
  assert (E2 : y_addr s1 = a + c_chunk c) by (unfold s1; fields; rewrite B; apply N.mod_small; lia).
  destruct (rest_end c (y_mem s) Wk Cm _ s1 Rs eq_refl) as (i & s4 & H4 & S4 & B4 & L4 & W4 & F4 & V4); [lia|lia|].
  rewrite E1, E2, <- mem_at_app in V4. replace (c_chunk c + (n - c_chunk c)) with n in V4 by lia.
  exists (S i). intro j.
  assert (Hb : solo (mains c (S i + j)) s (answered c (mains c j)) s4).
  { cbn [Nat.add mains]. eapply solo_trans; [apply (H1 (mains c (i + j)) s A So)|]. rewrite mains_iter. apply H4. }
  set (s5 := set_lock None (set_lock (Some (true, 0%nat)) s4)).
  assert (Ha : solo (serve c [Build b m]) s4 Halt s5).
  { cbn [serve]. apply solo_rd. rewrite B4. unfold build. destruct (N.leb_spec m (c_chunk c)); [lia|]. unfold start_job.
    apply solo_enter; auto. apply solo_rd. fields. rewrite S4. cbn [is_idle negb]. apply solo_wr. fields. apply solo_refl. }
  set (s6 := set_state JIdle (add_frame false (checksum_frame c (y_sum s5)) s5)).
  assert (He : solo (answered c (mains c j)) s5 Halt s6).
  { eapply solo_trans; [apply solo_answered|]. apply solo_idle. reflexivity. }
  destruct (solo_run2 _ _ _ _ (serve c [Build b m]) Hb) as (l1 & X1). destruct (solo_run1 _ _ _ _ (answered c (mains c j)) Ha) as (l2 & X2).
  destruct (solo_run2 _ _ _ _ Halt He) as (l3 & X3).
  exists (l1 ++ l2 ++ l3). cbv zeta. rewrite run_app, X1, run_app, X2, X3. split; [reflexivity|]. unfold shared. cbn [snd].
  split; [|split; [reflexivity|unfold s6, s5; fields; exact B4]].
  unfold s6, s5. fields. rewrite W4, V4. cbn [app]. do 2 f_equal. apply frame_is; auto. now apply mem_at_bytes.
Qed.

(** ** A thread that waits for itself *)
Theorem stuck_thm : forall c a n s qs m sched, c_lock c = LockNormal -> at_rest s -> c_chunk c < n ->
  let x := run sched (serve c (Build a n :: qs)) (mains c m) s in
  fst (fst x) <> Halt /\ y_wire (shared x) = [] /\ y_state (shared x) = JIdle.
Proof.
  intros c a n s qs m sched C R Hn. pose proof R as (A & B & D & E & F).
  pose (p3 := set_busy c true true (wr (set_state JInit) (wr (set_addr a) (wr (set_size n) (leave (serve c qs)))))).
  pose (p2 := rd y_busy (fun b => if b then leave (serve c qs) else p3)).
  pose (p1 := rd y_state (fun x => if negb (is_idle x) then leave (serve c qs) else p2)).
  pose (ok := fun (p : prog jm) (s : jm) => y_wire s = [] /\ y_state s = JIdle /\ y_busy s = false /\
    ((p = serve c (Build a n :: qs) /\ y_lock s = None) \/ (p = enter c true p1 /\ y_lock s = None) \/
     ((p = p1 \/ p = p2 \/ p = p3) /\ y_lock s = Some (true, 0%nat)))).
  assert (H : forall sched p m s, ok p s -> let x := run sched p (mains c m) s in ok (fst (fst x)) (shared x)).
  { induction sched0 as [|[|] t IH]; intros p j s0 Ho; cbn [run]; [exact Ho| |].
    - destruct Ho as (O1 & O2 & O3 & [(X & O4)|[(X & O4)|([X|[X|X]] & O4)]]); subst p.
      + assert (X : access (serve c (Build a n :: qs)) s0 = (enter c true p1, s0)).
        { cbn [serve]. unfold rd at 1. cbn [access]. rewrite O3. unfold build. destruct (N.leb_spec n (c_chunk c)); [lia|]. reflexivity. }
        rewrite X. apply IH. unfold ok. auto 10.
      + assert (X : access (enter c true p1) s0 = (p1, set_lock (Some (true, 0%nat)) s0)) by (cbn [enter access]; rewrite O4; reflexivity).
        rewrite X. apply IH. unfold ok. fields. auto 10.
      + assert (X : access p1 s0 = (p2, s0)) by (unfold p1, rd; cbn [access]; rewrite O2; reflexivity).
        rewrite X. apply IH. unfold ok. auto 10.
      + assert (X : access p2 s0 = (p3, s0)) by (unfold p2, rd; cbn [access]; rewrite O3; reflexivity).
        rewrite X. apply IH. unfold ok. auto 10.
      + assert (X : access p3 s0 = (p3, s0)) by (unfold p3, set_busy, enter; cbn [access]; rewrite O4, C; reflexivity).
        rewrite X. apply IH. unfold ok. auto 10.
    - assert (X : exists i, access (mains c j) s0 = (mains c i, s0)).
      { destruct j as [|j]; [exists 0%nat; reflexivity|]. exists j. cbn [mains]. unfold main_job, rd at 1. cbn [access].
        assert (O2 : y_state s0 = JIdle) by apply Ho. rewrite O2. reflexivity. }
      destruct X as (i & X). rewrite X. apply IH. exact Ho. }
  intro x. specialize (H sched (serve c (Build a n :: qs)) m s).
  destruct H as (O1 & O2 & O3 & O4); [unfold ok; auto 10|]. fold x in O1, O2, O4. split; [|split; auto].
  destruct O4 as [(X & _)|[(X & _)|([X|[X|X]] & _)]]; rewrite X; discriminate.
Qed.

(** ** Blocks that are answered at once *)

Lemma frame_sum : forall c bs, c_cks c <> CRC32 -> bytes bs ->
  checksum_frame c (calc (c_cks c) (c_host_be c) bs 0 true) = sum_answer c bs.
Proof. intros c bs H B. unfold checksum_frame, sum_answer, checksum_answer. f_equal. rewrite calc_spec by auto. apply le32_le_bytes. now apply spec_bound. Qed.

Theorem small_thm : forall c s qs m sched, wf_job c s -> at_rest s -> c_cks c <> CRC32 -> Forall (small c) qs ->
  let s' := shared (run sched (serve c qs) (mains c m) s) in
  y_wild s' = false /\ from_job s' = [] /\ y_state s' = JIdle /\ y_busy s' = false /\
  exists i, (i <= length qs)%nat /\ from_commands s' = firstn i (map (answer_to c (y_mem s)) qs) /\
    ((3 * length qs <= turns_of true sched)%nat -> i = length qs).
Proof.
  intros c s qs m sched (_ & W) R K F.
  pose (mm := y_mem s). pose (ans := answer_to c mm).
  pose (idle := fun x : jm => y_state x = JIdle /\ y_busy x = false /\ y_wild x = false /\ y_mem x = mm).
  pose (sum := fun a n k => look c a n (fun bs => reply true (checksum_frame c (calc (c_cks c) (c_host_be c) bs 0 true)) k)).
  pose (at_ := fun (p : prog jm) (rem : list (list N)) (k : nat) =>
    exists qs, Forall (small c) qs /\
      ((p = serve c qs /\ rem = map ans qs /\ (3 * length qs <= k)%nat) \/
       (exists a n, small c (Build a n) /\ p = sum a n (serve c qs) /\ rem = ans (Build a n) :: map ans qs /\ (3 * length qs + 2 <= k)%nat) \/
       (exists f, p = reply true f (serve c qs) /\ rem = f :: map ans qs /\ (3 * length qs + 1 <= k)%nat))).
  assert (H : forall sched p rem k m s0, at_ p rem k -> idle s0 ->
    let s1 := shared (run sched p (mains c m) s0) in
    idle s1 /\ exists i, (i <= length rem)%nat /\ y_wire s1 = y_wire s0 ++ map (pair true) (firstn i rem) /\
      ((k <= turns_of true sched)%nat -> i = length rem)).
  { clear m sched. induction sched as [|[|] t IH]; intros p rem k m s0 Ha Hi; cbn [run].
    - split; [exact Hi|]. exists 0%nat. cbn [firstn map]. rewrite app_nil_r. split; [lia|split; [reflexivity|]].
      unfold turns_of. cbn [count_occ]. intros Hk. destruct Ha as (q & _ & [(_ & -> & E)|[(a & n & _ & _ & _ & E)|(f & _ & _ & E)]]); [|lia|lia].
      rewrite map_length. lia.
    - assert (Step : exists p' s1 rem' new, access p s0 = (p', s1) /\ at_ p' rem' (pred k) /\ idle s1 /\ rem = new ++ rem' /\ y_wire s1 = y_wire s0 ++ map (pair true) new).
      { destruct Hi as (I1 & I2 & I3 & I4). destruct Ha as (q & Fq & [(-> & -> & Ck)|[(a & n & Sm & -> & -> & Ck)|(f & -> & -> & Ck)]]).
        - destruct q as [|r q].
          + exists Halt, s0, [], []. split; [reflexivity|]. split; [exists []; split; [constructor|left; split; [reflexivity|split; [reflexivity|cbn [length]; lia]]]|].
            split; [unfold idle; auto|]. split; [reflexivity|]. cbn [map]. rewrite app_nil_r. reflexivity.
          + inversion Fq as [|x l Sr Fr]; subst. destruct r as [a n|f].
            * exists (sum a n (serve c q)), s0, (map ans (Build a n :: q)), [].
              split; [cbn [serve]; unfold rd; cbn [access]; rewrite I2; unfold build; destruct Sr as (S1 & S2); replace (n <=? c_chunk c) with true by lia; reflexivity|].
              split; [exists q; split; [exact Fr|right; left; exists a, n; repeat split; auto; [exact (proj1 Sr)|exact (proj2 Sr)|cbn [length] in Ck; lia]]|].
              split; [unfold idle; auto|]. split; [reflexivity|]. cbn [map]. rewrite app_nil_r. reflexivity.
            * exists (reply true f (serve c q)), s0, (map ans (Plain f :: q)), [].
              split; [cbn [serve]; unfold rd; cbn [access]; rewrite I2; reflexivity|].
              split; [exists q; split; [exact Fr|]|].
              { right; right. exists f. split; [reflexivity|]. split; [reflexivity|]. cbn [length] in Ck. lia. }
              split; [unfold idle; auto|]. split; [reflexivity|]. cbn [map]. rewrite app_nil_r. reflexivity.
        - exists (reply true (ans (Build a n)) (serve c q)), s0, (ans (Build a n) :: map ans q), [].
          split; [unfold sum, look; cbn [access]; destruct Sm as (S1 & S2); unfold in_space in S2; replace (aspace c <? a + n) with false by lia|].
          { rewrite I4. rewrite frame_sum; [|exact K|apply HTx.bytes_mread; exact W]. unfold ans, answer_to. rewrite mem_at_read. reflexivity. }
          split; [exists q; split; [exact Fq|right; right; eexists; repeat split; lia]|].
          split; [unfold idle; auto|]. split; [reflexivity|]. cbn [map]. rewrite app_nil_r. reflexivity.
        - exists (serve c q), (add_frame true f s0), (map ans q), [f].
          split; [reflexivity|]. split; [exists q; split; [exact Fq|left; repeat split; lia]|].
          split; [unfold idle; auto|]. split; [reflexivity|reflexivity]. }
      destruct Step as (p' & s1 & rem' & new & -> & Ha' & Hi' & -> & Hw).
      destruct (IH p' rem' (pred k) m s1 Ha' Hi') as (J & i & Hl & Hf & Ht). split; [exact J|].
      exists (length new + i)%nat. rewrite app_length. split; [lia|]. split.
      + rewrite Hf, Hw, <- app_assoc, <- map_app. f_equal. f_equal. rewrite firstn_app_2. reflexivity.
      + unfold turns_of in *. cbn [count_occ]. destruct (bool_dec true true); [|congruence]. intros Hk. rewrite Ht by lia. reflexivity.
    - assert (X : exists j, access (mains c m) s0 = (mains c j, s0)).
      { destruct m as [|j]; [exists 0%nat; reflexivity|]. exists j. cbn [mains]. unfold main_job, rd at 1. cbn [access].
        rewrite (proj1 Hi). reflexivity. }
      destruct X as (j & ->). destruct (IH p rem k j s0 Ha Hi) as (J & i & Hl & Hf & Ht). split; [exact J|]. exists i.
      split; [exact Hl|split; [exact Hf|]]. unfold turns_of in *. cbn [count_occ]. destruct (bool_dec false true); [congruence|]. exact Ht. }
  destruct R as (R1 & R2 & R3 & R4 & R5).
  destruct (H sched (serve c qs) (map ans qs) (3 * length qs)%nat m s) as ((J1 & J2 & J3 & J4) & i & Hl & Hw & Ht);
    [exists qs; split; [exact F|left; auto]|unfold idle; auto|].
  intro s'. fold s' in J1, J2, J3, J4, Hw. rewrite R4 in Hw. cbn [app] in Hw. rewrite map_length in *.
  assert (P : forall l : list (list N), map snd (filter fst (map (pair true) l)) = l /\ filter (fun f : bool * list N => negb (fst f)) (map (pair true) l) = [])
    by (induction l as [|x l (A & B)]; [split; reflexivity|cbn [map filter fst negb snd]; rewrite A, B; split; reflexivity]).
  split; [exact J3|]. split; [unfold from_job; rewrite Hw, (proj2 (P _)); reflexivity|]. split; [exact J1|]. split; [exact J2|].
  exists i. split; [exact Hl|]. split; [unfold from_commands; rewrite Hw; exact (proj1 (P _))|exact Ht].
Qed.
