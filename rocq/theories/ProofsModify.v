(** Proofs about MODIFY_BITS, read-back, and which operations write memory. *)
From Coq Require Import NArith ZArith List Bool Lia ZifyBool ZifyNat ZifyN.
From Verif Require Import Base Config Codec Checksum State Queue Daq Core Spec Lists Effects Handlers HTx HInv HInv2
  HFields HResp DaqInv HSpec Steps Demo Ops ProofsSession Exec ProofsFrames SpecProt ProofsProt SpecMem ProofsMem ProofsBlock ProofsWrite.
Import ListNotations.
Open Scope N_scope.
Ltac Zify.zify_post_hook ::= Z.div_mod_to_equations.

(** ** MODIFY_BITS *)

Lemma shl_val : forall v sh, sh <= 31 -> N.shiftl v sh < 2 ^ 31 -> shl_int v sh = Ok (N.shiftl v sh).
Proof.
  intros v sh H1 H2. unfold shl_int. rewrite N.shiftl_mul_pow2 in *.
  destruct (N.ltb_spec 31 sh); [lia|]. destruct (N.leb_spec (2 ^ 31) (v * 2 ^ sh)); [lia|]. reflexivity.
Qed.
Lemma shl_bad : forall v sh, 31 < sh \/ 2 ^ 31 <= N.shiftl v sh -> shl_int v sh = UB ShiftUB.
Proof.
  intros v sh H. unfold shl_int. rewrite N.shiftl_mul_pow2 in *.
  destruct (N.ltb_spec 31 sh); [reflexivity|]. destruct (N.leb_spec (2 ^ 31) (v * 2 ^ sh)); [reflexivity|lia].
Qed.

Definition modified (v sh am xm : N) : N :=
  N.land v (N.lxor (N.lxor (N.shiftl (N.lxor am 0xFFFF) sh) 0xFFFFFFFF) (N.shiftl xm sh)).

Lemma ones32_bit : forall i, N.testbit 0xFFFFFFFF i = (i <? 32).
Proof.
  intro i. change 0xFFFFFFFF with (N.ones 32). destruct (N.ltb_spec i 32).
  - now apply N.ones_spec_low.
  - now apply N.ones_spec_high.
Qed.
Lemma high_bit : forall v i, v < 2 ^ 32 -> 32 <= i -> N.testbit v i = false.
Proof.
  intros v i Hv Hi. rewrite N.testbit_eqb. rewrite N.div_small; [reflexivity|].
  eapply N.lt_le_trans; [exact Hv|]. apply N.pow_le_mono_r; lia.
Qed.

(** Relation to the specified value: the bits to be toggled that are 0 stay 0. *)
Lemma modified_spec : forall v sh am xm, v < 2 ^ 32 ->
  modified v sh am xm = N.lxor (modify_spec v sh am xm) (N.ldiff (N.shiftl xm sh) v).
Proof.
  intros v sh am xm Hv. apply N.bits_inj. intro i. unfold modified, modify_spec.
  rewrite ?N.land_spec, ?N.lxor_spec, ?N.ldiff_spec, ?N.lxor_spec, ones32_bit.
  destruct (N.ltb_spec i 32).
  - destruct (N.testbit v i), (N.testbit (N.shiftl (N.lxor am 0xFFFF) sh) i), (N.testbit (N.shiftl xm sh) i); reflexivity.
  - rewrite (high_bit v i) by auto.
    destruct (N.testbit (N.shiftl (N.lxor am 0xFFFF) sh) i), (N.testbit (N.shiftl xm sh) i); reflexivity.
Qed.
Lemma modified_lt : forall v sh am xm, v < 2 ^ 32 -> modified v sh am xm < 2 ^ 32.
Proof.
  intros v sh am xm Hv. unfold modified. set (x := N.lxor _ _). clearbody x.
  destruct (N.eq_dec (N.land v x) 0) as [->|Z]; [lia|].
  apply N.log2_lt_pow2; [lia|]. pose proof (N.log2_land v x). assert (v <> 0) by (intros ->; rewrite N.land_0_l in Z; lia).
  assert (N.log2 v < 32) by (apply N.log2_lt_pow2; lia). lia.
Qed.

Lemma le_value_lt : forall bs, bytes bs -> le_value bs < 256 ^ lenN bs.
Proof.
  induction bs as [|b bs IH]; intro B; [reflexivity|]. inversion B; subst. cbn [le_value]. rewrite lenN_cons, N.pow_add_r, N.pow_1_r.
  specialize (IH H2). nia.
Qed.
Lemma mem_at_bytes : forall m a n, (forall x, m x < 256) -> bytes (mem_at m a n).
Proof. intros m a n H. unfold mem_at, bytes. apply Forall_map, Forall_forall. auto. Qed.
Lemma host_word_lt : forall c m a, (forall x, m x < 256) -> host_word c m a < 2 ^ 32.
Proof.
  intros c m a H. unfold host_word, be_value.
  assert (B := mem_at_bytes m a 4 H). assert (L : lenN (mem_at m a 4) = 4) by apply lenN_mem_at.
  destruct (c_host_be c).
  - assert (Br : bytes (rev (mem_at m a 4))) by (apply Forall_rev; auto). apply le_value_lt in Br. unfold lenN in *. rewrite rev_length in Br.
    rewrite L in Br. exact Br.
  - apply le_value_lt in B. rewrite L in B. exact B.
Qed.
Lemma host_word_store : forall c m a v m', v < 2 ^ 32 -> wrote m a (if c_host_be c then rev (le32 v) else le32 v) m' -> host_word c m' a = v.
Proof.
  intros c m a v m' Hv Wm. apply wrote_read in Wm. unfold host_word, be_value. destruct (c_host_be c).
  - change (lenN (rev (le32 v))) with 4 in Wm. rewrite Wm, rev_involutive. now apply le32_value.
  - change (lenN (le32 v)) with 4 in Wm. rewrite Wm. now apply le32_value.
Qed.

Section Modify.
Variables (c : cfg) (m : mem) (l : list (env * op)) (s : st) (o : list pkt) (e : env).
Hypothesis (R : reachable c m l s o) (RD : ready s).
Let W : wf_cfg c := proj1 R.

Lemma modify_exec : forall sh a0 a1 x0 x1 t, let f := 0xEC :: sh :: a0 :: a1 :: x0 :: x1 :: t in
  c_cal c = true -> c_opt c 0xEC = true -> lenN f <= c_ctobuf c -> granted c e (s_mext s) (s_maddr s) 2 true false ->
  s_maddr s <> 0 -> in_space c (s_maddr s) 4 ->
  step c e (ORecv f) s =
    (r <- modify_value (host_word c (s_mem s) (s_maddr s)) sh (field c [a0; a1]) (field c [x0; x1]) ;;
     pos c (set_s_mem (mwrite (s_mem s) (s_maddr s) (if c_host_be c then rev (le32 r) else le32 r)) (rx c f s))).
Proof.
  intros sh a0 a1 x0 x1 t f C O L G A0 I.
  assert (E : step c e (ORecv f) s = h_modify_bits c e (rx c f s)).
  { apply (exec_val c m l s o); auto. tbl. }
  rewrite E. unfold h_modify_bits. rewrite rx_in. rewrite check_mem_yes by exact G.
  change (s_maddr (rx c f s)) with (s_maddr s). change (s_mem (rx c f s)) with (s_mem s).
  unfold in_space in I. destruct (N.eqb_spec (s_maddr s) 0); [lia|]. destruct (N.ltb_spec (aspace c) (s_maddr s + 4)); [lia|]. cbn [orb].
  rewrite !gw_eq. change (gb (rxbuf s f) 1) with sh. change (gb (rxbuf s f) 2) with a0. change (gb (rxbuf s f) (2 + 1)) with a1.
  change (gb (rxbuf s f) 4) with x0. change (gb (rxbuf s f) (4 + 1)) with x1.
  unfold host_word, word_val. rewrite mem_at_read. reflexivity.
Qed.

Lemma modify_thm : forall sh a0 a1 x0 x1 t, let f := 0xEC :: sh :: a0 :: a1 :: x0 :: x1 :: t in
  let am := field c [a0; a1] in let xm := field c [x0; x1] in let v := host_word c (s_mem s) (s_maddr s) in
  dlc_ok c -> c_cal c = true -> c_opt c 0xEC = true -> lenN f <= c_ctobuf c -> granted c e (s_mext s) (s_maddr s) 2 true false ->
  s_maddr s <> 0 -> in_space c (s_maddr s) 4 ->
  sh <= 31 -> N.shiftl (N.lxor am 0xFFFF) sh < 2 ^ 31 -> N.shiftl xm sh < 2 ^ 31 ->
  exists bs, lenN bs = 4 /\ stores c e f s (s_maddr s) bs s (fun o => sends o (padded c [0xFF])) /\
    forall m', wrote (s_mem s) (s_maddr s) bs m' -> host_word c m' (s_maddr s) = N.lxor (modify_spec v sh am xm) (N.ldiff (N.shiftl xm sh) v).
Proof.
  intros sh a0 a1 x0 x1 t f am xm v D C O L G A0 I Hs Ha Hx.
  assert (Hv : v < 2 ^ 32) by (apply host_word_lt, (b_mem _ _ (i_b _ _ (reach_inv _ _ _ _ _ R)))).
  rewrite <- modified_spec by exact Hv.
  exists (if c_host_be c then rev (le32 (modified v sh am xm)) else le32 (modified v sh am xm)).
  split; [destruct (c_host_be c); reflexivity|]. split.
  - unfold stores, f. rewrite modify_exec by auto. fold f am xm v. unfold modify_value. rewrite shl_val by auto. cbn [bind]. rewrite shl_val by auto. cbn [bind].
    fold (modified v sh am xm). set (bs := if c_host_be c then _ else _).
    destruct (pos_ans c (set_s_mem (mwrite (s_mem s) (s_maddr s) bs) (rx c f s)) (set_s_mem (mwrite (s_mem s) (s_maddr s) bs) s) W D
      (rx_out c m l s o f R)) as (s' & o' & E' & S & Q'); [apply ss_mem, ss_rx|].
    rewrite E'. exists s', o', (mwrite (s_mem s) (s_maddr s) bs). split; [reflexivity|]. split; [exact S|]. split; [apply mwrite_wrote|exact Q'].
  - intros m' Wm. eapply host_word_store; [|exact Wm]. now apply modified_lt.
Qed.

Lemma modify_shift : forall sh a0 a1 x0 x1 t, let f := 0xEC :: sh :: a0 :: a1 :: x0 :: x1 :: t in
  let am := field c [a0; a1] in let xm := field c [x0; x1] in
  c_cal c = true -> c_opt c 0xEC = true -> lenN f <= c_ctobuf c -> granted c e (s_mext s) (s_maddr s) 2 true false ->
  s_maddr s <> 0 -> in_space c (s_maddr s) 4 ->
  31 < sh \/ 2 ^ 31 <= N.shiftl (N.lxor am 0xFFFF) sh \/ 2 ^ 31 <= N.shiftl xm sh -> breaks c e f s ShiftUB.
Proof.
  intros sh a0 a1 x0 x1 t f am xm C O L G A0 I H. unfold breaks, f. rewrite modify_exec by auto. fold f am xm. unfold modify_value.
  assert (X : shl_int (N.lxor am 0xFFFF) sh = UB ShiftUB \/ (shl_int (N.lxor am 0xFFFF) sh = Ok (N.shiftl (N.lxor am 0xFFFF) sh) /\ shl_int xm sh = UB ShiftUB)).
  { destruct (N.le_gt_cases sh 31); [|left; apply shl_bad; auto].
    destruct (N.le_gt_cases (2 ^ 31) (N.shiftl (N.lxor am 0xFFFF) sh)); [left; apply shl_bad; auto|].
    right. split; [apply shl_val; auto|apply shl_bad; lia]. }
  destruct X as [->|(-> & E2)]; cbn [bind]; [reflexivity|]. rewrite E2. reflexivity.
Qed.
End Modify.

(** ** Which operations write *)

Lemma only_writes : forall c e x s s' o, wf_op c (e, x) -> step c e x s = Ok (s', o) ->
  (forall a bs, x <> OAppWrite a bs) -> (forall f k, x = ORecv f -> is_cmd k f -> ~ In k [0xF0; 0xEF; 0xEE; 0xED; 0xEC]) -> s_mem s' = s_mem s.
Proof.
  intros c e x s s' o Wx H NA NF.
  assert (DX : (exists f, x = ORecv f) \/ forall f, x <> ORecv f) by (destruct x; eauto; right; discriminate).
  destruct DX as [(f & ->)|NR].
  2:{ apply other_ops in H; auto. destruct H as ([E|(a & bs & E)] & _); [exact E|]. exfalso. eapply NA; eauto. }
  apply recv_cases in H. destruct H as [H|(k & t & h & -> & _ & _ & G & H)]; [apply H|].
  destruct Wx as (_ & Bf). cbn [snd] in Bf.
  destruct (entries_cmd c _ k h (mem_entries c e) (frame_k _ _ Bf) G (rx c (k :: t) s) s' o H) as [E|E]; [exact E|].
  exfalso. exact (NF _ k eq_refl eq_refl E).
Qed.

(** ** Read-back *)

Lemma set_mta_thm : forall c m l s o e r0 r1 x a0 a1 a2 a3 t, let f := 0xF6 :: r0 :: r1 :: x :: a0 :: a1 :: a2 :: a3 :: t in
  reachable c m l s o -> ready s -> dlc_ok c -> c_opt c 0xF6 = true -> lenN f <= c_ctobuf c -> bytes f ->
  answers c e f s [0xFF] (mta_at c x (field c [a0; a1; a2; a3]) s).
Proof.
  intros c m l s o e r0 r1 x a0 a1 a2 a3 t f R RD D O L B. unfold answers.
  assert (E : step c e (ORecv f) s = h_set_mta c e (rx c f s)).
  { apply (exec_val c m l s o); auto. tbl. }
  rewrite E. unfold h_set_mta. rewrite rx_in. destruct (rx4 c s 0xF6 r0 r1 x a0 a1 a2 a3 t) as (X & A). fold f in X, A. rewrite X, A.
  apply pos_ans; auto; [apply R|exact (rx_out c m l s o f R)|].
  assert (field c [a0; a1; a2; a3] < aspace c).
  { assert (field c [a0; a1; a2; a3] < 2 ^ 32).
    { unfold field, be_value, f in *. do 4 (inversion B as [|? ? _ B']; subst; clear B; rename B' into B).
      inversion B as [|? ? Y0 B1]; subst. inversion B1 as [|? ? Y1 B2]; subst. inversion B2 as [|? ? Y2 B3]; subst. inversion B3 as [|? ? Y3 B4]; subst.
      change (2 ^ 32) with 4294967296. destruct (c_motorola c); cbn [rev app le_value]; lia. }
    unfold aspace. destruct (wf_ptr _ (proj1 R)) as [->| ->]; [auto|]. eapply N.lt_trans; [eauto|]. reflexivity. }
  unfold same_session, mta_at, set_mta, rx. ss. rewrite N.mod_small by auto. repeat split.
Qed.

(** What DOWNLOAD wrote, SET_MTA and UPLOAD return. *)
Lemma read_back : forall c m l s o e bs e2 r0 r1 x a0 a1 a2 a3 e3,
  reachable c m l s o -> ready s -> dlc_ok c -> c_cal c = true -> c_opt c 0xF6 = true -> c_opt c 0xF5 = true -> c_sbm c = false ->
  ~ programming s -> wf_env c e -> wf_env c e2 -> bytes (lenN bs :: bs) -> bytes [r0; r1; x; a0; a1; a2; a3] ->
  c_buf_addr c + 2 < 2 ^ 32 -> 1 <= lenN bs <= c_max_cto c - 2 -> (c_mbm c = true -> 1 <= c_max_bs c) ->
  s_mext s = x -> s_maddr s = field c [a0; a1; a2; a3] ->
  granted c e x (s_maddr s) (lenN bs) true false -> granted c e3 x (s_maddr s) (lenN bs) false false ->
  target c e3 x (s_maddr s) = target c e x (s_maddr s) -> target c e x (s_maddr s) <> 0 -> in_space c (target c e x (s_maddr s)) (lenN bs) ->
  exists s' o1 o2 o3, run c [(e, ORecv (0xF0 :: lenN bs :: bs)); (e2, ORecv [0xF6; r0; r1; x; a0; a1; a2; a3]); (e3, ORecv [0xF5; lenN bs])] s
     = Ok (s', o1 ++ o2 ++ o3) /\ sends o1 (padded c [0xFF]) /\ sends o2 (padded c [0xFF]) /\ sends_data c o3 (0xFF :: bs).
Proof.
  intros c m l s o e bs e2 r0 r1 x a0 a1 a2 a3 e3 R RD D C O6 O5 B P We We2 Bb Bx A Hn Hb Ex Ea G G3 T3 B0 I.
  pose proof (wf_cto _ (proj1 R)) as Wc. assert (Lc : c_max_cto c <= c_ctobuf c) by (unfold c_ctobuf; lia).
  destruct (download_thm c m l s o e R RD bs []) as (s1 & o1 & m1 & E1 & S1 & Wm & Q1); rewrite ?Ex, ?app_nil_r in *; auto.
  { rewrite !lenN_cons. lia. }
  assert (R1 : reachable c m (l ++ [(e, ORecv (0xF0 :: lenN bs :: bs))]) s1 (o ++ o1)).
  { eapply reach_step; eauto. split; [exact We|]. cbn [snd]. constructor; [lia|exact Bb]. }
  pose proof Q1 as Q. unfold same_session, advanced, mta_at, idle_block in Q.
  assert (F1 : s_conn s1 = s_conn s /\ s_busy s1 = s_busy s /\ s_pgm s1 = s_pgm s /\ s_mem s1 = m1).
  { destruct (c_mbm c); ss_in Q; decompose [and] Q; auto. } clear Q. destruct F1 as (F1 & F2 & F3 & F4).
  destruct (set_mta_thm c m _ s1 _ e2 r0 r1 x a0 a1 a2 a3 [] R1) as (s2 & o2 & E2 & S2 & Q2); auto.
  { destruct RD. split; congruence. }
  { change (lenN [0xF6; r0; r1; x; a0; a1; a2; a3]) with 8. lia. }
  { constructor; [lia|exact Bx]. }
  assert (R2 : reachable c m ((l ++ [(e, ORecv (0xF0 :: lenN bs :: bs))]) ++ [(e2, ORecv [0xF6; r0; r1; x; a0; a1; a2; a3])]) s2 ((o ++ o1) ++ o2)).
  { eapply reach_step; eauto. split; [exact We2|]. cbn [snd]. constructor; [lia|exact Bx]. }
  unfold same_session, mta_at in Q2. ss_in Q2. decompose [and] Q2. clear Q2.
  assert (Am : s_maddr s2 = s_maddr s).
  { pose proof (b_maddr _ _ (i_b _ _ (reach_inv _ _ _ _ _ R))) as Ha. rewrite Ea in *. rewrite N.mod_small in * by auto. congruence. }
  destruct (upload_thm c m _ s2 _ e3 R2) with (n := lenN bs) (t := @nil N) as (s3 & o3 & E3 & S3 & Q3); auto.
  { destruct RD. split; congruence. }
  { intro Z. apply P. unfold programming in *. congruence. }
  { change (lenN [0xF5; lenN bs]) with 2. lia. }
  { rewrite Am. replace (s_mext s2) with x by congruence. exact G3. }
  { lia. }
  { rewrite Am. replace (s_mext s2) with x by congruence. rewrite T3. exact I. }
  exists s3, o1, o2, o3. split.
  - cbn [run]. unfold andthen. rewrite E1. cbn [bind]. rewrite E2. cbn [bind]. rewrite E3. cbn [bind]. now rewrite app_nil_r.
  - split; [exact S1|]. split; [exact S2|]. rewrite Am in S3. replace (s_mext s2) with x in S3 by congruence. rewrite T3 in S3.
    replace (s_mem s2) with m1 in S3 by congruence. rewrite (wrote_read _ _ _ _ Wm) in S3. exact S3.
Qed.
