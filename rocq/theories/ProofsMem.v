(** Proofs of the memory properties. *)
From Coq Require Import NArith ZArith List Bool Lia ZifyBool ZifyNat ZifyN.
From Verif Require Import Base Config Codec Checksum State Queue Daq Core Spec Lists Effects Handlers HTx HInv HInv2
  HFields HResp DaqInv HSpec Steps Demo Ops ProofsSession Exec ProofsFrames SpecProt ProofsProt SpecMem.
Import ListNotations.
Open Scope N_scope.
Ltac Zify.zify_post_hook ::= Z.div_mod_to_equations.

(** ** Memory *)

Lemma mem_at_nat : forall m n k a, map (fun i => m (a + N.of_nat i)) (seq k n) = mread_nat m (a + N.of_nat k) n.
Proof.
  intros m. induction n; intros; cbn [seq map mread_nat]; auto. f_equal. rewrite IHn. f_equal. lia.
Qed.
Lemma mem_at_read : forall m a n, mem_at m a n = mread m a n.
Proof. intros. unfold mem_at, mread. rewrite mem_at_nat. f_equal. lia. Qed.
Lemma lenN_mem_at : forall m a n, lenN (mem_at m a n) = n.
Proof. intros. rewrite mem_at_read. apply lenN_mread. Qed.

Lemma mwrite_wrote : forall m a bs, wrote m a bs (mwrite m a bs).
Proof.
  intros m a bs x. destruct (N.leb_spec a x); cbn [andb].
  - destruct (N.ltb_spec x (a + lenN bs)).
    + pose proof (mwrite_inside bs m a (x - a) ltac:(lia)) as M. replace (a + (x - a)) with x in M by lia.
      unfold getN in M. symmetry in M. apply (nth_error_nth _ _ 0) in M. auto.
    + apply mwrite_outside. lia.
  - apply mwrite_outside. lia.
Qed.
Lemma wrote_read : forall m a bs m', wrote m a bs m' -> mem_at m' a (lenN bs) = bs.
Proof.
  intros m a bs m' W. rewrite mem_at_read. apply getN_ext. intro i. destruct (N.ltb_spec i (lenN bs)).
  - rewrite getN_mread by auto. rewrite W. destruct (N.leb_spec a (a + i)); [|lia]. destruct (N.ltb_spec (a + i) (a + lenN bs)); [|lia].
    cbn [andb]. replace (a + i - a) with i by lia. unfold getN. symmetry. apply nth_error_nth'. unfold lenN in *. lia.
  - transitivity (@None N); [|symmetry]; apply getN_None; rewrite ?lenN_mread; lia.
Qed.

(** ** UPLOAD *)

(** The frame is assembled in the transmit buffer. *)
Lemma up_fill : forall c e x a n s, lenN (s_out s) = c_max_cto c -> 1 <= n < c_max_cto c ->
  in_space c (target c e x a) n ->
  exists ob, lenN ob = c_max_cto c /\ takeN (n + 1) ob = 0xFF :: mread (s_mem s) (target c e x a) n /\
    (s1 <- poke 0 [0xFF] s ;; copy_out c e x a n 1 s1) = Ok (set_s_out ob s).
Proof.
  intros c e x a n s L N1 I. unfold in_space in I. unfold poke at 1. change (lenN [0xFF]) with 1.
  destruct (N.ltb_spec (lenN (s_out s)) (0 + 1)); [lia|]. cbn [bind]. unfold copy_out. fold (target c e x a).
  change (map_addr c e x a) with (target c e x a).
  destruct (N.eqb_spec n 0); [lia|]. destruct (N.ltb_spec (aspace c) (target c e x a + n)); [lia|]. ss.
  unfold poke. ss. rewrite lenN_mread.
  assert (L1 : lenN (splice (s_out s) 0 [0xFF]) = c_max_cto c) by (rewrite lenN_splice; [auto|change (lenN [0xFF]) with 1; lia]).
  rewrite L1. destruct (N.ltb_spec (c_max_cto c) (1 + n)); [lia|].
  eexists. split; [|split; [|destruct s; reflexivity]].
  - rewrite lenN_splice; [exact L1|rewrite lenN_mread; lia].
  - unfold splice at 1. rewrite take_app_ge by (rewrite lenN_take; lia).
    rewrite lenN_take, L1. replace (N.min 1 (c_max_cto c)) with 1 by lia.
    change (takeN 1 (splice (s_out s) 0 [0xFF])) with [0xFF]. cbn [app]. f_equal.
    rewrite take_app_ge by (rewrite lenN_mread; lia). rewrite lenN_mread. replace (n + 1 - 1 - n) with 0 by lia.
    rewrite take_0. apply app_nil_r.
Qed.

Definition flen (c : cfg) (n : N) : N := if c_max_dlc c then c_max_cto c else n + 1.
Lemma up_send : forall c n s d, lenN (s_out s) = c_max_cto c -> lenN d = n -> 1 <= n < c_max_cto c ->
  takeN (n + 1) (s_out s) = 0xFF :: d ->
  exists o, send_cto c (flen c n) s = Ok (bump c s, o) /\ sends_data c o (0xFF :: d).
Proof.
  intros c n s d L Ld N1 T. unfold send_cto. assert (flen c n <= c_max_cto c) by (unfold flen; destruct (c_max_dlc c); lia).
  destruct (N.ltb_spec (lenN (s_out s)) (flen c n)); [lia|].
  eexists. split; [reflexivity|]. eexists _, (takeN (flen c n - (n + 1)) (dropN (n + 1) (s_out s))).
  split; [reflexivity|]. split; [reflexivity|]. cbn [p_data].
  assert (n + 1 <= flen c n) by (unfold flen; destruct (c_max_dlc c); lia).
  split.
  - rewrite <- T, <- take_split. f_equal. lia.
  - rewrite lenN_take, lenN_drop, lenN_cons, Ld. unfold flen in *. destruct (c_max_dlc c); lia.
Qed.

Lemma ss_bump : forall c ob s, same_session s (bump c (set_s_out ob s)).
Proof. intros. apply ss_send. Qed.

Lemma upload_val : forall c e n s, wf_cfg c -> lenN (s_out s) = c_max_cto c -> c_sbm c = false -> 1 <= n < c_max_cto c ->
  in_space c (target c e (s_mext s) (s_maddr s)) n ->
  exists s' o, upload c e n s = Ok (s', o) /\ sends_data c o (0xFF :: mem_at (s_mem s) (target c e (s_mext s) (s_maddr s)) n) /\
    same_session (advanced c n s) s'.
Proof.
  intros c e n s W L B N1 I. unfold upload. rewrite B.
  destruct (up_fill c e (s_mext s) (s_maddr s) n s L N1 I) as (ob & Lo & T & E).
  apply bind_Ok in E. destruct E as (s1 & E1 & E2). rewrite E1. cbn [bind]. rewrite E2. cbn [bind].
  destruct (up_send c n (inc_mta c n (set_s_out ob s)) (mread (s_mem s) (target c e (s_mext s) (s_maddr s)) n) Lo (lenN_mread _ _ _) N1 T)
    as (o & Es & So).
  unfold flen in Es. rewrite Es. eexists _, o. split; [reflexivity|]. split; [now rewrite mem_at_read|].
  unfold same_session, advanced, mta_at, inc_mta, bump. ss. repeat split. f_equal. f_equal.
  unfold u32. apply N.mod_small. pose proof (wf_cto _ W). lia.
Qed.

(** Values of the fields of a frame. *)
Lemma rx1 : forall s k n t, gb (rxbuf s (k :: n :: t)) 1 = n. Proof. reflexivity. Qed.
Lemma rx4 : forall c s k n r x a0 a1 a2 a3 t, gb (rxbuf s (k :: n :: r :: x :: a0 :: a1 :: a2 :: a3 :: t)) 3 = x /\
  gd c (rxbuf s (k :: n :: r :: x :: a0 :: a1 :: a2 :: a3 :: t)) 4 = field c [a0; a1; a2; a3].
Proof. intros. split; [reflexivity|]. rewrite gd_eq. reflexivity. Qed.

Lemma rx_same : forall c f s, s_mext (rx c f s) = s_mext s /\ s_maddr (rx c f s) = s_maddr s /\ s_mem (rx c f s) = s_mem s /\ s_pgm (rx c f s) = s_pgm s.
Proof. intros. unfold rx. ss. auto. Qed.

Lemma adv_rx : forall c n f s s', same_session (advanced c n (rx c f s)) s' -> same_session (advanced c n s) s'.
Proof. intros c n f s s' H. eapply ss_trans; [|exact H]. unfold same_session, advanced, mta_at, rx. ss. repeat split. Qed.

Section Standard.
Variables (c : cfg) (m : mem) (l : list (env * op)) (s : st) (o : list pkt) (e : env).
Hypothesis (R : reachable c m l s o) (RD : ready s).
Let W : wf_cfg c := proj1 R.

Lemma upload_thm : forall n t, c_opt c 0xF5 = true -> c_sbm c = false -> ~ programming s -> lenN (0xF5 :: n :: t) <= c_ctobuf c ->
  granted c e (s_mext s) (s_maddr s) n false false -> 1 <= n < c_max_cto c -> in_space c (target c e (s_mext s) (s_maddr s)) n ->
  delivers c e (0xF5 :: n :: t) s (0xFF :: mem_at (s_mem s) (target c e (s_mext s) (s_maddr s)) n) (advanced c n s).
Proof.
  intros n t O B P L G N1 I. unfold delivers.
  assert (E : step c e (ORecv (0xF5 :: n :: t)) s = h_upload c e (rx c (0xF5 :: n :: t) s)).
  { apply (exec_val c m l s o); auto. tbl. }
  rewrite E. unfold h_upload. rewrite rx_in, rx1. rewrite pgm_idle_no by exact P.
  rewrite check_mem_yes by exact G. rewrite B. cbn [negb andb].
  rewrite u8_small by (pose proof (wf_cto _ W); lia). destruct (N.ltb_spec (c_max_cto c - 1) n); [lia|].
  destruct (upload_val c e n (rx c (0xF5 :: n :: t) s) W (rx_out _ _ _ _ _ _ R) B N1 I) as (s' & o' & E' & S & Q).
  rewrite E'. exists s', o'. split; [reflexivity|]. split; [exact S|]. eapply adv_rx. exact Q.
Qed.

Lemma upload_long : forall n t, dlc_ok c -> c_opt c 0xF5 = true -> c_sbm c = false -> ~ programming s -> lenN (0xF5 :: n :: t) <= c_ctobuf c ->
  granted c e (s_mext s) (s_maddr s) n false false -> c_max_cto c <= n -> refuses c e (0xF5 :: n :: t) s 0x22.
Proof.
  intros n t D O B P L G N1. unfold refuses, answers.
  assert (E : step c e (ORecv (0xF5 :: n :: t)) s = h_upload c e (rx c (0xF5 :: n :: t) s)).
  { apply (exec_val c m l s o); auto. tbl. }
  rewrite E. unfold h_upload. rewrite rx_in, rx1. rewrite pgm_idle_no by exact P.
  rewrite check_mem_yes by exact G. rewrite B. cbn [negb andb]. pose proof (wf_cto _ W).
  rewrite u8_small by lia. destruct (N.ltb_spec (c_max_cto c - 1) n); [|lia].
  apply err_ans; auto; [apply (rx_out _ _ _ _ _ _ R)|lia|apply ss_rx].
Qed.

Lemma upload_denied : forall n t, dlc_ok c -> c_opt c 0xF5 = true -> ~ programming s -> lenN (0xF5 :: n :: t) <= c_ctobuf c ->
  ~ granted c e (s_mext s) (s_maddr s) n false false -> refuses c e (0xF5 :: n :: t) s 0x24.
Proof.
  intros n t D O P L G. unfold refuses, answers.
  assert (E : step c e (ORecv (0xF5 :: n :: t)) s = h_upload c e (rx c (0xF5 :: n :: t) s)).
  { apply (exec_val c m l s o); auto. tbl. }
  rewrite E. unfold h_upload. rewrite rx_in, rx1. rewrite pgm_idle_no by exact P. rewrite check_mem_no by exact G.
  apply res_err_ans; auto; [apply (rx_out _ _ _ _ _ _ R)|lia|apply ss_rx].
Qed.

Lemma short_upload_thm : forall n r x a0 a1 a2 a3 t, let f := 0xF4 :: n :: r :: x :: a0 :: a1 :: a2 :: a3 :: t in
  let a := field c [a0; a1; a2; a3] in
  c_opt c 0xF4 = true -> c_sbm c = false -> ~ programming s -> lenN f <= c_ctobuf c ->
  granted c e (s_mext s) (s_maddr s) n false false -> 1 <= n < c_max_cto c -> in_space c (target c e x a) n ->
  delivers c e f s (0xFF :: mem_at (s_mem s) (target c e x a) n) (mta_at c x (a + n) s).
Proof.
  intros n r x a0 a1 a2 a3 t f a O B P L G N1 I. unfold delivers.
  assert (E : step c e (ORecv f) s = h_short_upload c e (rx c f s)).
  { apply (exec_val c m l s o); auto. tbl. }
  rewrite E. unfold h_short_upload. rewrite rx_in. destruct (rx4 c s 0xF4 n r x a0 a1 a2 a3 t) as (X & A). fold f a in X, A.
  rewrite X, A. change (gb (rxbuf s f) 1) with n. rewrite pgm_idle_no by exact P. rewrite check_mem_yes by exact G.
  rewrite u8_small by (pose proof (wf_cto _ W); lia). destruct (N.ltb_spec (c_max_cto c - 1) n); [lia|].
  destruct (upload_val c e n (set_mta x a (rx c f s)) W (rx_out _ _ _ _ _ _ R) B N1 I) as (s' & o' & E' & S & Q).
  rewrite E'. exists s', o'. split; [reflexivity|]. split; [exact S|].
  eapply ss_trans; [|exact Q]. unfold same_session, advanced, mta_at, set_mta, rx. ss. repeat split.
Qed.

End Standard.
