(** Proofs about the commands that write memory. *)
From Coq Require Import NArith ZArith List Bool Lia ZifyBool ZifyNat ZifyN.
From Verif Require Import Base Config Codec Checksum State Queue Daq Core Spec Lists Effects Handlers HTx HInv HInv2
  HFields HResp DaqInv HSpec Steps Demo Ops ProofsSession Exec ProofsFrames SpecProt ProofsProt SpecMem ProofsMem ProofsBlock.
Import ListNotations.
Open Scope N_scope.
Ltac Zify.zify_post_hook ::= Z.div_mod_to_equations.

Lemma run_app_val : forall c l1 l2 s s1 o1, run c l1 s = Ok (s1, o1) ->
  run c (l1 ++ l2) s = andthen (Ok (s1, o1)) (run c l2).
Proof.
  intros c. induction l1 as [|[e x] l1 IH]; intros l2 s s1 o1 H.
  - cbn [run] in H. inv. cbn [app]. unfold andthen. cbn [bind app]. destruct (run c l2 s1) as [[? ?]|]; reflexivity.
  - apply run_cons in H. destruct H as (s2 & o2 & o3 & H1 & H2 & ->). cbn [app run]. unfold andthen at 1. rewrite H1. cbn [bind].
    rewrite (IH _ _ _ _ H2). unfold andthen. cbn [bind]. destruct (run c l2 s1) as [[? ?]|]; cbn [bind]; [|reflexivity].
    now rewrite app_assoc.
Qed.

Lemma reach_app : forall c m l s o l' s' o', reachable c m l s o -> wf_run c l' -> run c l' s = Ok (s', o') ->
  reachable c m (l ++ l') s' (o ++ o').
Proof.
  intros c m l s o l' s' o' (W & M & R & s0 & B & H) R' H'.
  split; [auto|]. split; [auto|]. split; [apply Forall_app; auto|]. exists s0. split; [auto|].
  rewrite (run_app_val _ _ _ _ _ _ H). unfold andthen. cbn [bind]. now rewrite H'.
Qed.
Lemma reach_step : forall c m l s o e x s' o', reachable c m l s o -> wf_op c (e, x) -> step c e x s = Ok (s', o') ->
  reachable c m (l ++ [(e, x)]) s' (o ++ o').
Proof.
  intros. eapply reach_app; eauto; [constructor; auto|]. cbn [run]. unfold andthen. rewrite H1. cbn [bind]. now rewrite app_nil_r.
Qed.

(** ** Copying into memory *)

Lemma copy_in_val : forall c e x a bs s, 1 <= lenN bs -> target c e x a <> 0 -> in_space c (target c e x a) (lenN bs) ->
  copy_in c e x a bs s = Ok (set_s_mem (mwrite (s_mem s) (target c e x a) bs) s).
Proof.
  intros c e x a bs s L N0 I. unfold copy_in. change (map_addr c e x a) with (target c e x a). unfold in_space in I.
  destruct (N.eqb_spec (target c e x a) 0); [lia|]. destruct (N.eqb_spec (lenN bs) 0); [lia|].
  destruct (N.ltb_spec (aspace c) (target c e x a + lenN bs)); [lia|]. reflexivity.
Qed.

Lemma down_val : forall c e off bs t p s, s_in s = p ++ bs ++ t -> lenN p = off -> c_buf_addr c + off < 2 ^ 32 ->
  1 <= lenN bs -> target c e (s_mext s) (s_maddr s) <> 0 -> in_space c (target c e (s_mext s) (s_maddr s)) (lenN bs) ->
  download_copy c e off (lenN bs) s = Ok (inc_mta c (lenN bs) (set_s_mem (mwrite (s_mem s) (target c e (s_mext s) (s_maddr s)) bs) s)).
Proof.
  intros c e off bs t p s E Lp A L N0 I. unfold download_copy. destruct (N.leb_spec (2 ^ 32) (c_buf_addr c + off)); [lia|].
  unfold slice_in. rewrite E, !lenN_app. destruct (N.ltb_spec (lenN p + (lenN bs + lenN t)) (off + lenN bs)); [lia|].
  cbn [bind]. rewrite <- Lp, drop_app, take_app. rewrite copy_in_val by auto. reflexivity.
Qed.

Lemma u32_small : forall n, n < 2 ^ 32 -> u32 n = n. Proof. intros. now apply N.mod_small. Qed.

(** Session after a write. *)
Lemma inc_ss : forall c n s0 s m', n < 2 ^ 32 -> same_session s0 s ->
  same_session (set_s_mem m' (advanced c n s0)) (inc_mta c n (set_s_mem m' s)).
Proof.
  intros c n s0 s m' L S. unfold same_session in *. decompose [and] S. unfold advanced, mta_at, inc_mta. rewrite u32_small by auto. ss.
  repeat (split; [congruence|]). congruence.
Qed.
Lemma ss_mact : forall b s s', same_session s s' -> same_session (set_s_mact b s) (set_s_mact b s').
Proof. intros b s s' S. unfold same_session in *. ss. intuition. Qed.
Lemma ss_mrem : forall b s s', same_session s s' -> same_session (set_s_mrem b s) (set_s_mrem b s').
Proof. intros b s s' S. unfold same_session in *. ss. intuition. Qed.
Lemma ss_mem : forall b s s', same_session s s' -> same_session (set_s_mem b s) (set_s_mem b s').
Proof. intros b s s' S. unfold same_session in *. ss. intuition. Qed.

Lemma rxbuf2 : forall s k n bs t, rxbuf s (k :: n :: bs ++ t) = [k; n] ++ bs ++ (t ++ skipn (length (k :: n :: bs ++ t)) (s_in s)).
Proof. intros. unfold rxbuf. cbn [app]. now rewrite app_assoc. Qed.
Lemma rxbuf1 : forall s k bs t, rxbuf s (k :: bs ++ t) = [k] ++ bs ++ (t ++ skipn (length (k :: bs ++ t)) (s_in s)).
Proof. intros. unfold rxbuf. cbn [app]. now rewrite app_assoc. Qed.

Lemma limit_eq : forall c, wf_cfg c -> u16 (c_max_bs c * c_dl c) = c_max_bs c * c_dl c.
Proof.
  intros c W. apply N.mod_small. pose proof (wf_cto _ W). destruct (wf_bytes _ W) as (_ & B & _). unfold c_dl. nia.
Qed.

Section Write.
Variables (c : cfg) (m : mem) (l : list (env * op)) (s : st) (o : list pkt) (e : env).
Hypothesis (R : reachable c m l s o) (RD : ready s).
Let W : wf_cfg c := proj1 R.

Lemma download_exec : forall n t, c_cal c = true -> lenN (0xF0 :: n :: t) <= c_ctobuf c ->
  step c e (ORecv (0xF0 :: n :: t)) s = h_download c e (rx c (0xF0 :: n :: t) s).
Proof. intros n t C L. apply (exec_val c m l s o); auto. tbl. Qed.


Lemma download_thm : forall bs t, let n := lenN bs in let f := 0xF0 :: n :: bs ++ t in
  let b := target c e (s_mext s) (s_maddr s) in
  dlc_ok c -> c_cal c = true -> ~ programming s -> lenN f <= c_ctobuf c -> c_buf_addr c + 2 < 2 ^ 32 ->
  granted c e (s_mext s) (s_maddr s) n true false -> 1 <= n <= c_max_cto c - 2 -> (c_mbm c = true -> 1 <= c_max_bs c) ->
  b <> 0 -> in_space c b n ->
  stores c e f s b bs (advanced c n (idle_block c s)) (fun o => sends o (padded c [0xFF])).
Proof.
  intros bs t n f b D C P L A G Hn Hb B0 I. unfold stores. pose proof (wf_cto _ W) as Wc.
  unfold f. rewrite download_exec by auto. fold f. unfold h_download. rewrite pgm_idle_no by exact P.
  assert (Eb : gb (s_in (rx c f s)) 1 = n) by (rewrite rx_in; reflexivity). rewrite Eb.
  rewrite check_mem_yes by exact G. rewrite limit_eq by exact W.
  assert (X : forall sx, s_in sx = s_in (rx c f s) -> lenN (s_out sx) = c_max_cto c -> same_session (idle_block c s) sx ->
    exists s' o', (s2 <- download_copy c e 2 n sx ;; pos c s2) = Ok (s', o') /\ sends o' (padded c [0xFF]) /\
      same_session (set_s_mem (mwrite (s_mem s) b bs) (advanced c n (idle_block c s))) s').
  { intros sx Ei Lo S.
    assert (Sx : s_mext sx = s_mext s /\ s_maddr sx = s_maddr s /\ s_mem sx = s_mem s).
    { unfold same_session, idle_block in S. destruct (c_mbm c); ss_in S; decompose [and] S; auto. }
    destruct Sx as (X1 & X2 & X3).
    assert (Dv := down_val c e 2 bs (t ++ skipn (length f) (s_in s)) [0xF0; n] sx).
    rewrite X1, X2, X3 in Dv. fold b n in Dv. rewrite Dv; auto; try lia.
    2:{ rewrite Ei, rx_in. apply rxbuf2. }
    cbn [bind]. apply pos_ans; auto.
    apply inc_ss; [lia|auto]. }
  unfold idle_block in *. destruct (c_mbm c) eqn:M.
  - specialize (Hb eq_refl).
    assert (c_dl c = c_max_cto c - 2) as Ed by reflexivity.
    destruct (N.ltb_spec (c_max_bs c * c_dl c) n); [nia|]. destruct (N.ltb_spec (c_dl c) n); [lia|].
    destruct (X (set_s_mact false (rx c f s))) as (s' & o' & E & S & Q); auto.
    + exact (rx_out c m l s o f R).
    + apply ss_mact, ss_rx.
    + exists s', o', (mwrite (s_mem s) b bs). split; [exact E|]. split; [exact S|]. split; [apply mwrite_wrote|exact Q].
  - destruct (N.ltb_spec (c_dl c) n); [unfold c_dl in *; lia|].
    destruct (X (rx c f s)) as (s' & o' & E & S & Q); auto.
    + exact (rx_out c m l s o f R).
    + apply ss_rx.
    + exists s', o', (mwrite (s_mem s) b bs). split; [exact E|]. split; [exact S|]. split; [apply mwrite_wrote|exact Q].
Qed.

Lemma download_refused : forall n t, dlc_ok c -> c_cal c = true -> lenN (0xF0 :: n :: t) <= c_ctobuf c ->
  (programming s -> refuses c e (0xF0 :: n :: t) s 0x12) /\
  (~ programming s -> ~ granted c e (s_mext s) (s_maddr s) n true false -> refuses c e (0xF0 :: n :: t) s 0x24) /\
  (~ programming s -> granted c e (s_mext s) (s_maddr s) n true false ->
   c_max_cto c - 2 < n -> (c_mbm c = true -> c_max_bs c * (c_max_cto c - 2) < n) ->
   answers c e (0xF0 :: n :: t) s [0xFE; 0x22] (idle_block c s)).
Proof.
  intros n t D C L. unfold refuses, answers. rewrite download_exec by auto. unfold h_download. rewrite rx_in, rx1.
  pose proof (rx_out c m l s o (0xF0 :: n :: t) R) as Lo. repeat split.
  - intros P. rewrite pgm_idle_yes; [|eapply reach_pgm; eauto|exact P]. apply res_err_ans; auto; [lia|apply ss_rx].
  - intros P G. rewrite pgm_idle_no by exact P. rewrite check_mem_no by exact G. apply res_err_ans; auto; [lia|apply ss_rx].
  - intros P G Hn Hb. rewrite pgm_idle_no by exact P. rewrite check_mem_yes by exact G. rewrite limit_eq by exact W.
    unfold idle_block. destruct (c_mbm c).
    + specialize (Hb eq_refl). destruct (N.ltb_spec (c_max_bs c * c_dl c) n); [|unfold c_dl in *; lia].
      apply err_ans; auto; [lia|]. apply ss_mact, ss_rx.
    + destruct (N.ltb_spec (c_dl c) n); [|unfold c_dl in *; lia]. apply err_ans; auto; [lia|apply ss_rx].
Qed.

(** First frame of a block. *)
Lemma block_first : forall n bs t, let f := 0xF0 :: n :: bs ++ t in let b := target c e (s_mext s) (s_maddr s) in
  c_cal c = true -> c_mbm c = true -> ~ programming s -> lenN f <= c_ctobuf c -> c_buf_addr c + 2 < 2 ^ 32 ->
  granted c e (s_mext s) (s_maddr s) n true false -> lenN bs = c_max_cto c - 2 -> lenN bs < n <= c_max_bs c * (c_max_cto c - 2) -> n < 256 ->
  b <> 0 -> in_space c b (lenN bs) ->
  stores c e f s b bs (set_s_mrem (n - lenN bs) (set_s_mact true (advanced c (lenN bs) s))) (fun o => o = []).
Proof.
  intros n bs t f b C M P L A G Lb Hn H8 B0 I. unfold stores. pose proof (wf_cto _ W) as Wc.
  unfold f. rewrite download_exec by auto. fold f. unfold h_download. rewrite pgm_idle_no by exact P.
  assert (Eb : gb (s_in (rx c f s)) 1 = n) by (rewrite rx_in; reflexivity). rewrite Eb.
  rewrite check_mem_yes by exact G. rewrite limit_eq by exact W. rewrite M. fold (c_dl c) in *.
  destruct (N.ltb_spec (c_max_bs c * c_dl c) n); [lia|]. destruct (N.ltb_spec (c_dl c) n); [|lia].
  rewrite <- Lb.
  assert (Dv := down_val c e 2 bs (t ++ skipn (length f) (s_in s)) [0xF0; n]
    (set_s_mrem (n - lenN bs) (set_s_mact true (set_s_mact false (rx c f s))))).
  rewrite Dv; auto; try (unfold c_dl in *; lia).
  2:{ ss. change (s_in (rx c f s) = [240; n] ++ bs ++ t ++ skipn (length f) (s_in s)). rewrite rx_in. apply rxbuf2. }
  cbn [bind]. eexists _, [], (mwrite (s_mem s) b bs). split; [reflexivity|]. split; [reflexivity|]. split; [apply mwrite_wrote|].
  unfold b. change (s_mem s) with (s_mem (rx c f s)). unfold same_session, advanced, mta_at, inc_mta, rx. ss.
  repeat split. rewrite u32_small; [reflexivity|unfold c_dl in *; lia].
Qed.

(** DOWNLOAD_NEXT during a block; the announced number [r] is not compared with
    the expected one. *)
Lemma next_thm : forall r bs t, let f := 0xEF :: r :: bs ++ t in let b := target c e (s_mext s) (s_maddr s) in
  let left := (s_mrem s + 256 - lenN bs) mod 256 in
  dlc_ok c -> c_cal c = true -> c_opt c 0xEF = true -> ~ programming s -> s_mact s = true -> lenN f <= c_ctobuf c ->
  c_buf_addr c + 2 < 2 ^ 32 -> lenN bs = N.min r (c_max_cto c - 2) -> 1 <= r ->
  b <> 0 -> in_space c b (lenN bs) ->
  stores c e f s b bs (set_s_mrem left (set_s_mact (negb (left =? 0)) (advanced c (lenN bs) s)))
    (fun o => if left =? 0 then sends o (padded c [0xFF]) else o = []).
Proof.
  intros r bs t f b left D C O P Ma L A Lb Hr B0 I. unfold stores. pose proof (wf_cto _ W) as Wc.
  assert (E : step c e (ORecv f) s = h_download_next c e (rx c f s)).
  { apply (exec_val c m l s o); auto. tbl. }
  rewrite E. unfold h_download_next. rewrite pgm_idle_no by exact P.
  assert (Ma' : s_mact (rx c f s) = true) by exact Ma. rewrite Ma'. cbn [negb].
  assert (Eb : gb (s_in (rx c f s)) 1 = r) by (rewrite rx_in; reflexivity). rewrite Eb. fold (c_dl c) in *. rewrite <- Lb.
  assert (Dv := down_val c e 2 bs (t ++ skipn (length f) (s_in s)) [0xEF; r] (rx c f s)).
  rewrite Dv; auto; try (unfold c_dl in *; lia).
  2:{ rewrite rx_in. apply rxbuf2. }
  change (target c e (s_mext (rx c f s)) (s_maddr (rx c f s))) with b. change (s_mem (rx c f s)) with (s_mem s).
  cbn [bind]. ss. change (s_mrem (rx c f s)) with (s_mrem s). change (u8 (s_mrem s + 256 - lenN bs)) with left.
  assert (Q : same_session (set_s_mem (mwrite (s_mem s) b bs) (advanced c (lenN bs) s)) (inc_mta c (lenN bs) (set_s_mem (mwrite (s_mem s) b bs) (rx c f s)))).
  { apply inc_ss; [unfold c_dl in *; lia|apply ss_rx]. }
  assert (Lo := rx_out c m l s o f R).
  destruct (left =? 0); cbn [negb].
  - match goal with |- context [pos c ?sx] => destruct (pos_ans c sx (set_s_mem (mwrite (s_mem s) b bs)
      (set_s_mrem left (set_s_mact false (advanced c (lenN bs) s)))) W D Lo) as (s' & o' & E' & S & Q') end.
    { unfold same_session in *. ss. ss_in Q. intuition. }
    rewrite E'. exists s', o', (mwrite (s_mem s) b bs). split; [reflexivity|]. split; [exact S|]. split; [apply mwrite_wrote|exact Q'].
  - eexists _, [], (mwrite (s_mem s) b bs). split; [reflexivity|]. split; [reflexivity|]. split; [apply mwrite_wrote|].
    unfold same_session in *. ss. ss_in Q. rewrite <- Ma at 1. intuition.
Qed.

Lemma next_inactive : forall r t, dlc_ok c -> c_cal c = true -> c_opt c 0xEF = true -> ~ programming s -> s_mact s = false ->
  lenN (0xEF :: r :: t) <= c_ctobuf c -> refuses c e (0xEF :: r :: t) s 0x29.
Proof.
  intros r t D C O P Ma L. unfold refuses, answers.
  assert (E : step c e (ORecv (0xEF :: r :: t)) s = h_download_next c e (rx c (0xEF :: r :: t) s)).
  { apply (exec_val c m l s o); auto. tbl. }
  rewrite E. unfold h_download_next. rewrite pgm_idle_no by exact P. change (s_mact (rx c (0xEF :: r :: t) s)) with (s_mact s). rewrite Ma. cbn [negb].
  apply err_ans; auto; [exact (rx_out c m l s o _ R)|lia|apply ss_rx].
Qed.

Lemma download_max_thm : forall bs t, let n := lenN bs in let f := 0xEE :: bs ++ t in let b := target c e (s_mext s) (s_maddr s) in
  dlc_ok c -> c_cal c = true -> c_opt c 0xEE = true -> ~ programming s -> lenN f <= c_ctobuf c -> c_buf_addr c + 1 < 2 ^ 32 ->
  n = c_max_cto c - 1 -> b <> 0 -> in_space c b n ->
  stores c e f s b bs (advanced c n s) (fun o => sends o (padded c [0xFF])).
Proof.
  intros bs t n f b D C O P L A Hn B0 I. unfold stores. pose proof (wf_cto _ W) as Wc.
  assert (E : step c e (ORecv f) s = h_download_max c e (rx c f s)).
  { apply (exec_val c m l s o); auto. tbl. }
  rewrite E. unfold h_download_max. rewrite pgm_idle_no by exact P. replace (c_dl c + 1) with n by (unfold c_dl; lia).
  assert (Dv := down_val c e 1 bs (t ++ skipn (length f) (s_in s)) [0xEE] (rx c f s)).
  unfold n. rewrite Dv; auto; try (unfold c_dl in *; lia).
  2:{ rewrite rx_in. apply rxbuf1. }
  cbn [bind]. change (target c e (s_mext (rx c f s)) (s_maddr (rx c f s))) with b. change (s_mem (rx c f s)) with (s_mem s). fold n.
  match goal with |- context [pos c ?sx] => destruct (pos_ans c sx (set_s_mem (mwrite (s_mem s) b bs) (advanced c n s)) W D
    (rx_out c m l s o f R)) as (s' & o' & E' & S & Q') end.
  { apply inc_ss; [lia|apply ss_rx]. }
  rewrite E'. exists s', o', (mwrite (s_mem s) b bs). split; [reflexivity|]. split; [exact S|]. split; [apply mwrite_wrote|exact Q'].
Qed.

Lemma rxbuf8 : forall k n r x a0 a1 a2 a3 bs t, let f := k :: n :: r :: x :: a0 :: a1 :: a2 :: a3 :: bs ++ t in
  rxbuf s f = [k; n; r; x; a0; a1; a2; a3] ++ bs ++ (t ++ skipn (length f) (s_in s)).
Proof. intros. unfold rxbuf, f. cbn [app]. now rewrite app_assoc. Qed.

Lemma short_download_thm : forall r x a0 a1 a2 a3 bs t, let n := lenN bs in
  let f := 0xED :: n :: r :: x :: a0 :: a1 :: a2 :: a3 :: bs ++ t in let a := field c [a0; a1; a2; a3] in let b := target c e x a in
  dlc_ok c -> c_cal c = true -> c_opt c 0xED = true -> ~ programming s -> lenN f <= c_ctobuf c ->
  granted c e x a n true false -> 1 <= n <= c_max_cto c - 8 -> b <> 0 -> in_space c b n ->
  stores c e f s b bs (advanced c n s) (fun o => sends o (padded c [0xFF])).
Proof.
  intros r x a0 a1 a2 a3 bs t n f a b D C O P L G Hn B0 I. unfold stores. pose proof (wf_cto _ W) as Wc.
  assert (E : step c e (ORecv f) s = h_short_download c e (rx c f s)).
  { apply (exec_val c m l s o); auto. tbl. }
  rewrite E. unfold h_short_download. rewrite pgm_idle_no by exact P. rewrite rx_in.
  destruct (rx4 c s 0xED n r x a0 a1 a2 a3 (bs ++ t)) as (X & A). fold f a in X, A. rewrite X, A.
  change (gb (rxbuf s f) 1) with n. rewrite check_mem_yes by exact G.
  destruct (N.ltb_spec (c_max_cto c - 8) n); [lia|]. unfold slice_in. rewrite rx_in.
  assert (Er : rxbuf s f = [0xED; n; r; x; a0; a1; a2; a3] ++ (bs ++ (t ++ skipn (length f) (s_in s)))) by apply rxbuf8. rewrite Er.
  rewrite lenN_app. change (lenN [0xED; n; r; x; a0; a1; a2; a3]) with 8. rewrite lenN_app. fold n.
  destruct (N.ltb_spec (8 + (n + lenN (t ++ skipn (length f) (s_in s)))) (8 + n)); [lia|]. cbn [bind].
  change 8 with (lenN [0xED; n; r; x; a0; a1; a2; a3]) at 1. rewrite drop_app. unfold n at 1. rewrite take_app.
  rewrite copy_in_val by (fold b n; auto; lia). cbn [bind]. fold b. change (s_mem (rx c f s)) with (s_mem s).
  match goal with |- context [pos c ?sx] => destruct (pos_ans c sx (set_s_mem (mwrite (s_mem s) b bs) (advanced c n s)) W D
    (rx_out c m l s o f R)) as (s' & o' & E' & S & Q') end.
  { apply inc_ss; [lia|apply ss_rx]. }
  rewrite E'. exists s', o', (mwrite (s_mem s) b bs). split; [reflexivity|]. split; [exact S|]. split; [apply mwrite_wrote|exact Q'].
Qed.

Lemma program_thm : forall n t, dlc_ok c -> c_pgm c = true -> programming s -> lenN (0xD0 :: n :: t) <= c_ctobuf c -> n < 256 ->
  granted c e (s_mext s) (s_maddr s) n true true -> answers c e (0xD0 :: n :: t) s [0xFF] (advanced c n s).
Proof.
  intros n t D C P L Hn G. unfold answers.
  assert (E : step c e (ORecv (0xD0 :: n :: t)) s = h_program c e (rx c (0xD0 :: n :: t) s)).
  { apply (exec_val c m l s o); auto. tbl. }
  rewrite E. unfold h_program. rewrite rx_in, rx1. unfold pgm_active. change (s_pgm (rx c (0xD0 :: n :: t) s)) with (s_pgm s). rewrite P.
  rewrite check_mem_yes by exact G. apply pos_ans; auto; [exact (rx_out c m l s o _ R)|].
  unfold same_session, advanced, mta_at, inc_mta, rx. ss. rewrite u32_small by lia. repeat split.
Qed.

(** ** Breaking parameters *)

Lemma zero_upload : forall t, c_opt c 0xF5 = true -> ~ programming s -> lenN (0xF5 :: 0 :: t) <= c_ctobuf c ->
  granted c e (s_mext s) (s_maddr s) 0 false false -> (c_sbm c = true -> c_lock c = LockRecursive) ->
  breaks c e (0xF5 :: 0 :: t) s Assert.
Proof.
  intros t O P L G K. unfold breaks.
  assert (E : step c e (ORecv (0xF5 :: 0 :: t)) s = h_upload c e (rx c (0xF5 :: 0 :: t) s)).
  { apply (exec_val c m l s o); auto. tbl. }
  rewrite E. unfold h_upload. rewrite rx_in, rx1. rewrite pgm_idle_no by exact P. rewrite check_mem_yes by exact G.
  assert (Lo := rx_out c m l s o (0xF5 :: 0 :: t) R). pose proof (wf_cto _ W) as Wc. set (sx := rx c (0xF5 :: 0 :: t) s) in *. clearbody sx.
  rewrite andb_comm. cbn [andb]. destruct (N.ltb_spec (u8 (c_max_cto c - 1)) 0); [lia|]. cbn [andb]. unfold upload.
  destruct (c_sbm c).
  - rewrite active_val by auto. cbn [bind]. unfold upload_block. ss. cbn [negb]. unfold poke. ss. change (lenN [0xFF]) with 1. rewrite Lo.
    destruct (N.ltb_spec (c_max_cto c) (0 + 1)); [lia|]. cbn [bind]. destruct (N.leb_spec 0 (c_max_cto c - 1)); [reflexivity|lia].
  - unfold poke at 1. change (lenN [0xFF]) with 1. rewrite Lo. destruct (N.ltb_spec (c_max_cto c) (0 + 1)); [lia|]. reflexivity.
Qed.

Lemma zero_short_upload : forall r x a0 a1 a2 a3 t, let f := 0xF4 :: 0 :: r :: x :: a0 :: a1 :: a2 :: a3 :: t in
  c_opt c 0xF4 = true -> ~ programming s -> lenN f <= c_ctobuf c ->
  granted c e (s_mext s) (s_maddr s) 0 false false -> (c_sbm c = true -> c_lock c = LockRecursive) -> breaks c e f s Assert.
Proof.
  intros r x a0 a1 a2 a3 t f O P L G K. unfold breaks.
  assert (E : step c e (ORecv f) s = h_short_upload c e (rx c f s)).
  { apply (exec_val c m l s o); auto. tbl. }
  rewrite E. unfold h_short_upload. rewrite rx_in. change (gb (rxbuf s f) 1) with 0. rewrite pgm_idle_no by exact P. rewrite check_mem_yes by exact G.
  assert (Lo := rx_out c m l s o f R). pose proof (wf_cto _ W) as Wc.
  destruct (N.ltb_spec (u8 (c_max_cto c - 1)) 0); [lia|]. unfold upload.
  set (sx := set_mta _ _ _). assert (Lx : lenN (s_out sx) = c_max_cto c) by exact Lo. clearbody sx.
  destruct (c_sbm c).
  - rewrite active_val by auto. cbn [bind]. unfold upload_block. ss. cbn [negb]. unfold poke. ss. change (lenN [0xFF]) with 1. rewrite Lx.
    destruct (N.ltb_spec (c_max_cto c) (0 + 1)); [lia|]. cbn [bind]. destruct (N.leb_spec 0 (c_max_cto c - 1)); [reflexivity|lia].
  - unfold poke at 1. change (lenN [0xFF]) with 1. rewrite Lx. destruct (N.ltb_spec (c_max_cto c) (0 + 1)); [lia|]. reflexivity.
Qed.

Lemma bad_copy : forall off n sx, c_buf_addr c + off < 2 ^ 32 -> off + n <= lenN (s_in sx) ->
  n = 0 \/ target c e (s_mext sx) (s_maddr sx) = 0 -> download_copy c e off n sx = UB Assert.
Proof.
  intros off n sx A L H. unfold download_copy. destruct (N.leb_spec (2 ^ 32) (c_buf_addr c + off)); [lia|].
  unfold slice_in. destruct (N.ltb_spec (lenN (s_in sx)) (off + n)); [lia|]. cbn [bind]. unfold copy_in.
  change (map_addr c e (s_mext sx) (s_maddr sx)) with (target c e (s_mext sx) (s_maddr sx)).
  destruct (N.eqb_spec (target c e (s_mext sx) (s_maddr sx)) 0); [reflexivity|]. destruct H as [->|H]; [|lia]. reflexivity.
Qed.

Lemma download_assert : forall n t, c_cal c = true -> ~ programming s -> lenN (0xF0 :: n :: t) <= c_ctobuf c ->
  c_buf_addr c + 2 < 2 ^ 32 -> granted c e (s_mext s) (s_maddr s) n true false -> n <= c_max_cto c - 2 -> (c_mbm c = true -> 1 <= c_max_bs c) ->
  n = 0 \/ target c e (s_mext s) (s_maddr s) = 0 -> breaks c e (0xF0 :: n :: t) s Assert.
Proof.
  intros n t C P L A G Hn Hb H. unfold breaks. rewrite download_exec by auto. unfold h_download. rewrite rx_in, rx1.
  rewrite pgm_idle_no by exact P. rewrite check_mem_yes by exact G. rewrite limit_eq by exact W. pose proof (wf_cto _ W).
  assert (Li : lenN (s_in (rx c (0xF0 :: n :: t) s)) = c_ctobuf c).
  { unfold rx. ss. rewrite lenN_splice; [|rewrite N.add_0_l]; rewrite (b_in _ _ (i_b _ _ (reach_inv _ _ _ _ _ R))); auto. }
  assert (c_max_cto c <= c_ctobuf c) by (unfold c_ctobuf; lia).
  assert (X : forall sx, s_in sx = s_in (rx c (0xF0 :: n :: t) s) -> s_mext sx = s_mext s -> s_maddr sx = s_maddr s ->
    (s2 <- download_copy c e 2 n sx ;; pos c s2) = UB Assert).
  { intros sx E1 E2 E3. rewrite bad_copy; auto; [rewrite E1, Li; lia|]. now rewrite E2, E3. }
  destruct (c_mbm c).
  - specialize (Hb eq_refl). unfold c_dl in *. destruct (N.ltb_spec (c_max_bs c * (c_max_cto c - 2)) n); [nia|].
    destruct (N.ltb_spec (c_max_cto c - 2) n); [lia|]. apply X; reflexivity.
  - unfold c_dl in *. destruct (N.ltb_spec (c_max_cto c - 2) n); [lia|]. apply X; reflexivity.
Qed.

(** With a receive buffer above the first 4 GiB the source address is truncated. *)
Lemma download_wild : forall n t, c_cal c = true -> ~ programming s -> lenN (0xF0 :: n :: t) <= c_ctobuf c ->
  2 ^ 32 <= c_buf_addr c + 2 -> granted c e (s_mext s) (s_maddr s) n true false -> n <= c_max_cto c - 2 -> (c_mbm c = true -> 1 <= c_max_bs c) ->
  breaks c e (0xF0 :: n :: t) s WildAddr.
Proof.
  intros n t C P L A G Hn Hb. unfold breaks. rewrite download_exec by auto. unfold h_download. rewrite rx_in, rx1.
  rewrite pgm_idle_no by exact P. rewrite check_mem_yes by exact G. rewrite limit_eq by exact W. pose proof (wf_cto _ W).
  assert (X : forall sx, download_copy c e 2 n sx = UB WildAddr).
  { intros sx. unfold download_copy. destruct (N.leb_spec (2 ^ 32) (c_buf_addr c + 2)); [reflexivity|lia]. }
  destruct (c_mbm c).
  - specialize (Hb eq_refl). unfold c_dl in *. destruct (N.ltb_spec (c_max_bs c * (c_max_cto c - 2)) n); [nia|].
    destruct (N.ltb_spec (c_max_cto c - 2) n); [lia|]. now rewrite X.
  - unfold c_dl in *. destruct (N.ltb_spec (c_max_cto c - 2) n); [lia|]. now rewrite X.
Qed.
End Write.

(** ** Master block mode *)

Lemma wrote_app : forall m b d m1 r m2, wrote m b d m1 -> wrote m1 (b + lenN d) r m2 -> wrote m b (d ++ r) m2.
Proof.
  intros m b d m1 r m2 H1 H2 x. rewrite H2, H1, lenN_app.
  destruct (N.leb_spec b x), (N.leb_spec (b + lenN d) x), (N.ltb_spec x (b + lenN d + lenN r)), (N.ltb_spec x (b + lenN d)),
    (N.ltb_spec x (b + (lenN d + lenN r))); cbn [andb]; try lia; auto.
  - rewrite app_nth2 by (unfold lenN in *; lia). f_equal. unfold lenN in *. lia.
  - rewrite app_nth1 by (unfold lenN in *; lia). reflexivity.
Qed.
Lemma wrote_same : forall m m0 b d m', wrote m b d m' -> m = m0 -> wrote m0 b d m'.
Proof. intros. subst. auto. Qed.


Lemma maps_here : forall c x a n b e, maps_block c x a n b e -> 0 < n -> a < aspace c -> target c e x a = b.
Proof. intros c x a n b e M Hn Ha. specialize (M 0 Hn). rewrite N.add_0_r, N.mod_small in M by auto. lia. Qed.
Lemma maps_prefix : forall c x a n k b e, maps_block c x a n b e -> k <= n -> maps_block c x a k b e.
Proof. intros c x a n k b e M H i Hi. apply M. lia. Qed.
Lemma maps_rest : forall c x a n k b e, maps_block c x a (k + n) b e -> maps_block c x ((a + k) mod aspace c) n (b + k) e.
Proof.
  intros c x a n k b e M i Hi. rewrite N.add_mod_idemp_l by (pose proof (aspace_pos c); lia).
  rewrite <- !N.add_assoc. apply M. lia.
Qed.

Lemma block_rest : forall c m, dlc_ok c -> c_cal c = true -> c_mbm c = true -> c_buf_addr c + 2 < 2 ^ 32 ->
  forall data fs, next_frames (c_max_cto c - 2) data fs ->
  forall l' l s o b, reachable c m l s o -> ready s -> ~ programming s -> s_mact s = true -> s_mrem s = lenN data -> lenN data < 256 ->
  wf_run c l' -> map snd l' = map ORecv fs -> Forall (fun f => lenN f <= c_ctobuf c) fs ->
  Forall (fun x => maps_block c (s_mext s) (s_maddr s) (lenN data) b (fst x)) l' -> b <> 0 -> in_space c b (lenN data) ->
  exists s' o' m', run c l' s = Ok (s', o') /\ sends o' (padded c [0xFF]) /\ wrote (s_mem s) b data m' /\
    same_session (set_s_mem m' (block_done c (lenN data) s)) s'.
Proof.
  intros c m D C M A data fs F. induction F as [data pad Hd|d rest pad fs Hd F IH]; intros l' l s o b R RD P Ma Mr Hl Wr Em Lf Mb B0 I;
    destruct l' as [|[e x] l']; cbn [map snd] in Em; try discriminate;
    pose proof (wf_cto _ (proj1 R)) as Wc; pose proof (b_maddr _ _ (i_b _ _ (reach_inv _ _ _ _ _ R))) as Ha;
    assert (O : c_opt c 0xEF = true) by (rewrite <- M; apply (wf_mbm _ (proj1 R)); auto).
  - injection Em as -> Em. destruct l'; [|discriminate]. inversion Mb; subst. inversion Lf; subst. cbn [fst] in *.
    match goal with Hw : maps_block _ _ _ _ b e |- _ => pose proof (maps_here _ _ _ _ _ _ Hw ltac:(lia) Ha) as T end.
    destruct (next_thm c m l s o e R RD (lenN data) data pad) as (s' & o' & m' & E & An & Wm & Q); auto; try lia; try (rewrite T; auto).
    rewrite T in Wm. rewrite Mr in *. replace ((lenN data + 256 - lenN data) mod 256) with 0 in * by (replace (lenN data + 256 - lenN data) with 256 by lia; reflexivity).
    cbn [N.eqb negb] in *. exists s', o', m'. split; [|auto]. cbn [run]. unfold andthen. rewrite E. cbn [bind]. now rewrite app_nil_r.
  - injection Em as -> Em. inversion Mb; subst. inversion Lf; subst. inversion Wr; subst. cbn [fst] in *. rewrite lenN_app in *.
    assert (1 <= lenN rest) by (inversion F; [lia|rewrite lenN_app; lia]).
    match goal with Hw : maps_block _ _ _ _ b e |- _ => pose proof (maps_here _ _ _ _ _ _ Hw ltac:(lia) Ha) as T end. unfold in_space in I.
    destruct (next_thm c m l s o e R RD (lenN d + lenN rest) d pad) as (s1 & o1 & m1 & E & An & Wm & Q); auto; try lia; try (rewrite T; unfold in_space; auto; lia).
    rewrite T in Wm. rewrite Mr in *. replace ((lenN d + lenN rest + 256 - lenN d) mod 256) with (lenN rest) in *
      by (replace (lenN d + lenN rest + 256 - lenN d) with (lenN rest + 1 * 256) by lia; rewrite N.mod_add by lia; rewrite N.mod_small; lia).
    destruct (N.eqb_spec (lenN rest) 0); [lia|]. cbn [negb] in *. subst o1.
    pose proof Q as Qs. unfold same_session, advanced, mta_at in Qs. ss_in Qs. decompose [and] Qs.
    match goal with Hw : wf_op c (e, _) |- _ => pose proof (reach_step _ _ _ _ _ _ _ _ _ R Hw E) as R1 end.
    destruct (IH l' (l ++ [(e, ORecv (0xEF :: lenN d + lenN rest :: d ++ pad))]) s1 (o ++ []) (b + lenN d)) as (s' & o' & m' & E' & An & Wm' & Q'); auto; try lia; try congruence.
    + destruct RD. split; congruence.
    + match goal with Hw : Forall (fun x => maps_block _ _ _ _ _ _) l' |- _ => eapply Forall_impl; [|exact Hw] end. cbn beta. intros y Y. replace (s_mext s1) with (s_mext s) by congruence. replace (s_maddr s1) with ((s_maddr s + lenN d) mod aspace c) by congruence.
      now apply maps_rest.
    + unfold in_space. lia.
    + exists s', o', m'. split; [cbn [run]; unfold andthen; rewrite E; cbn [bind]; rewrite E'; reflexivity|].
      split; [exact An|]. split; [eapply wrote_app; [exact Wm|]; eapply wrote_same; [exact Wm'|auto]|].
      eapply ss_trans; [|exact Q']. unfold same_session, block_done, advanced, mta_at. ss. unfold same_session, advanced, mta_at in Q. ss_in Q. decompose [and] Q.
      repeat (split; [congruence|]). split; [|repeat (split; [congruence|]); congruence].
      replace (s_maddr s1) with ((s_maddr s + lenN d) mod aspace c) by congruence.
      rewrite N.add_mod_idemp_l by (pose proof (aspace_pos c); lia). f_equal. lia.
Qed.

Lemma master_block : forall c m l s o e n d pad rest fs l' b, reachable c m l s o -> ready s -> dlc_ok c -> c_cal c = true -> c_mbm c = true ->
  ~ programming s -> c_buf_addr c + 2 < 2 ^ 32 -> granted c e (s_mext s) (s_maddr s) n true false ->
  n = lenN (d ++ rest) -> lenN d = c_max_cto c - 2 -> next_frames (c_max_cto c - 2) rest fs ->
  n < 256 -> n <= c_max_bs c * (c_max_cto c - 2) ->
  wf_run c ((e, ORecv (0xF0 :: n :: d ++ pad)) :: l') -> map snd l' = map ORecv fs -> Forall (fun f => lenN f <= c_ctobuf c) ((0xF0 :: n :: d ++ pad) :: fs) ->
  Forall (fun x => maps_block c (s_mext s) (s_maddr s) n b (fst x)) ((e, ORecv (0xF0 :: n :: d ++ pad)) :: l') -> b <> 0 -> in_space c b n ->
  exists s' o' m', run c ((e, ORecv (0xF0 :: n :: d ++ pad)) :: l') s = Ok (s', o') /\ sends o' (padded c [0xFF]) /\ wrote (s_mem s) b (d ++ rest) m' /\
    same_session (set_s_mem m' (block_done c n s)) s'.
Proof.
  intros c m l s o e n d pad rest fs l' b R RD D C M P A G Hn Ld F H8 Hb Wr Em Lf Mb B0 I.
  inversion Wr; subst. inversion Lf; subst. inversion Mb; subst. cbn [fst] in *.
  pose proof (wf_cto _ (proj1 R)) as Wc; pose proof (b_maddr _ _ (i_b _ _ (reach_inv _ _ _ _ _ R))) as Ha. rewrite lenN_app in *.
  assert (1 <= lenN rest) by (inversion F; [lia|rewrite lenN_app; lia]).
  match goal with Hw : maps_block _ _ _ _ b e |- _ => pose proof (maps_here _ _ _ _ _ _ Hw ltac:(lia) Ha) as T end. unfold in_space in I.
  destruct (block_first c m l s o e R RD (lenN d + lenN rest) d pad) as (s1 & o1 & m1 & E & An & Wm & Q); auto; try lia; try (rewrite T; unfold in_space; auto; lia).
  rewrite T in Wm. subst o1. replace (lenN d + lenN rest - lenN d) with (lenN rest) in * by lia.
  pose proof Q as Qs. unfold same_session, advanced, mta_at in Qs. ss_in Qs. decompose [and] Qs.
  match goal with Hw : wf_op c (e, _) |- _ => pose proof (reach_step _ _ _ _ _ _ _ _ _ R Hw E) as R1 end.
  destruct (block_rest c m D C M A rest fs F l' (l ++ [(e, ORecv (0xF0 :: lenN d + lenN rest :: d ++ pad))]) s1 (o ++ []) (b + lenN d)) as (s' & o' & m' & E' & An & Wm' & Q'); auto; try lia; try congruence.
  + destruct RD. split; congruence.
  + match goal with Hw : Forall (fun x => maps_block _ _ _ _ _ _) l' |- _ => eapply Forall_impl; [|exact Hw] end. cbn beta. intros y Y. replace (s_mext s1) with (s_mext s) by congruence. replace (s_maddr s1) with ((s_maddr s + lenN d) mod aspace c) by congruence.
    now apply maps_rest.
  + unfold in_space. lia.
  + exists s', o', m'. split; [cbn [run]; unfold andthen; rewrite E; cbn [bind]; rewrite E'; reflexivity|].
    split; [exact An|]. split; [eapply wrote_app; [exact Wm|]; eapply wrote_same; [exact Wm'|auto]|].
    eapply ss_trans; [|exact Q']. unfold same_session, block_done, advanced, mta_at. ss.
    repeat (split; [congruence|]). split; [|repeat (split; [congruence|]); congruence].
    replace (s_maddr s1) with ((s_maddr s + lenN d) mod aspace c) by congruence.
    rewrite N.add_mod_idemp_l by (pose proof (aspace_pos c); lia). f_equal. lia.
Qed.
