(** Proofs that the slave refines the reference slave. *)
From Coq Require Import NArith ZArith List Bool Lia ZifyBool ZifyNat ZifyN.
From Verif Require Import Base Config Codec Checksum State Queue Daq Core Spec Lists Effects Handlers HTx HInv HInv2
  HFields HResp DaqInv HSpec Steps Demo Ops ProofsSession Exec ProofsFrames SpecProt ProofsProt SpecMem ProofsMem ProofsModify ProofsWrite SpecDaq ProofsDaqA ProofsDaqB ProofsDaqC ProofsDaqD ProofsDaqE ProofsDaqF ProofsDaqG ProofsDaqI ProofsTight2
  PropertiesSession PropertiesProt PropertiesMem PropertiesDaq PropertiesDaq2 PropertiesTight SpecInfo PropertiesInfo SpecE2e ProofsE2e ProofsBlock PropertiesMax SpecCks ProofsCks2 SpecMisc PropertiesMisc SpecRef.
Import ListNotations.
Open Scope N_scope.
Ltac Zify.zify_post_hook ::= Z.div_mod_to_equations.

(** ** The relation looks at the session only *)
Lemma measures_daq : forall c x s s', s_daq s' = s_daq s -> measures c x s -> measures c x s'.
Proof.
  intros c x s s' E [A B C D F G H]. unfold represents, assigned, time_stamp, measuring, used in *.
  constructor; unfold represents, assigned, time_stamp, measuring, used; rewrite ?E; auto.
Qed.
Lemma related_same : forall c a s s', same_session s s' -> related c a s -> related c a s'.
Proof.
  intros c a s s' (E1 & E2 & E3 & E4 & E5 & E6 & E7 & E8 & E9 & E10 & E11 & E12 & E13 & E14 & E15) [A B C D F G H I J].
  unfold programming, no_job, measuring in *.
  constructor; unfold programming, no_job, measuring; rewrite ?E1, ?E2, ?E3, ?E4, ?E5, ?E6, ?E7, ?E8, ?E13, ?E14, ?E15; auto.
  intro Z. eapply measures_daq; [exact E14|auto].
Qed.

Ltac rel V := let A := fresh in destruct V as [A ? ? ? ? ? ? ? ?]; constructor; auto; try (intro; eapply measures_daq; [|eauto]; reflexivity).

(** What has to be shown for a rule. *)
Definition sim (c : cfg) (e : env) (s : st) (q : req) (rs : list reply) (a' : ref) : Prop :=
  exists s' o, step c e (operation c q) s = Ok (s', o) /\ Forall2 (shows c) rs o /\ related c a' s'.

Section Rules.
Variables (c : cfg) (m : mem) (l0 : list (env * op)) (s : st) (o0 : list pkt) (e : env) (a : ref).
Variables (R : reachable c m l0 s o0) (D : dlc_ok c) (Sm : c_max_ent c < 65536) (St : stamp_ok c) (We : wf_env c e) (V : related c a s).

Lemma buf : forall n, n <= c_max_cto c -> n <= c_ctobuf c.
Proof. intros n H. unfold c_ctobuf. lia. Qed.
Lemma eight : 8 <= c_max_cto c. Proof. apply (wf_cto _ (proj1 R)). Qed.
Lemma rdy : a_on a = true -> ready s.
Proof. intro H. split; [now apply (v_on _ _ _ V)|apply (v_idle _ _ _ V)]. Qed.
Lemma npgm : a_pgm a = false -> ~ programming s.
Proof. intros H P. apply (v_pgm _ _ _ V) in P. congruence. Qed.
Lemma shut_iff : forall r, shut c r a <-> locked c r s.
Proof. intro r. unfold shut, locked. now rewrite (v_prot _ _ _ V). Qed.
Lemma opened : daq_idle c a -> ready s /\ daq_open c s.
Proof.
  intros ((A & B) & Hd & P). split; [now apply rdy|]. split; [exact Hd|]. split; [now apply npgm|]. intro K. now apply P, shut_iff.
Qed.
Lemma quiet : still a -> ~ measuring s.
Proof.
  intro H. unfold still in H. destruct (c_daq c) eqn:Hd; [|apply (v_none _ _ _ V Hd)]. intro K. apply (x_run _ _ _ (v_meas _ _ _ V Hd)) in K. congruence.
Qed.

(** A response, the session becoming that of [s1]. *)
Lemma by_answer : forall q bs s1 a', operation c q = ORecv (frame c q) -> answers c e (frame c q) s bs s1 -> related c a' s1 -> sim c e s q [Response bs] a'.
Proof.
  intros q bs s1 a' E (s' & o & H & (p & -> & P1 & P2) & T) K. exists s', [p]. rewrite E. split; [exact H|]. split; [repeat constructor; auto|]. eapply related_same; eauto.
Qed.
Lemma by_data : forall q bs s1 a', operation c q = ORecv (frame c q) -> delivers c e (frame c q) s bs s1 -> related c a' s1 -> sim c e s q [Data bs] a'.
Proof.
  intros q bs s1 a' E (s' & o & H & (p & pad & -> & P1 & P2 & P3) & T) K. exists s', [p]. rewrite E. split; [exact H|]. split; [constructor; [split; eauto|constructor]|]. eapply related_same; eauto.
Qed.
(** A response and a write. *)
Lemma by_store : forall q b bs s1 a', operation c q = ORecv (frame c q) ->
  stores c e (frame c q) s b bs s1 (fun o => sends o (padded c [0xFF])) -> related c a' (set_s_mem (patch (s_mem s) b bs) s1) -> sim c e s q SpecRef.done a'.
Proof.
  intros q b bs s1 a' E (s' & o & m' & H & (p & -> & P1 & P2) & W & T) K. exists s', [p]. rewrite E. split; [exact H|]. split; [repeat constructor; auto|].
  eapply related_same; [exact T|]. destruct K as [A B C X F G H' I J]. constructor; auto.
  - intro y. rewrite <- F. change (m' y = patch (s_mem s) b bs y). apply W.
  - intro Z. eapply measures_daq; [|exact (I Z)]. reflexivity.
Qed.
(** A response and another DAQ state, which keeps the invariants. *)
Lemma by_daq : forall q bs x, operation c q = ORecv (frame c q) -> bytes (frame c q) -> c_daq c = true ->
  (exists d, answers c e (frame c q) s bs (with_daq d s) /\ (dinv c d -> measures c x (with_daq d s))) -> sim c e s q [Response bs] (to_meas x a).
Proof.
  intros q bs x E Bf Hd (d & A & K). eapply by_answer; [exact E|exact A|].
  assert (I : dinv c d).
  { destruct A as (s' & o & H & _ & T). assert (Ed : s_daq s' = d) by apply T. rewrite <- Ed. apply (i_d c s').
    eapply reach_inv. eapply reach_step; [exact R| |exact H]. split; auto. }
  destruct V as [A1 B1 C1 D1 E1 F1 G1 H1 J1]. constructor; auto. intro Z. congruence.
Qed.
Lemma det : forall f bs bs' s1 s2, answers c e f s bs s1 -> answers c e f s bs' s2 -> s_daq s1 = s_daq s2.
Proof.
  intros f bs bs' s1 s2 (x & o & H & _ & T) (y & o' & H' & _ & T'). rewrite H in H'. injection H' as -> ->.
  assert (s_daq y = s_daq s1) by apply T. assert (s_daq y = s_daq s2) by apply T'. congruence.
Qed.

(** ** Sessions *)
Lemma sim_connect : forall md, sim c e s (QConnect md) [Response (connect_response c)] (on true a).
Proof.
  intros md. assert (B : s_conn s && s_busy s = false) by (rewrite (proj1 (v_idle _ _ _ V)); apply andb_false_r).
  destruct (C02_connect c m l0 s o0 e [0xFF; md] R D B eq_refl) as (s' & o & H & (p & -> & P1 & P2) & T); [apply buf; pose proof eight; change (lenN [0xFF; md]) with 2; lia|].
  exists s', [p]. split; [exact H|]. split.
  - constructor; [split; [exact P1|]|constructor]. rewrite P2. unfold padded, connect_response. destruct (c_max_dlc c); reflexivity.
  - eapply related_same; [exact T|]. rel V.
Qed.

Ltac len := apply buf; pose proof eight; unfold lenN; cbn [length app]; lia.

Lemma sim_refuse : forall q code, operation c q = ORecv (frame c q) -> refuses c e (frame c q) s code -> sim c e s q (fails code) a.
Proof. intros q code E H. eapply by_answer; [exact E|exact H|exact V]. Qed.
Lemma sim_synch : a_on a = true -> sim c e s QSynch (fails 0) a.
Proof. intro H. apply sim_refuse; [reflexivity|]. apply (C78_synch c m l0 s o0); auto using rdy. len. Qed.
Lemma sim_status : a_on a = true -> sim c e s QStatus [Response [0xFF; 0; (if c_protect c then a_prot a else 0); 0; 0; 0]] a.
Proof.
  intro H. rewrite <- (v_prot _ _ _ V). eapply by_answer; [reflexivity| |exact V]. apply (C78_status c m l0 s o0); auto using rdy. len.
Qed.
Lemma sim_comm_mode : a_on a = true -> c_opt c 0xFB = true ->
  sim c e s QCommMode [Response [0xFF; 0; (if c_mbm c then 1 else 0); 0; c_max_bs c; c_min_st c; c_queue_size c; 10]] a.
Proof. intros H O. eapply by_answer; [reflexivity| |exact V]. apply (C80_comm_mode c m l0 s o0); auto using rdy. len. Qed.
Lemma sim_unknown : forall k t, a_on a = true -> 0xC7 <= k -> implemented c k = false -> encodable c (QOther (k :: t)) -> sim c e s (QOther (k :: t)) (fails 0x20) a.
Proof.
  intros k t H Hk I (Bf & L). apply sim_refuse; [reflexivity|]. apply (C05_unimplemented c m l0 s o0); auto; try apply (rdy H).
  - inversion Bf; subst. lia.
  - now apply buf.
Qed.

(** ** Identification *)
Lemma sim_id : forall t b n, a_on a = true -> c_opt c 0xFA = true -> identification c e t = Some (b, n) ->
  sim c e s (QId t) [Response ([0xFF; 0; 0; 0] ++ le_bytes 4 n)] (to_mta (Some (0, b)) a).
Proof.
  intros t b n H O I. eapply by_answer; [reflexivity|apply (C79_announced c m l0 s o0 e t [] b n); auto using rdy; len|].
  rel V. intros x y [= <- <-]. split; reflexivity.
Qed.
Lemma sim_no_id : forall t, a_on a = true -> c_opt c 0xFA = true -> identification c e t = None ->
  sim c e s (QId t) [Response [0xFF; 0; 0; 0; 0; 0; 0; 0]] a.
Proof.
  intros t H O I. eapply by_answer; [reflexivity|apply (C79_unknown c m l0 s o0 e t []); auto using rdy; len|exact V].
Qed.

(** ** Seed and key *)
Lemma sim_seed : forall r, idle a -> c_opt c 0xF8 = true -> c_max_dlc c = false -> has_resource c r -> shut c r a -> e_seed e r <> [] ->
  let n := N.min (c_max_cto c - 2) (lenN (e_seed e r)) in
  sim c e s (QSeed r) [Response (0xFF :: n :: firstn (N.to_nat n) (e_seed e r))] (to_prot (a_prot a) (N.lor (a_seed a) r) a).
Proof.
  intros r (H & P) O M Hr K Ne n. eapply by_answer; [reflexivity|apply (C82_seed c m l0 s o0 e 0 r []); auto using rdy, npgm; [len|now apply shut_iff]|].
  pose proof (v_seed _ _ _ V) as E. rel V. change (N.lor (s_seed s) r = N.lor (a_seed a) r). now rewrite E.
Qed.
Lemma sim_no_seed : forall r, idle a -> c_opt c 0xF8 = true -> c_max_dlc c = false -> has_resource c r -> ~ shut c r a ->
  sim c e s (QSeed r) [Response [0xFF; 0]] (to_prot (a_prot a) (N.lor (a_seed a) r) a).
Proof.
  intros r (H & P) O M Hr K. eapply by_answer; [reflexivity|apply (C82_free c m l0 s o0 e 0 r []); auto using rdy, npgm; [len|now rewrite <- shut_iff]|].
  pose proof (v_seed _ _ _ V) as E. rel V. change (N.lor (s_seed s) r = N.lor (a_seed a) r). now rewrite E.
Qed.
Lemma key_len : forall k, encodable c (QUnlock k) -> lenN (0xF7 :: lenN k :: k) <= c_ctobuf c.
Proof. intros k (_ & L). apply buf. pose proof eight. rewrite !lenN_cons. lia. Qed.
Lemma key_hook : forall k, key_local e -> e_unlock e (s_seed s) (lenN k) (skipn 2 (rxbuf s (0xF7 :: lenN k :: k))) = e_unlock e (a_seed a) (lenN k) k.
Proof.
  intros k Kl. rewrite (v_seed _ _ _ V). apply Kl. unfold rxbuf. cbn [app skipn]. unfold lenN. rewrite Nat2N.id, firstn_app, Nat.sub_diag, firstn_all. cbn [firstn]. now rewrite app_nil_r.
Qed.
Lemma sim_unlock : forall k, idle a -> c_opt c 0xF7 = true -> key_local e -> a_seed a <> 0 -> e_unlock e (a_seed a) (lenN k) k = true -> encodable c (QUnlock k) ->
  sim c e s (QUnlock k) [Response [0xFF; N.ldiff (a_prot a) (a_seed a)]] (to_prot (N.ldiff (a_prot a) (a_seed a)) 0 a).
Proof.
  intros k (H & P) O Kl Nz Ky En. pose proof (v_seed _ _ _ V) as E. pose proof (v_prot _ _ _ V) as E'. rewrite <- E, <- E'.
  eapply by_answer; [reflexivity|apply (C82_unlock c m l0 s o0 e (lenN k) k); auto using rdy, npgm, key_len; [congruence|now rewrite key_hook]|].
  rel V.
Qed.
Lemma sim_unasked : forall k, idle a -> c_opt c 0xF7 = true -> a_seed a = 0 -> encodable c (QUnlock k) -> sim c e s (QUnlock k) (fails 0x29) a.
Proof.
  intros k (H & P) O Z En. apply sim_refuse; [reflexivity|]. apply (C82_no_seed c m l0 s o0 e (lenN k :: k)); auto using rdy, npgm, key_len. now rewrite (v_seed _ _ _ V).
Qed.

(** ** Memory *)
Lemma aspace32 : forall b, b < 2 ^ 32 -> b mod aspace c = b.
Proof.
  intros b H. apply N.mod_small. unfold aspace. destruct (wf_ptr _ (proj1 R)) as [-> | ->]; [exact H|]. eapply N.lt_trans; [exact H|reflexivity].
Qed.
Lemma sim_set_mta : forall x b, a_on a = true -> c_opt c 0xF6 = true -> encodable c (QSetMta x b) -> sim c e s (QSetMta x b) SpecRef.done (to_mta (Some (x, b)) a).
Proof.
  intros x b H O (Hx & Hb). destruct (coded4 c b Hb) as (a0 & a1 & a2 & a3 & E & F & B0 & B1 & B2 & B3).
  assert (Ef : frame c (QSetMta x b) = [0xF6; 0; 0; x; a0; a1; a2; a3]) by (cbn [frame]; rewrite E; reflexivity).
  pose proof (set_mta_thm c m l0 s o0 e 0 0 x a0 a1 a2 a3 [] R (rdy H) D O) as T. cbv zeta in T. rewrite F in T.
  eapply by_answer; [reflexivity|rewrite Ef; apply T; [len|repeat constructor; auto; lia]|].
  rel V. intros y z [= <- <-]. unfold mta_at. ss. now rewrite aspace32.
Qed.
Lemma mem_at_eq : forall m1 m2 b n, (forall x, m1 x = m2 x) -> mem_at m1 b n = mem_at m2 b n.
Proof. intros m1 m2 b n H. unfold mem_at. apply map_ext. auto. Qed.
Lemma sim_upload : forall n x b, idle a -> c_opt c 0xF5 = true -> c_sbm c = false -> a_mta a = Some (x, b) -> granted c e x b n false false ->
  1 <= n < c_max_cto c -> in_space c (target c e x b) n ->
  sim c e s (QUpload n) [Data (0xFF :: mem_at (a_mem a) (target c e x b) n)] (to_mta (Some (x, (b + n) mod aspace c)) a).
Proof.
  intros n x b (H & P) O Sb Mt G Hn Sp. destruct (v_mta _ _ _ V x b Mt) as (E1 & E2).
  rewrite <- (mem_at_eq (s_mem s) (a_mem a)) by apply (v_mem _ _ _ V). rewrite <- E1, <- E2 in *.
  eapply by_data; [reflexivity|apply (C20_upload c m l0 s o0 e n []); auto using rdy, npgm; len|].
  rel V. intros y z [= <- <-]. unfold advanced, mta_at. ss. auto.
Qed.
Lemma sim_too_much : forall n x b, idle a -> c_opt c 0xF5 = true -> c_sbm c = false -> a_mta a = Some (x, b) -> granted c e x b n false false ->
  c_max_cto c <= n -> sim c e s (QUpload n) (fails 0x22) a.
Proof.
  intros n x b (H & P) O Sb Mt G Hn. destruct (v_mta _ _ _ V x b Mt) as (E1 & E2). rewrite <- E1, <- E2 in *.
  apply sim_refuse; [reflexivity|]. apply (C20_too_long c m l0 s o0 e n []); auto using rdy, npgm. len.
Qed.
Lemma sim_denied : forall n x b, idle a -> c_opt c 0xF5 = true -> a_mta a = Some (x, b) -> ~ granted c e x b n false false -> sim c e s (QUpload n) (fails 0x24) a.
Proof.
  intros n x b (H & P) O Mt G. destruct (v_mta _ _ _ V x b Mt) as (E1 & E2). rewrite <- E1, <- E2 in *.
  apply sim_refuse; [reflexivity|]. apply (C20_denied c m l0 s o0 e n []); auto using rdy, npgm. len.
Qed.
Lemma sim_short_upload : forall n x b, idle a -> c_opt c 0xF4 = true -> c_sbm c = false -> (forall y d, granted c e y d n false false) ->
  1 <= n < c_max_cto c -> in_space c (target c e x b) n -> encodable c (QShortUpload n x b) ->
  sim c e s (QShortUpload n x b) [Data (0xFF :: mem_at (a_mem a) (target c e x b) n)] (to_mta (Some (x, (b + n) mod aspace c)) a).
Proof.
  intros n x b (H & P) O Sb G Hn Sp (N1 & N2 & N3). destruct (coded4 c b N3) as (a0 & a1 & a2 & a3 & E & F & B0 & B1 & B2 & B3).
  assert (Ef : frame c (QShortUpload n x b) = [0xF4; n; 0; x; a0; a1; a2; a3]) by (cbn [frame]; rewrite E; reflexivity).
  pose proof (C21_short_upload c m l0 s o0 e n 0 x a0 a1 a2 a3 [] R (rdy H) O Sb (npgm P)) as T. cbv zeta in T. rewrite F in T.
  rewrite <- (mem_at_eq (s_mem s) (a_mem a)) by apply (v_mem _ _ _ V).
  eapply by_data; [reflexivity|rewrite Ef; apply T; auto; len|].
  rel V. intros y z [= <- <-]. unfold mta_at. ss. auto.
Qed.
Lemma patch_eq : forall m1 m2 b bs x, (forall y, m1 y = m2 y) -> patch m1 b bs x = patch m2 b bs x.
Proof. intros m1 m2 b bs x H. unfold patch. now rewrite H. Qed.
Lemma sim_download : forall bs x b, idle a -> c_cal c = true -> a_mta a = Some (x, b) -> c_buf_addr c + 2 < 2 ^ 32 ->
  granted c e x b (lenN bs) true false -> 1 <= lenN bs -> (c_mbm c = true -> 1 <= c_max_bs c) ->
  target c e x b <> 0 -> in_space c (target c e x b) (lenN bs) -> encodable c (QDownload bs) ->
  sim c e s (QDownload bs) SpecRef.done (to_mta (Some (x, (b + lenN bs) mod aspace c)) (to_mem (patch (a_mem a) (target c e x b) bs) a)).
Proof.
  intros bs x b (H & P) O Mt Ba G Hn Mb Nz Sp (Bb & L). destruct (v_mta _ _ _ V x b Mt) as (E1 & E2). rewrite <- E1, <- E2 in *.
  pose proof (C23_download c m l0 s o0 e bs [] R (rdy H) D O (npgm P)) as T. cbv zeta in T. rewrite app_nil_r in T.
  eapply by_store; [reflexivity|apply T; auto; try lia; apply buf; pose proof eight; rewrite !lenN_cons; lia|].
  pose proof (v_mem _ _ _ V) as Em. destruct (c_mbm c) eqn:Mc; unfold idle_block; rewrite Mc; (rel V; [intros y z [= <- <-]; unfold advanced, mta_at; ss; auto|intro y; apply patch_eq; exact Em]).
Qed.
Lemma sim_download_max : forall bs x b, idle a -> c_cal c = true -> c_opt c 0xEE = true -> a_mta a = Some (x, b) -> c_buf_addr c + 1 < 2 ^ 32 ->
  lenN bs = c_max_cto c - 1 -> target c e x b <> 0 -> in_space c (target c e x b) (lenN bs) ->
  sim c e s (QDownloadMax bs) SpecRef.done (to_mta (Some (x, (b + lenN bs) mod aspace c)) (to_mem (patch (a_mem a) (target c e x b) bs) a)).
Proof.
  intros bs x b (H & P) O O2 Mt Ba Hn Nz Sp. destruct (v_mta _ _ _ V x b Mt) as (E1 & E2). rewrite <- E1, <- E2 in *.
  pose proof (C85_stores c m l0 s o0 e bs [] R (rdy H) D O O2 (npgm P)) as T. cbv zeta in T. rewrite app_nil_r in T.
  eapply by_store; [reflexivity|apply T; auto; try lia; apply buf; pose proof eight; rewrite !lenN_cons; lia|].
  pose proof (v_mem _ _ _ V) as Em. rel V; [intros y z [= <- <-]; unfold advanced, mta_at; ss; auto|intro y; apply patch_eq; exact Em].
Qed.
Lemma sim_short_download : forall bs x b, idle a -> c_cal c = true -> c_opt c 0xED = true -> granted c e x b (lenN bs) true false ->
  1 <= lenN bs -> target c e x b <> 0 -> in_space c (target c e x b) (lenN bs) -> encodable c (QShortDownload x b bs) ->
  sim c e s (QShortDownload x b bs) SpecRef.done (to_mta None (to_mem (patch (a_mem a) (target c e x b) bs) a)).
Proof.
  intros bs x b (H & P) O O2 G Hn Nz Sp (N1 & N2 & N3 & N4). destruct (coded4 c b N2) as (a0 & a1 & a2 & a3 & E & F & B0 & B1 & B2 & B3).
  assert (Ef : frame c (QShortDownload x b bs) = 0xED :: lenN bs :: 0 :: x :: a0 :: a1 :: a2 :: a3 :: bs) by (cbn [frame]; rewrite E; reflexivity).
  pose proof (C26_short_download c m l0 s o0 e 0 x a0 a1 a2 a3 bs [] R (rdy H) D O O2 (npgm P)) as T. cbv zeta in T. rewrite F, app_nil_r in T.
  eapply by_store; [reflexivity|rewrite Ef; apply T; auto; try lia; apply buf; pose proof eight; rewrite !lenN_cons; lia|].
  pose proof (v_mem _ _ _ V) as Em. rel V; [discriminate|intro y; apply patch_eq; exact Em].
Qed.
Lemma sim_variables : forall b bs, sim c e s (QVariables b bs) [] (to_mem (patch (a_mem a) b bs) a).
Proof.
  intros b bs. exists (set_s_mem (mwrite (s_mem s) b bs) s), []. split; [reflexivity|]. split; [constructor|].
  pose proof (v_mem _ _ _ V) as Em. rel V. intro y. ss. rewrite (mwrite_wrote (s_mem s) b bs y). apply patch_eq. exact Em.
Qed.
Lemma sim_main : sim c e s QMain [] a.
Proof.
  destruct (v_idle _ _ _ V) as (_ & A & J). exists s, []. split; [|split; [constructor|exact V]]. cbn [operation step]. unfold main_function, andthen.
  assert (X : (if c_sbm c then upload_block c e s else Ok (s, [])) = Ok (s, [])) by (destruct (c_sbm c); [unfold upload_block; now rewrite A|reflexivity]).
  rewrite X. cbn [bind]. assert (Y : (if job_on c then checksum_main c s else Ok (s, [])) = Ok (s, [])) by (destruct (job_on c); [now apply job_idle_main|reflexivity]).
  rewrite Y. reflexivity.
Qed.

(** ** Programming *)
Lemma sim_pgm_start : a_on a = true -> c_pgm c = true -> ~ shut c 16 a -> still a ->
  sim c e s QProgramStart [Response [0xFF; 0; 0; c_max_cto c; c_max_bs_pgm c; c_min_st_pgm c; 0]] (to_pgm true a).
Proof.
  intros H O K Q. eapply by_answer; [reflexivity|apply (C81_start c m l0 s o0 e []); auto using rdy, quiet; [now rewrite <- shut_iff|len]|].
  rel V. split; [reflexivity|]. intros _. reflexivity.
Qed.
Lemma sim_pgm_reset : a_on a = true -> c_pgm c = true -> a_pgm a = true -> sim c e s QProgramReset SpecRef.done (to_pgm false a).
Proof.
  intros H O P. eapply by_answer; [reflexivity|apply (C81_reset c m l0 s o0 e []); auto using rdy; [now apply (v_pgm _ _ _ V)|len]|].
  rel V. split; discriminate.
Qed.
Lemma sim_no_pgm : idle a -> c_pgm c = true -> sim c e s QProgramReset (fails 0x29) a.
Proof.
  intros (H & P) O. apply sim_refuse; [reflexivity|]. apply (C81_sequence c m l0 s o0 e 0xCF []); auto using rdy, npgm; [|len].
  split; [cbn; auto|]. split; [exact O|lia].
Qed.

(** ** The end of a session *)
Lemma init_daq : forall s1, c_daq c = true -> exists d, xcp_disconnect c s1 = Ok (set_s_daq d (default_prot c s1)) /\ emptied d /\ d_run d = false /\ q_head (d_q d) = 0.
Proof.
  intros s1 Hd. destruct (ProofsProt.reach_queue c m l0 s o0 (s_daq (default_prot c s1)) R Hd) as (d & E). exists d.
  unfold xcp_disconnect, daq_init_st. rewrite Hd, E. split; [reflexivity|]. destruct (emptied_init _ _ _ E) as (X & Y). split; [exact X|]. split; [exact Y|].
  unfold daq_init, queue_init in E. destruct (pdu_size c <=? 1 + c_max_dto c); [|discriminate]. cbn [bind] in E. injection E as <-. reflexivity.
Qed.
Lemma measures_none : forall s', dinv c (s_daq s') -> emptied (s_daq s') -> d_run (s_daq s') = false -> used s' = 0 -> measures c no_meas s'.
Proof.
  intros s' I E Q U. constructor; cbn [m_tree m_phase m_ptr m_event m_stamps m_run m_sent no_meas]; try discriminate; auto.
  - exact (rep_emptied c Sm (s_daq s') I E).
  - apply E.
  - unfold measuring. rewrite Q. split; discriminate.
Qed.
(** What a disconnect makes of a state. *)
Lemma closing : forall q bs, operation c q = ORecv (frame c q) -> bytes (frame c q) -> 
  (exists s' o d s1, step c e (ORecv (frame c q)) s = Ok (s', o) /\ sends o (padded c bs) /\ relocked_st c s' /\ same_rest s s' /\
     (c_daq c = true -> xcp_disconnect c s1 = Ok (set_s_daq d (default_prot c s1)) /\ s_daq s' = d) /\ (c_daq c = false -> s_daq s' = s_daq s)) ->
  sim c e s q [Response bs] (on false (closed c a)).
Proof.
  intros q bs E Bf (s' & o & d & s1 & H & (p & -> & P1 & P2) & (Q1 & Q2 & _) & T & X & Y). exists s', [p]. rewrite E. split; [exact H|]. split; [repeat constructor; auto|].
  assert (I : sinv c s') by (eapply reach_inv; eapply reach_step; [exact R| |exact H]; split; auto).
  destruct T as (T1 & T2 & T3 & T4 & T5 & T6 & T7 & T8 & T9 & T10 & T11 & T12).
  destruct V as [A1 B1 C1 D1 E1 F1 G1 H1 J1]. unfold programming, no_job in *. constructor; unfold programming, no_job; rewrite ?T2, ?T3, ?T4, ?T5, ?T6, ?T11, ?T12; auto.
  - discriminate.
  - intro Hd. destruct (X Hd) as (X1 & X2). destruct (init_daq s1 Hd) as (d' & Z & Z1 & Z2 & Z3). rewrite X1 in Z. injection Z as Z.
    assert (d = d') by exact Z. subst d'. apply measures_none; rewrite ?X2; auto; [rewrite <- X2; apply (i_d c s' I)|unfold used; now rewrite X2].
  - intro Hd. split; [|reflexivity]. unfold measuring. rewrite (Y Hd). apply (J1 Hd).
Qed.

Lemma sim_disconnect : idle a -> sim c e s QDisconnect SpecRef.done (on false (closed c a)).
Proof.
  intros (H & P). apply closing; [reflexivity|repeat constructor|].
  destruct (C14_disconnect c m l0 s o0 e [0xFE] R D (rdy H) (npgm P) eq_refl) as (s' & o & A & B & X & Y); [len|].
  assert (E : step c e (ORecv [0xFE]) s = h_disconnect c e (rx c [0xFE] s)) by (apply (exec_val c m l0 s o0); auto using rdy; len).
  exists s', o. destruct (pos_ans c (rx c [0xFE] s) s (proj1 R) D (rx_out _ _ _ _ _ _ R) (ss_rx _ _ _)) as (s1 & o1 & H1 & F & S).
  pose proof A as A'. rewrite E in A'. unfold h_disconnect in A'. rewrite pgm_idle_no in A' by exact (npgm P). unfold andthen in A'. rewrite H1 in A'. cbn [bind] in A'.
  destruct (disconnect_val c m l0 s o0 s1 R) as (d & H2 & Q & Nd). rewrite H2 in A'. cbn [bind] in A'. injection A' as A' _.
  exists d, s1. split; [exact A|]. split; [exact B|]. split; [exact X|]. split; [exact Y|]. split.
  - intros _. split; [exact H2|]. rewrite <- A'. reflexivity.
  - intro Hd. rewrite <- A'. ss. rewrite (Nd Hd). apply S.
Qed.
Lemma sim_wrong_key : forall k, idle a -> c_opt c 0xF7 = true -> key_local e -> a_seed a <> 0 -> e_unlock e (a_seed a) (lenN k) k = false -> encodable c (QUnlock k) ->
  sim c e s (QUnlock k) (fails 0x25) (on false (closed c a)).
Proof.
  intros k (H & P) O Kl Nz Ky En. pose proof (key_len k En) as L. pose proof (v_seed _ _ _ V) as Es. set (f := 0xF7 :: lenN k :: k) in *.
  assert (Kk : ~ key_accepted e s (rxbuf s f)).
  { unfold key_accepted, f. change (nth 1 (rxbuf s (0xF7 :: lenN k :: k)) 0) with (lenN k). rewrite key_hook by exact Kl. congruence. }
  apply closing; [reflexivity| |].
  { destruct En as (B & Lk). pose proof (wf_cto _ (proj1 R)). apply Forall_cons; [lia|]. apply Forall_cons; [lia|exact B]. }
  change (frame c (QUnlock k)) with f.
  destruct (C14_rejected_key c m l0 s o0 e f R D (rdy H) O (npgm P) eq_refl L ltac:(congruence) Kk) as (s' & o & A & B & X & Y).
  assert (E : step c e (ORecv f) s = h_unlock c e (rx c f s)) by (apply (exec_val c m l0 s o0); auto using rdy; tbl).
  exists s', o. destruct (err_ans c 0x25 (rx c f s) s (proj1 R) D (rx_out _ _ _ _ _ _ R) ltac:(lia) (ss_rx _ _ _)) as (s1 & o1 & H1 & F & S).
  pose proof A as A'. rewrite E in A'. unfold h_unlock in A'. rewrite pgm_idle_no in A' by exact (npgm P). rewrite rx_in in A'.
  change (s_seed (rx c f s)) with (s_seed s) in A'. destruct (N.eqb_spec (s_seed s) 0) as [Z|_]; [congruence|].
  change (gb (rxbuf s f) 1) with (nth 1 (rxbuf s f) 0) in A'. unfold key_accepted in Kk. change (dropN 2 (rxbuf s f)) with (skipn 2 (rxbuf s f)) in A'.
  destruct (e_unlock e (s_seed s) (nth 1 (rxbuf s f) 0) (skipn 2 (rxbuf s f))); [contradiction Kk; reflexivity|]. unfold andthen in A'. rewrite H1 in A'. cbn [bind] in A'.
  destruct (disconnect_val c m l0 s o0 s1 R) as (d & H2 & Q & Nd). rewrite H2 in A'. cbn [bind] in A'. injection A' as A' _.
  exists d, s1. split; [exact A|]. split; [exact B|]. split; [exact X|]. split; [exact Y|]. split.
  - intros _. split; [exact H2|]. rewrite <- A'. reflexivity.
  - intro Hd. rewrite <- A'. ss. rewrite (Nd Hd). apply S.
Qed.

(** ** Measurement *)
Lemma two : forall v, v < 65536 -> exists x y, coded c 2 v = [x; y] /\ field c [x; y] = v /\ x < 256 /\ y < 256.
Proof. exact (coded2 c). Qed.
Lemma ms : c_daq c = true -> measures c (a_meas a) s.
Proof. exact (v_meas _ _ _ V). Qed.
Lemma ecnt : c_daq c = true -> d_ecnt (s_daq s) = size (m_tree (a_meas a)).
Proof. intro Hd. destruct (x_tree _ _ _ (ms Hd)) as (fo & fe & Rp). exact (r_count _ _ _ _ _ Rp). Qed.
Lemma to_same : to_meas (a_meas a) a = a.
Proof. destruct a; reflexivity. Qed.

(** The frame of WRITE_DAQ_MULTIPLE. *)
Definition body (xs : list (N * N)) : list N := flat_map (fun x => [0xFF; snd x] ++ coded c 4 (fst x) ++ [0; 0]) xs.
Lemma body_len : forall xs, lenN (body xs) = lenN xs * 8.
Proof. clear -c.
  induction xs as [|x xs IH]; [reflexivity|]. change (body (x :: xs)) with (([0xFF; snd x] ++ coded c 4 (fst x) ++ [0; 0]) ++ body xs). rewrite !lenN_app, IH, lenN_cons.
  assert (E : lenN (coded c 4 (fst x)) = 4) by (unfold coded, lenN; destruct (c_motorola c); rewrite ?rev_length; reflexivity). rewrite E.
  rewrite !lenN_cons. change (lenN (@nil N)) with 0. lia.
Qed.
Lemma many_len : forall xs, lenN (0xC7 :: lenN xs :: body xs) = lenN xs * 8 + 2.
Proof. clear -c. intro xs. rewrite !lenN_cons, body_len. lia. Qed.
Lemma many_count : forall xs, gb (s_in (rx c (0xC7 :: lenN xs :: body xs) s)) 1 = lenN xs.
Proof. intro xs. rewrite rx_in. reflexivity. Qed.
Lemma body_elements : forall xs, Forall (fun x => fst x < 2 ^ 32 /\ snd x < 256) xs -> elements c (length xs) (body xs) = Some xs.
Proof. clear -c.
  induction 1 as [|[v n] xs (Hv & Hn) _ IH]; [reflexivity|]. cbn [fst snd] in *. destruct (coded4 c v Hv) as (a0 & a1 & a2 & a3 & E & F & _).
  change (body ((v, n) :: xs)) with (([0xFF; n] ++ coded c 4 v ++ [0; 0]) ++ body xs). rewrite E. cbn [app length elements]. rewrite IH. cbn [option_map]. now rewrite F.
Qed.
Lemma body_bytes : forall xs, Forall (fun x => fst x < 2 ^ 32 /\ snd x < 256) xs -> bytes (body xs).
Proof. clear -c.
  induction 1 as [|[v n] xs (Hv & Hn) _ IH]; [constructor|]. cbn [fst snd] in *. destruct (coded4 c v Hv) as (a0 & a1 & a2 & a3 & E & F & B0 & B1 & B2 & B3).
  change (body ((v, n) :: xs)) with (([0xFF; n] ++ coded c 4 v ++ [0; 0]) ++ body xs). rewrite E. cbn [app]. repeat (apply Forall_cons; [lia|]). exact IH.
Qed.
Lemma sim_shut : forall q, idle a -> c_daq c = true -> shut c 4 a -> still a -> daq_request c q -> encodable c q -> sim c e s q (fails 0x25) a.
Proof.
  intros q (H & P) Hd K Q Dr En. apply shut_iff in K. apply npgm in P. apply quiet in Q. apply rdy in H.
  assert (X : forall k t h, frame c q = k :: t -> operation c q = ORecv (frame c q) -> entry c k = Some h -> lenN (k :: t) <= c_ctobuf c ->
    h e (rx c (k :: t) s) = send_result c 0x25 (rx c (k :: t) s) -> sim c e s q (fails 0x25) a).
  { intros k t h Ef Eo Et L Eh. apply sim_refuse; [exact Eo|]. rewrite Ef. unfold refuses, answers. rewrite (exec_val c m l0 s o0 e k t h R H L Et), Eh.
    apply res_err_ans; auto; [apply R|exact (rx_out c m l0 s o0 _ R)|lia|apply ss_rx]. }
  assert (U : forall f r, unlocked c 4 (rx c f s) r = send_result c 0x25 (rx c f s)) by (intros; apply unlocked_yes; exact K).
  assert (G : forall f r, pgm_idle c (rx c f s) r = r) by (intros; apply pgm_idle_no; exact P).
  assert (Sd : forall f r, daq_stopped c (rx c f s) r = r).
  { intros f r. unfold daq_stopped. unfold measuring in Q. change (d_run (s_daq (rx c f s))) with (d_run (s_daq s)). rewrite Hd; destruct (d_run (s_daq s)); [contradiction Q; reflexivity|reflexivity]. }
  destruct q; cbn [daq_request] in Dr; try contradiction; cbn [encodable] in En.
  - eapply (X _ _ (h_daq_clock c)); [reflexivity|reflexivity|tbl|len|]. unfold h_daq_clock. now rewrite G, U.
  - eapply (X _ _ (h_daq_processor_info c)); [reflexivity|reflexivity|tbl|len|]. unfold h_daq_processor_info. now rewrite G, U.
  - destruct (two ev En) as (x & y & E & F & Hx & Hy). eapply (X _ _ (h_daq_event_info c)); [cbn [frame]; rewrite E; reflexivity|reflexivity|tbl|len|]. unfold h_daq_event_info. now rewrite U.
  - eapply (X _ _ (h_daq_resolution c)); [reflexivity|reflexivity|tbl|len|]. unfold h_daq_resolution. now rewrite G, U.
  - eapply (X _ _ (h_free_daq c)); [reflexivity|reflexivity|tbl|len|]. unfold h_free_daq. now rewrite U.
  - destruct (two n En) as (x & y & E & F & Hx & Hy). eapply (X _ _ (h_alloc_daq c)); [cbn [frame]; rewrite E; reflexivity|reflexivity|tbl|len|]. unfold h_alloc_daq. now rewrite G, U.
  - destruct En as (E1 & E2). destruct (two l E1) as (x & y & E & F & Hx & Hy). eapply (X _ _ (h_alloc_odt c)); [cbn [frame]; rewrite E; reflexivity|reflexivity|tbl|len|]. unfold h_alloc_odt. now rewrite G, U.
  - destruct En as (E1 & E2). destruct (two l E1) as (x & y & E & F & Hx & Hy). eapply (X _ _ (h_alloc_odt_entry c)); [cbn [frame]; rewrite E; reflexivity|reflexivity|tbl|len|]. unfold h_alloc_odt_entry. now rewrite G, U.
  - destruct En as (E1 & E2). destruct (two l E1) as (x & y & E & F & Hx & Hy). eapply (X _ _ (h_set_daq_ptr c)); [cbn [frame]; rewrite E; reflexivity|reflexivity|tbl|len|]. unfold h_set_daq_ptr. now rewrite Sd, G, U.
  - destruct En as (E1 & E2). destruct (coded4 c addr E1) as (a0 & a1 & a2 & a3 & E & F & _). eapply (X _ _ (h_write_daq c)); [cbn [frame]; rewrite E; reflexivity|reflexivity|tbl|len|]. unfold h_write_daq. now rewrite Sd, G, U.
  - pose proof En as (E1 & E2 & E3). eapply (X 0xC7 (lenN xs :: body xs) (h_write_daq_multiple c)); [reflexivity|reflexivity|tbl|apply buf; rewrite (many_len xs); lia|].
    unfold h_write_daq_multiple. rewrite many_count, Sd, G, U. replace (c_max_cto c <? lenN xs * 8 + 2) with false by lia. reflexivity.
  - destruct En as (E1 & E2 & E3). destruct (two l E2) as (x & y & E & F & Hx & Hy). destruct (two ev E3) as (x' & y' & E' & F' & Hx' & Hy').
    eapply (X _ _ (h_set_daq_list_mode c)); [cbn [frame]; rewrite E, E'; reflexivity|reflexivity|tbl|len|]. unfold h_set_daq_list_mode. now rewrite Sd, G, U.
  - destruct (two l En) as (x & y & E & F & Hx & Hy). eapply (X _ _ (h_start_stop_list c)); [cbn [frame]; rewrite E; reflexivity|reflexivity|tbl|len|]. unfold h_start_stop_list. now rewrite G, U.
  - eapply (X _ _ (h_start_stop_synch c)); [reflexivity|reflexivity|tbl|len|]. unfold h_start_stop_synch. now rewrite G, U.
  - eapply (X _ _ (h_start_stop_synch c)); [reflexivity|reflexivity|tbl|len|]. unfold h_start_stop_synch. now rewrite G, U.
Qed.
Lemma sim_clock : daq_idle c a -> c_opt c 0xDC = true -> sim c e s QClock [Response ([0xFF; 0; 0; 0] ++ le_bytes 4 (e_timer e))] a.
Proof.
  intros Di O. destruct (opened Di) as (Rd & Hd & P & K). eapply by_answer; [reflexivity|apply (C51_clock c m l0 s o0 e []); auto; len|exact V].
Qed.
Lemma sim_daq_info : daq_idle c a -> c_opt c 0xDA = true ->
  sim c e s QDaqInfo [Response ([0xFF; (if c_ts c then 0x13 else 3)] ++ le_bytes 2 (lenN (m_tree (a_meas a))) ++ le_bytes 2 (c_nevents c) ++ [0; 0])] a.
Proof.
  intros Di O. destruct (opened Di) as (Rd & Hd & P & K).
  assert (E : d_lcnt (s_daq s) = lenN (m_tree (a_meas a))) by (destruct (x_tree _ _ _ (ms Hd)) as (fo & fe & Rp); exact (r_lists _ _ _ _ _ Rp)).
  rewrite <- E. eapply by_answer; [reflexivity|apply (C52_info c m l0 s o0 e []); auto; len|exact V].
Qed.
Lemma sim_event_info : forall ev x, daq_idle c a -> c_opt c 0xD7 = true -> getN (c_events c) ev = Some x -> encodable c (QEventInfo ev) ->
  let named := negb ((ev_name x =? 0) || (ev_nlen x =? 0)) in
  sim c e s (QEventInfo ev) [Response [0xFF; ev_props x; 1; (if named then ev_nlen x else 0); ev_cycle x; ev_unit x; 0]] (if named then to_mta (Some (0, ev_name x)) a else a).
Proof.
  intros ev x Di O G En named. destruct (opened Di) as (Rd & Hd & P & K). destruct (two ev En) as (u & v & E & F & Hu & Hv).
  assert (Ef : frame c (QEventInfo ev) = [0xD7; 0; u; v]) by (cbn [frame]; rewrite E; reflexivity).
  assert (Bf : bytes [0xD7; 0; u; v]) by (repeat (apply Forall_cons; [lia|]); constructor).
  eapply by_answer; [reflexivity|rewrite Ef; apply (C80_event c m l0 s o0 e 0 u v [] x); auto; [len|now rewrite F]|].
  fold named. destruct named; [|exact V]. rel V. intros y b [= <- <-]. auto.
Qed.
Lemma sim_no_event_info : forall ev, daq_idle c a -> c_opt c 0xD7 = true -> lenN (c_events c) <= ev -> encodable c (QEventInfo ev) -> sim c e s (QEventInfo ev) (fails 0x22) a.
Proof.
  intros ev Di O G En. destruct (opened Di) as (Rd & Hd & P & K). destruct (two ev En) as (u & v & E & F & Hu & Hv).
  assert (Ef : frame c (QEventInfo ev) = [0xD7; 0; u; v]) by (cbn [frame]; rewrite E; reflexivity).
  assert (Bf : bytes [0xD7; 0; u; v]) by (repeat (apply Forall_cons; [lia|]); constructor).
  apply sim_refuse; [reflexivity|]. rewrite Ef. apply (C80_no_event c m l0 s o0 e 0 u v []); auto; [len|now rewrite F].
Qed.
Lemma sim_resolution : daq_idle c a -> c_opt c 0xD9 = true -> c_max_dto c <= 256 ->
  sim c e s QResolution [Response [0xFF; 1; c_max_dto c - 1; 1; c_max_dto c - 1; 0x34; 1; 0]] a.
Proof. intros Di O G. destruct (opened Di) as (Rd & Op). eapply by_answer; [reflexivity|apply (C80_resolution c m l0 s o0 e []); auto; len|exact V]. Qed.
Lemma sim_free : daq_idle c a -> c_opt c 0xD6 = true -> still a ->
  sim c e s QFree SpecRef.done (to_meas (mkMeas [] AFree None (fun _ => None) None false (m_sent (a_meas a))) a).
Proof.
  intros Di O Q. destruct (opened Di) as (Rd & Op). pose proof (ms (proj1 Op)) as M. apply quiet in Q.
  destruct (C32_free c m l0 s o0 e [] R Rd D Op O) as (d & A & E & X1 & X2 & X3 & X4 & X5 & X6); [len|].
  apply by_daq; [reflexivity|repeat constructor|apply Op|]. exists d. split; [exact A|]. intro I.
  constructor; cbn [m_tree m_phase m_ptr m_event m_stamps m_run m_sent]; try discriminate.
  - exact (rep_emptied c Sm d I E).
  - apply E.
  - unfold measuring in *. change (s_daq (with_daq d s)) with d. rewrite X1. split; [|discriminate]. intro Z. contradiction.
  - unfold used. change (s_daq (with_daq d s)) with d. rewrite X6. apply (x_sent _ _ _ M).
Qed.
(** Another tree, nothing else. *)
Lemma rebuilt : forall d t p, c_daq c = true -> represents c (with_daq d s) t -> only_tables (s_daq s) d -> d_alloc d = p -> measures c (built t p (a_meas a)) (with_daq d s).
Proof.
  intros d t p Hd Rp (Y1 & Y2 & Y3 & Y4 & Y5 & Y6 & Y7) Al. destruct (ms Hd) as [A B C X F G H].
  unfold represents, assigned, time_stamp, measuring, used in *. constructor; unfold represents, assigned, time_stamp, measuring, used; cbn [m_tree m_phase m_ptr m_event m_stamps m_run m_sent built];
    change (s_daq (with_daq d s)) with d; rewrite ?Y1, ?Y2, ?Y3, ?Y4, ?Y5, ?Y6, ?Y7; auto.
Qed.
Lemma sim_alloc_daq : forall n, daq_idle c a -> c_opt c 0xD5 = true -> let x := a_meas a in
  fits c n -> In (m_phase x) [AFree; ADaq] -> size (m_tree x) + n <= c_max_ent c -> encodable c (QAllocDaq n) ->
  sim c e s (QAllocDaq n) SpecRef.done (to_meas (built (m_tree x ++ repeat [] (N.to_nat n)) ADaq x) a).
Proof.
  intros n Di O x Fi Ph Sz En. destruct (opened Di) as (Rd & Op). pose proof (ms (proj1 Op)) as M. cbn [encodable] in En.
  destruct (two n En) as (u & v & E & F & Hu & Hv). assert (Ef : frame c (QAllocDaq n) = [0xD5; 0; u; v]) by (cbn [frame]; rewrite E; reflexivity).
  assert (Bf : bytes [0xD5; 0; u; v]) by (repeat (apply Forall_cons; [lia|]); constructor).
  pose proof (C32_alloc_daq c m l0 s o0 e (m_tree x) 0 u v [] R Rd D Op Sm (x_tree _ _ _ M) Bf ltac:(len) O) as T. cbv zeta in T. rewrite F in T.
  destruct T as (d & A & Rp & Ot & Al); auto.
  { rewrite (x_phase _ _ _ M). fold x. destruct Ph as [<- | [<- | []]]; auto. }
  { rewrite ecnt by apply Op. exact Sz. }
  apply by_daq; [reflexivity|now rewrite Ef|apply Op|]. rewrite Ef. exists d. split; [exact A|]. intros _. apply rebuilt; auto. apply Op.
Qed.
Lemma sim_alloc_odt : forall l n, daq_idle c a -> c_opt c 0xD4 = true -> let x := a_meas a in
  getN (m_tree x) l = Some [] -> In (m_phase x) [ADaq; AOdt] -> size (m_tree x) + n <= c_max_ent c -> encodable c (QAllocOdt l n) ->
  sim c e s (QAllocOdt l n) SpecRef.done (to_meas (built (put_odts (m_tree x) l (repeat [] (N.to_nat n))) AOdt x) a).
Proof.
  intros l n Di O x G Ph Sz (En & Hn). destruct (opened Di) as (Rd & Op). pose proof (ms (proj1 Op)) as M.
  destruct (two l En) as (u & v & E & F & Hu & Hv). assert (Ef : frame c (QAllocOdt l n) = [0xD4; 0; u; v; n]) by (cbn [frame]; rewrite E; reflexivity).
  assert (Bf : bytes [0xD4; 0; u; v; n]) by (repeat (apply Forall_cons; [lia|]); constructor).
  pose proof (C32_alloc_odt c m l0 s o0 e (m_tree x) 0 u v n [] R Rd D Op Sm (x_tree _ _ _ M)) as T. cbv zeta in T. rewrite F in T.
  destruct (T G Bf ltac:(len) O) as (d & A & Rp & Ot & Al); auto.
  { rewrite (x_phase _ _ _ M). fold x. destruct Ph as [<- | [<- | []]]; auto. }
  { rewrite ecnt by apply Op. exact Sz. }
  apply by_daq; [reflexivity|now rewrite Ef|apply Op|]. rewrite Ef. exists d. split; [exact A|]. intros _. apply rebuilt; auto. apply Op.
Qed.
Lemma sim_alloc_entry : forall l k n, daq_idle c a -> c_opt c 0xD3 = true -> let x := a_meas a in
  odt_at (m_tree x) l k = Some [] -> In (m_phase x) [AOdt; AEntry] -> size (m_tree x) + n <= c_max_ent c -> encodable c (QAllocEntry l k n) ->
  sim c e s (QAllocEntry l k n) SpecRef.done (to_meas (built (put_entries (m_tree x) l k (repeat (0, 0) (N.to_nat n))) AEntry x) a).
Proof.
  intros l k n Di O x G Ph Sz (En & Hk & Hn). destruct (opened Di) as (Rd & Op). pose proof (ms (proj1 Op)) as M.
  destruct (two l En) as (u & v & E & F & Hu & Hv). assert (Ef : frame c (QAllocEntry l k n) = [0xD3; 0; u; v; k; n]) by (cbn [frame]; rewrite E; reflexivity).
  assert (Bf : bytes [0xD3; 0; u; v; k; n]) by (repeat (apply Forall_cons; [lia|]); constructor).
  pose proof (C32_alloc_odt_entry c m l0 s o0 e (m_tree x) 0 u v k n [] R Rd D Op Sm (x_tree _ _ _ M)) as T. cbv zeta in T. rewrite F in T.
  destruct (T G Bf ltac:(len) O) as (d & A & Rp & Ot & Al); auto.
  { rewrite (x_phase _ _ _ M). fold x. destruct Ph as [<- | [<- | []]]; auto. }
  { rewrite ecnt by apply Op. exact Sz. }
  apply by_daq; [reflexivity|now rewrite Ef|apply Op|]. rewrite Ef. exists d. split; [exact A|]. intros _. apply rebuilt; auto. apply Op.
Qed.
Lemma alloc_shape : forall q k n, allocates c q k n -> encodable c q -> operation c q = ORecv (frame c q) /\ bytes (frame c q) /\ lenN (frame c q) <= c_ctobuf c /\
  alloc_frame c (frame c q) k n /\ c_opt c k = true /\ (k = 0xD5 -> fits c n).
Proof.
  intros q k n (O & A) En. destruct q; try contradiction.
  - destruct A as (-> & -> & Fi). cbn [encodable] in En. destruct (two n0 En) as (u & v & E & F & Hu & Hv). cbn [frame]. rewrite E. cbn [app].
    split; [cbn [operation frame]; rewrite E; reflexivity|]. split; [repeat (apply Forall_cons; [lia|]); constructor|]. split; [len|]. split; [left; split; [reflexivity|]; do 4 eexists; split; [reflexivity|now rewrite F]|auto].
  - destruct A as (-> & ->). destruct En as (E1 & E2). destruct (two l E1) as (u & v & E & F & Hu & Hv). cbn [frame]. rewrite E. cbn [app].
    split; [cbn [operation frame]; rewrite E; reflexivity|]. split; [repeat (apply Forall_cons; [lia|]); constructor|]. split; [len|]. split; [right; left; split; [reflexivity|]; do 4 eexists; reflexivity|]. split; [exact O|discriminate].
  - destruct A as (-> & ->). destruct En as (E1 & E2 & E3). destruct (two l E1) as (u & v & E & F & Hu & Hv). cbn [frame]. rewrite E. cbn [app].
    split; [cbn [operation frame]; rewrite E; reflexivity|]. split; [repeat (apply Forall_cons; [lia|]); constructor|]. split; [len|]. split; [right; right; split; [reflexivity|]; do 5 eexists; reflexivity|]. split; [exact O|discriminate].
Qed.
Lemma sim_full : forall q k n p, daq_idle c a -> allocates c q k n -> in_sequence (m_phase (a_meas a)) k p ->
  c_max_ent c < size (m_tree (a_meas a)) + n -> encodable c q -> sim c e s q (fails 0x30) a.
Proof.
  intros q k n p Di Al Sq Sz En. destruct (opened Di) as (Rd & Op). destruct (alloc_shape q k n Al En) as (E & B & L & Af & O & Fi).
  apply sim_refuse; [exact E|]. apply (C32_overflow c m l0 s o0 e _ k n); auto.
  - exists p. now rewrite (x_phase _ _ _ (ms (proj1 Op))).
  - now rewrite ecnt by apply Op.
Qed.
Lemma sim_sequence : forall q k n, daq_idle c a -> allocates c q k n -> (forall p, ~ in_sequence (m_phase (a_meas a)) k p) ->
  c_reset_seq c = false -> encodable c q -> sim c e s q (fails 0x29) a.
Proof.
  intros q k n Di Al Sq Rs En. destruct (opened Di) as (Rd & Op). destruct (alloc_shape q k n Al En) as (E & B & L & Af & O & Fi).
  apply sim_refuse; [exact E|]. pose proof (C32_out_of_sequence c m l0 s o0 e _ k n R Rd D Op B L Af O Fi) as T. rewrite Rs in T. apply T.
  now rewrite (x_phase _ _ _ (ms (proj1 Op))).
Qed.
Lemma sim_set_ptr : forall l k j z, daq_idle c a -> still a -> entry_at (m_tree (a_meas a)) l k j = Some z -> fits c l -> encodable c (QSetPtr l k j) ->
  sim c e s (QSetPtr l k j) SpecRef.done (to_meas (pointed (Some (l, k, j)) (a_meas a)) a).
Proof.
  intros l k j z Di Q G Fi (En & Hk & Hj). destruct (opened Di) as (Rd & Op). pose proof (ms (proj1 Op)) as M.
  destruct (two l En) as (u & v & E & F & Hu & Hv). assert (Ef : frame c (QSetPtr l k j) = [0xE2; 0; u; v; k; j]) by (cbn [frame]; rewrite E; reflexivity).
  assert (Bf : bytes [0xE2; 0; u; v; k; j]) by (repeat (apply Forall_cons; [lia|]); constructor).
  pose proof (C36_set_daq_ptr c m l0 s o0 e (m_tree (a_meas a)) 0 u v k j [] R Rd D Op Sm (x_tree _ _ _ M) (quiet Q) Bf ltac:(len)) as T. cbv zeta in T. rewrite F in T.
  specialize (T Fi). rewrite G in T.
  apply by_daq; [reflexivity|now rewrite Ef|apply Op|]. rewrite Ef. eexists. split; [exact T|]. intros _.
  destruct M as [A B C X Fx Gx Hx]. constructor; auto.
  - destruct A as (fo & fe & A). exists fo, fe. eapply rep_tables; [|exact A]. repeat split.
  - intros l' k' j' [= <- <- <-]. repeat split.
Qed.
Lemma sim_no_entry : forall l k j, daq_idle c a -> still a -> entry_at (m_tree (a_meas a)) l k j = None -> fits c l -> encodable c (QSetPtr l k j) ->
  sim c e s (QSetPtr l k j) (fails 0x22) a.
Proof.
  intros l k j Di Q G Fi (En & Hk & Hj). destruct (opened Di) as (Rd & Op). pose proof (ms (proj1 Op)) as M.
  destruct (two l En) as (u & v & E & F & Hu & Hv). assert (Ef : frame c (QSetPtr l k j) = [0xE2; 0; u; v; k; j]) by (cbn [frame]; rewrite E; reflexivity).
  assert (Bf : bytes [0xE2; 0; u; v; k; j]) by (repeat (apply Forall_cons; [lia|]); constructor).
  pose proof (C36_set_daq_ptr c m l0 s o0 e (m_tree (a_meas a)) 0 u v k j [] R Rd D Op Sm (x_tree _ _ _ M) (quiet Q) Bf ltac:(len)) as T. cbv zeta in T. rewrite F in T.
  specialize (T Fi). rewrite G in T. apply sim_refuse; [reflexivity|]. now rewrite Ef.
Qed.
Lemma sim_write : forall b n l k j z, daq_idle c a -> still a -> let x := a_meas a in m_ptr x = Some (l, k, j) -> entry_at (m_tree x) l k j = Some z -> encodable c (QWrite b n) ->
  sim c e s (QWrite b n) SpecRef.done (to_meas (pointed (Some (l, k, j + 1)) (built (put_entry (m_tree x) l k j (b, n)) (m_phase x) x)) a).
Proof.
  intros b n l k j z Di Q x Pt G (En & Hn). destruct (opened Di) as (Rd & Op). pose proof (ms (proj1 Op)) as M.
  destruct (x_ptr _ _ _ M l k j Pt) as (P1 & P2 & P3).
  destruct (coded4 c b En) as (a0 & a1 & a2 & a3 & E & F & B0 & B1 & B2 & B3).
  assert (Ef : frame c (QWrite b n) = [0xE1; 0xFF; n; 0; a0; a1; a2; a3]) by (cbn [frame]; rewrite E; reflexivity).
  assert (Bf : bytes [0xE1; 0xFF; n; 0; a0; a1; a2; a3]) by (repeat (apply Forall_cons; [lia|]); constructor).
  pose proof (C37_write_daq c m l0 s o0 e (m_tree x) 0xFF n 0 a0 a1 a2 a3 [] z R Rd D Op Sm (x_tree _ _ _ M) (quiet Q) ltac:(len)) as T. cbv zeta in T. rewrite F, P1, P2, P3 in T.
  destruct (T G) as (es & A & Rp).
  apply by_daq; [reflexivity|now rewrite Ef|apply Op|]. rewrite Ef. eexists. split; [exact A|]. intros _.
  destruct M as [A' B C X Fx Gx Hx]. constructor; auto. intros l' k' j' [= <- <- <-]. repeat split; auto.
Qed.
Lemma sim_write_many : forall xs l k j, daq_idle c a -> c_opt c 0xC7 = true -> still a -> let x := a_meas a in m_ptr x = Some (l, k, j) ->
  (forall i, i < lenN xs -> exists z, entry_at (m_tree x) l k (j + i) = Some z) -> encodable c (QWriteMany xs) ->
  sim c e s (QWriteMany xs) SpecRef.done (to_meas (pointed (Some (l, k, j + lenN xs)) (built (put_all (m_tree x) l k j xs) (m_phase x) x)) a).
Proof.
  intros xs l k j Di O Q x Pt G (En & Hn & Hl). destruct (opened Di) as (Rd & Op). pose proof (ms (proj1 Op)) as M.
  destruct (x_ptr _ _ _ M l k j Pt) as (P1 & P2 & P3).
  assert (L : lenN (0xC7 :: lenN xs :: body xs) <= c_ctobuf c) by (apply buf; rewrite many_len; exact Hl).
  assert (Bf : bytes (0xC7 :: lenN xs :: body xs)) by (repeat (apply Forall_cons; [lia|]); now apply body_bytes).
  pose proof (C37_write_daq_multiple c m l0 s o0 e (m_tree x) (lenN xs) (body xs) xs R Rd D Op Sm (x_tree _ _ _ M) (quiet Q) L O Hl) as T. cbv zeta in T.
  unfold lenN at 1 in T. rewrite Nat2N.id, P1, P2, P3 in T. destruct (T (body_elements _ En) G) as (es & A & Rp).
  apply by_daq; [reflexivity|exact Bf|apply Op|]. eexists. split; [exact A|]. intros _.
  destruct M as [A' B C X Fx Gx Hx]. constructor; auto. intros l' k' j' [= <- <- <-]. repeat split; auto.
Qed.
Lemma sim_mode : forall md l ev os, daq_idle c a -> still a -> let x := a_meas a in let b := c_ts c && N.testbit md 4 in
  getN (m_tree x) l = Some os -> l < 256 -> ev < c_nevents c -> N.land md 3 = 0 -> encodable c (QMode md l ev) ->
  sim c e s (QMode md l ev) SpecRef.done (to_meas (assign ev l b x) a).
Proof.
  intros md l ev os Di Q x b G Hl He Md (En & En1 & En2). destruct (opened Di) as (Rd & Op). pose proof (ms (proj1 Op)) as M. pose proof (quiet Q) as Q'.
  destruct (two l En1) as (u & v & E & F & Hu & Hv). destruct (two ev En2) as (u' & v' & E' & F' & Hu' & Hv').
  assert (Ef : frame c (QMode md l ev) = [0xE0; md; u; v; u'; v'; 1; 0]) by (cbn [frame]; rewrite E, E'; reflexivity).
  assert (Bf : bytes [0xE0; md; u; v; u'; v'; 1; 0]) by (repeat (apply Forall_cons; [lia|]); constructor).
  pose proof (C40_assign c m l0 s o0 e R Rd D Op (m_tree x) md u v u' v' 1 [0] os Bf ltac:(len) Q' (x_tree _ _ _ M)) as T. cbv zeta in T. rewrite F, F' in T.
  destruct (T G Hl Md ltac:(lia) He) as (d & A & Rp & As & Ts & Us & Ms).
  pose proof (set_mode_thm c m l0 s o0 e R Rd D Op md u v u' v' 1 [0] Bf ltac:(len) Q') as T'. cbv zeta in T'. rewrite F, F' in T'.
  destruct (T' (fun _ => Hl) Md ltac:(lia) He) as (d' & A' & Ed & _). pose proof (det _ _ _ _ _ A A') as X. change (d = d') in X. subst d'.
  apply by_daq; [reflexivity|now rewrite Ef|apply Op|]. rewrite Ef. exists d. split; [exact A|]. intros _.
  constructor; cbn [m_tree m_phase m_ptr m_event m_stamps m_run m_sent assign]; change (s_daq (with_daq d s)) with d.
  - exact Rp.
  - rewrite Ed. exact (x_phase _ _ _ M).
  - intros l' k' j' Hp. rewrite Ed. exact (x_ptr _ _ _ M l' k' j' Hp).
  - intros w k' Hw. apply As. destruct (N.eqb_spec w ev); [congruence|]. now apply (x_event _ _ _ M).
  - intros b' e' [= <-]. apply Ts.
  - split; [intro Z; contradiction|]. intro Z. unfold still in Q. fold x in Q. congruence.
  - rewrite Us. exact (x_sent _ _ _ M).
Qed.
Lemma sim_select : forall l os, daq_idle c a -> let x := a_meas a in getN (m_tree x) l = Some os -> encodable c (QSelect l) ->
  sim c e s (QSelect l) [Response [0xFF; odts_before (m_tree x) l mod 256; 0; 0; 0; 0; 0; 0]] a.
Proof.
  intros l os Di x G En. destruct (opened Di) as (Rd & Op). pose proof (ms (proj1 Op)) as M.
  destruct (two l En) as (u & v & E & F & Hu & Hv). assert (Ef : frame c (QSelect l) = [0xDE; 2; u; v]) by (cbn [frame]; rewrite E; reflexivity).
  assert (Bf : bytes [0xDE; 2; u; v]) by (repeat (apply Forall_cons; [lia|]); constructor).
  pose proof (C39_first_pid c m l0 s o0 e (m_tree x) 2 u v [] os R Rd D Op Sm (x_tree _ _ _ M)) as T. cbv zeta in T. rewrite F in T.
  specialize (T G Bf ltac:(len) ltac:(lia)). cbn [N.eqb Pos.eqb] in T. rewrite <- to_same.
  apply by_daq; [reflexivity|now rewrite Ef|apply Op|]. rewrite Ef. eexists. split; [exact T|]. intros _.
  destruct M as [A B C X Fx Gx Hx]. constructor; auto.
  - destruct A as (fo & fe & A). exists fo, fe. eapply rep_tables; [|exact A]. repeat split.
  - intros b e' H. rewrite <- (Fx b e' H). unfold time_stamp. change (d_mode (s_daq (with_daq (set_d_mode (N.lor (d_mode (s_daq s)) 64) (s_daq s)) s))) with (N.lor (d_mode (s_daq s)) 64). rewrite N.lor_spec. change (N.testbit 64 4) with false. now rewrite orb_false_r.
Qed.
Lemma sim_synch_daq : forall b : bool, daq_idle c a -> sim c e s (if b then QStart else QStop) SpecRef.done (to_meas (runs b (a_meas a)) a).
Proof.
  intros b Di. destruct (opened Di) as (Rd & Op). pose proof (ms (proj1 Op)) as M. set (md := if b then 1 else 0).
  assert (Ef : frame c (if b then QStart else QStop) = [0xDD; md]) by (destruct b; reflexivity).
  assert (Hm : md <= 2) by (unfold md; destruct b; lia).
  destruct (C40_synch c m l0 s o0 e R Rd D Op (m_tree (a_meas a)) md [] ltac:(len) (x_tree _ _ _ M) Hm) as (d & A & Rp & As & Ts & Us & Ms).
  destruct (synch_thm c m l0 s o0 e R Rd D Op md [] ltac:(len) Hm) as (d' & A' & Tb & _ & _ & P1 & P2 & P3 & _). pose proof (det _ _ _ _ _ A A') as X. change (d = d') in X. subst d'.
  apply by_daq; [now destruct b|rewrite Ef; repeat (apply Forall_cons; [lia|]); constructor|apply Op|]. rewrite Ef. exists d. split; [exact A|]. intros _.
  constructor; cbn [m_tree m_phase m_ptr m_event m_stamps m_run m_sent runs]; change (s_daq (with_daq d s)) with d.
  - exact Rp.
  - rewrite (proj1 Tb). exact (x_phase _ _ _ M).
  - intros l' k' j' Hp. rewrite P1, P2, P3. exact (x_ptr _ _ _ M l' k' j' Hp).
  - intros w k' Hw. apply As. now apply (x_event _ _ _ M).
  - intros b' e' H. rewrite Ts. now apply (x_stamps _ _ _ M).
  - rewrite Ms. unfold md. destruct b; split; intros; auto; try discriminate. destruct H as [H|[H _]]; discriminate.
  - rewrite Us. exact (x_sent _ _ _ M).
Qed.
Lemma sim_running : forall q, a_on a = true -> c_daq c = true -> m_run (a_meas a) = true ->
  match q with QSetPtr _ _ _ | QWrite _ _ | QMode _ _ _ => True | QWriteMany _ => c_opt c 0xC7 = true | _ => False end -> encodable c q -> sim c e s q (fails 0x11) a.
Proof.
  intros q H Hd Q K En. pose proof (ms Hd) as M. apply (x_run _ _ _ M) in Q. destruct q; try contradiction.
  - destruct En as (E1 & E2). destruct (two l E1) as (u & v & E & F & Hu & Hv). apply sim_refuse; [reflexivity|]. cbn [frame]. rewrite E.
    apply (C44_active c m l0 s o0); auto using rdy; [len|left; cbn; auto].
  - destruct En as (E1 & E2). destruct (coded4 c addr E1) as (a0 & a1 & a2 & a3 & E & F & _). apply sim_refuse; [reflexivity|]. cbn [frame]. rewrite E.
    apply (C44_active c m l0 s o0); auto using rdy; [len|left; cbn; auto].
  - destruct En as (E1 & E2 & E3). apply sim_refuse; [reflexivity|]. apply (C44_active c m l0 s o0); auto using rdy; [apply buf; change (lenN (0xC7 :: lenN xs :: body xs) <= c_max_cto c); rewrite many_len; exact E3|].
    right. split; [reflexivity|]. split; [exact K|]. do 2 eexists. split; [reflexivity|exact E3].
  - destruct En as (E1 & E2 & E3). destruct (two l E2) as (u & v & E & F & Hu & Hv). destruct (two ev E3) as (u' & v' & E' & F' & Hu' & Hv'). apply sim_refuse; [reflexivity|]. cbn [frame]. rewrite E, E'.
    apply (C44_active c m l0 s o0); auto using rdy; [len|left; cbn; auto].
Qed.
Lemma dtos_eq : forall m1 m2 os ts pid, (forall x, m1 x = m2 x) -> dtos m1 ts pid os = dtos m2 ts pid os.
Proof.
  intros m1 m2 os. induction os as [|es os IH]; intros ts pid H; [reflexivity|]. cbn [dtos]. rewrite (IH [] _ H). f_equal. unfold dto. do 3 f_equal.
  apply map_ext. intro x. now apply mem_at_eq.
Qed.
Lemma sim_event : forall ev l os b, let x := a_meas a in c_daq c = true -> m_run x = true -> m_event x ev = Some l -> getN (m_tree x) l = Some os ->
  m_stamps x = Some b -> let ts := if b then stamp c (e_timer e) else [] in sampleable c ts os -> m_sent x + lenN os <= 4 ->
  sim c e s (QEvent ev) (map Sample (dtos (a_mem a) ts (odts_before (m_tree x) l) os)) (to_meas (sent (lenN os) x) a).
Proof.
  intros ev l os b x Hd Rn Ev G Sb ts Sa Fu. pose proof (ms Hd) as M. pose proof (x_stamps _ _ _ M b e Sb) as Et. fold ts in Et.
  assert (Q : measuring s) by (now apply (x_run _ _ _ M)).
  destruct (C40_event c m l0 s o0 e (m_tree x) ev l os R We Sm St (x_tree _ _ _ M) Q (x_event _ _ _ M ev l Ev) G) as (s' & o' & H & (E1 & E2) & (q & T) & U); [now rewrite Et|now rewrite (x_sent _ _ _ M)|].
  exists s', o'. split; [exact H|]. split.
  - rewrite Et, (dtos_eq (s_mem s) (a_mem a) os _ _ (v_mem _ _ _ V)) in E1. rewrite <- E1. clear - E2. induction E2 as [|p o' Hp F IH]; [constructor|]. cbn [map]. constructor; [split; auto|exact IH].
  - assert (W : related c (to_meas (sent (lenN os) x) a) (set_s_daq (set_d_q q (s_daq s)) s)).
    { assert (Eq : used s' = q_head q) by (unfold used; assert (Es : s_daq s' = set_d_q q (s_daq s)) by apply T; now rewrite Es).
      destruct V as [A1 B1 C1 D1 E1' F1 G1 H1 J1]. constructor; auto; intros _.
      destruct M as [A B C X Fx Gx Hx]. constructor; auto.
      - destruct A as (fo & fe & A). exists fo, fe. eapply rep_tables; [|exact A]. repeat split.
      - change (q_head q = m_sent x + lenN os). change (used s = m_sent x) in Hx. rewrite <- Hx, <- U, Eq. reflexivity. }
    eapply related_same; [exact T|exact W].
Qed.
Lemma sim_no_event : forall ev, still a -> sim c e s (QEvent ev) [] a.
Proof. intros ev Q. exists s, []. split; [apply C41_idle; now apply quiet|]. split; [constructor|exact V]. Qed.

(** ** Further refusals *)
Lemma sim_no_resource : forall r, idle a -> c_opt c 0xF8 = true -> ~ has_resource c r -> sim c e s (QSeed r) (fails 0x22) a.
Proof. intros r (H & P) O K. apply sim_refuse; [reflexivity|]. apply (C82_unknown c m l0 s o0 e 0 r []); auto using rdy, npgm. len. Qed.
Lemma down_len : forall bs, encodable c (QDownload bs) -> lenN (0xF0 :: lenN bs :: bs) <= c_ctobuf c.
Proof. intros bs (_ & L). apply buf. pose proof eight. rewrite !lenN_cons. lia. Qed.
Lemma sim_no_download : forall bs x b, idle a -> c_cal c = true -> a_mta a = Some (x, b) -> ~ granted c e x b (lenN bs) true false -> encodable c (QDownload bs) ->
  sim c e s (QDownload bs) (fails 0x24) a.
Proof.
  intros bs x b (H & P) O M G En. destruct (v_mta _ _ _ V x b M) as (M1 & M2). apply sim_refuse; [reflexivity|].
  apply (C23_refused c m l0 s o0 e (lenN bs) bs R (rdy H) D O (down_len bs En)); [now apply npgm|]. now rewrite M1, M2.
Qed.
Lemma sim_pgm_info : a_on a = true -> c_pgm c = true -> c_opt c 0xCE = true -> sim c e s QProgramInfo [Response [0xFF; c_pgm_props c; c_max_sector c]] a.
Proof. intros H P O. eapply by_answer; [reflexivity|apply (C80_pgm c m l0 s o0 e []); auto using rdy; len|exact V]. Qed.
Lemma sim_pgm_sequence : forall k t, idle a -> program_code c k -> encodable c (QOther (k :: t)) -> sim c e s (QOther (k :: t)) (fails 0x29) a.
Proof. intros k t (H & P) K (Bf & L). apply sim_refuse; [reflexivity|]. apply (C81_sequence c m l0 s o0); auto using rdy, npgm, buf. Qed.
Lemma sim_pgm_upload : forall n, a_on a = true -> a_pgm a = true -> c_pgm c = true -> c_opt c 0xF5 = true -> sim c e s (QUpload n) (fails 0x12) a.
Proof. intros n H P C O. apply sim_refuse; [reflexivity|]. apply (C20_programming c m l0 s o0 e n []); auto using rdy; [now apply (v_pgm _ _ _ V)|len]. Qed.
Lemma sim_pgm_download : forall bs, a_on a = true -> a_pgm a = true -> c_cal c = true -> encodable c (QDownload bs) -> sim c e s (QDownload bs) (fails 0x12) a.
Proof.
  intros bs H P O En. apply sim_refuse; [reflexivity|].
  apply (C23_refused c m l0 s o0 e (lenN bs) bs R (rdy H) D O (down_len bs En)). now apply (v_pgm _ _ _ V).
Qed.

(** ** MODIFY_BITS, checksums *)
Lemma le_inv : forall bs, bytes bs -> le_bytes (length bs) (le_value bs) = bs.
Proof.
  clear -c. intros bs H. induction H as [|b bs Hb F IH]; [reflexivity|]. cbn [length le_bytes le_value]. f_equal; [lia|].
  etransitivity; [|exact IH]. f_equal. lia.
Qed.
Lemma host_inv : forall bs, bytes bs -> lenN bs = 4 -> host_bytes c (if c_host_be c then be_value bs else le_value bs) = bs.
Proof.
  clear -c. intros bs B L. assert (E : length bs = 4%nat) by (unfold lenN in L; lia). unfold host_bytes. destruct (c_host_be c).
  - unfold be_value. rewrite <- E, <- (rev_length bs), le_inv by (now apply Forall_rev). apply rev_involutive.
  - rewrite <- E. now apply le_inv.
Qed.
Lemma sim_modify : forall sh am xm x b, idle a -> c_cal c = true -> c_opt c 0xEC = true -> a_mta a = Some (x, b) ->
  granted c e x b 2 true false -> b <> 0 -> in_space c b 4 -> sh <= 31 -> N.shiftl (N.lxor am 0xFFFF) sh < 2 ^ 31 -> N.shiftl xm sh < 2 ^ 31 ->
  let v := host_word c (a_mem a) b in N.ldiff (N.shiftl xm sh) v = 0 -> encodable c (QModify sh am xm) ->
  sim c e s (QModify sh am xm) SpecRef.done (to_mem (patch (a_mem a) b (host_bytes c (modify_spec v sh am xm))) a).
Proof.
  intros sh am xm x b (H & P) Cc O Mt G Nz Sp Hs S1 S2 v Dv (N1 & N2 & N3). destruct (v_mta _ _ _ V x b Mt) as (E1 & E2).
  destruct (two am N2) as (a0 & a1 & Ea & Fa & B0 & B1). destruct (two xm N3) as (x0 & x1 & Ex & Fx & B2 & B3).
  assert (Ef : frame c (QModify sh am xm) = [0xEC; sh; a0; a1; x0; x1]) by (cbn [frame]; rewrite Ea, Ex; reflexivity).
  assert (Ev : host_word c (s_mem s) b = v) by (unfold v, host_word; now rewrite (mem_at_eq (s_mem s) (a_mem a)) by apply (v_mem _ _ _ V)).
  pose proof (C27_refuted c m l0 s o0 e sh a0 a1 x0 x1 [] R (rdy H) D Cc O) as T. cbv zeta in T. rewrite Fa, Fx, E1, E2, Ev in T.
  destruct (T ltac:(len) G Nz Sp Hs S1 S2) as (bs & s' & o & m' & Lb & St1 & (p & -> & P1 & P2) & Wr & Ss & _ & Hv). apply proj2 in Hv. specialize (Hv Dv).
  assert (Bb : bytes bs).
  { assert (I : sinv c s') by (eapply reach_inv; eapply reach_step; [exact R| |exact St1]; split; [exact We|]; repeat (apply Forall_cons; [lia|]); constructor).
    pose proof (wrote_read _ _ _ _ Wr) as Wr'. rewrite <- Wr', mem_at_read. apply bytes_mread. assert (Em : s_mem s' = m') by apply Ss. rewrite <- Em. apply (i_b _ _ I). }
  exists s', [p]. cbn [operation]. rewrite Ef. split; [exact St1|]. split; [repeat constructor; auto|]. eapply related_same; [exact Ss|].
  assert (Eb : host_bytes c (modify_spec v sh am xm) = bs).
  { rewrite <- Hv. unfold host_word. rewrite <- Lb, (wrote_read _ _ _ _ Wr). now apply host_inv. }
  rewrite Eb. pose proof (v_mem _ _ _ V) as Em. rel V. intro y. change (m' y = patch (a_mem a) b bs y). rewrite (Wr y). now apply patch_eq.
Qed.
Lemma sim_no_modify : forall sh am xm x b, idle a -> c_cal c = true -> c_opt c 0xEC = true -> a_mta a = Some (x, b) -> ~ granted c e x b 2 true false ->
  encodable c (QModify sh am xm) -> sim c e s (QModify sh am xm) (fails 0x24) a.
Proof.
  intros sh am xm x b (H & P) Cc O Mt G (N1 & N2 & N3). destruct (v_mta _ _ _ V x b Mt) as (E1 & E2).
  destruct (two am N2) as (a0 & a1 & Ea & Fa & B0 & B1). destruct (two xm N3) as (x0 & x1 & Ex & Fx & B2 & B3).
  set (f := [0xEC; sh; a0; a1; x0; x1]). assert (Ef : frame c (QModify sh am xm) = f) by (cbn [frame]; rewrite Ea, Ex; reflexivity).
  apply sim_refuse; [reflexivity|]. rewrite Ef. assert (E : step c e (ORecv f) s = h_modify_bits c e (rx c f s)).
  { apply (exec_val c m l0 s o0); auto using rdy; [unfold f; len|tbl]. }
  unfold refuses, answers. rewrite E. unfold h_modify_bits. rewrite check_mem_no by (change (~ granted c e (s_mext s) (s_maddr s) 2 true false); now rewrite E1, E2).
  apply res_err_ans; auto; [apply R|exact (rx_out _ _ _ _ _ _ R)|lia|apply ss_rx].
Qed.
Lemma four : forall n, n < 2 ^ 32 -> exists a0 a1 a2 a3, frame c (QChecksum n) = checksum_cmd 0 0 0 a0 a1 a2 a3 [] /\ field c [a0; a1; a2; a3] = n.
Proof.
  intros n Hn. destruct (coded4 c n Hn) as (a0 & a1 & a2 & a3 & E & F & _). exists a0, a1, a2, a3. split; [|exact F]. cbn [frame]. rewrite E. reflexivity.
Qed.
Lemma sim_checksum : forall n x b, idle a -> c_opt c 0xF3 = true -> a_mta a = Some (x, b) -> granted c e x b n false false ->
  within_limit c n -> at_once c n -> c_cks c <> CRC32 -> in_space c b n -> encodable c (QChecksum n) ->
  sim c e s (QChecksum n) [Response (checksum_answer (c_cks c) (checksum_spec (c_cks c) (c_host_be c) (mem_at (a_mem a) b n)))] (to_mta None a).
Proof.
  intros n x b (H & P) O Mt G Wl Ao Nc Sp En. destruct (v_mta _ _ _ V x b Mt) as (E1 & E2). destruct (four n En) as (a0 & a1 & a2 & a3 & Ef & F).
  rewrite <- (mem_at_eq (s_mem s) (a_mem a)) by apply (v_mem _ _ _ V).
  pose proof (cks_once c m l0 s o0 e 0 0 0 a0 a1 a2 a3 [] R D) as T. rewrite F, E2 in T.
  eapply by_answer; [reflexivity|rewrite Ef; apply T; auto; [|unfold checksum_cmd; len]|].
  - constructor; auto using rdy, npgm. now rewrite E1, E2.
  - rel V. discriminate.
Qed.
Lemma sim_block_too_long : forall n x b, idle a -> c_opt c 0xF3 = true -> a_mta a = Some (x, b) -> granted c e x b n false false -> ~ within_limit c n ->
  encodable c (QChecksum n) -> sim c e s (QChecksum n) [Response ([0xFE; 0x22; 0; 0] ++ le_bytes 4 (c_max_blk c))] a.
Proof.
  intros n x b (H & P) O Mt G Wl En. destruct (v_mta _ _ _ V x b Mt) as (E1 & E2). destruct (four n En) as (a0 & a1 & a2 & a3 & Ef & F).
  pose proof (cks_oor c m l0 s o0 e 0 0 0 a0 a1 a2 a3 [] R D) as T. rewrite F in T.
  eapply by_answer; [reflexivity|rewrite Ef; apply T; auto; [|unfold checksum_cmd; len]|exact V].
  constructor; auto using rdy, npgm. now rewrite E1, E2.
Qed.
Lemma sim_no_checksum : forall n x b, idle a -> c_opt c 0xF3 = true -> a_mta a = Some (x, b) -> ~ granted c e x b n false false ->
  encodable c (QChecksum n) -> sim c e s (QChecksum n) (fails 0x24) a.
Proof.
  intros n x b (H & P) O Mt G En. destruct (v_mta _ _ _ V x b Mt) as (E1 & E2). destruct (four n En) as (a0 & a1 & a2 & a3 & Ef & F).
  set (f := checksum_cmd 0 0 0 a0 a1 a2 a3 []) in *. apply sim_refuse; [reflexivity|]. rewrite Ef.
  assert (E : step c e (ORecv f) s = h_checksum c e (rx c f s)).
  { apply (exec_val c m l0 s o0); auto using rdy; [unfold f, checksum_cmd; len|tbl]. }
  unfold refuses, answers. rewrite E. unfold h_checksum. rewrite rx_in.
  assert (Eg : gd c (rxbuf s f) 4 = n) by (unfold f, checksum_cmd; now rewrite (proj2 (rx4 _ _ _ _ _ _ _ _ _ _ _))).
  rewrite Eg, pgm_idle_no by exact (npgm P). rewrite check_mem_no by (change (~ granted c e (s_mext s) (s_maddr s) n false false); now rewrite E1, E2).
  apply res_err_ans; auto; [apply R|exact (rx_out _ _ _ _ _ _ R)|lia|apply ss_rx].
Qed.

(** ** The transport layer on CAN, packets of the application *)
Lemma sim_slave_id : forall inv : bool, idle a -> c_opt c 0xF2 = true ->
  sim c e s (QSlaveId inv) [Response ([0xFF] ++ (if inv then [0xFF - 0x58; 0xFF - 0x43; 0xFF - 0x50] else [0x58; 0x43; 0x50]) ++ le_bytes 4 (c_can_id c))] a.
Proof.
  intros inv (H & P) O. pose proof (C84_slave_id c m l0 s o0 e 0x58 0x43 0x50 (if inv then 1 else 0) [] R (rdy H) D O (npgm P) ltac:(len)) as T. cbv zeta in T.
  eapply by_answer; [reflexivity| |exact V]. destruct inv; exact T.
Qed.
Lemma low : forall l, c_motorola c = false -> l < 256 -> frame c (QDaqId l) = [0xF2; 0xFE; l; 0].
Proof.
  intros l Mo Hl. cbn [frame]. unfold coded. rewrite Mo. cbn [le_bytes app]. f_equal. f_equal. f_equal; [lia|]. f_equal. lia.
Qed.
Lemma sim_daq_id : forall l id, idle a -> c_opt c 0xF2 = true -> c_motorola c = false -> l < 256 -> getN (c_daq_ids c) l = Some id ->
  sim c e s (QDaqId l) [Response ([0xFF; 1; 0; 0] ++ le_bytes 4 id)] a.
Proof.
  intros l id (H & P) O Mo Hl G. pose proof (C84_daq_id c m l0 s o0 e l [0] R (rdy H) D O (npgm P) ltac:(len)) as T. cbv zeta in T. rewrite G in T.
  eapply by_answer; [reflexivity|rewrite low by auto; exact T|exact V].
Qed.
Lemma sim_no_daq_id : forall l, idle a -> c_opt c 0xF2 = true -> c_motorola c = false -> l < 256 -> getN (c_daq_ids c) l = None ->
  sim c e s (QDaqId l) (fails 0x22) a.
Proof.
  intros l (H & P) O Mo Hl G. pose proof (C84_daq_id c m l0 s o0 e l [0] R (rdy H) D O (npgm P) ltac:(len)) as T. cbv zeta in T. rewrite G in T.
  apply sim_refuse; [reflexivity|]. rewrite low by auto. exact T.
Qed.
Lemma sim_notice : forall k i, c_ev_api c = true -> encodable c (QNotice k i) -> sim c e s (QNotice k i) [Data ([0xFD; k] ++ firstn (N.to_nat (c_max_cto c - 2)) i)] a.
Proof.
  intros k i A (Hk & _ & Hi). destruct (C53_event c m l0 s o0 e k i R A Hk Hi) as (s' & o & H & (p & pad & -> & P1 & P2 & P3) & Ss & _).
  exists s', [p]. split; [exact H|]. split; [constructor; [split; [exact P1|exists pad; split; [exact P2|exact P3]]|constructor]|]. eapply related_same; [exact Ss|exact V].
Qed.
Lemma sim_service : forall k i, c_srv_api c = true -> encodable c (QService k i) -> sim c e s (QService k i) [Data ([0xFC; k] ++ firstn (N.to_nat (c_max_cto c - 2)) i)] a.
Proof.
  intros k i A (Hk & _ & Hi). destruct (C53_service c m l0 s o0 e k i R A Hk Hi) as (s' & o & H & (p & pad & -> & P1 & P2 & P3) & Ss & _).
  exists s', [p]. split; [exact H|]. split; [constructor; [split; [exact P1|exists pad; split; [exact P2|exact P3]]|constructor]|]. eapply related_same; [exact Ss|exact V].
Qed.

Lemma sim_step : forall q rs a', ref_step c e a q rs a' -> encodable c q -> sim c e s q rs a'.
Proof.
  intros q rs a' H En. destruct H.
  all: first [ exact (sim_connect md) | apply sim_disconnect; assumption | apply sim_status; assumption | apply sim_synch; assumption | apply sim_comm_mode; assumption
    | apply sim_unknown; assumption | eapply sim_id; eassumption | apply sim_no_id; assumption | apply sim_seed; assumption | apply sim_no_seed; assumption
    | apply sim_unlock; assumption | apply sim_wrong_key; assumption | apply sim_unasked; assumption | apply sim_set_mta; assumption | apply sim_upload; assumption
    | eapply sim_too_much; eassumption | eapply sim_denied; eassumption | apply sim_short_upload; assumption | apply sim_download; assumption | apply sim_download_max; assumption
    | apply sim_short_download; assumption | apply sim_variables | apply sim_main | apply sim_shut; assumption | apply sim_clock; assumption | apply sim_daq_info; assumption
    | apply sim_free; assumption | apply sim_alloc_daq; assumption | apply sim_alloc_odt; assumption | apply sim_alloc_entry; assumption | eapply sim_full; eassumption
    | eapply sim_sequence; eassumption | eapply sim_set_ptr; eassumption | apply sim_no_entry; assumption | eapply sim_write; eassumption | eapply sim_mode; eassumption
    | eapply sim_select; eassumption | apply (sim_synch_daq true); assumption | apply (sim_synch_daq false); assumption | apply sim_running; assumption
    | apply sim_no_resource; assumption | eapply sim_no_download; eassumption | apply sim_event_info; assumption | apply sim_no_event_info; assumption | apply sim_resolution; assumption
    | apply sim_write_many; assumption | apply sim_pgm_info; assumption | apply sim_pgm_sequence; assumption | apply sim_pgm_upload; assumption | apply sim_pgm_download; assumption
    | eapply sim_modify; eassumption | eapply sim_no_modify; eassumption | eapply sim_checksum; eassumption | eapply sim_block_too_long; eassumption
    | eapply sim_no_checksum; eassumption | apply sim_slave_id; assumption | apply sim_daq_id; assumption | apply sim_no_daq_id; assumption | apply sim_notice; assumption
    | apply sim_service; assumption
    | eapply sim_event; eassumption | apply sim_no_event; assumption | apply sim_pgm_start; assumption | apply sim_pgm_reset; assumption | apply sim_no_pgm; assumption ].
Qed.
End Rules.
