(** Runs of the reference slave, and how to come back to it. *)
From Coq Require Import NArith ZArith List Bool Lia ZifyBool ZifyNat ZifyN.
From Verif Require Import Base Config Codec Checksum State Queue Daq Core Spec Lists Effects DaqInv Steps Ops ProofsSession Exec ProofsFrames SpecProt ProofsProt SpecMem ProofsWrite SpecDaq ProofsDaqC
  PropertiesProt SpecInfo SpecE2e ProofsE2e SpecRef ProofsRef.
Import ListNotations.
Open Scope N_scope.

Lemma boot_related : forall c m s, wf_cfg c -> wf_mem m -> c_max_ent c < 65536 -> boot c m = Ok s -> related c (power_up c m) s.
Proof.
  intros c m s W Wm Sm B. assert (R : reachable c m [] s []) by (split; [exact W|]; split; [exact Wm|]; split; [constructor|]; exists s; split; [exact B|reflexivity]).
  pose proof (reach_inv _ _ _ _ _ R) as I. pose proof B as B0. unfold boot in B0. pose proof (init_fields _ _ _ B0) as (F1 & F2 & F3 & F4 & F5 & F6 & F7 & F8 & F9 & F10 & F11).
  assert (J : no_job s).
  { unfold no_job. unfold xcp_init in B0. apply bind_Ok in B0. destruct B0 as (s1 & H1 & H). apply Ok_inj in H. subst s. destruct (job_on c); [reflexivity|].
    unfold daq_init_st in H1. destruct (c_daq c); [apply bind_Ok in H1; destruct H1 as (d & _ & H1)|]; apply Ok_inj in H1; subst s1; reflexivity. }
  constructor; cbn [a_on a_pgm a_mta a_mem a_prot a_seed a_meas power_up].
  - discriminate.
  - auto.
  - unfold programming. rewrite F3. split; discriminate.
  - intros x b [= <- <-]. auto.
  - intro b. rewrite F10. reflexivity.
  - rewrite F4. reflexivity.
  - exact F5.
  - intro Hd. rewrite Hd in F11. destruct (emptied_init _ _ _ F11) as (X & Y). apply measures_none; auto; [apply (i_d c s I)|].
    unfold used. unfold daq_init, queue_init in F11. destruct (pdu_size c <=? 1 + c_max_dto c); [|discriminate]. cbn [bind] in F11. apply Ok_inj in F11. rewrite <- F11. reflexivity.
  - intro Hd. split; [|reflexivity]. unfold measuring. rewrite (i_daq c s I Hd). discriminate.
Qed.

Lemma op_wf : forall c e q, wf_cfg c -> wf_env c e -> encodable c q -> wf_op c (e, operation c q).
Proof.
  intros c e q W We En. split; [exact We|]. pose proof (wf_cto _ W).
  destruct q; cbn [operation snd encodable frame] in *; try (repeat (apply Forall_cons; [first [lia|apply En]|]); try (constructor; fail); fail); auto.
  all: try (destruct En as (E1 & E2); repeat (apply Forall_cons; [lia|]); exact E1).
  all: unfold bytes; repeat rewrite Forall_app; repeat split; try (unfold coded; destruct (c_motorola c); [apply Forall_rev|]; apply bytes_le);
    repeat (apply Forall_cons; [lia|]); try (now constructor).
  all: try (apply En; fail).
  - destruct inverted; constructor; try lia; constructor.
  - apply (body_bytes c xs), En.
Qed.

Lemma run_thm : forall c m, dlc_ok c -> c_max_ent c < 65536 -> stamp_ok c -> forall l a rs a', ref_run c a l rs a' ->
  forall l0 s o0, reachable c m l0 s o0 -> related c a s ->
  exists s' o, run c (operations c l) s = Ok (s', o) /\ reachable c m (l0 ++ operations c l) s' (o0 ++ o) /\ Forall2 (shows c) rs o /\ related c a' s'.
Proof.
  intros c m D Sm St l a rs a' H. induction H as [a|a e q rs a1 l rs' a2 We En Hs Hr IH]; intros l0 s o0 R V.
  - exists s, []. cbn [operations map run]. rewrite !app_nil_r. auto.
  - destruct (sim_step c m l0 s o0 e a R D Sm St We V q rs a1 Hs En) as (s1 & o1 & E1 & F1 & V1).
    assert (R1 : reachable c m (l0 ++ [(e, operation c q)]) s1 (o0 ++ o1)) by (eapply reach_step; [exact R|apply op_wf; auto; apply R|exact E1]).
    destruct (IH _ _ _ R1 V1) as (s2 & o2 & E2 & R2 & F2 & V2). exists s2, (o1 ++ o2). cbn [operations map fst snd] in *. unfold operations in *. cbn [map fst snd].
    split; [cbn [run]; unfold andthen; rewrite E1; cbn [bind]; rewrite E2; reflexivity|]. rewrite <- !app_assoc in R2. cbn [app] in R2. split; [exact R2|]. split; [now apply Forall2_app|exact V2].
Qed.
Lemma refines_thm : forall c m s0 l rs a, wf_cfg c -> wf_mem m -> dlc_ok c -> c_max_ent c < 65536 -> stamp_ok c -> boot c m = Ok s0 ->
  ref_run c (power_up c m) l rs a ->
  exists s o, reachable c m (operations c l) s o /\ Forall2 (shows c) rs o /\ related c a s.
Proof.
  intros c m s0 l rs a W Wm D Sm St B H.
  destruct (run_thm c m D Sm St l _ rs a H [] s0 []) as (s & o & E & R & F & V); [|now apply boot_related|exists s, o; auto].
  split; [exact W|]. split; [exact Wm|]. split; [constructor|]. exists s0. split; [exact B|reflexivity].
Qed.

Lemma resync_thm : forall c m l s o e, reachable c m l s o -> dlc_ok c -> c_max_ent c < 65536 -> wf_env c e -> ready s -> ~ programming s -> s_sact s = false -> no_job s ->
  exists s' o', step c e (ORecv [0xFE]) s = Ok (s', o') /\ sends o' (padded c [0xFF]) /\
    related c (mkRef false false (Some (s_mext s, s_maddr s)) (s_mem s) (default_status c) 0 no_meas) s'.
Proof.
  intros c m l s o e R D Sm We Rd P Sa J.
  destruct (C14_disconnect c m l s o e [0xFE] R D Rd P eq_refl) as (s' & o' & A & B & X & Y); [pose proof (wf_cto _ (proj1 R)); unfold c_ctobuf; change (lenN [0xFE]) with 1; lia|].
  exists s', o'. split; [exact A|]. split; [exact B|].
  assert (E : step c e (ORecv [0xFE]) s = h_disconnect c e (rx c [0xFE] s)) by (apply (exec_val c m l s o); auto; pose proof (wf_cto _ (proj1 R)); unfold c_ctobuf; change (lenN [0xFE]) with 1; lia).
  destruct (pos_ans c (rx c [0xFE] s) s (proj1 R) D (rx_out _ _ _ _ _ _ R) (ss_rx _ _ _)) as (s1 & o1 & H1 & F & S).
  pose proof A as A'. rewrite E in A'. unfold h_disconnect in A'. rewrite pgm_idle_no in A' by exact P. unfold andthen in A'. rewrite H1 in A'. cbn [bind] in A'.
  assert (I : sinv c s') by (eapply reach_inv; eapply reach_step; [exact R| |exact A]; split; [exact We|repeat constructor]).
  destruct Y as (T1 & T2 & T3 & T4 & T5 & T6 & T7 & T8 & T9 & T10 & T11 & T12). destruct X as (Q1 & Q2 & _).
  unfold programming, no_job in *. constructor; cbn [a_on a_pgm a_mta a_mem a_prot a_seed a_meas]; unfold programming, no_job; rewrite ?T2, ?T3, ?T4, ?T5, ?T6, ?T11, ?T12; auto.
  - discriminate.
  - split; [apply Rd|auto].
  - split; [intro; contradiction|discriminate].
  - intros x b [= <- <-]. auto.
  - intro Hd. destruct (init_daq c m l s o R s1 Hd) as (d & Z & Z1 & Z2 & Z3). rewrite Z in A'. cbn [bind] in A'. injection A' as A' _.
    assert (Ed : s_daq s' = d) by (rewrite <- A'; reflexivity). apply measures_none; rewrite ?Ed; auto; [rewrite <- Ed; apply (i_d c s' I)|unfold used; now rewrite Ed].
  - intro Hd. split; [|reflexivity]. unfold measuring. rewrite (i_daq c s' I Hd). discriminate.
Qed.

Lemma program_implemented : forall c k, program_code c k -> implemented c k = true.
Proof.
  intros c k (I & P & O). unfold program_codes in I. cbn [In] in I. unfold implemented.
  repeat (destruct I as [<- | I]; [cbn [existsb N.eqb Pos.eqb orb andb]; rewrite P; try (rewrite (O eq_refl)); now rewrite ?andb_false_r|]). destruct I.
Qed.
(** The reference is deterministic. *)
Lemma det : forall c e a q r1 a1 r2 a2, ref_step c e a q r1 a1 -> ref_step c e a q r2 a2 -> r1 = r2 /\ a1 = a2.
Proof.
  intros c e a q r1 a1 r2 a2 H1 H2. unfold still, daq_idle, idle in *.
  destruct H1; cbv zeta in *; inversion H2; subst; cbv zeta in *.
  all: try (split; reflexivity).
  all: try (split; congruence).
  all: try (match goal with H : program_code _ _, K : implemented _ _ = false |- _ => apply program_implemented in H; congruence end).
  all: try (exfalso; unfold daq_idle, idle, still in *; intuition congruence).
  all: repeat match goal with z := _ : meas |- _ => subst z | z := _ : list N |- _ => subst z end.
  all: repeat match goal with
    | H : allocates _ _ _ _ |- _ => destruct H as (? & H); cbn in H
    | H : False |- _ => destruct H
    | H : _ /\ _ |- _ => destruct H
    | H : ?k = _ |- _ => is_var k; subst k
    | H : daq_idle _ _ |- _ => destruct H as (? & ? & ?)
    | H : ?t = Some ?u, K : ?t = Some ?v |- _ => rewrite H in K; injection K; clear K; intros; subst
    end; try (split; reflexivity);
    try (exfalso; unfold idle, still in *; cbn in *; solve [intuition (try congruence; try lia)]).
  all: try (match goal with H : forall p, ~ in_sequence _ _ p, K : in_sequence _ _ _ |- _ => destruct (H _ K) end).
  all: try (match goal with H : In (m_phase _) _ |- _ => exfalso; cbn in H; repeat match goal with H : _ \/ _ |- _ => destruct H end end;
       match goal with
       | H : False |- _ => destruct H
       | H : _ = m_phase _, K : forall p, ~ in_sequence (m_phase _) _ p |- _ => rewrite <- H in K; eapply K; constructor
       | _ => lia
       end).
  all: try (destruct q; cbn in *; repeat match goal with H : _ /\ _ |- _ => destruct H | H : False |- _ => destruct H end; subst; exfalso; match goal with H : forall p, ~ in_sequence _ _ p, K : in_sequence _ _ _ |- _ => exact (H _ K) end).
  all: match goal with H : getN (c_events _) _ = Some _ |- _ => apply getN_Some_lt in H; exfalso; lia end.
Qed.
Lemma run_det : forall c l a r1 a1, ref_run c a l r1 a1 -> forall r2 a2, ref_run c a l r2 a2 -> r1 = r2 /\ a1 = a2.
Proof.
  intros c l a r1 a1 H. induction H as [a|a e q rs b l rs' a1 We En Hs Hr IH]; intros r2 a2 K; inversion K; subst; [auto|].
  match goal with X : ref_step _ _ _ _ _ _ |- _ => destruct (det _ _ _ _ _ _ _ _ Hs X); subst end.
  match goal with X : ref_run _ _ _ _ a2 |- _ => destruct (IH _ _ X); subst end. auto.
Qed.
