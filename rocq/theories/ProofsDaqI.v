(** Series of events, runs without start command (C41 - C45). *)
From Coq Require Import NArith ZArith List Bool Lia ZifyBool ZifyNat ZifyN.
From Verif Require Import Base Config Codec Checksum State Queue Daq Core Spec Lists Effects Handlers HTx HInv HInv2
  HFields HResp DaqInv HSpec Steps Demo Ops ProofsSession Exec ProofsFrames SpecProt ProofsProt SpecMem ProofsMem ProofsWrite SpecDaq ProofsDaqA ProofsDaqB ProofsDaqC ProofsDaqD ProofsDaqE ProofsDaqF ProofsDaqG ProofsDaqH.
Import ListNotations.
Open Scope N_scope.
Ltac Zify.zify_post_hook ::= Z.div_mod_to_equations.

(** ** Measurement runs only after START_STOP_SYNCH *)
Lemma never_started : forall c m l s o, reachable c m l s o -> (forall e f, In (e, ORecv (0xDD :: f)) l -> False) -> ~ measuring s.
Proof.
  intros c m l. induction l as [|(e & x) l IH] using rev_ind; intros s o R N.
  - destruct R as (W & M & _ & s0 & B & H). cbn in H. inv. unfold boot in B. apply init_fields in B. destruct B as (_ & _ & _ & _ & _ & _ & _ & _ & _ & _ & B).
    unfold measuring. destruct (c_daq c); [|rewrite B; ss; discriminate]. apply emptied_init in B. destruct B as (_ & ->). discriminate.
  - apply reach_snoc in R. destruct R as (s1 & o1 & o2 & R & H & _ & Wo).
    assert (Q : ~ measuring s1) by (eapply IH; eauto; intros e' f Hi; apply (N e' f); apply in_or_app; auto).
    intro M. destruct (daq_entry_thm _ _ _ _ _ _ _ _ _ R Wo H Q M) as (t & -> & _). apply (N e t). apply in_or_app. right. left. reflexivity.
Qed.
Lemma never_samples : forall c m l s o e ev, reachable c m l s o -> (forall e f, In (e, ORecv (0xDD :: f)) l -> False) -> step c e (OTrigger ev) s = Ok (s, []).
Proof. intros. apply idle_thm. eapply never_started; eauto. Qed.
(** What ends it. *)
Lemma stop_call : forall c e x s s' o, c_daq c = true -> (x = ODisconnect \/ x = OInit) -> step c e x s = Ok (s', o) -> ~ measuring s'.
Proof.
  intros c e x s s' o Hd [->| ->] H; cbn [step] in H; inv; unfold measuring.
  - apply disconnect_fields in H. destruct H as (d & -> & H). rewrite Hd in H. apply emptied_init in H. ss. destruct H as (_ & ->). discriminate.
  - apply init_fields in H. destruct H as (_ & _ & _ & _ & _ & _ & _ & _ & _ & _ & H). rewrite Hd in H. apply emptied_init in H. destruct H as (_ & ->). discriminate.
Qed.
Lemma stop_disconnect : forall c m l s o e f s' o', reachable c m l s o -> dlc_ok c -> c_daq c = true -> c_max_ent c < 65536 ->
  step c e (ORecv (0xFE :: f)) s = Ok (s', o') -> accepted o' -> ~ measuring s'.
Proof.
  intros c m l s o e f s' o' R D Hd Sm H A. pose proof (proj1 R) as W. pose proof (reach_inv _ _ _ _ _ R) as I.
  destruct (recv_cases _ W D Sm _ _ _ _ _ _ I H) as [(_ & B & _)|(h & Hh & H1)]; [contradiction|].
  change (Some (h_disconnect c) = Some h) in Hh. injection Hh as <-. apply (disconnect_out c W D) in H1; [|exact (rx_out c m l s o _ R)].
  destruct H1 as [(_ & r & H1)|(_ & H1)]; [decompose [and] H1; exfalso; eapply not_both; eauto|]. specialize (H1 Hd). apply emptied_init in H1. destruct H1 as (_ & H1). unfold measuring. rewrite H1. discriminate.
Qed.

(** ** Series of events *)

(** ** Series of events *)
Lemma same_samples : forall c s s' t es fs, same_but_queue s s' -> samples c s t es fs -> samples c s' t es fs.
Proof.
  intros c s s' t es fs (q & S) H. unfold same_session in S.
  assert (E1 : s_mem s' = s_mem s) by (destruct s; apply S). assert (E2 : s_daq s' = set_d_q q (s_daq s)) by (destruct s; apply S).
  assert (E3 : forall e, time_stamp c e s' = time_stamp c e s) by (intro; unfold time_stamp; rewrite E2; reflexivity).
  induction H as [|e ev l os es fs We Hv As G Sa H IH]; [constructor|]. rewrite <- E3, <- E1. constructor; auto; [|now rewrite E3]. unfold assigned. rewrite E2. exact As.
Qed.
Lemma same_rep : forall c s s' t, same_but_queue s s' -> represents c s t -> represents c s' t.
Proof.
  intros c s s' t (q & S) (fo & fe & Rp). unfold same_session in S. assert (E2 : s_daq s' = set_d_q q (s_daq s)) by (destruct s; apply S).
  exists fo, fe. rewrite E2. apply (rep_tables c fo fe (s_daq s)); [repeat split|exact Rp].
Qed.
Lemma same_run : forall s s', same_but_queue s s' -> measuring s -> measuring s'.
Proof.
  intros s s' (q & S) M. unfold same_session in S. assert (E2 : s_daq s' = set_d_q q (s_daq s)) by (destruct s; apply S). unfold measuring. rewrite E2. exact M.
Qed.
Lemma same_trans : forall s s1 s2, same_but_queue s s1 -> same_but_queue s1 s2 -> same_but_queue s s2.
Proof.
  intros s s1 s2 (q1 & S1) (q2 & S2). exists q2. unfold same_session in *. destruct s, s1, s2; ss. cbn in *. decompose [and] S1. decompose [and] S2. subst. repeat split; try congruence.
Qed.
Lemma dtos_len : forall m ts p os, lenN (dtos m ts p os) = lenN os.
Proof. intros m ts p os. revert ts p. induction os as [|x y IH]; intros; [reflexivity|]. cbn [dtos]. rewrite !lenN_cons. now rewrite IH. Qed.
Lemma same_refl : forall s, same_but_queue s s.
Proof. intro s. exists (d_q (s_daq s)). unfold same_session. assert (E : forall d, set_d_q (d_q d) d = d) by (intros []; reflexivity). rewrite E. ss. repeat split. Qed.

Lemma fifo : forall c t es fs m l s o, reachable c m l s o -> c_max_ent c < 65536 -> stamp_ok c -> represents c s t -> measuring s ->
  samples c s t es fs -> used s + lenN fs <= 4 ->
  exists s' o', run c (triggers es) s = Ok (s', o') /\ emits o' fs /\ same_but_queue s s' /\ used s' = used s + lenN fs.
Proof.
  intros c t es. induction es as [|(e & ev) es IH]; intros fs m l s o R Sm So Rp M H Hu; inversion H as [|e0 ev0 l0 os es0 fs0 We Hv As G Sa Hs]; subst.
  - exists s, []. split; [reflexivity|]. split; [split; [reflexivity|constructor]|]. split; [apply same_refl|]. change (lenN []) with 0. lia.
  - rewrite lenN_app, dtos_len in Hu.
    destruct (event_thm c m l s o e t ev l0 os R We Sm So Rp M As G Sa) as (s1 & o1 & E1 & (F1 & F2) & S1 & U1); [lia|].
    assert (R1 : reachable c m (l ++ [(e, OTrigger ev)]) s1 (o ++ o1)) by (eapply reach_step; eauto; split; auto).
    destruct (IH fs0 m _ s1 _ R1 Sm So (same_rep _ _ _ _ S1 Rp) (same_run _ _ S1 M) (same_samples _ _ _ _ _ _ S1 Hs)) as (s2 & o2 & E2 & (G1 & G2) & S2 & U2); [lia|].
    exists s2, (o1 ++ o2). split; [|split; [split|split]].
    + cbn [triggers map run fst snd]. fold (triggers es). unfold andthen. rewrite E1. cbn [bind]. rewrite E2. reflexivity.
    + rewrite map_app, F1, G1. reflexivity.
    + apply Forall_app. auto.
    + eapply same_trans; eauto.
    + rewrite lenN_app, dtos_len. lia.
Qed.
Lemma fifo_ub : forall c t es fs m l s o, reachable c m l s o -> c_max_ent c < 65536 -> stamp_ok c -> represents c s t -> measuring s ->
  samples c s t es fs -> 0 < used s -> 4 < used s + lenN fs -> run c (triggers es) s = UB OobQueue.
Proof.
  intros c t es. induction es as [|(e & ev) es IH]; intros fs m l s o R Sm So Rp M H H0 Hu; inversion H as [|e0 ev0 l0 os es0 fs0 We Hv As G Sa Hs]; subst.
  - exfalso. change (lenN []) with 0 in Hu. pose proof (reach_inv _ _ _ _ _ R) as I. destruct (d_qinv _ _ (i_d _ _ I)) as (A & B & _). unfold used in *. lia.
  - rewrite lenN_app, dtos_len in Hu. cbn [triggers map run fst snd]. fold (triggers es). unfold andthen.
    destruct (N.ltb_spec 4 (used s + lenN os)) as [X|X].
    + rewrite (event_overflow c m l s o e t ev l0 os R We Sm So Rp M As G Sa H0 X). reflexivity.
    + destruct (event_thm c m l s o e t ev l0 os R We Sm So Rp M As G Sa) as (s1 & o1 & E1 & (F1 & F2) & S1 & U1); [lia|].
      assert (R1 : reachable c m (l ++ [(e, OTrigger ev)]) s1 (o ++ o1)) by (eapply reach_step; eauto; split; auto).
      rewrite E1. cbn [bind]. rewrite (IH fs0 m _ s1 _ R1 Sm So (same_rep _ _ _ _ S1 Rp) (same_run _ _ S1 M) (same_samples _ _ _ _ _ _ S1 Hs)); [reflexivity|lia|lia].
Qed.

(** ** Without SET_DAQ_LIST_MODE every event samples list 0 *)
Lemma unassigned_sampled : forall c m l s o e t ev os, reachable c m l s o -> wf_env c e -> c_max_ent c < 65536 -> stamp_ok c ->
  (forall e f, In (e, ORecv (0xE0 :: f)) l -> False) -> represents c s t -> measuring s -> ev < c_nevents c -> getN t 0 = Some os ->
  sampleable c (time_stamp c e s) os -> used s + lenN os <= 4 ->
  exists s' o', step c e (OTrigger ev) s = Ok (s', o') /\ emits o' (dtos (s_mem s) (time_stamp c e s) 0 os).
Proof.
  intros c m l s o e t ev os R We Sm So N Rp M Hv G Sa Hu. pose proof (reach_daq _ _ _ _ _ R M) as Hd.
  pose proof (unassigned _ _ _ _ _ R Hd N) as Z. pose proof (i_d _ _ (reach_inv _ _ _ _ _ R)) as I.
  destruct (getN_lt_Some _ (d_lfe (s_daq s)) ev) as (x & A); [rewrite (d_lfelen _ _ I); exact Hv|].
  assert (x = 0) by (apply (proj1 (Forall_forall _ _) Z); eapply getN_In; eauto). subst x.
  destruct (event_thm c m l s o e t ev 0 os R We Sm So Rp M A G Sa Hu) as (s' & o' & E & F & _). rewrite before_0 in F. eauto.
Qed.
