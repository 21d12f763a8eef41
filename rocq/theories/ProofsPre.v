(** Predefined DAQ lists: invariant. *)
From Coq Require Import NArith ZArith List Bool Lia ZifyBool ZifyNat ZifyN.
From Verif Require Import Base Config Codec Checksum State Queue Daq Core Spec Lists Effects Handlers HTx HInv HInv2
  HFields HResp DaqInv HSpec Steps Demo Ops ProofsSession Exec ProofsFrames SpecMem SpecDaq ProofsDaqA ProofsDaqE ProofsDaqF Predef SpecPre.
Import ListNotations.
Open Scope N_scope.
Ltac Zify.zify_post_hook ::= Z.div_mod_to_equations.

Lemma lift_Ok : forall r z z' o, lift r z = Ok (z', o) -> exists s, r = Ok (s, o) /\ z' = with_st s z.
Proof. intros r z z' o H. unfold lift in H. apply bind_Ok in H. destruct H as ((s & o1) & H1 & H). injection H as <- <-. eauto. Qed.
Lemma sthen_Ok : forall r f z o, sthen r f = Ok (z, o) -> exists z1 o1 o2, r = Ok (z1, o1) /\ f z1 = Ok (z, o2) /\ o = o1 ++ o2.
Proof.
  intros r f z o H. unfold sthen in H. apply bind_Ok in H. destruct H as ((z1 & o1) & H1 & H). apply bind_Ok in H. destruct H as ((z2 & o2) & H2 & H).
  injection H as <- <-. eauto 6.
Qed.

(** ** Responses *)
Section Inv.
Variables (c : cfg) (p : predef) (es : list (N * N)).
Variables (W : wf_cfg c) (St : static c) (Wp : wf_pre c p es).

(** [s] before, [s'] after a transmission. *)
Definition quiet (s s' : st) : Prop := (sinv c s -> sinv c s') /\ same_session s s'.
Lemma send8_quiet : forall len bs s s' o, bytes bs -> send8 c len bs s = Ok (s', o) -> quiet s s'.
Proof.
  intros len bs s s' o B H. apply send8_o in H. destruct H as (ob & n & L & Bo & _ & _ & -> & ->). split; [|apply ss_send].
  intro I. apply sinv_send; auto; [rewrite L; apply I|]. apply Bo; [apply I|exact B].
Qed.
Lemma err_quiet : forall k s s' o, err c k s = Ok (s', o) -> quiet s s'.
Proof. intros. eapply send8_quiet; [|eassumption]. bytes_tac. Qed.
Lemma pos_quiet : forall s s' o, pos c s = Ok (s', o) -> quiet s s'.
Proof. intros. eapply send8_quiet; [|eassumption]. bytes_tac. Qed.
Lemma res_quiet : forall k s s' o, send_result c k s = Ok (s', o) -> quiet s s'.
Proof. intros k s s' o H. unfold send_result in H. destruct (_ =? _); [eapply pos_quiet|eapply err_quiet]; eauto. Qed.

Definition zinv (z : sst) : Prop :=
  sinv c (z_st z) /\ lenN (z_modes z) = count_of p /\ Forall (fun m => m < 256) (z_modes z) /\ z_entries z = es /\
  (count_of p <> 0 -> d_plist (s_daq (z_st z)) < count_of p) /\ q_head (d_q (s_daq (z_st z))) = q_tail (d_q (s_daq (z_st z))).

Lemma zinv_quiet : forall z s, zinv z -> quiet (z_st z) s -> zinv (with_st s z).
Proof.
  intros z s (A & B & B' & C & D & E) (F & G). split; [now apply F|]. unfold with_st. cbn [z_modes z_entries z_st].
  assert (X : s_daq s = s_daq (z_st z)) by apply G. rewrite X. auto.
Qed.
Lemma lift_quiet : forall r z z' o, (forall s' o', r = Ok (s', o') -> quiet (z_st z) s') -> zinv z -> lift r z = Ok (z', o) -> zinv z'.
Proof. intros r z z' o Q I H. apply lift_Ok in H. destruct H as (s & H & ->). apply zinv_quiet; eauto. Qed.
Lemma lift_res : forall k z z' o, zinv z -> lift (send_result c k (z_st z)) z = Ok (z', o) -> zinv z'.
Proof. intros k z z' o. apply lift_quiet. intros. eapply res_quiet; eauto. Qed.
Lemma lift_err : forall k z z' o, zinv z -> lift (err c k (z_st z)) z = Ok (z', o) -> zinv z'.
Proof. intros k z z' o. apply lift_quiet. intros. eapply err_quiet; eauto. Qed.
Lemma lift_pos : forall z z' o, zinv z -> lift (pos c (z_st z)) z = Ok (z', o) -> zinv z'.
Proof. intros z z' o. apply lift_quiet. intros. eapply pos_quiet; eauto. Qed.
Lemma lift_send8 : forall len bs z z' o, bytes bs -> zinv z -> lift (send8 c len bs (z_st z)) z = Ok (z', o) -> zinv z'.
Proof. intros len bs z z' o B. apply lift_quiet. intros. eapply send8_quiet; eauto. Qed.

(** ** DAQ state changes *)
Definition dgood (d d' : daqst) : Prop :=
  same_tables d d' /\ d_mode d' = d_mode d /\ lenN (d_lfe d') = lenN (d_lfe d) /\ (bytes (d_lfe d) -> bytes (d_lfe d')) /\ qinv c (d_q d').
Lemma sinv_dgood : forall s d, sinv c s -> dgood (s_daq s) d -> (d_run d = true -> d_run (s_daq s) = true \/ pgm_on s = false) -> sinv c (set_s_daq d s).
Proof.
  intros s d I (A & B & C & D & E) R. destruct St as (Hd & _). destruct I as [I1 I2 I3 I4 I5]. constructor; ss; auto.
  - destruct I1. apply binv_conj; ss; repeat split; auto.
  - destruct I2. constructor; rewrite ?C; auto; try (rewrite B; auto); destruct A as (A1 & A2 & A3 & A4 & A5); unfold layout, alloc_ok in *; rewrite ?A1, ?A2, ?A3, ?A4, ?A5; auto.
  - congruence.
  - intro Z. change (pgm_on s = true) in Z. specialize (I5 Z). destruct (d_run d) eqn:Er; auto. destruct (R eq_refl); congruence.
Qed.

(** ** Initialisation *)
Lemma sdaq_init_inv : forall z z', (sinv c (z_st z) /\ lenN (z_modes z) = count_of p /\ z_entries z = es) ->
  sdaq_init c z = Ok z' -> zinv z' /\ d_run (s_daq (z_st z')) = false /\ d_lfe (s_daq (z_st z')) = d_lfe (s_daq (z_st z)) /\
    z_modes z' = map (fun _ => 0) (z_modes z) /\
    exists d, z_st z' = set_s_daq d (z_st z).
Proof.
  intros z z' (I & B & C) H. unfold sdaq_init in H. apply bind_Ok in H. destruct H as (q & Hq & H). injection H as <-.
  cbn [z_st z_modes ss_all with_modes] in *. pose proof (qinv_init c _ _ (d_qinv _ _ (i_d _ _ I)) Hq) as Q.
  assert (Qe : q_head q = q_tail q). { unfold queue_init in Hq. destruct (_ <=? _); [|discriminate]. injection Hq as <-. reflexivity. }
  split; [|split; [reflexivity|split; [reflexivity|split; [now rewrite map_map|eexists; reflexivity]]]]. split; [|split; [|split; [|split; [|split]]]]; cbn [z_st z_modes z_entries]; ss.
  - apply sinv_dgood; auto; [|ss; discriminate]. unfold dgood, same_tables. ss. repeat split; auto; apply Q.
  - rewrite !lenN_map. exact B.
  - apply Forall_forall. intros x Hx. apply in_map_iff in Hx. destruct Hx as (? & <- & _). lia.
  - exact C.
  - intro Z. lia.
  - exact Qe.
Qed.
Lemma sdisc_inv : forall z z', (sinv c (z_st z) /\ lenN (z_modes z) = count_of p /\ z_entries z = es) ->
  sdisconnect c z = Ok z' -> zinv z' /\ d_run (s_daq (z_st z')) = false /\ d_lfe (s_daq (z_st z')) = d_lfe (s_daq (z_st z)) /\
    z_modes z' = map (fun _ => 0) (z_modes z) /\ exists d, z_st z' = set_s_daq d (default_prot c (z_st z)).
Proof.
  intros z z' (I & B & C) H. unfold sdisconnect in H. destruct St as (Hd & _). rewrite Hd in H.
  apply sdaq_init_inv in H; [|split; [apply default_prot_inv; exact I|auto]]. exact H.
Qed.
Lemma zinv3 : forall z, zinv z -> sinv c (z_st z) /\ lenN (z_modes z) = count_of p /\ z_entries z = es.
Proof. intros z (A & B & _ & C & _). auto. Qed.

Lemma sinit_inv : forall z z', dinv c (s_daq (z_st z)) -> lenN (s_in (z_st z)) = c_ctobuf c -> bytes (s_in (z_st z)) ->
  lenN (s_out (z_st z)) = c_max_cto c -> bytes (s_out (z_st z)) -> (forall x, s_mem (z_st z) x < 256) ->
  lenN (z_modes z) = count_of p -> z_entries z = es -> sinit c z = Ok z' -> zinv z' /\ d_run (s_daq (z_st z')) = false /\ d_lfe (s_daq (z_st z')) = d_lfe (s_daq (z_st z)) /\
    z_modes z' = map (fun _ => 0) (z_modes z).
Proof.
  intros z z' D A1 A2 A3 A4 A5 B C H. unfold sinit in H. destruct St as (Hd & _). rewrite Hd in H. apply bind_Ok in H. destruct H as (z1 & H1 & H).
  apply sdaq_init_inv in H1.
  - destruct H1 as (I & R & L & Mz & _). injection H as <-. destruct (job_on c); [|auto]. split; [|split; [exact R|split; [exact L|exact Mz]]].
    destruct I as (I1 & I2). split; [|exact I2]. apply sinv_job, I1.
  - split; [|split; [exact B|exact C]]. cbn [z_st with_st]. apply default_prot_inv. constructor; try reflexivity.
    + apply binv_conj. cbn [s_in s_out s_prot s_seed s_mext s_maddr s_srem s_mrem s_held s_mem s_ctr s_cros].
      repeat split; auto; try exact eq_refl. apply aspace_pos.
    + cbn [s_daq]. apply (dinv_same c (s_daq (z_st z))); auto. repeat split. apply D.
Qed.
Lemma sboot_inv : forall m z, wf_mem m -> sboot c p es m = Ok z -> zinv z /\ d_run (s_daq (z_st z)) = false /\ Forall (fun x => x = 0) (d_lfe (s_daq (z_st z))) /\
  Forall (fun x => x = 0) (z_modes z).
Proof.
  intros m z M H. unfold sboot in H. apply sinit_inv in H; cbn [z_st z_modes z_entries]; auto using power_on_dinv, bytes_repeat0.
  - destruct H as (A & B & L & Mz). split; [exact A|]. split; [exact B|]. rewrite L, Mz. split.
    + cbn. apply Forall_forall. intros x Hx. now apply repeat_spec in Hx.
    + apply Forall_forall. intros x Hx. apply in_map_iff in Hx. now destruct Hx as (? & <- & _).
  - cbn [s_in power_on]. rewrite lenN_repeat. lia.
  - cbn [s_in power_on]. apply bytes_repeat0.
  - cbn [s_out power_on]. rewrite lenN_repeat. lia.
  - cbn [s_out power_on]. apply bytes_repeat0.
  - now rewrite lenN_map.
Qed.

(** ** The commands *)
Lemma pidle_inv : forall z k z' o, zinv z -> spgm_idle c z k = Ok (z', o) -> (k = Ok (z', o) /\ (pgm_on (z_st z) = false)) \/ zinv z'.
Proof.
  intros z k z' o I H. unfold spgm_idle in H. destruct (c_pgm c && _) eqn:E; [right; eapply lift_res; eauto|]. left. split; [exact H|].
  unfold pgm_on. destruct I as (I & _). destruct (c_pgm c) eqn:P; [exact E|]. exact (i_pgm _ _ I P).
Qed.
Lemma unl_inv : forall r z k z' o, zinv z -> sunlocked c r z k = Ok (z', o) -> k = Ok (z', o) \/ zinv z'.
Proof. intros r z k z' o I H. unfold sunlocked in H. destruct (is_protected _ _ _); [right; eapply lift_res; eauto|auto]. Qed.
Lemma stop_inv : forall z k z' o, zinv z -> sdaq_stopped c z k = Ok (z', o) -> (k = Ok (z', o) /\ d_run (s_daq (z_st z)) = false) \/ zinv z'.
Proof.
  intros z k z' o I H. unfold sdaq_stopped in H. destruct St as (Hd & _). rewrite Hd in H. cbn [andb] in H.
  destruct (d_run _) eqn:E; [right; eapply lift_res; eauto|auto].
Qed.

Lemma zh_disc_inv : forall e z z' o, zinv z -> zh_disconnect c e z = Ok (z', o) -> zinv z'.
Proof.
  intros e z z' o I H. unfold zh_disconnect in H. apply pidle_inv in H; auto. destruct H as [(H & _)|H]; auto.
  apply sthen_Ok in H. destruct H as (z1 & o1 & o2 & H1 & H2 & _). apply lift_pos in H1; auto. apply bind_Ok in H2. destruct H2 as (z2 & H2 & H3).
  injection H3 as <- <-. eapply sdisc_inv; [apply zinv3|]; eauto.
Qed.
Lemma sinv_seed : forall s v, sinv c s -> v < 256 -> sinv c (set_s_seed v s).
Proof. intros s v [] V. constructor; auto. destruct i_b. apply binv_conj; ss; repeat split; auto. Qed.
Lemma sinv_prot : forall s v, sinv c s -> v < 256 -> sinv c (set_s_prot v s).
Proof. intros s v [] V. constructor; auto. destruct i_b. apply binv_conj; ss; repeat split; auto. Qed.
Lemma zh_unlock_inv : forall e z z' o, zinv z -> zh_unlock c e z = Ok (z', o) -> zinv z'.
Proof.
  intros e z z' o I H. unfold zh_unlock in H. apply pidle_inv in H; auto. destruct H as [(H & _)|H]; auto.
  destruct (_ =? 0); [eapply lift_err; eauto|]. apply bind_Ok in H. destruct H as ((z1 & o1) & H1 & H). injection H as <- <-.
  assert (J : zinv z1).
  { destruct (e_unlock _ _ _ _).
    - apply lift_Ok in H1. destruct H1 as (s & H1 & ->). pose proof I as (I0 & Ir). pose proof (b_prot _ _ (i_b _ _ I0)) as Bp.
      assert (Bl : N.ldiff (s_prot (z_st z)) (s_seed (z_st z)) < 256) by (pose proof (ldiff_le (s_prot (z_st z)) (s_seed (z_st z))); lia).
      assert (J : zinv (with_st (set_s_prot (N.ldiff (s_prot (z_st z)) (s_seed (z_st z))) (z_st z)) z)).
      { split; [now apply sinv_prot|exact Ir]. }
      apply (zinv_quiet _ s) in J; [exact J|]. eapply send8_quiet; [|exact H1]. ss. bytes_tac.
    - apply sthen_Ok in H1. destruct H1 as (z2 & o2 & o3 & H1 & H2 & _). apply lift_err in H1; auto. apply bind_Ok in H2. destruct H2 as (z3 & H2 & H3).
      injection H3 as <- <-. eapply sdisc_inv; [apply zinv3|]; eauto. }
  destruct J as (J1 & J2). split; [|exact J2]. apply sinv_seed; [exact J1|lia].
Qed.
Lemma beyond_lt : forall x n, n <> 0 -> beyond c x n = false -> x < n.
Proof. intros x n Z H. unfold beyond in H. repeat match type of H with context [if ?b then _ else _] => destruct b eqn:? end; lia. Qed.
Lemma zh_ptr_inv : forall e z z' o, zinv z -> zh_set_daq_ptr c p e z = Ok (z', o) -> zinv z'.
Proof.
  intros e z z' o I H. unfold zh_set_daq_ptr in H. apply stop_inv in H; auto. destruct H as [(H & Hr)|H]; auto.
  apply pidle_inv in H; auto. destruct H as [(H & _)|H]; auto. apply unl_inv in H; auto. destruct H as [H|H]; auto.
  apply bind_Ok in H. destruct H as (ok & Hv & H). destruct ok; cbn [negb] in H; [|eapply lift_err; eauto].
  unfold svalidate in Hv. destruct (beyond c _ (count_of p)) eqn:Eb; [discriminate|]. clear Hv.
  apply lift_Ok in H. destruct H as (s & H & ->). apply pos_quiet in H. set (s1 := upd_daq _ _) in H.
  pose proof I as (I1 & I2 & I2' & I3 & I4 & I5).
  assert (J : zinv (with_st s1 z)).
  { split; [|split; [exact I2|split; [exact I2'|split; [exact I3|split; [|exact I5]]]]].
    - unfold s1, upd_daq. cbn [with_st z_st]. apply sinv_dgood; auto. unfold dgood, same_tables. ss. repeat split; auto; apply (d_qinv _ _ (i_d _ _ I1)).
    - intro Z. cbn. now apply beyond_lt. }
  apply (zinv_quiet _ s) in J; auto.
Qed.
(** Beyond the last list there is nothing to write to. *)
Lemma no_entry : forall l o k i, count_of p <= l -> entry_idx c p l o k <> Ok i.
Proof.
  intros l o k i H. unfold entry_idx, odt_conf, list_conf. unfold count_of in H. destruct (getN (pr_lists p) l) eqn:E; [|discriminate].
  apply getN_Some_lt in E. lia.
Qed.
Lemma zh_write_inv : forall e z z' o, zinv z -> zh_write_daq c p e z = Ok (z', o) -> zinv z'.
Proof.
  intros e z z' o I H. unfold zh_write_daq in H. apply stop_inv in H; auto. destruct H as [(H & Hr)|H]; auto.
  apply pidle_inv in H; auto. destruct H as [(H & _)|H]; auto. apply unl_inv in H; auto. destruct H as [H|H]; auto.
  destruct (N.ltb_spec (d_plist (s_daq (z_st z))) (count_of p)); [eapply lift_res; eauto|]. exfalso.
  apply bind_Ok in H. destruct H as (z1 & H1 & _). unfold swrite in H1. apply bind_Ok in H1. destruct H1 as (i & H1 & _). now apply no_entry in H1.
Qed.
Lemma zh_writes_inv : forall e z z' o, zinv z -> zh_write_daq_multiple c p e z = Ok (z', o) -> zinv z'.
Proof.
  intros e z z' o I H. unfold zh_write_daq_multiple in H. destruct (_ <? _); [eapply lift_res; eauto|]. apply stop_inv in H; auto. destruct H as [(H & Hr)|H]; auto.
  apply pidle_inv in H; auto. destruct H as [(H & _)|H]; auto. apply unl_inv in H; auto. destruct H as [H|H]; auto.
  destruct (N.ltb_spec (d_plist (s_daq (z_st z))) (count_of p)); [eapply lift_res; eauto|]. destruct (_ <? _); [discriminate|].
  apply bind_Ok in H. destruct H as (z1 & H1 & H2). destruct (N.to_nat _) as [|n]; cbn [swrites] in H1.
  - injection H1 as <-. eapply lift_pos; eauto.
  - exfalso. apply bind_Ok in H1. destruct H1 as (z2 & H1 & _). unfold swrite in H1. apply bind_Ok in H1. destruct H1 as (i & H1 & _). now apply no_entry in H1.
Qed.
Lemma modes_upd : forall z l m, zinv z -> m < 256 -> zinv (with_modes (updN (z_modes z) l m) z).
Proof.
  intros z l m (A & B & B' & C & D & E) Hm. split; [exact A|]. split; [|split; [|auto]]; cbn [z_modes with_modes].
  - now rewrite lenN_upd.
  - apply Forall_upd; auto.
Qed.
Lemma mode_lt : forall z l m, zinv z -> mode_get z l = Ok m -> m < 256.
Proof.
  intros z l m (_ & _ & B & _) H. unfold mode_get in H. destruct (getN _ _) eqn:E; [|discriminate]. injection H as <-. rewrite Forall_forall in B. apply B. eapply getN_In; eauto.
Qed.
Lemma zh_mode_inv : forall e z z' o, zinv z -> zh_set_daq_list_mode c p e z = Ok (z', o) -> zinv z'.
Proof.
  intros e z z' o I H. unfold zh_set_daq_list_mode in H. apply stop_inv in H; auto. destruct H as [(H & Hr)|H]; auto.
  apply pidle_inv in H; auto. destruct H as [(H & _)|H]; auto. apply unl_inv in H; auto. destruct H as [H|H]; auto.
  destruct (_ =? 2); [eapply lift_err; eauto|]. destruct (_ =? 1); [eapply lift_err; eauto|]. destruct (1 <? _); [eapply lift_err; eauto|].
  apply bind_Ok in H. destruct H as (d & Hd & H). apply bind_Ok in H. destruct H as (old & Ho & H). apply lift_pos in H; auto.
  change (updN (z_modes z)) with (updN (z_modes (with_st (set_s_daq d (z_st z)) z))). apply modes_upd; [|apply apply_mode_lt; eapply mode_lt; eauto].
  unfold add_event in Hd. destruct (_ <? _) eqn:El; [|discriminate]. injection Hd as <-.
  pose proof I as (I1 & I2 & I2' & I3 & I4 & I5). split; [|auto]. cbn [with_st z_st]. apply sinv_dgood; auto.
  unfold dgood, same_tables. ss. rewrite lenN_upd. repeat split; auto; try apply (d_qinv _ _ (i_d _ _ I1)). intro B. apply Forall_upd; auto. apply u8_lt.
Qed.
Lemma zh_list_inv : forall e z z' o, zinv z -> zh_start_stop_list c p e z = Ok (z', o) -> zinv z'.
Proof.
  intros e z z' o I H. unfold zh_start_stop_list in H.
  apply pidle_inv in H; auto. destruct H as [(H & _)|H]; auto. apply unl_inv in H; auto. destruct H as [H|H]; auto.
  apply sthen_Ok in H. destruct H as (z1 & o1 & o2 & H1 & H & _).
  assert (J : zinv z1). { destruct (_ <=? _); [eapply lift_err; eauto|]. injection H1 as <- <-. exact I. }
  destruct (2 <? _); [eapply lift_err; eauto|]. apply bind_Ok in H. destruct H as (z2 & H2 & H).
  apply bind_Ok in H. destruct H as (r & _ & H). apply lift_send8 in H; auto; [destruct r; bytes_tac|].
  destruct (_ =? 2); [|injection H2 as <-; exact J]. apply bind_Ok in H2. destruct H2 as (old & Ho & H2). injection H2 as <-.
  apply modes_upd; auto. apply lor_lt8; [eapply mode_lt; eauto|lia].
Qed.
Lemma ss_lt : forall b m, m < 256 -> ss_mode b m < 256.
Proof. intros b m H. unfold ss_mode. destruct (_ =? _); auto. apply land_lt8. destruct b; [apply lor_lt8|apply land_lt8]; auto. lia. Qed.
Lemma ss_all_inv : forall b z, zinv z -> zinv (ss_all b z).
Proof.
  intros b z (A & B & B' & C). split; [exact A|]. split; [cbn; now rewrite lenN_map|]. split; [|exact C].
  cbn. apply Forall_forall. intros x Hx. apply in_map_iff in Hx. destruct Hx as (y & <- & Hy). apply ss_lt. rewrite Forall_forall in B'. auto.
Qed.
Lemma run_inv_z : forall b z, zinv z -> (b = true -> pgm_on (z_st z) = false) -> zinv (with_st (upd_daq (set_d_run b) (z_st z)) z).
Proof.
  intros b z I Hp. pose proof I as (I1 & I2). split; [|exact I2]. cbn [with_st z_st]. unfold upd_daq. apply sinv_dgood; auto.
  unfold dgood, same_tables. ss. repeat split; auto; apply (d_qinv _ _ (i_d _ _ I1)).
Qed.
Lemma zh_synch_inv : forall e z z' o, zinv z -> zh_start_stop_synch c e z = Ok (z', o) -> zinv z'.
Proof.
  intros e z z' o I H. unfold zh_start_stop_synch in H.
  apply pidle_inv in H; auto. destruct H as [(H & Hp)|H]; auto. apply unl_inv in H; auto. destruct H as [H|H]; auto.
  destruct (_ =? 1).
  - apply lift_pos in H; auto. apply run_inv_z; [now apply ss_all_inv|]. intros _. exact Hp.
  - destruct (_ =? 0).
    + apply lift_pos in H; auto. apply run_inv_z; [now apply ss_all_inv|discriminate].
    + destruct (_ =? 2); [|eapply lift_err; eauto]. apply lift_pos in H; auto. now apply ss_all_inv.
Qed.
Lemma zh_pinfo_inv : forall e z z' o, zinv z -> zh_daq_processor_info c p e z = Ok (z', o) -> zinv z'.
Proof.
  intros e z z' o I H. unfold zh_daq_processor_info in H.
  apply pidle_inv in H; auto. destruct H as [(H & _)|H]; auto. apply unl_inv in H; auto. destruct H as [H|H]; auto.
  apply lift_send8 in H; auto. assert (sproperties c < 256) by (unfold sproperties; destruct (c_prescaler c), (c_ts c); reflexivity). bytes_tac.
Qed.
Lemma zh_linfo_inv : forall e z z' o, zinv z -> zh_daq_list_info c p e z = Ok (z', o) -> zinv z'.
Proof.
  intros e z z' o I H. unfold zh_daq_list_info in H.
  apply pidle_inv in H; auto. destruct H as [(H & _)|H]; auto. apply unl_inv in H; auto. destruct H as [H|H]; auto.
  apply sthen_Ok in H. destruct H as (z1 & o1 & o2 & H1 & H & _).
  assert (J : zinv z1). { destruct (_ <=? _); [eapply lift_err; eauto|]. injection H1 as <- <-. exact I. }
  apply bind_Ok in H. destruct H as ((n & f) & _ & H). apply lift_send8 in H; auto. bytes_tac.
Qed.
Lemma own_inv : forall k h e z z' o, own c p k = Some h -> zinv z -> h e z = Ok (z', o) -> zinv z'.
Proof.
  intros k h e z z' o K I H. unfold own in K.
  repeat match type of K with
  | context [match ?x with _ => _ end] => is_var x; destruct x; try discriminate
  end.
  all: try (destruct (c_opt c 0xF7); [|discriminate]); try (destruct (c_daq c); [|discriminate]); cbn [andb] in K;
    try (match type of K with (if ?b then _ else _) = _ => destruct b; [|discriminate] end); injection K as <-.
  all: eauto using zh_disc_inv, zh_unlock_inv, zh_ptr_inv, zh_write_inv, zh_writes_inv, zh_mode_inv, zh_list_inv, zh_synch_inv, zh_pinfo_inv, zh_linfo_inv.
Qed.
End Inv.
