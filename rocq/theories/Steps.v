(** The invariants at the level of API operations and runs. *)
From Coq Require Import NArith ZArith List Bool Lia ZifyBool ZifyNat ZifyN.
From Verif Require Import Base Config Codec Checksum State Queue Daq Core Spec Lists Effects Handlers HTx HInv HInv2
  HFields HResp DaqInv HSpec.
Import ListNotations.
Open Scope N_scope.
Ltac Zify.zify_post_hook ::= Z.div_mod_to_equations.

Lemma andthen_Ok : forall r f s o, andthen r f = Ok (s, o) ->
  exists s1 o1 o2, r = Ok (s1, o1) /\ f s1 = Ok (s, o2) /\ o = o1 ++ o2.
Proof.
  unfold andthen. intros r f s o H. apply bind_Ok in H. destruct H as ((s1 & o1) & H1 & H).
  apply bind_Ok in H. destruct H as ((s2 & o2) & H2 & H). apply Ok_inj in H. injection H as <- <-.
  eauto 6.
Qed.

Lemma entries_cmd : forall c (P : N -> handler -> Prop) k h, entries c P -> k < 256 ->
  getN (table c) (255 - k) = Some h -> P k h.
Proof. intros c P k h H K G. apply H in G. now replace (255 - (255 - k)) with k in G by lia. Qed.

(** ** Reception *)

Lemma receive_Ok : forall c e f s s' o, receive c e f s = Ok (s', o) ->
  (f = [] /\ s' = s /\ o = []) \/
  exists k t, f = k :: t /\ lenN f <= c_ctobuf c /\
   ((s_conn s = true /\ s_busy s = true /\ busy_response c (set_s_in (splice (s_in s) 0 f) s) = Ok (s', o)) \/
    (((s_conn s = true /\ s_busy s = false) \/ (s_conn s = false /\ k = 0xFF)) /\
      exists h, getN (table c) (255 - k) = Some h /\
        h e (count_ctos c (set_s_in (splice (s_in s) 0 f) s)) = Ok (s', o)) \/
    (s_conn s = false /\ k <> 0xFF /\ s' = count_ctos c (set_s_in (splice (s_in s) 0 f) s) /\ o = [])).
Proof.
  intros c e f s s' o H. unfold receive in H. destruct f as [|k t].
  - left. cbn in H. inv. auto.
  - right. exists k, t. rewrite lenN_cons in H. destruct (N.eqb_spec (lenN t + 1) 0); [lia|].
    rewrite <- (lenN_cons _ k t) in H. destruct (N.ltb_spec (c_ctobuf c) (lenN (k :: t))); [discriminate|].
    split; [reflexivity|]. split; [assumption|].
    unfold dispatch in H. destruct (_ <? 8) eqn:E8; [discriminate|].
    change (s_conn (set_s_in _ s)) with (s_conn s) in H. change (s_busy (set_s_in _ s)) with (s_busy s) in H.
    change (gb (s_in (set_s_in (splice (s_in s) 0 (k :: t)) s)) 0) with k in H.
    destruct (s_conn s) eqn:C; [destruct (s_busy s) eqn:B|].
    + left. auto.
    + right; left. destruct (getN (table c) (255 - k)) as [h|] eqn:G; [|discriminate]. split; [auto|]. eauto.
    + right. destruct (N.eqb_spec k 0xFF).
      * left. subst k. split; [auto|]. exists (h_connect c). split; [reflexivity|exact H].
      * right. apply Ok_inj in H. injection H as <- <-. auto.
Qed.

(** ** The invariant *)

Record sinv (c : cfg) (s : st) : Prop := mkI {
  i_b : binv c s;
  i_d : dinv c (s_daq s);
  i_pgm : c_pgm c = false -> pgm_on s = false;
  i_daq : c_daq c = false -> d_run (s_daq s) = false;
  i_excl : pgm_on s = true -> d_run (s_daq s) = false
}.

Lemma binv_in : forall c s f, binv c s -> bytes f -> lenN f <= c_ctobuf c ->
  binv c (count_ctos c (set_s_in (splice (s_in s) 0 f) s)) /\ binv c (set_s_in (splice (s_in s) 0 f) s).
Proof.
  intros c s f [] Hf L. split; apply binv_conj; ss; repeat split; auto.
  all: try (rewrite lenN_splice; rewrite ?b_in; auto; lia).
  all: apply bytes_splice; auto.
Qed.

Lemma sinv_in : forall c s f, sinv c s -> bytes f -> lenN f <= c_ctobuf c ->
  sinv c (count_ctos c (set_s_in (splice (s_in s) 0 f) s)).
Proof. intros c s f [] Hf L. constructor; auto. apply binv_in; auto. Qed.

Lemma tx_eq_state : forall c s0 s s' o, s_ctr s0 = s_ctr s -> s_cros s0 = s_cros s -> tx c s0 o s' -> tx c s o s'.
Proof. unfold tx. intros c s0 s s' o -> ->. auto. Qed.

Lemma busy_Ok : forall c s s' o, busy_response c s = Ok (s', o) ->
  exists ob, lenN ob = lenN (s_out s) /\
    s' = bump c (set_s_out ob (set_s_crosb (if c_stats c then u32 (s_crosb s + 1) else s_crosb s) s)) /\
    (bytes (s_out s) -> bytes ob) /\
    exists n, n <= lenN ob /\ (8 <= c_max_cto c -> 1 <= n) /\ o = [mkPkt false (mk_hdr c n (s_ctr s)) (takeN n ob)].
Proof.
  intros c s s' o H. unfold busy_response, err in H. apply send8_o in H.
  destruct H as (ob & n & L & B & N1 & N2 & -> & ->). exists ob.
  destruct (c_stats c); (split; [exact L|]); (split; [reflexivity|]).
  all: split; [intros; apply B; auto; repeat constructor|].
  all: exists n; rewrite L; repeat split; auto; intros; apply N2; lia.
Qed.

Lemma binv_bump : forall c s, binv c s -> binv c (bump c s).
Proof. intros c s []. apply binv_conj; ss; repeat split; auto using bump_ctr_lt, bump_cros_lt. Qed.

Lemma receive_inv : forall c e f s s' o, wf_cfg c -> wf_env c e -> bytes f -> sinv c s ->
  receive c e f s = Ok (s', o) -> sinv c s' /\ tx c s o s'.
Proof.
  intros c e f s s' o W We Hf I H. apply receive_Ok in H.
  destruct H as [(-> & -> & ->)|(k & t & E & L & H)]; [split; auto; now apply tx_refl|].
  destruct (binv_in c s f (i_b c s I) Hf L) as (B1 & B2).
  destruct H as [(Hc & Hb & H)|[(_ & h & G & H)|(Hc & Hk & -> & ->)]].
  - apply busy_Ok in H. destruct H as (ob & Lo & -> & Bo & n & Ln & Ln1 & ->).
    specialize (Bo (b_outb _ _ B2)). change (lenN ob = lenN (s_out s)) in Lo. rewrite (b_out _ _ (i_b _ _ I)) in Lo.
    pose proof (wf_cto c W). split.
    + constructor; [|apply I..]. apply binv_bump.
      destruct B2. apply binv_conj; ss; ss_in b_in; ss_in b_inb; repeat split; auto; apply I.
    + apply tx_one; auto; lia.
  - assert (K : k < 256) by (subst f; inversion Hf; auto).
    pose proof (sinv_in c s f I Hf L) as I1. set (s1 := count_ctos c (set_s_in (splice (s_in s) 0 f) s)) in *.
    pose proof (entries_cmd c _ k h (binv_entries c e W We) K G s1 s' o (i_b _ _ I1) H) as IB.
    pose proof (entries_cmd c _ k h (dinv_entries c e W) K G s1 s' o (b_inb _ _ (i_b _ _ I1)) (i_d _ _ I1) H) as ID.
    pose proof (entries_cmd c _ k h (tx_entries c e W We) K G s1 s' o (i_b _ _ I1) H) as IT.
    pose proof (entries_cmd c _ k h (pgm_entries c e) K G s1 s' o H) as (P1 & P2).
    split.
    + destruct I1 as [_ _ Ip Iq Ie]. constructor; auto.
      * intro Z. specialize (Ip Z). destruct P1 as [P1|[(_ & P1 & _)|(_ & P1 & P1')]]; unfold pgm_on in *.
        -- now rewrite P1.
        -- congruence.
        -- now rewrite P1'.
      * intro Z. specialize (Iq Z). destruct P2 as [P2|[P2|(_ & P2 & _)]]; congruence.
      * intro Z. destruct P1 as [P1|[(_ & Pc & P1 & _ & P1' & P1'')|(_ & P1 & P1')]].
        -- assert (Z1 : pgm_on s1 = true) by (unfold pgm_on in *; now rewrite <- P1). specialize (Ie Z1).
           destruct P2 as [P2|[P2|(_ & _ & P2 & _)]]; try congruence.
           rewrite Z1 in P2. destruct (c_pgm c) eqn:Ec; [discriminate|]. rewrite Ip in Z1 by auto. discriminate.
        -- rewrite P1''. destruct (c_daq c) eqn:Ec; [exact P1'|auto].
        -- unfold pgm_on in Z. rewrite P1' in Z. discriminate.
    + eapply tx_eq_state; [| |exact IT]; reflexivity.
  - split; [now apply sinv_in|]. apply tx_refl; reflexivity.
Qed.

(** ** Main function *)

Lemma block_end_inv : forall c s s1 s' o o', sinv c s1 -> tx c s o s1 ->
  (if s_srem s1 =? 0 then s2 <- sbm_set_active c false s1 ;; Ok (s2, []) else Ok (s1, [])) = Ok (s', o') ->
  sinv c s' /\ tx c s (o ++ o') s'.
Proof.
  intros c s s1 s' o o' I T H. destruct (_ =? _).
  - apply bind_Ok in H. destruct H as (s2 & H2 & H). apply sbm_set_active_Ok in H2.
    apply Ok_inj in H. injection H as <- <-. subst s2. rewrite app_nil_r. split; [|exact T].
    destruct I. constructor; auto. destruct i_b0. apply binv_conj; ss; repeat split; auto.
  - inv. rewrite app_nil_r. auto.
Qed.

Lemma upload_block_inv : forall c e s s' o, wf_cfg c -> wf_env c e -> sinv c s -> upload_block c e s = Ok (s', o) ->
  sinv c s' /\ tx c s o s'.
Proof.
  intros c e s s' o W We I H. unfold upload_block in H. pose proof (wf_cto c W) as Wc.
  destruct (s_sact s) eqn:A; cbn [negb] in H; [|inv; split; [auto|now apply tx_refl]].
  set (last := s_srem s <=? c_max_cto c - 1) in *. set (len := if last then _ else _) in *.
  apply bind_Ok in H. destruct H as (s1 & H1 & H). apply bind_Ok in H. destruct H as (s2 & H2 & H).
  apply andthen_Ok in H. destruct H as (s3 & o1 & o2 & H3 & H4 & ->).
  apply poke_o in H1. destruct H1 as (ob1 & L1 & B1 & ->). ss_in L1.
  apply copy_out_o in H2. destruct H2 as (ob2 & L2 & B2 & Hn & ->). ss_in L2. ss_in B2.
  apply send_cto_Ok in H3. destruct H3 as (L3 & -> & ->). ss_in L3.
  destruct (i_b c s I). specialize (B1 b_outb ltac:(repeat constructor)). specialize (B2 B1 b_mem).
  assert (Lb : lenN ob2 = c_max_cto c) by congruence.
  assert (Hsr : len <= s_srem s) by (unfold len, last; destruct (N.leb_spec (s_srem s) (c_max_cto c - 1)); lia).
  eapply block_end_inv; [| |exact H4].
  - destruct I. constructor; auto. apply binv_bump. apply binv_conj; ss; repeat split; auto using mod_aspace_lt; lia.
  - apply tx_one; auto; try lia. destruct last; [destruct (c_max_dlc c)|]; lia.
Qed.

Lemma binv_job : forall c s j, binv c s -> binv c (set_s_job j s).
Proof. intros c s j []. apply binv_conj; ss; repeat split; auto. Qed.
Lemma sinv_job : forall c s j, sinv c s -> sinv c (set_s_job j s).
Proof. intros c s j []. constructor; auto using binv_job. Qed.
Lemma sinv_busy : forall c s b, sinv c s -> sinv c (set_s_busy b s).
Proof. intros c s b []. constructor; auto. destruct i_b0. apply binv_conj; ss; repeat split; auto. Qed.
Lemma sinv_send : forall c s ob, sinv c s -> lenN ob = c_max_cto c -> bytes ob -> sinv c (bump c (set_s_out ob s)).
Proof. intros c s ob [] L B. constructor; auto. apply binv_bump. destruct i_b0. apply binv_conj; ss; repeat split; auto. Qed.

Lemma checksum_main_inv : forall c s s' o, wf_cfg c -> sinv c s -> checksum_main c s = Ok (s', o) ->
  sinv c s' /\ tx c s o s'.
Proof.
  intros c s s' o W I H. unfold checksum_main in H. pose proof (wf_cto c W) as Wc.
  destruct (j_state (s_job s)).
  - inv. split; auto; now apply tx_refl.
  - inv. split; [now apply sinv_job|now apply tx_refl].
  - inv. split; [now apply sinv_job|now apply tx_refl].
  - apply bind_Ok in H. destruct H as (v & Hv & H). apply bind_Ok in H. destruct H as (s1 & Hb & H).
    apply set_busy_Ok in Hb. apply andthen_Ok in H. destruct H as (s2 & o1 & o2 & H2 & H3 & ->).
    apply Ok_inj in H3. injection H3 as <- <-. unfold send_checksum in H2.
    apply send8_o in H2. destruct H2 as (ob & n & L & B & N1 & N2 & -> & ->). subst s1. ss_in L. ss_in B. ss_in N1.
    rewrite (b_out _ _ (i_b _ _ I)) in *.
    assert (Bo : bytes ob).
    { apply B; [apply I|]. bytes_tac. }
    rewrite app_nil_r. split.
    + apply sinv_job. apply sinv_send; auto. apply sinv_busy, sinv_job, I.
    + apply tx_one; auto. apply N2; lia.
Qed.

(** ** Event triggers *)

Lemma sinv_q : forall c s q, sinv c s -> qinv c q -> sinv c (upd_daq (set_d_q q) s).
Proof.
  intros c s q [] Q. constructor; auto.
  - destruct i_b0. apply binv_conj; ss; repeat split; auto.
  - destruct i_d0. constructor; auto.
Qed.

Lemma transmit_inv : forall c n s s' o, wf_cfg c -> sinv c s -> transmit c n s = Ok (s', o) -> sinv c s' /\ tx c s o s'.
Proof.
  induction n; intros s s' o W I H; cbn [transmit] in H.
  - inv. split; auto. now apply tx_refl.
  - apply bind_Ok in H. destruct H as ((data & q) & H1 & H). unfold send_dto in H.
    apply bind_Ok in H. destruct H as ((s2 & o2) & H2 & H). apply Ok_inj in H. injection H as <- <-.
    pose proof (wf_dto c W).
    apply dequeue_Ok in H1; auto; [|apply I]. destruct H1 as (Q & B & L).
    assert (I1 : sinv c (bump c (upd_daq (set_d_q q) s))).
    { pose proof (sinv_q c s q I Q) as [X1 X2 X3 X4 X5]. constructor; auto. now apply binv_bump. }
    apply IHn in H2; auto. destruct H2 as (I2 & T2). split; auto.
    match goal with |- tx c s (?p :: o2) s2 => apply (tx_trans c s [p] (bump c (upd_daq (set_d_q q) s)) o2 s2) end;
      [apply (wf_ctr c W)| |exact T2]. apply tx_pkt; auto; cbn [p_data p_dto]; lia.
Qed.

Lemma trigger_inv : forall c e ev s s' o, wf_cfg c -> sinv c s -> trigger c e ev s = Ok (s', o) -> sinv c s' /\ tx c s o s'.
Proof.
  intros c e ev s s' o W I H. unfold trigger in H. destruct (negb (c_daq c)); [inv; split; [auto|now apply tx_refl]|].
  apply bind_Ok in H. destruct H as (r & H1 & H). destruct r as [q|]; [|inv; split; [auto|now apply tx_refl]].
  apply sample_event_qinv in H1; [|exact W|exact (b_mem _ _ (i_b _ _ I))|exact (d_qinv _ _ (i_d _ _ I))].
  apply transmit_inv in H; auto using sinv_q.
Qed.

Lemma special_inv : forall c ty code info s s' o, wf_cfg c -> ty < 256 -> bytes info -> sinv c s ->
  special c ty code info s = Ok (s', o) -> sinv c s' /\ tx c s o s'.
Proof.
  intros c ty code info s s' o W T B I H. unfold special in H. pose proof (wf_cto c W) as Wc.
  apply bind_Ok in H. destruct H as (s1 & H1 & H). apply poke_o in H1. destruct H1 as (ob & L & Bo & ->).
  apply send_cto_Ok in H. destruct H as (L2 & -> & ->). ss_in L2. rewrite (b_out _ _ (i_b _ _ I)) in L.
  assert (bytes ob).
  { apply Bo; [apply I|]. cbn [app]. constructor; auto. constructor; [apply u8_lt|]. now apply bytes_take. }
  split; [now apply sinv_send|]. apply tx_one; auto; try lia; destruct (c_max_dlc c); lia.
Qed.

(** ** Initialisation and disconnect *)

Lemma daq_init_st_inv : forall c s s', sinv c s -> daq_init_st c s = Ok s' -> sinv c s' /\ s_ctr s' = s_ctr s /\ s_cros s' = s_cros s.
Proof.
  intros c s s' I H. apply daq_init_st_Ok in H. destruct H as [(_ & ->)|(Hc & d & Hd & ->)]; [auto|].
  split; [|split; reflexivity]. pose proof (dinv_init c _ _ (i_d _ _ I) Hd) as D.
  apply daq_init_run in Hd. destruct Hd as (R & _). destruct I. constructor; auto.
  destruct i_b0. apply binv_conj; ss; repeat split; auto.
Qed.

Lemma default_prot_inv : forall c s, sinv c s -> sinv c (default_prot c s).
Proof.
  intros c s []. constructor; auto. pose proof (dp_prot_lt c s). pose proof (dp_seed_lt c s). destruct i_b0.
  apply binv_conj; repeat split; auto.
Qed.

Lemma disconnect_inv : forall c s s', sinv c s -> xcp_disconnect c s = Ok s' -> sinv c s' /\ s_ctr s' = s_ctr s /\ s_cros s' = s_cros s.
Proof. unfold xcp_disconnect. intros. apply daq_init_st_inv in H0; auto using default_prot_inv. Qed.

Lemma init_inv : forall c s s', dinv c (s_daq s) -> lenN (s_in s) = c_ctobuf c -> bytes (s_in s) -> lenN (s_out s) = c_max_cto c ->
  bytes (s_out s) -> (forall x, s_mem s x < 256) -> xcp_init c s = Ok s' -> sinv c s'.
Proof.
  intros c s s' D A1 A2 A3 A4 A5 H. unfold xcp_init in H. apply bind_Ok in H. destruct H as (s1 & H1 & H).
  apply Ok_inj in H. subst s'. apply daq_init_st_inv in H1.
  - destruct H1 as (I & _ & _). destruct (job_on c); auto using sinv_job.
  - apply default_prot_inv. constructor; try reflexivity.
    + apply binv_conj. cbn [s_in s_out s_prot s_seed s_mext s_maddr s_srem s_mrem s_held s_mem s_ctr s_cros].
      repeat split; auto; try exact eq_refl. apply aspace_pos.
    + cbn [s_daq]. apply (dinv_same c (s_daq s)); auto. repeat split. apply D.
Qed.

Lemma power_on_dinv : forall c m, wf_cfg c -> dinv c (s_daq (power_on c m)).
Proof.
  intros c m W. cbn [s_daq power_on]. constructor; cbn [d_ents d_lfe d_mode d_q].
  - rewrite lenN_repeat. lia.
  - unfold layout. cbn [d_lcnt d_ocnt d_ecnt d_ents]. split; [lia|]. split; [lia|].
    intros i x G. rewrite getN_repeat in G. destruct (_ <? _); [|discriminate]. injection G as <-.
    unfold kind_at. destruct (N.ltb_spec i 0); [lia|]. destruct (N.ltb_spec i (0 + 0)); [lia|]. reflexivity.
  - reflexivity.
  - rewrite lenN_repeat. reflexivity.
  - apply Forall_forall. intros x Hx. apply repeat_spec in Hx. subst. lia.
  - lia.
  - unfold qinv. cbn [q_head q_tail q_slots]. rewrite lenN_repeat, (wf_qs c W). repeat split; try lia.
    apply Forall_forall. intros x Hx. apply repeat_spec in Hx. subst. unfold slot_ok. cbn. repeat split; try lia. constructor.
Qed.

Lemma bytes_repeat0 : forall n, bytes (repeat 0 n).
Proof. intros. apply Forall_forall. intros x Hx. apply repeat_spec in Hx. subst. lia. Qed.

Lemma boot_inv : forall c m s, wf_cfg c -> wf_mem m -> boot c m = Ok s -> sinv c s.
Proof.
  intros c m s W M H. unfold boot in H. apply init_inv in H; auto using power_on_dinv.
  all: cbn [s_in s_out power_on]; rewrite ?lenN_repeat; auto using bytes_repeat0; lia.
Qed.

Lemma step_inv : forall c e op s s' o, wf_cfg c -> wf_op c (e, op) -> sinv c s -> step c e op s = Ok (s', o) ->
  sinv c s' /\ (op <> OInit -> tx c s o s').
Proof.
  intros c e op s s' o W (We & Wo) I H. cbn [fst snd] in *.
  assert (T0 : sinv c s /\ (op <> OInit -> tx c s [] s)) by (split; [auto|intro; now apply tx_refl]).
  destruct op; cbn [step] in H.
  - apply receive_inv in H; auto; destruct H; auto.
  - unfold main_function in H. apply andthen_Ok in H. destruct H as (s1 & o1 & o2 & H1 & H2 & ->).
    assert (X : sinv c s1 /\ tx c s o1 s1).
    { destruct (c_sbm c); [eapply upload_block_inv; eauto|]. inv. split; [auto|now apply tx_refl]. }
    destruct X as (I1 & T1).
    assert (X : sinv c s' /\ tx c s1 o2 s').
    { destruct (job_on c); [eapply checksum_main_inv; eauto|]. inv. split; [auto|now apply tx_refl]. }
    destruct X as (I2 & T2). split; auto. intro. eapply tx_trans; eauto. apply W.
  - apply trigger_inv in H; auto; destruct H; auto.
  - destruct (c_ev_api c); [|inv; auto]. apply special_inv in H; try tauto; lia.
  - destruct (c_srv_api c); [|inv; auto]. apply special_inv in H; try tauto; lia.
  - inv. split; [|intro; now apply tx_refl]. destruct I. constructor; auto.
    destruct i_b0. apply binv_conj; ss; repeat split; auto. intro. now apply mwrite_bytes.
  - inv. apply disconnect_inv in H; auto. destruct H as (I1 & A & B). split; auto. intro. now apply tx_refl.
  - inv. split; [|intro; now apply tx_refl]. destruct I. constructor; auto.
    destruct i_b0. apply binv_conj; ss; repeat split; auto; tauto.
  - inv. apply set_busy_Ok in H. subst s'. split; [now apply sinv_busy|intro; now apply tx_refl].
  - inv. split; [|congruence]. pose proof (i_b _ _ I) as []. eapply init_inv; eauto. apply I.
Qed.

(** ** Runs *)

Lemma run_cons : forall c e op l s s' o, run c ((e, op) :: l) s = Ok (s', o) ->
  exists s1 o1 o2, step c e op s = Ok (s1, o1) /\ run c l s1 = Ok (s', o2) /\ o = o1 ++ o2.
Proof. intros. cbn [run] in H. now apply andthen_Ok in H. Qed.

Lemma run_app : forall c l1 l2 s s' o, run c (l1 ++ l2) s = Ok (s', o) ->
  exists s1 o1 o2, run c l1 s = Ok (s1, o1) /\ run c l2 s1 = Ok (s', o2) /\ o = o1 ++ o2.
Proof.
  induction l1 as [|(e & op) l1 IH]; intros l2 s s' o H.
  - exists s, [], o. auto.
  - cbn [app] in H. apply run_cons in H. destruct H as (s1 & o1 & o2 & H1 & H2 & ->).
    apply IH in H2. destruct H2 as (s2 & o3 & o4 & H3 & H4 & ->).
    exists s2, (o1 ++ o3), o4. split; [|split; [auto|now rewrite app_assoc]].
    cbn [run]. unfold andthen. rewrite H1. cbn [bind]. rewrite H3. reflexivity.
Qed.

Lemma run_inv : forall c l s s' o, wf_cfg c -> wf_run c l -> sinv c s -> run c l s = Ok (s', o) -> sinv c s'.
Proof.
  induction l as [|(e & op) l IH]; intros s s' o W R I H.
  - cbn in H. inv. auto.
  - apply run_cons in H. destruct H as (s1 & o1 & o2 & H1 & H2 & _). inversion R; subst.
    pose proof (step_inv _ _ _ _ _ _ W H3 I H1) as (I1 & _). eapply IH; eauto.
Qed.

Definition no_init (l : list (env * op)) : Prop := Forall (fun x => snd x <> OInit) l.

Lemma run_tx : forall c l s s' o, wf_cfg c -> wf_run c l -> sinv c s -> no_init l -> run c l s = Ok (s', o) ->
  sinv c s' /\ tx c s o s'.
Proof.
  induction l as [|(e & op) l IH]; intros s s' o W R I NI H.
  - cbn in H. inv. split; [auto|now apply tx_refl].
  - apply run_cons in H. destruct H as (s1 & o1 & o2 & H1 & H2 & ->). inversion R; subst. inversion NI; subst.
    pose proof (step_inv _ _ _ _ _ _ W H3 I H1) as (I1 & T1). destruct (IH _ _ _ W H4 I1 H6 H2) as (I2 & T2).
    split; auto. eapply tx_trans; eauto. apply W.
Qed.

Lemma reach_inv : forall c m l s o, reachable c m l s o -> sinv c s.
Proof.
  intros c m l s o (W & M & R & s0 & B & H). eapply run_inv; eauto. eapply boot_inv; eauto.
Qed.

Lemma reach_snoc : forall c m l e op s o, reachable c m (l ++ [(e, op)]) s o ->
  exists s1 o1 o2, reachable c m l s1 o1 /\ step c e op s1 = Ok (s, o2) /\ o = o1 ++ o2 /\ wf_op c (e, op).
Proof.
  intros c m l e op s o (W & M & R & s0 & B & H). apply run_app in H. destruct H as (s1 & o1 & o2 & H1 & H2 & ->).
  apply Forall_app in R. destruct R as (R1 & R2). inversion R2; subst.
  apply run_cons in H2. destruct H2 as (s2 & o3 & o4 & Hs & Hr & ->). cbn in Hr. inv. rewrite app_nil_r.
  exists s1, o1, o3.
  split; [split; [exact W|split; [exact M|split; [exact R1|exists s0; auto]]]|split; [exact Hs|split; auto]].
Qed.
