(** Queue and event assignment over executions; events (C40 - C43). *)
From Coq Require Import NArith ZArith List Bool Lia ZifyBool ZifyNat ZifyN.
From Verif Require Import Base Config Codec Checksum State Queue Daq Core Spec Lists Effects Handlers HTx HInv HInv2
  HFields HResp DaqInv HSpec Steps Demo Ops ProofsSession Exec ProofsFrames SpecProt ProofsProt SpecMem ProofsMem ProofsWrite SpecDaq ProofsDaqA ProofsDaqB ProofsDaqC ProofsDaqD ProofsDaqE.
Import ListNotations.
Open Scope N_scope.
Ltac Zify.zify_post_hook ::= Z.div_mod_to_equations.

(** ** What the commands do to queue and event assignment *)
Definition zeros (l : list N) : Prop := Forall (fun x => x = 0) l.
Definition qkeep (c : cfg) (d d' : daqst) : Prop :=
  (d_q d' = d_q d /\ (d_lfe d' = d_lfe d \/ zeros (d_lfe d'))) \/ exists d0, daq_init c d0 = Ok d'.
Lemma zeros_repeat : forall n, zeros (repeat 0 n).
Proof. intro n. apply Forall_forall. intros x H. now apply repeat_spec in H. Qed.
Lemma seq_keep : forall c d d' r, seq_error c d = Ok (d', r) -> qkeep c d d'.
Proof. intros c d d' r H. apply seq_code in H. destruct H as (_ & [(_ & ->)|(_ & H)]); [left; auto|right; eauto]. Qed.
Lemma alloc_keep : forall c n d d' r, daq_alloc c n d = Ok (d', r) -> qkeep c d d'.
Proof.
  intros c n d d' r H. unfold daq_alloc in H. destruct (negb _); [eapply seq_keep; eauto|].
  destruct (_ <? _); [injection H as <- <-; left; auto|]. destruct (existsb _ _); [discriminate|]. injection H as <- <-. left. ss. auto.
Qed.
Lemma alloc_odt_keep : forall c l n d d' r, daq_alloc_odt c l n d = Ok (d', r) -> qkeep c d d'.
Proof.
  intros c l n d d' r H. unfold daq_alloc_odt in H. destruct (negb _); [eapply seq_keep; eauto|].
  destruct (_ <? _); [injection H as <- <-; left; auto|]. apply bind_Ok in H. destruct H as (? & _ & H). apply bind_Ok in H. destruct H as ((? & ?) & _ & H).
  injection H as <- <-. left. ss. auto.
Qed.
Lemma alloc_entry_keep : forall c l k n d d' r, daq_alloc_entry c l k n d = Ok (d', r) -> qkeep c d d'.
Proof.
  intros c l k n d d' r H. unfold daq_alloc_entry in H. destruct (negb _); [eapply seq_keep; eauto|].
  destruct (_ <? _); [injection H as <- <-; left; auto|]. apply bind_Ok in H. destruct H as ((? & ?) & _ & H). apply bind_Ok in H. destruct H as (? & _ & H).
  injection H as <- <-. left. ss. auto.
Qed.
Lemma write_keep : forall c sz a d d', write_daq_entry c sz a d = Ok d' -> d_q d' = d_q d /\ d_lfe d' = d_lfe d.
Proof. unfold write_daq_entry. intros. invs. ss. auto. Qed.
Lemma multiple_keep : forall c buf n i d d', write_multiple c buf n i d = Ok d' -> d_q d' = d_q d /\ d_lfe d' = d_lfe d.
Proof.
  induction n; cbn; intros; invs; auto. match goal with H : write_multiple _ _ _ _ _ = _ |- _ => apply IHn in H; destruct H as (-> & ->) end. eapply write_keep; eauto.
Qed.
Lemma add_event_keep : forall l ev d d', add_event l ev d = Ok d' -> d_q d' = d_q d.
Proof. unfold add_event. intros. invs. reflexivity. Qed.
Lemma start_keep : forall b d, d_q (start_stop b d) = d_q d /\ d_lfe (start_stop b d) = d_lfe d.
Proof. intros. destruct (start_stop_same b d) as (_ & A & B & _). auto. Qed.
Lemma keep_refl : forall c d, qkeep c d d. Proof. intros. left. auto. Qed.

Lemma keep_entries : forall c e, entries c (fun k h => forall s s' o, h e s = Ok (s', o) ->
  qkeep c (s_daq s) (s_daq s') \/ k = 0xE0 /\ d_q (s_daq s') = d_q (s_daq s)).
Proof.
  intros c e. apply table_each; intros.
  all: try match goal with |- _ \/ 0xE0 = 0xE0 /\ _ => right; split; [reflexivity|] end; try left; crush_o; split_st; ss.
  all: try (apply keep_refl; fail); try reflexivity; try (left; ss; auto; fail); try (splitif; left; ss; auto; fail).
  all: try (eapply add_event_keep; eassumption).
  all: try (left; destruct (start_keep true (s_daq s)); destruct (start_keep false (s_daq s)); ss; auto; fail).
  all: try (eapply alloc_keep; eassumption); try (eapply alloc_odt_keep; eassumption); try (eapply alloc_entry_keep; eassumption).
  all: try (left; edestruct write_keep; [eassumption|]; auto; fail).
  all: try (left; edestruct multiple_keep; [eassumption|]; auto; fail).
  all: first [right; eexists; eassumption | left; split; [reflexivity|right; apply zeros_repeat]].
Qed.

Lemma init_queue : forall c d d', daq_init c d = Ok d' -> q_head (d_q d') = 0 /\ q_tail (d_q d') = 0 /\ zeros (d_lfe d').
Proof.
  intros c d d' H. pose proof (emptied_init _ _ _ H) as ((_ & _ & _ & _ & _ & Z) & _). unfold daq_init in H.
  set (d2 := daq_free c _) in H. clearbody d2. apply bind_Ok in H. destruct H as (q & Hq & H). injection H as H.
  unfold queue_init in Hq. destruct (_ <=? _); [|discriminate]. injection Hq as <-. split; [|split; [|exact Z]]; rewrite <- H; reflexivity.
Qed.

(** Effect of any operation on the queue and on the event assignment. *)
Lemma step_keep : forall c e x s s' o, wf_op c (e, x) -> step c e x s = Ok (s', o) -> (forall ev, x <> OTrigger ev) -> x <> OInit \/ c_daq c = true ->
  (d_q (s_daq s') = d_q (s_daq s) \/ exists d0, daq_init c d0 = Ok (s_daq s')) /\
  (d_lfe (s_daq s') = d_lfe (s_daq s) \/ zeros (d_lfe (s_daq s')) \/ exists f, x = ORecv (0xE0 :: f)).
Proof.
  intros c e x s s' o (_ & Wx) H Nt Ni. cbn [snd] in Wx.
  assert (K : qkeep c (s_daq s) (s_daq s') ->   (d_q (s_daq s') = d_q (s_daq s) \/ exists d0, daq_init c d0 = Ok (s_daq s')) /\
    (d_lfe (s_daq s') = d_lfe (s_daq s) \/ zeros (d_lfe (s_daq s')) \/ exists f, x = ORecv (0xE0 :: f))).
  { intros [(A & [B|B])|(d0 & A)]; auto. split; [eauto|]. right; left. eapply init_queue; eauto. }
  destruct x.
  - cbn [step] in H. apply receive_Ok in H. destruct H as [(_ & -> & _)|(k & f & -> & _ & H)]; [apply K; apply keep_refl|].
    assert (Hk : k < 256) by (inversion Wx; auto).
    destruct H as [(_ & _ & H)|[(_ & h & Hh & H)|(_ & _ & -> & _)]].
    + apply K. unfold busy_response in H. unfold_h. invs; repeat (leaf; subst); destruct (c_stats c); apply keep_refl.
    + destruct (entries_cmd _ _ _ _ (keep_entries c e) Hk Hh _ _ _ H) as [T|(-> & T)].
      * apply K. unfold count_ctos in T. destruct (c_stats c); exact T.
      * split; [|eauto]. left. rewrite T. unfold count_ctos. destruct (c_stats c); reflexivity.
    + apply K. unfold count_ctos. destruct (c_stats c); apply keep_refl.
  - cbn [step] in H. apply main_kept in H. destruct H as (_ & H). apply K. rewrite H. apply keep_refl.
  - exfalso. eapply Nt; reflexivity.
  - cbn [step] in H. apply K. destruct (c_ev_api c); [apply special_kept in H; destruct H as (H & _); unfold same_session in H|inv; apply keep_refl].
    replace (s_daq s') with (s_daq s) by (symmetry; apply H). apply keep_refl.
  - cbn [step] in H. apply K. destruct (c_srv_api c); [apply special_kept in H; destruct H as (H & _); unfold same_session in H|inv; apply keep_refl].
    replace (s_daq s') with (s_daq s) by (symmetry; apply H). apply keep_refl.
  - cbn [step] in H. inv. apply K, keep_refl.
  - cbn [step] in H. inv. apply disconnect_fields in H. destruct H as (d & -> & Hd). apply K. ss. destruct (c_daq c); [right; eauto|subst; apply keep_refl].
  - cbn [step] in H. inv. apply K, keep_refl.
  - cbn [step] in H. inv. apply set_busy_Ok in H. subst. apply K, keep_refl.
  - destruct Ni as [Ni|Ni]; [congruence|]. cbn [step] in H. inv. apply init_fields in H. destruct H as (_ & _ & _ & _ & _ & _ & _ & _ & _ & _ & H). rewrite Ni in H.
    apply K. right. eauto.
Qed.

Lemma transmit_all : forall c n s s' o, wf_cfg c -> sinv c s -> transmit c n s = Ok (s', o) -> N.of_nat n = pending c (d_q (s_daq s)) ->
  q_head (d_q (s_daq s')) = q_tail (d_q (s_daq s')).
Proof.
  induction n; intros s s' o W I H P.
  - cbn in H. inv. destruct (d_qinv _ _ (i_d _ _ I)) as (A & B & _). unfold pending, qmod in P. rewrite (wf_qs c W) in P. lia.
  - cbn [transmit] in H. apply bind_Ok in H. destruct H as ((data & q) & H1 & H). unfold send_dto in H.
    apply bind_Ok in H. destruct H as ((s2 & o2) & H2 & H). injection H as <- <-.
    pose proof H1 as Q. apply dequeue_Ok in Q; auto; [|apply I]. destruct Q as (Q & _).
    destruct (d_qinv _ _ (i_d _ _ I)) as (A & B & _).
    eapply IHn; [exact W| |exact H2|].
    { pose proof (sinv_q c s q I Q) as [X1 X2 X3 X4 X5]. constructor; auto. now apply binv_bump. }
    ss. unfold dequeue in H1. destruct (if _ <=? _ then _ else _) as [(len & da)|]; [|discriminate]. destruct (_ <? _); [discriminate|]. destruct (_ =? _); [discriminate|].
    injection H1 as _ <-. unfold pending, qmod in *. rewrite (wf_qs c W) in *. cbn [q_head q_tail set_q_tail]. lia.
Qed.

Lemma queue_rest : forall c m l s o, reachable c m l s o -> c_daq c = true -> q_head (d_q (s_daq s)) = q_tail (d_q (s_daq s)).
Proof.
  intros c m l. induction l as [|(e & x) l IH] using rev_ind; intros s o R Hd.
  - destruct R as (W & M & _ & s0 & B & H). cbn in H. inv. unfold boot in B. apply init_fields in B. destruct B as (_ & _ & _ & _ & _ & _ & _ & _ & _ & _ & B).
    rewrite Hd in B. destruct (init_queue _ _ _ B) as (-> & -> & _). reflexivity.
  - apply reach_snoc in R. destruct R as (s1 & o1 & o2 & R & H & _ & Wo). pose proof (IH _ _ R Hd) as Q. pose proof (reach_inv _ _ _ _ _ R) as I. pose proof (proj1 R) as W.
    assert (D : (exists ev, x = OTrigger ev) \/ (forall ev, x <> OTrigger ev)) by (destruct x; eauto; right; congruence). destruct D as [(ev & ->)|D].
    + cbn [step] in H. unfold trigger in H. rewrite Hd in H. cbn [negb] in H. apply bind_Ok in H. destruct H as (r & H1 & H). destruct r as [q|]; [|inv; exact Q].
      apply sample_event_qinv in H1; [|exact W|exact (b_mem _ _ (i_b _ _ I))|exact (d_qinv _ _ (i_d _ _ I))].
      eapply transmit_all; [exact W| |exact H|ss; lia]. auto using sinv_q.
    + destruct (step_keep _ _ _ _ _ _ Wo H D (or_intror Hd)) as ([K|(d0 & K)] & _); [congruence|]. destruct (init_queue _ _ _ K) as (-> & -> & _). reflexivity.
Qed.

(** As long as no SET_DAQ_LIST_MODE is received, every event is assigned to list 0. *)
Lemma unassigned : forall c m l s o, reachable c m l s o -> c_daq c = true -> (forall e f, In (e, ORecv (0xE0 :: f)) l -> False) -> zeros (d_lfe (s_daq s)).
Proof.
  intros c m l. induction l as [|(e & x) l IH] using rev_ind; intros s o R Hd Nl.
  - destruct R as (W & M & _ & s0 & B & H). cbn in H. inv. unfold boot in B. apply init_fields in B. destruct B as (_ & _ & _ & _ & _ & _ & _ & _ & _ & _ & B).
    rewrite Hd in B. eapply init_queue; eauto.
  - apply reach_snoc in R. destruct R as (s1 & o1 & o2 & R & H & _ & Wo).
    assert (Q : zeros (d_lfe (s_daq s1))). { eapply IH; eauto. intros e' f Hi. apply (Nl e' f). apply in_or_app. auto. }
    assert (D : (exists ev, x = OTrigger ev) \/ (forall ev, x <> OTrigger ev)) by (destruct x; eauto; right; congruence). destruct D as [(ev & ->)|D].
    + cbn [step] in H. apply trigger_kept in H. destruct H as (_ & (q & ->) & _). exact Q.
    + destruct (step_keep _ _ _ _ _ _ Wo H D (or_intror Hd)) as (_ & [K|[K|(f & K)]]); [congruence|exact K|]. exfalso. apply (Nl e f). apply in_or_app. right. left. congruence.
Qed.

(** ** C40 - C43: events *)
Lemma ts_stamp : forall c v, wf_cfg c -> stamp_ok c -> v < 2 ^ 32 -> ts_bytes c v = stamp c v.
Proof.
  intros c v W S Hv. unfold ts_bytes, stamp. rewrite le32_le_bytes by exact Hv. unfold stamp_ok in S. destruct (c_host_be c).
  - rewrite (S eq_refl). reflexivity.
  - destruct (wf_tssz c W) as [->|[->| ->]]; reflexivity.
Qed.
Lemma bit4 : forall x, (N.land x 0x10 =? 0x10) = N.testbit x 4.
Proof.
  intro x. destruct (N.testbit x 4) eqn:T.
  - apply N.eqb_eq. apply N.bits_inj. intro n. rewrite N.land_spec. destruct (N.eq_dec n 4) as [->|H]; [rewrite T; reflexivity|].
    change 16 with (2 ^ 4). rewrite N.pow2_bits_false by congruence. apply andb_false_r.
  - apply N.eqb_neq. intro H. assert (N.testbit (N.land x 16) 4 = true) by (rewrite H; reflexivity). rewrite N.land_spec, T in H0. discriminate.
Qed.

Section Event.
Variables (c : cfg) (m : mem) (l : list (env * op)) (s : st) (o : list pkt) (e : env) (t : tree) (ev l' : N) (os : list (list (N * N))).
Variables (R : reachable c m l s o) (We : wf_env c e) (Sm : c_max_ent c < 65536) (So : stamp_ok c).
Variables (Rp : represents c s t) (M : measuring s) (As : assigned s ev l') (G : getN t l' = Some os).
Variables (Sa : sampleable c (time_stamp c e s) os).
Let W := proj1 R.
Let I := i_d _ _ (reach_inv _ _ _ _ _ R).
Let Hd := reach_daq _ _ _ _ _ R M.
Let ts : option N := if c_ts c && (N.land (d_mode (s_daq s)) 0x10 =? 0x10) then Some (e_timer e) else None.

Lemma ts_eq : forall i, stamp_of c ts i = if i =? 0 then time_stamp c e s else [].
Proof.
  intro i. unfold stamp_of, ts, time_stamp. rewrite bit4. clear ts. destruct (c_ts c && N.testbit (d_mode (s_daq s)) 4); [|now destruct (i =? 0)].
  destruct (i =? 0); [|reflexivity]. apply ts_stamp; auto. apply We.
Qed.
Lemma event_val : step c e (OTrigger ev) s =
  (q <- sample_odts c (s_mem s) ts (s_daq s) l' (length os) 0 (odts_before t l') (d_q (s_daq s)) ;;
   transmit c (N.to_nat (pending c q)) (upd_daq (set_d_q q) s)).
Proof.
  cbn [step]. unfold trigger. rewrite Hd. cbn [negb]. unfold sample_event. unfold measuring in M. rewrite M. cbn [negb].
  pose proof (getN_Some_lt _ _ _ _ As) as Lev. rewrite (d_lfelen _ _ I) in Lev. pose proof (wf_ev c W Hd) as Wev. fold (c_nevents c) in Wev.
  unfold u8. rewrite N.mod_small by (change (2 ^ 8) with 256; lia). destruct (N.leb_spec (c_nevents c) ev); [lia|]. unfold assigned in As. rewrite As.
  destruct Rp as (fo & fe & Rb). rewrite (first_pid_rep c fo fe _ t l' W Sm I Rb). cbn [bind]. pose proof (getN_Some_lt _ _ _ _ G).
  destruct (N.ltb_spec l' (lenN t)); [|lia]. rewrite (hdr_val _ _ _ _ (r_list _ _ _ _ _ Rb _ _ G)). cbn [bind]. fold ts.
  unfold lenN at 1. rewrite Nat2N.id. destruct (sample_odts _ _ _ _ _ _ _ _ _); reflexivity.
Qed.
Lemma event_q : queued c (d_q (s_daq s)) [].
Proof. apply queued_nil; [exact (d_qinv _ _ I)|]. eapply queue_rest; eauto. Qed.
Lemma event_sa : forall j es, getN os j = Some es -> sampled_ok c (stamp_of c ts j) es.
Proof. intros j es H. rewrite ts_eq. now apply Sa. Qed.

Lemma event_thm : used s + lenN os <= 4 ->
  exists s' o', step c e (OTrigger ev) s = Ok (s', o') /\ emits o' (dtos (s_mem s) (time_stamp c e s) (odts_before t l') os) /\
    same_but_queue s s' /\ used s' = used s + lenN os.
Proof.
  intro Hq. rewrite event_val. destruct Rp as (fo & fe & Rb).
  destruct (odts_fill c (s_mem s) _ t fo fe W Sm I Rb ts l' os G (length os) 0 0 (d_q (s_daq s)) []) as (q & E & Q & H1 & H2 & _).
  - unfold lenN. lia.
  - intros j es _. apply event_sa.
  - apply event_q.
  - unfold used, lenN in *. lia.
  - rewrite N.add_0_r, Nat.add_0_r in E. rewrite E. cbn [sample_odts bind]. rewrite ts_eq in Q. unfold dropN in Q. cbn [N.to_nat skipn N.eqb] in Q.
    rewrite firstn_all, N.add_0_r in Q. cbn [app] in Q. set (fs := dtos _ _ _ os) in *.
    assert (Lf : lenN fs = lenN os) by (unfold fs; generalize (time_stamp c e s), (odts_before t l'); clear; induction os as [|x y IH]; intros; [reflexivity|]; cbn [dtos]; rewrite !lenN_cons; now rewrite IH).
    assert (P : N.to_nat (pending c q) = length fs).
    { unfold pending, qmod. rewrite (wf_qs c W). destruct Q as (_ & Q1 & Q2 & _). unfold lenN in *. lia. }
    rewrite P. destruct (transmit_queued c fs (upd_daq (set_d_q q) s) W Q) as (s' & o' & X1 & X2 & X3 & X4 & X5 & X6).
    exists s', o'. split; [exact X1|]. split; [split; auto|]. split; [destruct X4 as (q' & X4); exists q'; exact X4|]. unfold used. rewrite X5. ss. unfold lenN. lia.
Qed.
(** A sample that needs a place behind the last one, when places before it are free. *)
Lemma event_overflow : 0 < used s -> 4 < used s + lenN os -> step c e (OTrigger ev) s = UB OobQueue.
Proof.
  intros H0 Hq. rewrite event_val. destruct Rp as (fo & fe & Rb). pose proof event_q as (_ & Qh & Qm & _). unfold used in *. change (lenN []) with 0 in Qh.
  set (a := N.to_nat (4 - q_head (d_q (s_daq s)))).
  destruct (odts_fill c (s_mem s) _ t fo fe W Sm I Rb ts l' os G a (length os - a) 0 (d_q (s_daq s)) []) as (q & E & Q & H1 & H2 & _).
  - unfold lenN in *. lia.
  - intros j es _. apply event_sa.
  - apply event_q.
  - unfold a. lia.
  - rewrite N.add_0_r, N.add_0_l in E. replace (a + (length os - a))%nat with (length os) in E by (unfold lenN in *; lia). rewrite E. clear E.
    erewrite (odts_stop c (s_mem s) _ t fo fe W Sm I Rb ts l' os G); [|unfold lenN in *; lia|unfold lenN in *; lia|intros j es _; apply event_sa|exact Q|unfold a in *; lia].
    rewrite H2. destruct (N.eqb_spec (q_tail (d_q (s_daq s))) 0); [lia|]. reflexivity.
Qed.
(** A sample of more than four frames into the unused queue: the rest is dropped. *)
Lemma event_drop : used s = 0 -> 4 < lenN os ->
  exists s' o', step c e (OTrigger ev) s = Ok (s', o') /\ emits o' (dtos (s_mem s) (time_stamp c e s) (odts_before t l') (firstn 4 os)) /\
    same_but_queue s s' /\ used s' = 4.
Proof.
  intros H0 Hq. rewrite event_val. destruct Rp as (fo & fe & Rb). pose proof event_q as (_ & Qh & Qm & _). unfold used in *. change (lenN []) with 0 in Qh.
  destruct (odts_fill c (s_mem s) _ t fo fe W Sm I Rb ts l' os G 4 (length os - 4) 0 (d_q (s_daq s)) []) as (q & E & Q & H1 & H2 & _).
  - unfold lenN in *. lia.
  - intros j es _. apply event_sa.
  - apply event_q.
  - lia.
  - rewrite N.add_0_r, N.add_0_l in E. replace (4 + (length os - 4))%nat with (length os) in E by (unfold lenN in *; lia). rewrite E. clear E.
    erewrite (odts_stop c (s_mem s) _ t fo fe W Sm I Rb ts l' os G); [|unfold lenN in *; lia|unfold lenN in *; lia|intros j es _; apply event_sa|exact Q|lia].
    rewrite H2. destruct (N.eqb_spec (q_tail (d_q (s_daq s))) 0); [|lia]. cbn [bind].
    rewrite ts_eq in Q. unfold dropN in Q. change (skipn (N.to_nat 0) os) with os in Q. change (0 =? 0) with true in Q. cbv beta iota in Q. rewrite N.add_0_r in Q. change ([] ++ ?x) with x in Q.
    set (fs := dtos _ _ _ (firstn 4 os)) in *.
    assert (Lf : length fs = 4%nat).
    { unfold lenN in Hq. unfold fs. destruct os as [|? [|? [|? [|? ?]]]]; cbn [length] in Hq; try lia. reflexivity. }
    assert (P : N.to_nat (pending c (set_q_ovl true q)) = length fs).
    { unfold pending, qmod. rewrite (wf_qs c W). destruct Q as (_ & Q1 & Q2 & _). cbn [q_head q_tail set_q_ovl]. unfold lenN in *. lia. }
    rewrite P. destruct (transmit_queued c fs (upd_daq (set_d_q (set_q_ovl true q)) s) W Q) as (s' & o' & X1 & X2 & X3 & X4 & X5 & X6).
    exists s', o'. split; [exact X1|]. split; [split; auto|]. split; [destruct X4 as (q' & X4); exists q'; exact X4|]. rewrite X5. ss. cbn [q_head set_q_ovl]. lia.
Qed.
End Event.

(** ** C41 *)
Lemma idle_thm : forall c e ev s, ~ measuring s -> step c e (OTrigger ev) s = Ok (s, []).
Proof.
  intros c e ev s M. cbn [step]. unfold trigger, sample_event, measuring in *. destruct (d_run (s_daq s)); [congruence|]. destruct (negb (c_daq c)); reflexivity.
Qed.
