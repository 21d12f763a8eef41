(** The overload flag of the transmit queue (C43). *)
From Coq Require Import NArith ZArith List Bool Lia ZifyBool ZifyNat ZifyN.
From Verif Require Import Base Config Codec Checksum State Queue Daq Core Spec Lists Effects Handlers HTx HInv HInv2
  HFields HResp DaqInv HSpec Steps Demo Ops ProofsSession Exec ProofsFrames SpecProt ProofsProt SpecMem ProofsMem ProofsWrite SpecDaq ProofsDaqA ProofsDaqB ProofsDaqC ProofsDaqD ProofsDaqE ProofsDaqF ProofsDaqI.
Import ListNotations.
Open Scope N_scope.
Ltac Zify.zify_post_hook ::= Z.div_mod_to_equations.

Lemma enqueue_flag : forall c bs q q', wf_cfg c -> q_tail q <= q_head q <= 4 -> enqueue c bs q = Ok q' ->
  (q_head q = 4 /\ q_tail q = 0 /\ q' = set_q_ovl true q) \/
  (q_head q < 4 /\ q_head q' = q_head q + 1 /\ q_tail q' = q_tail q /\ q_ovl q' = q_ovl q).
Proof.
  intros c bs q q' W B H. unfold enqueue, queue_full, qmod in H. rewrite (wf_qs c W) in H.
  destruct (N.eqb_spec ((q_head q + 1) mod (4 + 1)) (q_tail q)) as [E|E].
  - injection H as <-. left. split; [|split; [|reflexivity]]; lia.
  - destruct (N.leb_spec 4 (q_head q)); [discriminate|]. destruct (_ <? _); [discriminate|]. destruct (_ =? 0); [discriminate|]. injection H as <-.
    right. cbn [q_head q_tail q_ovl set_q_head set_q_slots]. split; [lia|]. split; [lia|auto].
Qed.
Lemma odts_flag : forall c m ts d l n i pid q q', wf_cfg c -> q_tail q <= q_head q <= 4 -> sample_odts c m ts d l n i pid q = Ok q' ->
  q_ovl q' = q_ovl q || (4 <? q_head q + N.of_nat n) /\ (4 < q_head q + N.of_nat n -> q_tail q = 0).
Proof.
  intros c m ts d l. induction n; intros i pid q q' W B H; cbn [sample_odts] in H.
  - injection H as <-. split; [|lia]. destruct (N.ltb_spec 4 (q_head q + N.of_nat 0)); [lia|]. now rewrite orb_false_r.
  - apply bind_Ok in H. destruct H as (oi & _ & H). apply bind_Ok in H. destruct H as ((ne & f) & _ & H).
    apply bind_Ok in H. destruct H as (data & _ & H). apply bind_Ok in H. destruct H as (q1 & Hq & H).
    apply enqueue_flag in Hq; auto. destruct Hq as [(A1 & A2 & ->)|(A1 & A2 & A3 & A4)].
    + apply IHn in H; auto. destruct H as (H & _). split; [|auto]. rewrite H. cbn [q_ovl q_head set_q_ovl orb].
      destruct (N.ltb_spec 4 (q_head q + N.of_nat (S n))); [|lia]. now rewrite orb_true_r.
    + apply IHn in H; auto; [|lia]. destruct H as (H & H'). rewrite H, A2, A4, <- A3. split; [|intro; apply H'; lia]. f_equal.
      destruct (N.ltb_spec 4 (q_head q + 1 + N.of_nat n)), (N.ltb_spec 4 (q_head q + N.of_nat (S n))); try lia; reflexivity.
Qed.
Lemma transmit_flag : forall c n s s' o, transmit c n s = Ok (s', o) -> q_ovl (d_q (s_daq s')) = q_ovl (d_q (s_daq s)).
Proof.
  intros c. induction n; intros s s' o H; cbn [transmit] in H; [inv; reflexivity|].
  apply bind_Ok in H. destruct H as ((data & q) & H1 & H). unfold send_dto in H. apply bind_Ok in H. destruct H as ((s2 & o2) & H2 & H). injection H as <- <-.
  apply IHn in H2. rewrite H2. ss. unfold dequeue in H1. destruct (if _ <=? _ then _ else _) as [(len & da)|]; [|discriminate].
  destruct (_ <? _); [discriminate|]. destruct (_ =? _); [discriminate|]. injection H1 as _ <-. reflexivity.
Qed.

(** What an event does to the flag: it is raised exactly when the list has more
    ODTs than slots are left, which can only be at the start of the queue. *)
Lemma event_flag : forall c m l s o e ev s' o', reachable c m l s o -> c_daq c = true -> step c e (OTrigger ev) s = Ok (s', o') ->
  q_ovl (d_q (s_daq s')) = q_ovl (d_q (s_daq s)) \/
  (measuring s /\ q_ovl (d_q (s_daq s')) = true /\ used s = 0 /\ exists l' n f, assigned s ev l' /\ hdr_at (s_daq s) l' = Ok (n, f) /\ 4 < n).
Proof.
  intros c m l s o e ev s' o' R Hd H. pose proof (queue_rest _ _ _ _ _ R Hd) as Q. pose proof (reach_inv _ _ _ _ _ R) as I. pose proof (proj1 R) as W.
  destruct (d_qinv _ _ (i_d _ _ I)) as (B1 & B2 & _).
  cbn [step] in H. unfold trigger in H. rewrite Hd in H. cbn [negb] in H. apply bind_Ok in H. destruct H as (r & H1 & H). destruct r as [q|]; [|inv; auto].
  apply transmit_flag in H. rewrite H. ss. unfold sample_event in H1. destruct (d_run (s_daq s)) eqn:M; [|discriminate]. cbn [negb] in H1.
  destruct (_ <=? _); [discriminate|]. destruct (getN (d_lfe (s_daq s)) ev) as [l'|] eqn:As; [|discriminate]. apply bind_Ok in H1. destruct H1 as (p & _ & H1).
  destruct p; [|discriminate]. apply bind_Ok in H1. destruct H1 as ((n0 & f) & Hh & H1). apply bind_Ok in H1. destruct H1 as (q1 & Hq & H1). apply Ok_inj in H1. injection H1 as <-.
  apply odts_flag in Hq; auto; [|lia]. destruct Hq as (F1 & F2). rewrite N2Nat.id in *. destruct (N.ltb_spec 4 (q_head (d_q (s_daq s)) + n0)) as [X|X].
  - right. pose proof (F2 X). split; [exact M|]. split; [rewrite F1; apply orb_true_r|]. split; [unfold used; lia|]. exists l', n0, f. split; [exact As|]. split; [exact Hh|]. lia.
  - left. rewrite F1. apply orb_false_r.
Qed.
Lemma rep_len : forall c s t l' os n f, represents c s t -> getN t l' = Some os -> hdr_at (s_daq s) l' = Ok (n, f) -> n = lenN os.
Proof. intros c s t l' os n f (fo & fe & Rb) G H. rewrite (hdr_val _ _ _ _ (r_list _ _ _ _ _ Rb _ _ G)) in H. congruence. Qed.

Lemma flag_origin : forall c m l s o, reachable c m l s o -> c_daq c = true -> q_ovl (d_q (s_daq s)) = true ->
  exists l1 e ev l2 s1 o1 l', l = l1 ++ (e, OTrigger ev) :: l2 /\ reachable c m l1 s1 o1 /\ measuring s1 /\ used s1 = 0 /\ assigned s1 ev l' /\
    forall t os, represents c s1 t -> getN t l' = Some os -> 4 < lenN os.
Proof.
  intros c m l. induction l as [|(e & x) l IH] using rev_ind; intros s o R Hd F.
  - destruct R as (W & M & _ & s0 & B & H). cbn in H. inv. unfold boot in B. apply init_fields in B. destruct B as (_ & _ & _ & _ & _ & _ & _ & _ & _ & _ & B).
    rewrite Hd in B. unfold daq_init in B. set (d2 := daq_free c _) in B. clearbody d2. apply bind_Ok in B. destruct B as (q & Hq & B). injection B as B.
    unfold queue_init in Hq. destruct (_ <=? _); [|discriminate]. injection Hq as <-. rewrite <- B in F. cbn in F. discriminate.
  - apply reach_snoc in R. destruct R as (s1 & o1 & o2 & R & H & _ & Wo).
    assert (K : q_ovl (d_q (s_daq s1)) = true -> exists l1 e0 ev l2 s2 o3 l', l ++ [(e, x)] = l1 ++ (e0, OTrigger ev) :: l2 /\ reachable c m l1 s2 o3 /\ measuring s2 /\ used s2 = 0 /\ assigned s2 ev l' /\
      forall t os, represents c s2 t -> getN t l' = Some os -> 4 < lenN os).
    { intro X. destruct (IH _ _ R Hd X) as (l1 & e0 & ev & l2 & s2 & o3 & l' & -> & Y). exists l1, e0, ev, (l2 ++ [(e, x)]), s2, o3, l'. split; [|exact Y]. now rewrite <- app_assoc. }
    assert (D : (exists ev, x = OTrigger ev) \/ (forall ev, x <> OTrigger ev)) by (destruct x; eauto; right; congruence). destruct D as [(ev & ->)|D].
    + destruct (event_flag _ _ _ _ _ _ _ _ _ R Hd H) as [X|(M & _ & U & l' & n & f & As & Hh & L)]; [apply K; congruence|].
      exists l, e, ev, [], s1, o1, l'. split; [reflexivity|]. split; [exact R|]. split; [exact M|]. split; [exact U|]. split; [exact As|].
      intros t os Rp G. rewrite <- (rep_len _ _ _ _ _ _ _ Rp G Hh). exact L.
    + destruct (step_keep _ _ _ _ _ _ Wo H D (or_intror Hd)) as ([X|(d0 & B)] & _); [apply K; congruence|].
      exfalso. unfold daq_init in B. set (d2 := daq_free c _) in B. clearbody d2. apply bind_Ok in B. destruct B as (q & Hq & B). injection B as B.
      unfold queue_init in Hq. destruct (_ <=? _); [|discriminate]. injection Hq as <-. rewrite <- B in F. cbn in F. discriminate.
Qed.
Lemma flag_fifo : forall c t es fs m l s o, reachable c m l s o -> c_max_ent c < 65536 -> stamp_ok c -> represents c s t -> measuring s ->
  samples c s t es fs -> used s + lenN fs <= 4 ->
  exists s' o', run c (triggers es) s = Ok (s', o') /\ q_ovl (d_q (s_daq s')) = q_ovl (d_q (s_daq s)).
Proof.
  intros c t es. induction es as [|(e & ev) es IH]; intros fs m l s o R Sm So Rp M H Hu; inversion H as [|e0 ev0 l0 os es0 fs0 We Hv As G Sa Hs]; subst.
  - exists s, []. split; reflexivity.
  - rewrite lenN_app, dtos_len in Hu.
    destruct (event_thm c m l s o e t ev l0 os R We Sm So Rp M As G Sa) as (s1 & o1 & E1 & (F1 & F2) & S1 & U1); [lia|].
    assert (R1 : reachable c m (l ++ [(e, OTrigger ev)]) s1 (o ++ o1)) by (eapply reach_step; eauto; split; auto).
    destruct (IH fs0 m _ s1 _ R1 Sm So (same_rep _ _ _ _ S1 Rp) (same_run _ _ S1 M) (same_samples _ _ _ _ _ _ S1 Hs)) as (s2 & o2 & E2 & F); [lia|].
    exists s2, (o1 ++ o2). split; [cbn [triggers map run fst snd]; fold (triggers es); unfold andthen; rewrite E1; cbn [bind]; rewrite E2; reflexivity|].
    rewrite F. destruct (event_flag _ _ _ _ _ _ _ _ _ R (reach_daq _ _ _ _ _ R M) E1) as [X|(_ & _ & U & l' & n & f & As' & Hh & L)]; [exact X|].
    exfalso. unfold assigned in *. rewrite As in As'. injection As' as <-. rewrite (rep_len _ _ _ _ _ _ _ Rp G Hh) in L. lia.
Qed.
Lemma flag_drop : forall c m l s o e t ev l' os,
  reachable c m l s o -> wf_env c e -> c_max_ent c < 65536 -> stamp_ok c ->
  represents c s t -> measuring s -> assigned s ev l' -> getN t l' = Some os -> sampleable c (time_stamp c e s) os ->
  used s = 0 -> 4 < lenN os ->
  exists s' o', step c e (OTrigger ev) s = Ok (s', o') /\ q_ovl (d_q (s_daq s')) = true.
Proof.
  intros c m l s o e t ev l' os R We Sm So Rp M As G Sa U L.
  destruct (event_drop c m l s o e t ev l' os R We Sm So Rp M As G Sa U L) as (s' & o' & E & _). exists s', o'. split; [exact E|].
  rewrite (event_val c m l s o e t ev l' os R Sm Rp M As G) in E. apply bind_Ok in E. destruct E as (q & Hq & E). apply transmit_flag in E. rewrite E. ss.
  unfold used in U. pose proof (queue_rest _ _ _ _ _ R (reach_daq _ _ _ _ _ R M)) as Q.
  apply odts_flag in Hq; [|exact (proj1 R)|lia]. destruct Hq as (-> & _). unfold lenN in L. destruct (N.ltb_spec 4 (q_head (d_q (s_daq s)) + N.of_nat (length os))); [|lia]. apply orb_true_r.
Qed.
