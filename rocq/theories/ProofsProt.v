(** Proofs of the protection properties. *)
From Coq Require Import NArith ZArith List Bool Lia ZifyBool ZifyNat ZifyN.
From Verif Require Import Base Config Codec Checksum State Queue Daq Core Spec Lists Effects Handlers HTx HInv HInv2
  HFields HResp DaqInv HSpec Steps Demo Ops ProofsSession Exec SpecProt.
Import ListNotations.
Open Scope N_scope.
Ltac Zify.zify_post_hook ::= Z.div_mod_to_equations.

(** ** Reception, once more *)

Lemma recv_cases : forall c e f s s' o, step c e (ORecv f) s = Ok (s', o) ->
  same_session s s' \/
  exists k t h, f = k :: t /\ lenN f <= c_ctobuf c /\ (ready s \/ s_conn s = false /\ k = 0xFF) /\
    entry c k = Some h /\ h e (rx c f s) = Ok (s', o).
Proof.
  intros c e f s s' o H. cbn [step] in H. apply receive_Ok in H.
  destruct H as [(_ & -> & _)|(k & t & E & L & H)]; [left; apply ss_refl|].
  destruct H as [(_ & _ & H)|[(HR & h & G & H)|(_ & _ & -> & _)]].
  - left. apply busy_Ok in H. destruct H as (ob & _ & -> & _). unfold same_session. ss. repeat split.
  - right. exists k, t, h. split; [exact E|]. split; [exact L|]. split; [exact HR|]. split; [exact G|exact H].
  - left. apply ss_rx.
Qed.
Lemma frame_k : forall k t, bytes (k :: t) -> k < 256.
Proof. intros k t B. inversion B; auto. Qed.
Lemma cons_is_recv : forall c e f, wf_op c (e, ORecv f) -> bytes f.
Proof. intros c e f (_ & H). exact H. Qed.

(** ** DAQ configuration *)

Lemma sc_refl : forall d, same_config d d.
Proof. intro d. unfold same_config. repeat split. Qed.
Lemma sc_trans : forall a b d, same_config a b -> same_config b d -> same_config a d.
Proof. unfold same_config. intuition congruence. Qed.
Lemma sc_empty : forall a b, same_config a b -> empty_config a -> empty_config b.
Proof. unfold same_config, empty_config. intuition congruence. Qed.
Lemma dbq_sc : forall d d', daq_but_queue d d' -> same_config d d'.
Proof. intros d d' (q & ->). unfold same_config. repeat split. Qed.

Lemma forall_repeat : forall A (x : A) n, Forall (fun e => e = x) (repeat x n).
Proof. intros. apply Forall_forall. intros y Hy. now apply repeat_spec in Hy. Qed.

Lemma init_empty : forall c d d', daq_init c d = Ok d' -> empty_config d' /\ empty_queue d'.
Proof.
  intros c d d' H. unfold daq_init in H. apply bind_Ok in H. destruct H as (q & Hq & H). apply Ok_inj in H. subst d'.
  split.
  - unfold empty_config, daq_free. ss. repeat split; apply forall_repeat.
  - unfold queue_init in Hq. destruct (_ <=? _); [|discriminate]. apply Ok_inj in Hq. subst q. reflexivity.
Qed.

Lemma locked_prot : forall c r s, locked c r s -> is_protected c r s = true.
Proof. intros c r s (P & H). unfold is_protected. now rewrite P, H, N.eqb_refl. Qed.
Lemma prot_locked : forall c r s, is_protected c r s = true -> locked c r s.
Proof.
  intros c r s H. unfold is_protected in H. apply andb_true_iff in H. destruct H as (P & H).
  split; [exact P|now apply N.eqb_eq].
Qed.

(** ** C12 *)

Lemma locked_step : forall c e x s s' o, wf_op c (e, x) -> c_daq c = true -> locked c 4 s ->
  step c e x s = Ok (s', o) -> same_config (s_daq s) (s_daq s') \/ empty_config (s_daq s').
Proof.
  intros c e x s s' o Wo D L H.
  assert (X : (exists f, x = ORecv f) \/ forall f, x <> ORecv f)
    by (destruct x; [left; eauto|right; discriminate..]).
  destruct X as [(f & ->)|X].
  - pose proof (cons_is_recv _ _ _ Wo) as Bf. apply recv_cases in H. destruct H as [H|(k & t & h & E & _ & _ & G & H)].
    + left. replace (s_daq s') with (s_daq s) by (symmetry; apply H). apply sc_refl.
    + subst f. assert (P : is_protected c 4 (rx c (k :: t) s) = true) by exact (locked_prot _ _ _ L).
      destruct (entries_cmd c _ k h (daq_locked_entries c e) (frame_k _ _ Bf) G _ _ _ P H) as [E|(_ & E)].
      * left. rewrite E. apply sc_refl.
      * right. apply init_empty in E. tauto.
  - destruct (other_ops _ _ _ _ _ _ H X) as (_ & _ & _ & [Q|[(_ & _ & Q)|[(_ & _ & Q)|(Z & _)]]]).
    + left. now apply dbq_sc.
    + right. apply init_empty in Q. tauto.
    + right. apply init_empty in Q. tauto.
    + congruence.
Qed.

Lemma locked_run : forall c l s s' o, wf_run c l -> c_daq c = true -> throughout c (locked c 4) l s ->
  run c l s = Ok (s', o) -> same_config (s_daq s) (s_daq s') \/ empty_config (s_daq s').
Proof.
  induction l as [|(e & x) l IH]; intros s s' o R D T H.
  - cbn in H. inv. left. apply sc_refl.
  - apply run_cons in H. destruct H as (s1 & o1 & o2 & H1 & H2 & ->). inversion R; subst.
    cbn [throughout] in T. rewrite H1 in T. destruct T as (T0 & T).
    pose proof (locked_step _ _ _ _ _ _ H3 D T0 H1) as S1. pose proof (IH _ _ _ H4 D T H2) as S2.
    destruct S2 as [S2|S2]; [|auto]. destruct S1 as [S1|S1].
    + left. eapply sc_trans; eauto.
    + right. eapply sc_empty; eauto.
Qed.

(** No command starts a measurement while the resource is locked. *)
Lemma locked_no_start : forall c l s s' o, wf_run c l -> c_daq c = true -> throughout c (locked c 4) l s ->
  run c l s = Ok (s', o) -> ~ measuring s -> ~ measuring s'.
Proof.
  intros c l s s' o R D T H M. unfold measuring in *. destruct (locked_run _ _ _ _ _ R D T H) as [S|S].
  - destruct S as (-> & _). exact M.
  - destruct S as (-> & _). discriminate.
Qed.

(** ** C13 *)

(** Bits of the protection status come from the default; without GET_SEED and
    UNLOCK both words stay zero. *)
Definition pinv (c : cfg) (s : st) : Prop :=
  (forall i, N.testbit (s_prot s) i = true -> N.testbit (default_status c) i = true) /\
  (c_protect c = false -> s_prot s = 0 /\ s_seed s = 0).

Lemma default_status_eq : forall c, c_protect c = true -> default_status c = default_prot_bits c.
Proof. intros c H. unfold default_status. now rewrite H. Qed.

Lemma no_protect_entry : forall c k h, wf_cfg c -> c_protect c = false -> (k = 0xF8 \/ k = 0xF7) -> entry c k = Some h -> h = h_unknown c.
Proof.
  intros c k h W P K E. unfold c_protect in P.
  pose proof (wf_prot c W) as Q.
  destruct K as [-> | ->].
  - change (Some (if c_opt c 0xF8 then h_get_seed c else h_unknown c) = Some h) in E.
    destruct (c_opt c 0xF8); [rewrite <- Q in P; discriminate|]. congruence.
  - change (Some (if c_opt c 0xF7 then h_unlock c else h_unknown c) = Some h) in E.
    destruct (c_opt c 0xF7); [rewrite Q in P; discriminate|]. congruence.
Qed.
Lemma unknown_same : forall c e s s' o, h_unknown c e s = Ok (s', o) -> same_session s s'.
Proof. intros. unfold h_unknown, err in H. apply send8_Ok in H. destruct H as (ob & _ & _ & -> & _). apply ss_send. Qed.

(** Effect of one operation on protection and seeds. *)
Lemma prot_step : forall c e x s s' o, wf_cfg c -> wf_op c (e, x) -> step c e x s = Ok (s', o) ->
  (s_prot s' = s_prot s /\ s_seed s' = s_seed s) \/
  (s_prot s' = default_status c /\ s_seed s' = 0 /\ (c_protect c = true \/ x = OInit)) \/
  (c_protect c = true /\ exists t, x = ORecv (0xF8 :: t) /\ ready s /\ s_prot s' = s_prot s /\
     s_seed s' = N.lor (s_seed s) (nth 2 (rxbuf s (0xF8 :: t)) 0)) \/
  (c_protect c = true /\ exists t, x = ORecv (0xF7 :: t) /\ ready s /\ s_seed s <> 0 /\ key_accepted e s (rxbuf s (0xF7 :: t)) /\
     s_prot s' = N.ldiff (s_prot s) (s_seed s) /\ s_seed s' = 0).
Proof.
  intros c e x s s' o W Wo H.
  assert (X : (exists f, x = ORecv f) \/ forall f, x <> ORecv f)
    by (destruct x; [left; eauto|right; discriminate..]).
  destruct X as [(f & ->)|X].
  - pose proof (cons_is_recv _ _ _ Wo) as Bf. apply recv_cases in H. destruct H as [H|(k & t & h & E & _ & HR & G & H)].
    + left. destruct H as (_ & _ & _ & A & B & _). auto.
    + subst f. destruct (c_protect c) eqn:P.
      * destruct (entries_cmd c _ k h (prot_entries c e W) (frame_k _ _ Bf) G _ _ _ H)
          as [A|[(-> & A & B)|[(-> & A & B & C & D)|(_ & _ & A & B)]]].
        -- left. exact A.
        -- right; right; left. split; [reflexivity|]. exists t.
           destruct HR as [HR|(_ & HR)]; [|discriminate]. rewrite rx_in in B. repeat split; auto; apply HR.
        -- right; right; right. split; [reflexivity|]. exists t.
           destruct HR as [HR|(_ & HR)]; [|discriminate]. rewrite rx_in in B.
           split; [reflexivity|]. split; [exact HR|]. split; [exact A|]. split; [exact B|]. split; [exact C|exact D].
        -- right; left. rewrite default_status_eq by exact P. auto.
      * destruct (entries_cmd c _ k h (prot_entries c e W) (frame_k _ _ Bf) G _ _ _ H)
          as [A|[(-> & A & B)|[(-> & A & B & C & D)|(_ & Q & _)]]].
        -- left. exact A.
        -- left. rewrite (no_protect_entry c 0xF8 h W P (or_introl eq_refl) G) in H. apply unknown_same in H.
           destruct H as (_ & _ & _ & X1 & X2 & _). auto.
        -- left. rewrite (no_protect_entry c 0xF7 h W P (or_intror eq_refl) G) in H. apply unknown_same in H.
           destruct H as (_ & _ & _ & X1 & X2 & _). auto.
        -- congruence.
  - destruct (other_ops _ _ _ _ _ _ H X) as (_ & _ & [A|[(_ & A & B & P)|(-> & A & B & P)]] & _).
    + left. exact A.
    + right; left. rewrite default_status_eq by exact P. auto.
    + right; left. unfold default_status. rewrite P. auto.
Qed.

Lemma pinv_step : forall c e x s s' o, wf_cfg c -> wf_op c (e, x) -> pinv c s -> step c e x s = Ok (s', o) -> pinv c s'.
Proof.
  intros c e x s s' o W Wo (I1 & I2) H. unfold pinv.
  destruct (prot_step _ _ _ _ _ _ W Wo H) as [(A & B)|[(A & B & _)|[(P & t & _ & _ & A & B)|(P & t & _ & _ & _ & _ & A & B)]]];
    rewrite A, B; split; auto; try congruence.
  - intros P. unfold default_status. now rewrite P.
  - intros i T. rewrite N.ldiff_spec in T. apply andb_true_iff in T. apply I1. tauto.
Qed.
Lemma pinv_boot : forall c m s, boot c m = Ok s -> pinv c s.
Proof.
  intros c m s H. unfold boot in H. apply init_fields in H. destruct H as (_ & _ & _ & A & B & _). unfold pinv, default_status.
  rewrite A, B. split; [|intros ->; auto]. intros i T. destruct (c_protect c); exact T.
Qed.
Lemma pinv_run : forall c l s s' o, wf_cfg c -> wf_run c l -> pinv c s -> run c l s = Ok (s', o) -> pinv c s'.
Proof.
  induction l as [|(e & x) l IH]; intros s s' o W R I H.
  - cbn in H. inv. exact I.
  - apply run_cons in H. destruct H as (s1 & o1 & o2 & H1 & H2 & _). inversion R; subst.
    apply (IH s1 s' o2); auto. eapply pinv_step; eauto.
Qed.
Lemma reach_pinv : forall c m l s o, reachable c m l s o -> pinv c s.
Proof. intros c m l s o (W & _ & R & s0 & B & H). eapply pinv_run; eauto. eapply pinv_boot; eauto. Qed.

Lemma default_bits : forall c m l s o, reachable c m l s o ->
  (forall i, protected_bit s i -> N.testbit (default_status c) i = true) /\ (c_protect c = false -> s_prot s = 0 /\ s_seed s = 0).
Proof. intros. exact (reach_pinv _ _ _ _ _ H). Qed.

(** A protection bit disappears only by an accepted key. *)
Lemma bit_cleared : forall c m l s o e x s' o' i, reachable c m l s o -> wf_op c (e, x) -> step c e x s = Ok (s', o') ->
  protected_bit s i -> ~ protected_bit s' i ->
  exists t, x = ORecv (0xF7 :: t) /\ ready s /\ pending_bit s i /\ key_accepted e s (rxbuf s (0xF7 :: t)) /\ s_seed s' = 0.
Proof.
  intros c m l s o e x s' o' i R Wo H P N. unfold protected_bit, pending_bit in *.
  pose proof (reach_pinv _ _ _ _ _ R) as (I1 & I2).
  destruct (prot_step _ _ _ _ _ _ (proj1 R) Wo H) as [(A & _)|[(A & _)|[(_ & t & _ & _ & A & _)|(_ & t & E & Rd & _ & K & A & B)]]].
  - congruence.
  - exfalso. apply N. rewrite A. auto.
  - congruence.
  - exists t. split; [exact E|]. split; [exact Rd|]. split; [|auto]. rewrite A, N.ldiff_spec, P in N. cbn [andb] in N.
    destruct (N.testbit (s_seed s) i); [reflexivity|exfalso; apply N; reflexivity].
Qed.

(** The other direction: an accepted key clears exactly the requested bits. *)
Lemma unlock_thm : forall c m l s o e t, reachable c m l s o -> dlc_ok c -> ready s -> c_opt c 0xF7 = true ->
  ~ programming s -> lenN (0xF7 :: t) <= c_ctobuf c -> s_seed s <> 0 -> key_accepted e s (rxbuf s (0xF7 :: t)) ->
  exists v, (forall i, N.testbit v i = N.testbit (s_prot s) i && negb (N.testbit (s_seed s) i)) /\
  answers c e (0xF7 :: t) s [0xFF; v] (set_s_seed 0 (set_s_prot v s)).
Proof.
  intros c m l s o e t R D Rd Op P L S K.
  assert (E : step c e (ORecv (0xF7 :: t)) s = h_unlock c e (rx c (0xF7 :: t) s)).
  { apply (exec_val c m l s o); auto. tbl. }
  exists (N.ldiff (s_prot s) (s_seed s)). split; [intro i; apply N.ldiff_spec|].
  unfold answers. rewrite E. unfold h_unlock. rewrite pgm_idle_no by exact P. rewrite rx_in.
  change (s_seed (rx c (0xF7 :: t) s)) with (s_seed s). change (s_prot (rx c (0xF7 :: t) s)) with (s_prot s).
  destruct (N.eqb_spec (s_seed s) 0) as [Z|_]; [contradiction|].
  change (e_unlock e (s_seed s) (gb (rxbuf s (0xF7 :: t)) 1) (dropN 2 (rxbuf s (0xF7 :: t)))) with
    (e_unlock e (s_seed s) (nth 1 (rxbuf s (0xF7 :: t)) 0) (skipn 2 (rxbuf s (0xF7 :: t)))).
  rewrite K. cbn [s_prot set_s_prot].
  destruct (send8_ans c 2 [0xFF; N.ldiff (s_prot s) (s_seed s); 0; 0; 0; 0; 0; 0]
    (set_s_prot (N.ldiff (s_prot s) (s_seed s)) (rx c (0xF7 :: t) s)) (set_s_prot (N.ldiff (s_prot s) (s_seed s)) s)
    (proj1 R) D (rx_out _ _ _ _ _ _ R) ltac:(lia) eq_refl eq_refl) as (s1 & o1 & H & F & Q).
  { unfold same_session. ss. repeat split. }
  rewrite H. cbn [bind]. exists (set_s_seed 0 s1), o1. split; [reflexivity|]. split; [exact F|].
  unfold same_session in *. ss. ss_in Q. intuition.
Qed.

Lemma hd_take : forall A (x : A) l n, 1 <= n -> hd_error (takeN n (x :: l)) = Some x.
Proof. intros. unfold takeN. destruct (N.to_nat n) eqn:E; [lia|]. reflexivity. Qed.

Lemma get_seed_frame : forall c e s s' o, wf_cfg c -> h_get_seed c e s = Ok (s', o) -> s_seed s' <> s_seed s ->
  exists p, o = [p] /\ p_dto p = false /\ hd_error (p_data p) = Some 0xFF.
Proof.
  intros c e s s' o W H N. unfold h_get_seed in H.
  unfold pgm_idle in H. destruct (_ && _).
  { exfalso. apply N. unfold send_result in H. cbn in H. unfold err in H. apply send8_Ok in H. destruct H as (ob & _ & _ & -> & _). reflexivity. }
  destruct (negb _).
  { exfalso. apply N. unfold err in H. apply send8_Ok in H. destruct H as (ob & _ & _ & -> & _). reflexivity. }
  apply bind_Ok in H. destruct H as (s1 & H1 & H). apply bind_Ok in H. destruct H as (s2 & H2 & H).
  set (len := if is_protected c _ s then _ else 0) in *. clearbody len. clear H1 N.
  apply send_cto_Ok in H. destruct H as (L & -> & ->). unfold poke in H2. destruct (_ <? _) eqn:Z; [discriminate|].
  apply Ok_inj in H2. subst s2. eexists. split; [reflexivity|]. split; [reflexivity|]. cbn [p_data s_out set_s_out] in *.
  change (splice (s_out (set_s_seed (N.lor (s_seed s1) (gb (s_in s) 2)) s1)) 0 [0xFF; len])
    with (0xFF :: len :: dropN 2 (s_out s1)).
  apply hd_take. pose proof (wf_cto c W). destruct (c_max_dlc c); lia.
Qed.

(** A pending seed bit was requested by a GET_SEED, answered positively, and has
    been pending ever since. *)
Lemma pending_origin : forall c m i l s o, reachable c m l s o -> pending_bit s i ->
  exists l1 e t l2 s1 o1 s2 o2,
    l = l1 ++ (e, ORecv (0xF8 :: t)) :: l2 /\ reachable c m l1 s1 o1 /\ ready s1 /\
    step c e (ORecv (0xF8 :: t)) s1 = Ok (s2, o2) /\ N.testbit (nth 2 (rxbuf s1 (0xF8 :: t)) 0) i = true /\
    (exists p, o2 = [p] /\ p_dto p = false /\ hd_error (p_data p) = Some 0xFF) /\
    throughout c (fun s => pending_bit s i) l2 s2.
Proof.
  intros c m i l. induction l as [|(e & x) l IH] using rev_ind; intros s o R P.
  - exfalso. destruct R as (_ & _ & _ & s0 & B & H). cbn in H. inv. unfold boot in B. apply init_fields in B.
    destruct B as (_ & _ & _ & _ & Z & _). unfold pending_bit in P. rewrite Z, N.bits_0 in P. discriminate.
  - apply reach_snoc in R. destruct R as (s1 & o1 & o2 & R & H & -> & Wo).
    assert (Q : pending_bit s1 i -> exists l1 e' t l2 s1 o1 s2 o2,
      l ++ [(e, x)] = l1 ++ (e', ORecv (0xF8 :: t)) :: l2 /\ reachable c m l1 s1 o1 /\ ready s1 /\
      step c e' (ORecv (0xF8 :: t)) s1 = Ok (s2, o2) /\ N.testbit (nth 2 (rxbuf s1 (0xF8 :: t)) 0) i = true /\
      (exists p, o2 = [p] /\ p_dto p = false /\ hd_error (p_data p) = Some 0xFF) /\
      throughout c (fun s => pending_bit s i) l2 s2).
    { intro P1. destruct (IH s1 o1 R P1) as (l1 & e' & t & l2 & s3 & o3 & s4 & o4 & -> & R3 & Rd & H3 & B3 & F3 & T3).
      exists l1, e', t, (l2 ++ [(e, x)]), s3, o3, s4, o4. rewrite <- app_assoc.
      split; [reflexivity|]. repeat (split; [assumption|]).
      assert (X : exists o5, run c l2 s4 = Ok (s1, o5)).
      { destruct R as (_ & _ & _ & s0 & B & Hr). apply run_app in Hr. destruct Hr as (s5 & o5 & o6 & Ha & Hb & _).
        destruct R3 as (_ & _ & _ & s0' & B' & Hr'). rewrite B in B'. apply Ok_inj in B'. subst s0'. rewrite Ha in Hr'.
        apply Ok_inj in Hr'. injection Hr' as -> ->. apply run_cons in Hb. destruct Hb as (s6 & o7 & o8 & Hc & Hd & _).
        rewrite H3 in Hc. apply Ok_inj in Hc. injection Hc as -> ->. eauto. }
      destruct X as (o5 & X). clear - T3 X P1 P H. revert s4 o5 T3 X. induction l2 as [|(e2 & x2) l2 IH]; intros s4 o5 T3 X.
      - cbn in X. apply Ok_inj in X. injection X as -> _. cbn [app throughout]. rewrite H. cbn. auto.
      - apply run_cons in X. destruct X as (s5 & o6 & o7 & X1 & X2 & _). cbn [app throughout] in *. rewrite X1 in *.
        destruct T3 as (T3 & T4). split; [exact T3|]. eapply IH; eauto. }
    unfold pending_bit in *.
    destruct (prot_step _ _ _ _ _ _ (proj1 R) Wo H) as [(_ & A)|[(_ & A & _)|[(Pr & t & -> & Rd & _ & A)|(_ & t & _ & _ & _ & _ & _ & A)]]].
    + apply Q. congruence.
    + rewrite A, N.bits_0 in P. discriminate.
    + destruct (N.testbit (s_seed s1) i) eqn:T; [apply Q; reflexivity|]. clear Q.
      exists l, e, t, [], s1, o1, s, o2. split; [reflexivity|]. split; [exact R|]. split; [exact Rd|]. split; [exact H|].
      split; [rewrite A, N.lor_spec, T in P; exact P|]. split; [|cbn; auto].
      apply recv_cases in H. destruct H as [H|(k & t' & h & E & L & _ & G & H)].
      * destruct H as (_ & _ & _ & _ & X & _). congruence.
      * injection E as <- <-. change (Some (if c_opt c 0xF8 then h_get_seed c else h_unknown c) = Some h) in G.
        destruct (c_opt c 0xF8) eqn:Op.
        -- injection G as <-. eapply get_seed_frame; [apply R|exact H|].
           change (s_seed (rx c (0xF8 :: t) s1)) with (s_seed s1). congruence.
        -- injection G as <-. apply unknown_same in H. destruct H as (_ & _ & _ & _ & X & _).
           change (s_seed (rx c (0xF8 :: t) s1)) with (s_seed s1) in X. congruence.
    + rewrite A, N.bits_0 in P. discriminate.
Qed.

(** ** C14 *)

Lemma reach_queue : forall c m l s o d, reachable c m l s o -> c_daq c = true -> exists d', daq_init c d = Ok d'.
Proof.
  intros c m l s o d (_ & _ & _ & s0 & B & _) D. unfold boot in B. apply init_fields in B. rewrite D in B.
  destruct B as (_ & _ & _ & _ & _ & _ & _ & _ & _ & _ & B). unfold daq_init in *. apply bind_Ok in B. destruct B as (q & Q & _).
  unfold queue_init in *. destruct (_ <=? _); [|discriminate]. cbn [bind]. eauto.
Qed.

Lemma disconnect_val : forall c m l s o s1, reachable c m l s o -> exists d, xcp_disconnect c s1 = Ok (set_s_daq d (default_prot c s1)) /\
  (c_daq c = true -> empty_config d /\ empty_queue d) /\ (c_daq c = false -> d = s_daq s1).
Proof.
  intros c m l s o s1 R. unfold xcp_disconnect, daq_init_st. destruct (c_daq c) eqn:D.
  - destruct (reach_queue c m l s o (s_daq (default_prot c s1)) R D) as (d & E). rewrite E. exists d.
    split; [reflexivity|]. split; [intros _; eapply init_empty; eauto|discriminate].
  - exists (s_daq s1). split; [destruct s1; reflexivity|]. split; [discriminate|reflexivity].
Qed.

Lemma default_prot_relocked : forall c m l s o s1 d, reachable c m l s o -> s_prot s1 = s_prot s -> s_seed s1 = s_seed s ->
  (c_daq c = true -> empty_config d /\ empty_queue d) ->
  relocked_st c (set_s_daq d (default_prot c s1)).
Proof.
  intros c m l s o s1 d R A B E. pose proof (reach_pinv _ _ _ _ _ R) as (_ & P). unfold relocked_st, default_status. ss.
  change (default_prot_bits c) with ((if c_prot_cal c then 1 else 0) + (if c_prot_daq c then 4 else 0) + (if c_prot_stim c then 8 else 0) +
    (if c_prot_pgm c then 16 else 0)).
  destruct (c_protect c); [auto|]. destruct (P eq_refl). rewrite A, B. auto.
Qed.

Lemma same_rest_disc : forall c d s s1, same_session s s1 -> same_rest s (set_s_daq d (default_prot c s1)).
Proof. intros c d s s1 H. unfold same_session, same_rest in *. ss. intuition. Qed.

Lemma disconnect_thm : forall c m l s o e f, reachable c m l s o -> dlc_ok c -> ready s -> ~ programming s ->
  is_cmd 0xFE f -> lenN f <= c_ctobuf c ->
  exists s' o', step c e (ORecv f) s = Ok (s', o') /\ sends o' (padded c [0xFF]) /\ relocked_st c s' /\ same_rest s s'.
Proof.
  intros c m l s o e f R D Rd P K L. destruct f as [|k t]; [discriminate|]. injection K as ->.
  assert (E : step c e (ORecv (0xFE :: t)) s = h_disconnect c e (rx c (0xFE :: t) s)).
  { apply (exec_val c m l s o); auto. }
  rewrite E. unfold h_disconnect. rewrite pgm_idle_no by exact P.
  destruct (pos_ans c (rx c (0xFE :: t) s) s (proj1 R) D (rx_out _ _ _ _ _ _ R) (ss_rx _ _ _)) as (s1 & o1 & H1 & F & S).
  destruct (disconnect_val c m l s o s1 R) as (d & H2 & Q & _).
  unfold andthen. rewrite H1. cbn [bind]. rewrite H2. cbn [bind]. rewrite app_nil_r.
  exists (set_s_daq d (default_prot c s1)), o1. split; [reflexivity|]. split; [exact F|]. split.
  - eapply default_prot_relocked; eauto; apply S.
  - now apply same_rest_disc.
Qed.

Lemma rejected_thm : forall c m l s o e f, reachable c m l s o -> dlc_ok c -> ready s -> c_opt c 0xF7 = true -> ~ programming s ->
  is_cmd 0xF7 f -> lenN f <= c_ctobuf c -> s_seed s <> 0 -> ~ key_accepted e s (rxbuf s f) ->
  exists s' o', step c e (ORecv f) s = Ok (s', o') /\ sends o' (padded c [0xFE; 0x25]) /\ relocked_st c s' /\ same_rest s s'.
Proof.
  intros c m l s o e f R D Rd Op P K L S N. destruct f as [|k t]; [discriminate|]. injection K as ->.
  assert (E : step c e (ORecv (0xF7 :: t)) s = h_unlock c e (rx c (0xF7 :: t) s)).
  { apply (exec_val c m l s o); auto. tbl. }
  rewrite E. unfold h_unlock. rewrite pgm_idle_no by exact P. rewrite rx_in.
  change (s_seed (rx c (0xF7 :: t) s)) with (s_seed s).
  destruct (N.eqb_spec (s_seed s) 0) as [Z|_]; [contradiction|].
  change (e_unlock e (s_seed s) (gb (rxbuf s (0xF7 :: t)) 1) (dropN 2 (rxbuf s (0xF7 :: t)))) with
    (e_unlock e (s_seed s) (nth 1 (rxbuf s (0xF7 :: t)) 0) (skipn 2 (rxbuf s (0xF7 :: t)))).
  unfold key_accepted in N. destruct (e_unlock _ _ _ _); [contradiction N; reflexivity|].
  destruct (err_ans c 0x25 (rx c (0xF7 :: t) s) s (proj1 R) D (rx_out _ _ _ _ _ _ R) ltac:(lia) (ss_rx _ _ _)) as (s1 & o1 & H1 & F & S1).
  destruct (disconnect_val c m l s o s1 R) as (d & H2 & Q & _).
  unfold andthen. rewrite H1. cbn [bind]. rewrite H2. cbn [bind]. rewrite app_nil_r.
  eexists _, o1. split; [reflexivity|]. split; [exact F|]. split.
  - assert (X : relocked_st c (set_s_daq d (default_prot c s1))) by (eapply default_prot_relocked; eauto; apply S1).
    unfold relocked_st in *. ss. ss_in X. intuition.
  - pose proof (same_rest_disc c d s s1 S1) as X. unfold same_rest in *. ss. ss_in X. intuition.
Qed.

Lemma api_disconnect_thm : forall c m l s o e, reachable c m l s o ->
  exists s', step c e ODisconnect s = Ok (s', []) /\ relocked_st c s' /\ same_rest s s'.
Proof.
  intros c m l s o e R. cbn [step]. destruct (disconnect_val c m l s o s R) as (d & H2 & Q & _). rewrite H2. cbn [bind].
  eexists. split; [reflexivity|]. split; [eapply default_prot_relocked; eauto|apply same_rest_disc, ss_refl].
Qed.

(** ** C16 *)

Lemma exclusion_thm : forall c m l s o, reachable c m l s o -> ~ (programming s /\ measuring s).
Proof.
  intros c m l s o R (P & M). pose proof (i_excl _ _ (reach_inv _ _ _ _ _ R)) as H. unfold pgm_on, programming, measuring in *.
  rewrite P in H. specialize (H eq_refl). congruence.
Qed.

Lemma not_locked : forall c r s, is_protected c r s = false -> ~ locked c r s.
Proof. intros c r s H L. apply locked_prot in L. congruence. Qed.

Lemma pgm_entry_thm : forall c m l s o e x s' o', reachable c m l s o -> wf_op c (e, x) -> step c e x s = Ok (s', o') ->
  ~ programming s -> programming s' ->
  exists t, x = ORecv (0xD2 :: t) /\ ready s /\ ~ locked c 16 s /\ ~ measuring s.
Proof.
  intros c m l s o e x s' o' R Wo H N P.
  assert (X : (exists f, x = ORecv f) \/ forall f, x <> ORecv f)
    by (destruct x; [left; eauto|right; discriminate..]).
  unfold programming in *. destruct X as [(f & ->)|X].
  - pose proof (cons_is_recv _ _ _ Wo) as Bf. apply recv_cases in H. destruct H as [H|(k & t & h & E & _ & HR & G & H)].
    + destruct H as (_ & _ & X & _). congruence.
    + subst f. destruct (entries_cmd c _ k h (pgm_entries c e) (frame_k _ _ Bf) G _ _ _ H) as (Q & _).
      change (s_pgm (rx c (k :: t) s)) with (s_pgm s) in Q.
      destruct Q as [Q|[(-> & Cp & Q & U & M & _)|(-> & Q & Q')]]; try congruence.
      exists t. split; [reflexivity|]. split; [destruct HR as [HR|(_ & HR)]; [exact HR|discriminate]|].
      split; [now apply not_locked|]. intro M'. rewrite (reach_daq _ _ _ _ _ R M') in M. unfold measuring in M'.
      change (d_run (s_daq s) = false) in M. congruence.
  - destruct (other_ops _ _ _ _ _ _ H X) as (_ & [A|(_ & A)] & _); congruence.
Qed.

Lemma start_stop_run : forall b d, d_run (start_stop b d) = d_run d.
Proof. intros b d. destruct (start_stop_same b d) as (_ & _ & _ & E & _). exact E. Qed.

Lemma start_entries : forall c e, entries c (fun k h => forall s s' o, h e s = Ok (s', o) ->
  d_run (s_daq s) = false -> d_run (s_daq s') = true -> k = 0xDD /\ gb (s_in s) 1 = 1).
Proof.
  intros c e. apply table_each; intros; crush_o; split_st; repeat leaf_d; ss; try congruence.
  all: repeat match goal with H : context [d_run (s_daq ?x)] |- _ => progress ss_in H end; try congruence.
  all: try solve [intuition congruence].
  - split; [reflexivity|]. now apply N.eqb_eq.
  - exfalso. rewrite start_stop_run in *. congruence.
  - exfalso. match goal with H : d_run (daq_free _ _) = true |- _ => change (d_run (s_daq s) = true) in H end. congruence.
Qed.

Lemma daq_entry_thm : forall c m l s o e x s' o', reachable c m l s o -> wf_op c (e, x) -> step c e x s = Ok (s', o') ->
  ~ measuring s -> measuring s' ->
  exists t, x = ORecv (0xDD :: t) /\ ready s /\ nth 1 (rxbuf s (0xDD :: t)) 0 = 1 /\ ~ locked c 4 s /\ ~ programming s.
Proof.
  intros c m l s o e x s' o' R Wo H N P.
  assert (X : (exists f, x = ORecv f) \/ forall f, x <> ORecv f)
    by (destruct x; [left; eauto|right; discriminate..]).
  unfold measuring in *. destruct X as [(f & ->)|X].
  - pose proof (cons_is_recv _ _ _ Wo) as Bf. pose proof H as H0. apply recv_cases in H.
    destruct H as [H|(k & t & h & E & _ & HR & G & H)].
    + destruct H as (_ & _ & _ & _ & _ & _ & _ & _ & _ & _ & _ & _ & _ & X & _). congruence.
    + subst f. assert (Z : d_run (s_daq (rx c (k :: t) s)) = false) by (change (d_run (s_daq s) = false); destruct (d_run (s_daq s)); congruence).
      destruct (entries_cmd c _ k h (start_entries c e) (frame_k _ _ Bf) G _ _ _ H Z P) as (-> & M).
      rewrite rx_in in M.
      exists t. split; [reflexivity|]. split; [destruct HR as [HR|(_ & HR)]; [exact HR|discriminate]|]. split; [exact M|].
      destruct (entries_cmd c _ 0xDD h (pgm_entries c e) (frame_k _ _ Bf) G _ _ _ H) as (_ & [Q|[Q|(_ & _ & Q1 & _ & Q2)]]); try congruence.
      split; [now apply not_locked|]. intro M'. rewrite (reach_pgm _ _ _ _ _ R M') in Q1. unfold programming, pgm_on in *.
      change (s_pgm (rx c (0xDD :: t) s)) with (s_pgm s) in Q1. rewrite M' in Q1. discriminate.
  - destruct (other_ops _ _ _ _ _ _ H X) as (_ & _ & _ & [(q & Q)|[(_ & _ & Q)|[(_ & _ & Q)|(_ & _ & Q)]]]).
    + rewrite Q in P. change (d_run (s_daq s) = true) in P. congruence.
    + apply init_empty in Q. destruct Q as ((Q & _) & _). congruence.
    + apply init_empty in Q. destruct Q as ((Q & _) & _). congruence.
    + rewrite Q in P. discriminate.
Qed.

(** ** C17, C18: memory *)

Ltac rw_h P := match goal with H : _ = Ok _ |- _ => rewrite P in H end.
Lemma mem_pgm_entries : forall c e, entries c (fun k h => forall s s' o, c_pgm c = true -> s_pgm s = PgmActive ->
  h e s = Ok (s', o) -> s_mem s' = s_mem s \/ k = 0xEC).
Proof.
  intros c e. apply table_each; intros; try (right; reflexivity); left; unfold_h;
   match goal with P : c_pgm _ = true, Q : s_pgm _ = PgmActive |- _ => repeat rw_h P; repeat rw_h Q end;
   cbn [andb] in *; crush_h; solve [fin].
Qed.

Lemma mem_deny_entries : forall c e, c_chkmem c = true -> (forall x a n p, e_access e x a n true p = false) ->
  entries c (fun k h => forall s s' o, h e s = Ok (s', o) -> s_mem s' = s_mem s \/ k = 0xEE \/ k = 0xEF).
Proof.
  intros c e P Q. apply table_each; intros; try (right; now auto); left; unfold_h;
   repeat rw_h P; repeat rw_h Q; cbn [andb negb] in *; crush_h; solve [fin].
Qed.

Lemma pgm_write_thm : forall c m l s o e f s' o', reachable c m l s o -> bytes f -> step c e (ORecv f) s = Ok (s', o') ->
  programming s -> ~ is_cmd 0xEC f -> s_mem s' = s_mem s.
Proof.
  intros c m l s o e f s' o' R Bf H P K. apply recv_cases in H. destruct H as [H|(k & t & h & -> & _ & _ & G & H)].
  - apply H.
  - destruct (entries_cmd c _ k h (mem_pgm_entries c e) (frame_k _ _ Bf) G (rx c (k :: t) s) s' o' (reach_pgm _ _ _ _ _ R P) P H) as [E|E].
    + exact E.
    + exfalso. apply K. rewrite E. reflexivity.
Qed.
Lemma deny_write_thm : forall c m l s o e f s' o', reachable c m l s o -> bytes f -> step c e (ORecv f) s = Ok (s', o') ->
  c_chkmem c = true -> (forall x a n p, e_access e x a n true p = false) -> ~ is_cmd 0xEE f -> ~ is_cmd 0xEF f -> s_mem s' = s_mem s.
Proof.
  intros c m l s o e f s' o' R Bf H C P K1 K2. apply recv_cases in H. destruct H as [H|(k & t & h & -> & _ & _ & G & H)].
  - apply H.
  - destruct (entries_cmd c _ k h (mem_deny_entries c e C P) (frame_k _ _ Bf) G (rx c (k :: t) s) s' o' H) as [E|[E|E]].
    + exact E.
    + exfalso. apply K1. rewrite E. reflexivity.
    + exfalso. apply K2. rewrite E. reflexivity.
Qed.

(** ** C19 *)
Lemma read_granted_thm : forall c m l s o e t s' o' p, reachable c m l s o -> dlc_ok c -> ready s -> c_opt c 0xF5 = true -> bytes t ->
  lenN (0xF5 :: t) <= c_ctobuf c -> step c e (ORecv (0xF5 :: t)) s = Ok (s', o') -> In p o' ->
  hd_error (p_data p) = Some 0xFF ->
  granted c e (s_mext s) (s_maddr s) (nth 1 (rxbuf s (0xF5 :: t)) 0) false false.
Proof.
  intros c m l s o e t s' o' p R D Rd Op Bt L H I F C.
  rewrite (exec_val c m l s o e 0xF5 t (h_upload c) R Rd L ltac:(tbl)) in H. unfold h_upload in H. rewrite rx_in in H.
  change (gb (rxbuf s (0xF5 :: t)) 1) with (nth 1 (rxbuf s (0xF5 :: t)) 0) in H.
  change (s_mext (rx c (0xF5 :: t) s)) with (s_mext s) in H. change (s_maddr (rx c (0xF5 :: t) s)) with (s_maddr s) in H.
  destruct (e_access e (s_mext s) (s_maddr s) (nth 1 (rxbuf s (0xF5 :: t)) 0) false false) eqn:A; [reflexivity|exfalso].
  assert (Bad : exists code, code < 255 /\ send_result c code (rx c (0xF5 :: t) s) = Ok (s', o')).
  { unfold pgm_idle in H. destruct (_ && _); [exists 0x12; split; [lia|exact H]|].
    unfold check_mem in H. rewrite C, A in H. cbn [andb negb] in H. exists 0x24. split; [lia|exact H]. }
  destruct Bad as (code & Hc & Bad).
  destruct (res_err_ans c code (rx c (0xF5 :: t) s) s (proj1 R) D (rx_out _ _ _ _ _ _ R) Hc (ss_rx _ _ _)) as (s1 & o1 & E & (q & -> & _ & Q) & _).
  rewrite E in Bad. apply Ok_inj in Bad. injection Bad as <- <-. destruct I as [<-|[]]. rewrite Q in F.
  unfold padded in F. destruct (c_max_dlc c); discriminate.
Qed.

(** ** Witnesses *)

(** A hook that agrees only below address 0x1000. *)
Definition env_low : env := {|
  e_getid := fun _ => None; e_seed := e_seed env_yes; e_unlock := e_unlock env_yes;
  e_access := fun _ a n _ _ => a + n <=? 0x1000; e_map := fun _ a => u32 a; e_timer := 7 |}.

Definition cal_locked_run : list op := [ORecv [0xFF; 0]; ORecv [0xF6; 0; 0; 0; 0; 1; 0; 0]].
Lemma cal_refuted : exists c m l s o e f s' o',
  reachable c m l s o /\ locked c 1 s /\ bytes f /\ step c e (ORecv f) s = Ok (s', o') /\ s_mem s' 0x100 <> s_mem s 0x100.
Proof.
  exists cfg_eth, mem0, (map (pair env_yes) cal_locked_run), (demo_st cfg_eth env_yes cal_locked_run),
    (demo_out cfg_eth env_yes cal_locked_run), env_yes, [0xF0; 1; 0x55]. eexists _, _.
  split; [apply eth_at; vm_compute; reflexivity|]. split; [split; vm_compute; reflexivity|].
  split; [apply bytes_b; reflexivity|]. split; [vm_compute; reflexivity|]. vm_compute. discriminate.
Qed.

Definition pgm_run : list op := [ORecv [0xFF; 0]; ORecv [0xF6; 0; 0; 0; 0; 1; 0; 0]; ORecv [0xD2]].
Lemma pgm_refuted : exists c m l s o e f s' o',
  reachable c m l s o /\ programming s /\ bytes f /\ step c e (ORecv f) s = Ok (s', o') /\ s_mem s' 0x101 <> s_mem s 0x101.
Proof.
  exists cfg_can, mem0, (map (pair env_yes) pgm_run), (demo_st cfg_can env_yes pgm_run),
    (demo_out cfg_can env_yes pgm_run), env_yes, [0xEC; 8; 0xFF; 0xFF; 0xFF; 0xFF]. eexists _, _.
  split; [apply can_at; vm_compute; reflexivity|]. split; [vm_compute; reflexivity|].
  split; [apply bytes_b; reflexivity|]. split; [vm_compute; reflexivity|]. vm_compute. discriminate.
Qed.

Lemma deny_refuted_max : exists c m l s o e f s' o',
  reachable c m l s o /\ c_chkmem c = true /\ wf_env c e /\ (forall x a n w p, e_access e x a n w p = false) /\ bytes f /\
  is_cmd 0xEE f /\ step c e (ORecv f) s = Ok (s', o') /\ s_mem s' 0x100 <> s_mem s 0x100.
Proof.
  exists cfg_eth, mem0, (map (pair env_no) cal_locked_run), (demo_st cfg_eth env_no cal_locked_run),
    (demo_out cfg_eth env_no cal_locked_run), env_no, (0xEE :: repeat 7 63). eexists _, _.
  split; [apply demo_at; [apply wf_eth|apply wf_no, wf_eth|vm_compute; reflexivity]|]. split; [reflexivity|].
  split; [apply wf_no, wf_eth|]. split; [reflexivity|].
  split; [apply bytes_b; reflexivity|]. split; [reflexivity|]. split; [vm_compute; reflexivity|]. vm_compute. discriminate.
Qed.

Definition block_run : list op := cal_locked_run ++ [ORecv [0xF0; 9; 1; 2; 3; 4; 5; 6]].
Lemma deny_refuted_next : exists c m l s o e f s' o',
  reachable c m l s o /\ c_chkmem c = true /\ wf_env c e /\ (forall x a n w p, e_access e x a n w p = false) /\ bytes f /\
  is_cmd 0xEF f /\ step c e (ORecv f) s = Ok (s', o') /\ s_mem s' 0x106 <> s_mem s 0x106.
Proof.
  exists cfg_can, mem0, (map (pair env_yes) block_run), (demo_st cfg_can env_yes block_run),
    (demo_out cfg_can env_yes block_run), env_no, [0xEF; 3; 7; 8; 9]. eexists _, _.
  split; [apply can_at; vm_compute; reflexivity|]. split; [reflexivity|].
  split; [apply wf_no, wf_can|]. split; [reflexivity|].
  split; [apply bytes_b; reflexivity|]. split; [reflexivity|]. split; [vm_compute; reflexivity|]. vm_compute. discriminate.
Qed.

Lemma short_upload_refuted : exists c m l s o e s' o' p,
  reachable c m l s o /\ c_chkmem c = true /\ e_access e 0 0x2000 4 false false = false /\
  step c e (ORecv [0xF4; 4; 0; 0; 0; 0x20; 0; 0]) s = Ok (s', o') /\ o' = [p] /\ p_data p = 0xFF :: mread (s_mem s) 0x2000 4.
Proof.
  exists cfg_eth, mem0, (map (pair env_yes) cal_locked_run), (demo_st cfg_eth env_yes cal_locked_run),
    (demo_out cfg_eth env_yes cal_locked_run), env_low. eexists _, _, _.
  split; [apply eth_at; vm_compute; reflexivity|]. split; [reflexivity|]. split; [reflexivity|].
  split; [vm_compute; reflexivity|]. split; [reflexivity|]. vm_compute. reflexivity.
Qed.
