(** Proofs of the end-to-end properties of predefined DAQ lists. *)
From Coq Require Import NArith ZArith List Bool Lia ZifyBool ZifyNat ZifyN.
From Verif Require Import Base Config Codec Checksum State Queue Daq Core Spec Lists Effects Handlers HTx HInv HInv2
  HFields HResp DaqInv HSpec Steps Demo Ops ProofsSession Exec ProofsFrames SpecMem SpecDaq ProofsDaqA ProofsDaqB ProofsDaqC ProofsDaqD ProofsDaqE ProofsDaqF ProofsDaqG
  ProofsDaqI SpecE2e ProofsE2e Predef SpecPre ProofsPre ProofsPre2 ProofsPre3 ProofsPreSafe ProofsPre4 SpecPreE2e.
Import ListNotations.
Open Scope N_scope.
Ltac Zify.zify_post_hook ::= Z.div_mod_to_equations.

Lemma srun_app_val : forall c p l1 l2 z z1 o1, srun c p l1 z = Ok (z1, o1) -> srun c p (l1 ++ l2) z = sthen (Ok (z1, o1)) (srun c p l2).
Proof.
  intros c p l1. induction l1 as [|(e & x) l1 IH]; intros l2 z z1 o1 H; cbn [srun app] in *.
  - injection H as <- <-. unfold sthen. cbn [bind]. destruct (srun c p l2 z) as [(a & b)|]; reflexivity.
  - apply sthen_Ok in H. destruct H as (z2 & oa & ob & E1 & E2 & ->). unfold sthen at 1. rewrite E1. cbn [bind]. rewrite (IH l2 z2 z1 ob E2). unfold sthen. cbn [bind].
    destruct (srun c p l2 z1) as [(a & b)|]; cbn [bind]; [now rewrite app_assoc|reflexivity].
Qed.
Lemma getN_put : forall A (l : list A) i x j, i < lenN l -> getN (put i x l) j = if j =? i then Some x else getN l j.
Proof.
  intros A l i x j L. rewrite put_upd by exact L. destruct (N.eqb_spec j i) as [->|X]; [now apply getN_upd_same|]. apply getN_upd_other. congruence.
Qed.
Lemma ss_trans_daq : forall s0 s d s1, same_session (with_daq (s_daq s) s0) s -> same_session (set_s_daq d s) s1 -> same_session (with_daq (s_daq s1) s0) s1 /\ s_daq s1 = d.
Proof.
  intros s0 s d s1 S T. unfold same_session, with_daq in *. destruct s0, s, s1; ss. cbn in *. decompose [and] S. decompose [and] T. subst. repeat split; congruence.
Qed.

Section Talk.
Variables (c : cfg) (p : predef) (tb : list (N * N)) (s0 : st) (t : tree).
Variables (D : dlc_ok c) (RD : ready s0) (Op : daq_open c s0) (Ds : describes c p tb t).

Definition Kz (Q : daqst -> list N -> Prop) (z : sst) : Prop :=
  (exists m l o, sreachable c p tb m l z o) /\ same_session (with_daq (s_daq (z_st z)) s0) (z_st z) /\ Q (s_daq (z_st z)) (z_modes z).
Definition doesz (d : dialogue) (P Q : daqst -> list N -> Prop) : Prop :=
  forall l z, Kz P z -> performs c d l -> exists z' o, srun c p l z = Ok (z', o) /\ as_expected c d o /\ Kz Q z'.

Lemma doesz_nil : forall P : daqst -> list N -> Prop, doesz [] P P.
Proof. intros P l z (A & B & C) (E & _). destruct l; [|discriminate]. exists z, []. split; [reflexivity|]. split; [constructor|]. split; auto. Qed.
Lemma doesz_app : forall a b P Q R, doesz a P Q -> doesz b Q R -> doesz (a ++ b) P R.
Proof.
  intros a b P Q R HA HB l z Hz (E & F). rewrite map_app in E. apply map_eq_app in E. destruct E as (l1 & l2 & -> & E1 & E2). apply Forall_app in F. destruct F as (F1 & F2).
  destruct (HA l1 z Hz (conj E1 F1)) as (z1 & o1 & R1 & X1 & K1). destruct (HB l2 z1 K1 (conj E2 F2)) as (z2 & o2 & R2 & X2 & K2).
  exists z2, (o1 ++ o2). split; [|split; [apply Forall2_app; auto|exact K2]]. rewrite (srun_app_val c p l1 l2 z z1 o1 R1). unfold sthen. cbn [bind]. rewrite R2. reflexivity.
Qed.
Lemma doesz_cons : forall x b P Q R, doesz [x] P Q -> doesz b Q R -> doesz (x :: b) P R.
Proof. intros x b P Q R H H0. exact (doesz_app [x] b P Q R H H0). Qed.
Lemma doesz_weak : forall d (P P' Q Q' : daqst -> list N -> Prop), (forall x y, P' x y -> P x y) -> (forall x y, Q x y -> Q' x y) -> doesz d P Q -> doesz d P' Q'.
Proof.
  intros d P P' Q Q' HP HQ H l z (A & B & C) F. destruct (H l z (conj A (conj B (HP _ _ C))) F) as (z' & o & X & Y & (A' & B' & C')).
  exists z', o. split; [exact X|]. split; [exact Y|]. split; [exact A'|]. split; [exact B'|]. now apply HQ.
Qed.
Lemma doesz_one : forall f bs (P Q : daqst -> list N -> Prop), bytes f ->
  (forall m l z o e, sreachable c p tb m l z o -> ready (z_st z) -> daq_open c (z_st z) -> P (s_daq (z_st z)) (z_modes z) -> wf_env c e ->
     exists d ms, sanswers c p e f z bs (with_modes ms (zdaq d z)) /\ Q d ms) ->
  doesz [(f, bs)] P Q.
Proof.
  intros f bs P Q Bf H l z ((m & l0 & o0 & R) & S & HP) (E & F). destruct l as [|(e & x) [|? ?]]; cbn [map snd fst] in E; try discriminate. injection E as ->.
  inversion F as [|? ? We _]; subst. cbn [fst] in We.
  destruct (H m l0 z o0 e R) as (d & ms & (z1 & o1 & E1 & A1 & T & T1 & T2) & HQ); auto.
  - destruct RD as (RD1 & RD2). unfold ready, same_session, with_daq in *. destruct s0, (z_st z); ss. cbn in *. decompose [and] S. subst. auto.
  - unfold daq_open, programming, locked in *. unfold same_session, with_daq in S. destruct s0, (z_st z); ss. cbn in *. decompose [and] S. subst. exact Op.
  - cbn [z_st with_modes zdaq with_st z_modes] in T, T2. destruct (ss_trans_daq s0 (z_st z) d (z_st z1) S T) as (S1 & Ed).
    exists z1, o1. split; [|split; [|split; [|split]]].
    + cbn [srun]. unfold sthen. rewrite E1. cbn [bind]. now rewrite app_nil_r.
    + destruct A1 as (q & -> & X & Y). constructor; [auto|constructor].
    + exists m, (l0 ++ [(e, ORecv f)]), (o0 ++ o1). eapply sreach_step; eauto. split; auto.
    + exact S1.
    + rewrite Ed, T2. exact HQ.
Qed.

(** ** Assignment, selection and start *)
Variables (md : N -> N).
Definition keyed (ms : list N) (done : list (N * N)) : Prop := forall x k, In (x, k) done -> exists v, getN ms k = Some v /\ stamped v = N.testbit (md k) 4.
Definition set_upz (run : bool) (done : list (N * N)) (d : daqst) (ms : list N) : Prop :=
  d_run d = run /\ q_head (d_q d) = used s0 /\ (forall x k, In (x, k) done -> getN (d_lfe d) x = Some k) /\ keyed ms done.

Lemma znev : forall m l z o, sreachable c p tb m l z o -> c_nevents c <= 255 /\ 8 <= c_ctobuf c.
Proof. intros m l z o R. pose proof (wf_ev _ (proj1 R) (proj1 Op)). pose proof (wf_cto _ (proj1 R)). unfold c_nevents, c_ctobuf. lia. Qed.

Lemma assign_doesz : forall r done, NoDup (map fst (done ++ r)) -> modes_ok md r ->
  Forall (fun x => fst x < c_nevents c /\ snd x < lenN t /\ snd x < 256) r -> c_nevents c <= 255 ->
  doesz (map (fun x => ok ([0xE0; md (snd x)] ++ coded c 2 (snd x) ++ coded c 2 (fst x) ++ [1; 0])) r) (set_upz false done) (set_upz false (done ++ r)).
Proof.
  induction r as [|(ev & k) r IH]; intros done Nd Mo Hr Ne; [rewrite app_nil_r; apply doesz_nil|].
  inversion Hr as [|? ? (H1 & H2 & H3) Hr']; subst. inversion Mo as [|? ? (M1 & M2) Mo']; subst. cbn [fst snd] in *. cbn [map fst snd].
  eapply (doesz_cons _ _ _ (set_upz false (done ++ [(ev, k)]))).
  - destruct (coded2 c k) as (a & b & E & F & Ha & Hb); [lia|]. destruct (coded2 c ev) as (v & w & E' & F' & Hv & Hw); [lia|]. unfold ok. rewrite E, E'. cbn [app].
    apply doesz_one; [repeat constructor; lia|]. intros m l z o e R Rd Ro (St & Us & As & Ks) We. pose proof (znev _ _ _ _ R) as (_ & Ct).
    pose proof (sreach_inv _ _ _ _ _ _ _ R) as (I & B & _). assert (Q1 : count_of p = lenN t) by apply Ds.
    destruct (setmode_p c p tb m l z o e (md k) a b v w 1 [0] R Rd D Ro) as (mv & A & A1 & _); rewrite ?F, ?F'; auto; try lia.
    + unfold measuring. congruence.
    + repeat constructor; lia.
    + rewrite F, F' in A. eexists _, _. split; [exact A|]. split; [exact St|]. split; [exact Us|]. rewrite N.mod_small by lia.
      pose proof (d_lfelen _ _ (i_d _ _ I)) as Ll. split.
      * intros x j Ij. cbn [d_lfe set_d_lfe]. rewrite getN_put by lia. apply in_app_iff in Ij. destruct Ij as [Ij|[[= <- <-]|[]]]; [|now rewrite N.eqb_refl].
        destruct (N.eqb_spec x ev) as [->|X]; [|now apply As]. exfalso. rewrite map_app in Nd. cbn [map fst] in Nd. apply NoDup_remove_2 in Nd. apply Nd, in_app_iff. left. now apply (in_map fst) in Ij.
      * intros x j Ij. cbn [z_modes zdaq with_st]. rewrite getN_put by lia. destruct (N.eqb_spec j k) as [->|X]; [eauto|].
        apply in_app_iff in Ij. destruct Ij as [Ij|[[= <- <-]|[]]]; [|congruence]. eapply Ks; eauto.
  - rewrite (snoc_cons _ done _ r). apply IH; auto. rewrite <- (snoc_cons _ done _ r). exact Nd.
Qed.
Lemma select_doesz : forall b done (r : list (N * N)), Forall (fun x => snd x < lenN t /\ snd x < 256) r ->
  doesz (map (fun x => ([0xDE; 2] ++ coded c 2 (snd x), [0xFF; odts_before t (snd x) mod 256; 0; 0; 0; 0; 0; 0])) r) (set_upz b done) (set_upz b done).
Proof.
  intros b done. induction r as [|(ev & k) r IH]; intros Hr; [apply doesz_nil|].
  inversion Hr as [|? ? (H1 & H2) Hr']; subst. cbn [fst snd] in *. cbn [map fst snd]. eapply doesz_cons; [|now apply IH].
  destruct (coded2 c k) as (x & y & E & F & Ha & Hb); [lia|]. rewrite E. cbn [app].
  apply doesz_one; [repeat constructor; lia|]. intros m l z o e R Rd Ro (St & Us & As & Ks) We. pose proof (znev _ _ _ _ R) as (_ & Ct).
  pose proof (sreach_inv _ _ _ _ _ _ _ R) as (I & B & _). assert (Q1 : count_of p = lenN t) by apply Ds.
  destruct (getN_lt_Some _ t k H1) as (os & G).
  destruct (sslist_p c p tb m l z o e t 2 x y [] os R Rd D Ro Ds) as (mv & A1 & A); rewrite ?F; auto; try lia.
  - repeat constructor; lia.
  - change (lenN [_; _; _; _]) with 4. lia.
  - rewrite F in A1, A. cbn [N.eqb Pos.eqb] in A. exists (s_daq (z_st z)), (put k (N.setbit mv 6) (z_modes z)). split.
    + replace (with_modes (put k (N.setbit mv 6) (z_modes z)) (zdaq (s_daq (z_st z)) z)) with (put_mode k (N.setbit mv 6) z); [exact A|].
      unfold put_mode, with_modes, zdaq, with_st. cbn [z_st z_entries z_modes]. f_equal. destruct (z_st z). reflexivity.
    + split; [exact St|]. split; [exact Us|]. split; [exact As|]. intros e' j Ij. unfold mode_of in A1. rewrite getN_put by lia. destruct (N.eqb_spec j k) as [->|X]; [|eapply Ks; eauto].
      destruct (Ks _ _ Ij) as (v & G1 & G2). rewrite A1 in G1. injection G1 as <-. eexists. split; [reflexivity|]. rewrite <- G2. unfold stamped. apply N.setbit_neq. lia.
Qed.
Lemma synched_stamped : forall k v, stamped (synched k v) = stamped v.
Proof.
  intros k v. unfold synched, stamped. destruct (selected v); [|reflexivity]. rewrite N.clearbit_neq by lia. destruct (k =? 1); [apply N.setbit_neq|apply N.clearbit_neq]; lia.
Qed.
Lemma synch_doesz : forall b k done, k <= 1 -> doesz [ok [0xDD; k]] (set_upz b done) (set_upz (k =? 1) done).
Proof.
  intros b k done Hk. apply doesz_one; [repeat constructor; lia|]. intros m l z o e R Rd Ro (St & Us & As & Ks) We. pose proof (znev _ _ _ _ R) as (_ & Ct).
  eexists _, _. split; [apply (synch_p c p tb m l z o e k [] R Rd D Ro); [change (lenN [_; _]) with 2; lia|lia]|].
  destruct (N.eqb_spec k 2); [lia|]. split; [reflexivity|]. split; [exact Us|]. split; [exact As|].
  intros x j Ij. destruct (Ks _ _ Ij) as (v & G1 & G2). rewrite nth_map, G1. cbn [option_map]. eexists. split; [reflexivity|]. now rewrite synched_stamped.
Qed.
Lemma start_doesz : forall asg, asg_ok c t asg -> modes_ok md asg -> c_nevents c <= 255 ->
  doesz (start_own c t md asg) (set_upz false []) (set_upz true asg).
Proof.
  intros asg (Nd & Ha) Mo Ne. unfold start_own. apply (doesz_app _ _ _ (set_upz false asg)); [|apply (doesz_app _ _ _ (set_upz false asg)); [|apply (synch_doesz false 1); lia]].
  - apply (assign_doesz asg []); auto.
  - apply select_doesz. eapply Forall_impl; [|exact Ha]. now intros x (_ & H).
Qed.

(** ** Events *)
Lemma Kz_queue : forall b done z z' m l o, Kz (set_upz b done) z -> sreachable c p tb m l z' o -> same_but_queue (z_st z) (z_st z') -> z_modes z' = z_modes z ->
  (exists m l o, sreachable c p tb m l z' o) /\ same_session (with_daq (s_daq (z_st z')) s0) (z_st z') /\
  d_run (s_daq (z_st z')) = b /\ (forall x k, In (x, k) done -> getN (d_lfe (s_daq (z_st z'))) x = Some k) /\ keyed (z_modes z') done.
Proof.
  intros b done z z' m l o (_ & S & St & Us & As & Ks) R (q & Q) Em. destruct (ss_trans_daq s0 (z_st z) _ (z_st z') S Q) as (S1 & Ed).
  split; [eauto|]. split; [exact S1|]. rewrite Ed, Em. split; [exact St|]. split; [exact As|exact Ks].
Qed.
End Talk.

(** The state during the measurement, [u] slots of the queue used. *)
Definition meas (c : cfg) (p : predef) (tb : list (N * N)) (s0 : st) (md : N -> N) (asg : list (N * N)) (u : N) (z : sst) : Prop :=
  (exists m l o, sreachable c p tb m l z o) /\ same_session (with_daq (s_daq (z_st z)) s0) (z_st z) /\ d_run (s_daq (z_st z)) = true /\
  (forall x k, In (x, k) asg -> getN (d_lfe (s_daq (z_st z))) x = Some k) /\ keyed md (z_modes z) asg /\ used (z_st z) = u.
Lemma meas_stamp : forall c p tb s0 md asg u z e ev l, meas c p tb s0 md asg u z -> In (ev, l) asg ->
  list_stamp c e z l = (if c_ts c && N.testbit (md l) 4 then stamp c (e_timer e) else []).
Proof. intros c p tb s0 md asg u z e ev l (_ & _ & _ & _ & K & _) I. destruct (K _ _ I) as (v & G1 & G2). unfold list_stamp, mode_of. now rewrite G1, G2. Qed.
Lemma meas_next : forall c p tb s0 md asg u z z' m l o, meas c p tb s0 md asg u z -> sreachable c p tb m l z' o -> same_but_queue (z_st z) (z_st z') ->
  z_modes z' = z_modes z -> meas c p tb s0 md asg (used (z_st z')) z'.
Proof.
  intros c p tb s0 md asg u z z' m l o (_ & S & St & As & Ks & _) R (q & Q) Em. destruct (ss_trans_daq s0 (z_st z) _ (z_st z') S Q) as (S1 & Ed).
  split; [eauto|]. split; [exact S1|]. rewrite Ed, Em. split; [exact St|]. split; [exact As|]. split; [exact Ks|reflexivity].
Qed.
Lemma meas_mem : forall c p tb s0 md asg u z, meas c p tb s0 md asg u z -> s_mem (z_st z) = s_mem s0.
Proof. intros c p tb s0 md asg u z (_ & S & _). unfold same_session, with_daq in S. destruct s0, (z_st z). ss. cbn in *. tauto. Qed.

Lemma meas_run : forall c p tb s0 md t asg, stamp_ok c -> describes c p tb t -> forall es fs, expected_own c (s_mem s0) t md asg es fs -> forall u z, meas c p tb s0 md asg u z ->
  (u + lenN fs <= 4 -> exists z' o, srun c p (triggers es) z = Ok (z', o) /\ emits o fs /\ meas c p tb s0 md asg (u + lenN fs) z') /\
  (0 < u -> 4 < u + lenN fs -> srun c p (triggers es) z = UB OobQueue).
Proof.
  intros c p tb s0 md t asg So Ds es fs H. induction H as [|e ev l os es fs ts We I G Sa H IH]; intros u z Mz.
  - change (lenN []) with 0. split.
    + intros _. exists z, []. split; [reflexivity|]. split; [split; [reflexivity|constructor]|]. now rewrite N.add_0_r.
    + intros _ Hu. exfalso. destruct Mz as ((m & l & o & R) & _ & _ & _ & _ & U). pose proof (tail_used _ _ _ _ _ _ _ R) as (_ & X). lia.
  - pose proof (meas_stamp c p tb s0 md asg u z e ev l Mz I) as Ts. fold ts in Ts. pose proof (meas_mem _ _ _ _ _ _ _ _ Mz) as Em.
    pose proof Mz as ((m & l0 & o & R) & S & St & As & Ks & U). rewrite lenN_app, dtos_len. cbn [triggers map srun fst snd]. fold (triggers es).
    assert (Sa' : sampleable c (list_stamp c e z l) os) by (rewrite Ts; exact Sa).
    assert (Hv : ev < 256).
    { pose proof (getN_Some_lt _ _ _ _ (As _ _ I)) as Lv. pose proof (sreach_inv _ _ _ _ _ _ _ R) as (Iv & _). rewrite (d_lfelen _ _ (i_d _ _ Iv)) in Lv.
      pose proof (wf_ev c (proj1 R) (proj1 (proj1 (proj2 R)))) as Wev. fold (c_nevents c) in Wev. lia. }
    split.
    + intros Hu. destruct (pre_event c p tb m l0 z o e t ev l os R We So Ds St (As _ _ I) G Sa') as (z1 & o1 & E1 & (F1 & F2) & S1 & _ & M1 & U1); [lia|].
      assert (R1 : sreachable c p tb m (l0 ++ [(e, OTrigger ev)]) z1 (o ++ o1)) by (eapply sreach_step; eauto; split; auto).
      pose proof (meas_next _ _ _ _ _ _ _ _ _ _ _ _ Mz R1 S1 M1) as Mz1. rewrite U1, U in Mz1.
      destruct (proj1 (IH _ _ Mz1)) as (z2 & o2 & E2 & (G1 & G2) & Mz2); [lia|].
      exists z2, (o1 ++ o2). split; [unfold sthen; rewrite E1; cbn [bind]; rewrite E2; reflexivity|]. split; [split|].
      * rewrite map_app, F1, G1, Ts, Em. reflexivity.
      * apply Forall_app. auto.
      * replace (u + (lenN os + lenN fs)) with (u + lenN os + lenN fs) by lia. exact Mz2.
    + intros H0 Hu. unfold sthen. destruct (N.ltb_spec 4 (u + lenN os)) as [X|X].
      * rewrite (pre_overflow c p tb m l0 z o e t ev l os R We So Ds St (As _ _ I) G Sa'); [reflexivity|lia|lia].
      * destruct (pre_event c p tb m l0 z o e t ev l os R We So Ds St (As _ _ I) G Sa') as (z1 & o1 & E1 & (F1 & F2) & S1 & _ & M1 & U1); [lia|].
        assert (R1 : sreachable c p tb m (l0 ++ [(e, OTrigger ev)]) z1 (o ++ o1)) by (eapply sreach_step; eauto; split; auto).
        pose proof (meas_next _ _ _ _ _ _ _ _ _ _ _ _ Mz R1 S1 M1) as Mz1. rewrite U1, U in Mz1. rewrite E1. cbn [bind].
        rewrite (proj2 (IH _ _ Mz1)); [reflexivity|lia|lia].
Qed.
Lemma idle_run : forall c p es z, ~ measuring (z_st z) -> srun c p (triggers es) z = Ok (z, []).
Proof.
  intros c p es z M. induction es as [|(e & ev) es IH]; [reflexivity|]. cbn [triggers map srun fst snd]. fold (triggers es). unfold sthen. rewrite (pre_idle c p e ev z M). cbn [bind]. rewrite IH. reflexivity.
Qed.

Lemma started_thm : forall c p tb m l z o t asg md l1,
  sreachable c p tb m l z o -> ready (z_st z) -> dlc_ok c -> daq_open c (z_st z) -> ~ measuring (z_st z) -> describes c p tb t ->
  asg_ok c t asg -> modes_ok md asg -> performs c (start_own c t md asg) l1 ->
  exists z' o1, srun c p l1 z = Ok (z', o1) /\ as_expected c (start_own c t md asg) o1 /\ meas c p tb (z_st z) md asg (used (z_st z)) z'.
Proof.
  intros c p tb m l z o t asg md l1 R RD D Op M Ds Ha Mo Hp.
  destruct (start_doesz c p tb (z_st z) t D RD Op Ds md asg Ha Mo (proj1 (znev c p tb (z_st z) Op _ _ _ _ R)) l1 z) as (z1 & o1 & E1 & X1 & (R1 & S1 & A1 & A2 & A3 & A4)); auto.
  - split; [eauto|]. split; [apply same_session_refl|]. split; [unfold measuring in M; now destruct (d_run (s_daq (z_st z)))|]. split; [reflexivity|]. split; [intros x k []|intros x k []].
  - exists z1, o1. split; [exact E1|]. split; [exact X1|]. repeat (split; [assumption|]). exact A2.
Qed.
Lemma pre_measurement : forall c p tb m l z o t asg md l1 es fs l2 es',
  sreachable c p tb m l z o -> ready (z_st z) -> dlc_ok c -> daq_open c (z_st z) -> stamp_ok c -> ~ measuring (z_st z) -> describes c p tb t ->
  asg_ok c t asg -> modes_ok md asg -> performs c (start_own c t md asg) l1 ->
  expected_own c (s_mem (z_st z)) t md asg es fs -> used (z_st z) + lenN fs <= 4 -> performs c [ok [0xDD; 0]] l2 ->
  exists z' o1 o2 o3, srun c p (l1 ++ triggers es ++ l2 ++ triggers es') z = Ok (z', o1 ++ o2 ++ o3) /\
    as_expected c (start_own c t md asg) o1 /\ emits o2 fs /\ as_expected c [ok [0xDD; 0]] o3 /\ ~ measuring (z_st z').
Proof.
  intros c p tb m l z o t asg md l1 es fs l2 es' R RD D Op So M Ds Ha Mo Hp He Hu Hp2.
  destruct (started_thm c p tb m l z o t asg md l1 R RD D Op M Ds Ha Mo Hp) as (z1 & o1 & E1 & X1 & K1).
  destruct (proj1 (meas_run c p tb (z_st z) md t asg So Ds es fs He _ _ K1) Hu) as (z2 & o2 & E2 & X2 & (R2 & S2 & A1 & A2 & A3 & A4)).
  assert (K2 : Kz c p tb (z_st z) (fun d _ => d_run d = true) z2) by (split; [exact R2|split; [exact S2|exact A1]]).
  assert (Dz : doesz c p tb (z_st z) [ok [0xDD; 0]] (fun d _ => d_run d = true) (fun d _ => d_run d = false)).
  { apply doesz_one; [exact RD|exact Op|repeat constructor|]. intros m' l' z' o' e' R' Rd' Ro' P' We'. pose proof (znev c p tb (z_st z) Op _ _ _ _ R') as (_ & Ct).
    eexists _, _. split; [apply (synch_p c p tb m' l' z' o' e' 0 [] R' Rd' D Ro'); [change (lenN [_; _]) with 2; lia|lia]|]. reflexivity. }
  destruct (Dz l2 z2 K2 Hp2) as (z3 & o3 & E3 & X3 & (_ & _ & A5)).
  assert (M3 : ~ measuring (z_st z3)) by (unfold measuring; congruence).
  exists z3, o1, o2, o3. split; [|auto]. rewrite (srun_app_val c p l1 _ z z1 o1 E1). unfold sthen. cbn [bind].
  rewrite (srun_app_val c p (triggers es) _ z1 z2 o2 E2). unfold sthen. cbn [bind]. rewrite (srun_app_val c p l2 _ z2 z3 o3 E3). unfold sthen. cbn [bind].
  rewrite (idle_run c p es' z3 M3). cbn [bind]. now rewrite app_nil_r.
Qed.
Lemma pre_exhausted : forall c p tb m l z o t asg md l1 es fs,
  sreachable c p tb m l z o -> ready (z_st z) -> dlc_ok c -> daq_open c (z_st z) -> stamp_ok c -> ~ measuring (z_st z) -> describes c p tb t ->
  asg_ok c t asg -> modes_ok md asg -> performs c (start_own c t md asg) l1 ->
  expected_own c (s_mem (z_st z)) t md asg es fs -> 0 < used (z_st z) -> 4 < used (z_st z) + lenN fs ->
  srun c p (l1 ++ triggers es) z = UB OobQueue.
Proof.
  intros c p tb m l z o t asg md l1 es fs R RD D Op So M Ds Ha Mo Hp He H0 Hu.
  destruct (started_thm c p tb m l z o t asg md l1 R RD D Op M Ds Ha Mo Hp) as (z1 & o1 & E1 & X1 & K1).
  rewrite (srun_app_val c p l1 _ z z1 o1 E1). unfold sthen. cbn [bind]. rewrite (proj2 (meas_run c p tb (z_st z) md t asg So Ds es fs He _ _ K1) H0 Hu). reflexivity.
Qed.

(** ** The same lists, allocated *)
Lemma own_expected : forall c m t mode asg es fs, expected_own c m t (fun _ => mode) asg es fs -> expected c m t (c_ts c && N.testbit mode 4) asg es fs.
Proof. intros c m t mode asg es fs H. induction H; [constructor|]. unfold ts in *. now constructor. Qed.
