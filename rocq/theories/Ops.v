(** What the operations other than reception leave alone. *)
From Coq Require Import NArith ZArith List Bool Lia ZifyBool ZifyNat ZifyN.
From Verif Require Import Base Config Codec Checksum State Queue Daq Core Spec Lists Effects Handlers HTx HInv HInv2
  HFields HResp DaqInv HSpec Steps.
Import ListNotations.
Open Scope N_scope.
Ltac Zify.zify_post_hook ::= Z.div_mod_to_equations.

(** Everything but buffers, counters, block-upload state, MTA address, busy, job, queue. *)
Definition kept (s s' : st) : Prop :=
  s_conn s' = s_conn s /\ s_pgm s' = s_pgm s /\ s_prot s' = s_prot s /\ s_seed s' = s_seed s /\
  s_mext s' = s_mext s /\ s_mact s' = s_mact s /\ s_mrem s' = s_mrem s /\ s_mem s' = s_mem s /\ s_in s' = s_in s.

Lemma main_kept : forall c e s s' o, main_function c e s = Ok (s', o) -> kept s s' /\ s_daq s' = s_daq s.
Proof.
  intros c e s s' o H. unfold main_function in H. apply andthen_Ok in H. destruct H as (s1 & o1 & o2 & H1 & H2 & _).
  assert (E1 : kept s s1 /\ s_daq s1 = s_daq s).
  { destruct (c_sbm c); [|inv; unfold kept; intuition]. clear H2.
    unfold_h. invs; auto; repeat (leaf; subst; try discriminate); unfold kept; ss; intuition. }
  assert (E2 : kept s1 s' /\ s_daq s' = s_daq s1).
  { destruct (job_on c); [|inv; unfold kept; intuition]. unfold checksum_main in H2. clear H1 E1.
    destruct (j_state (s_job s1)); unfold_h; invs; auto; repeat (leaf; subst); unfold kept; ss; intuition. }
  unfold kept in *. intuition congruence.
Qed.

Definition daq_but_queue (d d' : daqst) : Prop := exists q, d' = set_d_q q d.

Lemma dbq_refl : forall d, daq_but_queue d d.
Proof. intro d. exists (d_q d). destruct d. reflexivity. Qed.
Lemma dbq_trans : forall a b d, daq_but_queue a b -> daq_but_queue b d -> daq_but_queue a d.
Proof. intros a b d (q & ->) (r & ->). exists r. reflexivity. Qed.

Lemma transmit_kept : forall c n s s' o, transmit c n s = Ok (s', o) ->
  kept s s' /\ daq_but_queue (s_daq s) (s_daq s') /\ s_maddr s' = s_maddr s /\ s_busy s' = s_busy s /\ s_sact s' = s_sact s /\
  s_srem s' = s_srem s /\ s_job s' = s_job s /\ s_out s' = s_out s.
Proof.
  induction n; intros s s' o H; cbn [transmit] in H.
  - inv. unfold kept. intuition. apply dbq_refl.
  - apply bind_Ok in H. destruct H as ((data & q) & _ & H). unfold send_dto in H.
    apply bind_Ok in H. destruct H as ((s2 & o2) & H & H2). inv. apply IHn in H.
    destruct H as (K & D & H). unfold kept in *. ss_in K. ss_in D. ss_in H. intuition.
Qed.
Lemma kept_refl : forall s, kept s s /\ daq_but_queue (s_daq s) (s_daq s) /\ s_maddr s = s_maddr s /\ s_busy s = s_busy s /\
  s_sact s = s_sact s /\ s_srem s = s_srem s /\ s_job s = s_job s /\ s_out s = s_out s.
Proof. intro s. unfold kept. intuition; apply dbq_refl. Qed.
Lemma trigger_kept : forall c e ev s s' o, trigger c e ev s = Ok (s', o) ->
  kept s s' /\ daq_but_queue (s_daq s) (s_daq s') /\ s_maddr s' = s_maddr s /\ s_busy s' = s_busy s /\ s_sact s' = s_sact s /\
  s_srem s' = s_srem s /\ s_job s' = s_job s /\ s_out s' = s_out s.
Proof.
  intros c e ev s s' o H. unfold trigger in H.
  destruct (negb (c_daq c)); [inv; apply kept_refl|]. apply bind_Ok in H. destruct H as (r & H1 & H).
  destruct r as [q|]; [|inv; apply kept_refl]. clear H1. apply transmit_kept in H. destruct H as (K & D & H).
  unfold kept in *. ss_in K. ss_in D. ss_in H. intuition.
Qed.
Lemma special_kept : forall c ty code info s s' o, special c ty code info s = Ok (s', o) -> same_session s s' /\ s_in s' = s_in s.
Proof. intros. unfold special in H. invs. repeat (leaf; subst). unfold same_session. ss. repeat split. Qed.

(** The DAQ configuration is reset. *)
Definition reset_daq (c : cfg) (s s' : st) : Prop :=
  s_daq s' = s_daq s \/ (c_daq c = true /\ exists d, (d = s_daq s \/ d = set_d_run false (set_d_pent 0 (set_d_podt 0 (set_d_plist 0 (s_daq s))))) /\
                          daq_init c d = Ok (s_daq s')).

Lemma disconnect_fields : forall c s s', xcp_disconnect c s = Ok s' ->
  exists d, s' = set_s_daq d (default_prot c s) /\ (if c_daq c then daq_init c (s_daq s) = Ok d else d = s_daq s).
Proof.
  intros c s s' H. unfold xcp_disconnect in H. apply daq_init_st_Ok in H.
  destruct H as [(E & ->)|(E & d & Hd & ->)]; rewrite E.
  - exists (s_daq s). split; [|reflexivity]. unfold default_prot. destruct s. reflexivity.
  - exists d. split; [reflexivity|exact Hd].
Qed.

Lemma init_fields : forall c s s', xcp_init c s = Ok s' ->
  s_conn s' = false /\ s_busy s' = false /\ s_pgm s' = PgmUninit /\
  s_prot s' = (if c_protect c then default_prot_bits c else 0) /\ s_seed s' = 0 /\ s_mext s' = 0 /\ s_maddr s' = 0 /\
  s_sact s' = false /\ s_mact s' = false /\ s_mem s' = s_mem s /\
  (if c_daq c then daq_init c (set_d_run false (set_d_pent 0 (set_d_podt 0 (set_d_plist 0 (s_daq s))))) = Ok (s_daq s')
   else s_daq s' = set_d_run false (set_d_pent 0 (set_d_podt 0 (set_d_plist 0 (s_daq s))))).
Proof.
  intros c s s' H. unfold xcp_init in H. apply bind_Ok in H. destruct H as (s1 & H1 & H). apply Ok_inj in H. subst s'.
  assert (K : forall j x, (if job_on c then set_s_job j x else x) = set_s_job (if job_on c then j else s_job x) x).
  { intros j x. destruct (job_on c); [reflexivity|destruct x; reflexivity]. }
  rewrite K. clear K. apply daq_init_st_Ok in H1. destruct H1 as [(E & ->)|(E & d & Hd & ->)]; rewrite E; try ss_in Hd; ss;
    (destruct (c_protect c); repeat split; auto).
Qed.

(** Memory, programming state and protection across one operation that is not a reception. *)
Lemma other_ops : forall c e op s s' o, step c e op s = Ok (s', o) -> (forall f, op <> ORecv f) ->
  (s_mem s' = s_mem s \/ exists a bs, op = OAppWrite a bs) /\
  (s_pgm s' = s_pgm s \/ (op = OInit /\ s_pgm s' = PgmUninit)) /\
  ((s_prot s' = s_prot s /\ s_seed s' = s_seed s) \/
   ((op = ODisconnect \/ op = OInit) /\ s_prot s' = default_prot_bits c /\ s_seed s' = 0 /\ c_protect c = true) \/
   (op = OInit /\ s_prot s' = 0 /\ s_seed s' = 0 /\ c_protect c = false)) /\
  (daq_but_queue (s_daq s) (s_daq s') \/
   (c_daq c = true /\ op = ODisconnect /\ daq_init c (s_daq s) = Ok (s_daq s')) \/
   (c_daq c = true /\ op = OInit /\ daq_init c (set_d_run false (set_d_pent 0 (set_d_podt 0 (set_d_plist 0 (s_daq s))))) = Ok (s_daq s')) \/
   (c_daq c = false /\ op = OInit /\ s_daq s' = set_d_run false (set_d_pent 0 (set_d_podt 0 (set_d_plist 0 (s_daq s)))))).
Proof.
  intros c e op s s' o H NR. destruct op; cbn [step] in H.
  - exfalso. eapply NR. reflexivity.
  - apply main_kept in H. destruct H as (K & D). rewrite D. unfold kept in K. intuition. left. apply dbq_refl.
  - apply trigger_kept in H. destruct H as (K & D & _). unfold kept in K. intuition.
  - destruct (c_ev_api c); [apply special_kept in H; destruct H as (K & _); unfold same_session in K|inv]; intuition; left; [|apply dbq_refl].
    match goal with X : s_daq _ = _ |- _ => rewrite X end. apply dbq_refl.
  - destruct (c_srv_api c); [apply special_kept in H; destruct H as (K & _); unfold same_session in K|inv]; intuition; left; [|apply dbq_refl].
    match goal with X : s_daq _ = _ |- _ => rewrite X end. apply dbq_refl.
  - inv. ss. intuition eauto. left. apply dbq_refl.
  - inv. apply disconnect_fields in H. destruct H as (d & -> & Hd). ss. split; [auto|]. split; [auto|]. split.
    + destruct (c_protect c); auto 6.
    + destruct (c_daq c) eqn:?; [auto 6|]. subst d. left. apply dbq_refl.
  - inv. ss. intuition. left. apply dbq_refl.
  - inv. apply set_busy_Ok in H. subst. ss. intuition. left. apply dbq_refl.
  - inv. apply init_fields in H. destruct H as (_ & _ & P & Q & S & _ & _ & _ & _ & M & D).
    split; [auto|]. split; [auto|]. split; [right|].
    + destruct (c_protect c); auto 6.
    + destruct (c_daq c) eqn:?; auto 6.
Qed.
