(** Proofs of the session properties. *)
From Coq Require Import NArith ZArith List Bool Lia ZifyBool ZifyNat ZifyN.
From Verif Require Import Base Config Codec Checksum State Queue Daq Core Spec Lists Effects Handlers HTx HInv HInv2
  HFields HResp DaqInv HSpec Steps Demo.
Import ListNotations.
Open Scope N_scope.
Ltac Zify.zify_post_hook ::= Z.div_mod_to_equations.

(** State in which a handler starts. *)
Definition rx (c : cfg) (f : list N) (s : st) : st := count_ctos c (set_s_in (splice (s_in s) 0 f) s).

Lemma ss_refl : forall s, same_session s s.
Proof. unfold same_session. intuition. Qed.
Lemma ss_trans : forall a b d, same_session a b -> same_session b d -> same_session a d.
Proof. unfold same_session. intuition congruence. Qed.
Lemma ss_rx : forall c f s, same_session s (rx c f s).
Proof. intros. unfold same_session, rx, count_ctos. cbn. intuition. Qed.
Lemma ss_send : forall c ob s, same_session s (bump c (set_s_out ob s)).
Proof. intros. unfold same_session. ss. intuition. Qed.

Lemma recv_len8 : forall c f s, wf_cfg c -> sinv c s -> lenN f <= c_ctobuf c ->
  lenN (splice (s_in s) 0 f) = c_ctobuf c /\ 8 <= c_ctobuf c.
Proof.
  intros c f s W I L. pose proof (b_in _ _ (i_b _ _ I)) as Lb. pose proof (wf_cto c W). unfold c_ctobuf in *.
  rewrite lenN_splice; lia.
Qed.

Lemma receive_val : forall c e k t s, wf_cfg c -> sinv c s -> lenN (k :: t) <= c_ctobuf c ->
  receive c e (k :: t) s =
    if s_conn s then
      if s_busy s then busy_response c (set_s_in (splice (s_in s) 0 (k :: t)) s)
      else match getN (table c) (255 - k) with Some h => h e (rx c (k :: t) s) | None => UB OobTable end
    else if k =? 0xFF then h_connect c e (rx c (k :: t) s) else Ok (rx c (k :: t) s, []).
Proof.
  intros c e k t s W I L. destruct (recv_len8 c _ s W I L) as (A & B).
  unfold receive. destruct (N.eqb_spec (lenN (k :: t)) 0) as [E|_]; [rewrite lenN_cons in E; lia|].
  destruct (N.ltb_spec (c_ctobuf c) (lenN (k :: t))); [lia|].
  unfold dispatch. change (s_in (set_s_in ?x s)) with x. rewrite A.
  destruct (N.ltb_spec (c_ctobuf c) 8); [lia|]. reflexivity.
Qed.

Lemma receive_nil : forall c e s, receive c e [] s = Ok (s, []).
Proof. reflexivity. Qed.

(** A response sent with Xcp_Send8 whose unused bytes are zero. *)
Lemma send8_frame : forall c len bs s, wf_cfg c -> dlc_ok c -> lenN (s_out s) = c_max_cto c -> 1 <= len <= 8 ->
  lenN bs = 8 -> dropN len bs = repeat 0 (N.to_nat (8 - len)) ->
  exists ob o, lenN ob = c_max_cto c /\ send8 c len bs s = Ok (bump c (set_s_out ob s), o) /\ sends o (padded c (takeN len bs)).
Proof.
  intros c len bs s W D Lo Ll Lb Hz. pose proof (wf_cto c W).
  destruct (send8_val c len bs s Lo ltac:(lia) Lb D) as (ob & L & E).
  exists ob. eexists. split; [exact L|]. split; [exact E|]. eexists. split; [reflexivity|]. split; [reflexivity|].
  cbn [p_data]. unfold len8, padded. destruct (c_max_dlc c) eqn:Ed; [|reflexivity].
  rewrite (D Ed). rewrite (take_all _ 8 bs) by lia. rewrite <- (take_drop _ len bs) at 1. f_equal. rewrite Hz.
  f_equal. assert (X : length (takeN len bs) = N.to_nat len) by (pose proof (lenN_take _ len bs) as T; unfold lenN in T, Lb; lia). lia.
Qed.

Lemma err_frame : forall c code s, wf_cfg c -> dlc_ok c -> lenN (s_out s) = c_max_cto c -> code < 256 ->
  exists ob o, lenN ob = c_max_cto c /\ err c code s = Ok (bump c (set_s_out ob s), o) /\ sends o (padded c [0xFE; code]).
Proof.
  intros c code s W D Lo Hc. unfold err.
  assert (E : u8 code = code) by (unfold u8; change (2 ^ 8) with 256; lia). rewrite E.
  exact (send8_frame c 2 [0xFE; code; 0; 0; 0; 0; 0; 0] s W D Lo ltac:(lia) eq_refl eq_refl).
Qed.
Lemma pos_frame : forall c s, wf_cfg c -> dlc_ok c -> lenN (s_out s) = c_max_cto c ->
  exists ob o, lenN ob = c_max_cto c /\ pos c s = Ok (bump c (set_s_out ob s), o) /\ sends o (padded c [0xFF]).
Proof.
  intros c s W D Lo. exact (send8_frame c 1 [0xFF; 0; 0; 0; 0; 0; 0; 0] s W D Lo ltac:(lia) eq_refl eq_refl).
Qed.

(** ** C01 *)

Lemma ignored_Ok : forall c e f s, wf_cfg c -> sinv c s -> s_conn s = false -> ~ is_cmd 0xFF f -> lenN f <= c_ctobuf c ->
  exists s', step c e (ORecv f) s = Ok (s', []) /\ same_session s s' /\
    s_out s' = s_out s /\ s_ctr s' = s_ctr s /\ s_cros s' = s_cros s /\ s_crosb s' = s_crosb s.
Proof.
  intros c e f s W I C K L. cbn [step]. destruct f as [|k t].
  - exists s. rewrite receive_nil. repeat split; auto.
  - rewrite receive_val by auto. rewrite C. destruct (N.eqb_spec k 0xFF) as [->|_]; [exfalso; apply K; reflexivity|].
    exists (rx c (k :: t) s). split; [reflexivity|]. split; [apply ss_rx|]. repeat split.
Qed.

Definition no_connect (l : list (env * op)) : Prop := forall e f, In (e, ORecv f) l -> ~ is_cmd 0xFF f.

Lemma step_conn : forall c e op s s' o, wf_op c (e, op) -> step c e op s = Ok (s', o) ->
  s_conn s' = s_conn s \/ (s_conn s' = true /\ exists f, op = ORecv f /\ is_cmd 0xFF f) \/ (op = OInit /\ s_conn s' = false).
Proof.
  intros c e op s s' o (We & Wo) H. cbn [snd] in Wo. destruct op; cbn [step] in H.
  - apply receive_Ok in H. destruct H as [(_ & -> & _)|(k & t & -> & L & H)]; [auto|].
    destruct H as [(_ & _ & H)|[(_ & h & G & H)|(_ & _ & -> & _)]]; [| |auto].
    + apply busy_Ok in H. destruct H as (ob & _ & -> & _). auto.
    + assert (K : k < 256) by (inversion Wo; auto).
      destruct (entries_cmd c _ k h (fields_entries c e) K G _ _ _ H) as (_ & _ & _ & _ & [F|(-> & F)]); [auto|].
      right; left. split; [exact F|]. eexists. split; reflexivity.
  - left. unfold main_function in H. apply andthen_Ok in H. destruct H as (s1 & o1 & o2 & H1 & H2 & _).
    assert (E1 : s_conn s1 = s_conn s).
    { destruct (c_sbm c); [|inv; auto]. clear H2. unfold_h. invs; auto; repeat (leaf; subst; try discriminate); ss; auto. }
    rewrite <- E1. destruct (job_on c); [|inv; auto]. unfold checksum_main in H2. clear H1 E1.
    destruct (j_state (s_job s1)); unfold_h; invs; auto; repeat (leaf; subst); ss; auto.
  - left. unfold trigger in H. destruct (negb (c_daq c)); [inv; auto|]. apply bind_Ok in H. destruct H as (r & H1 & H).
    destruct r as [q|]; [|inv; auto]. clear H1. change (s_conn s) with (s_conn (upd_daq (set_d_q q) s)).
    generalize dependent (upd_daq (set_d_q q) s). revert s' o. generalize (N.to_nat (pending c q)) as n. clear.
    induction n; intros s' o s H; cbn [transmit] in H; [inv; auto|].
    apply bind_Ok in H. destruct H as ((data & q) & _ & H). unfold send_dto in H.
    apply bind_Ok in H. destruct H as ((s2 & o2) & H & H2). inv. apply IHn in H. rewrite H. reflexivity.
  - left. unfold special in H. destruct (c_ev_api c); [|inv; auto]. invs. repeat (leaf; subst). ss. auto.
  - left. unfold special in H. destruct (c_srv_api c); [|inv; auto]. invs. repeat (leaf; subst). ss. auto.
  - inv. auto.
  - left. inv. unfold xcp_disconnect in H. leaf; [subst|destruct H0; subst]; ss; auto.
  - inv. auto.
  - inv. apply set_busy_Ok in H. subst. auto.
  - right; right. split; auto. inv. unfold xcp_init in H. invs. leaf; subst; ss; destruct (job_on c); reflexivity.
Qed.

Lemma boot_conn : forall c m s, boot c m = Ok s -> s_conn s = false.
Proof. intros. unfold boot, xcp_init in H. invs. leaf; subst; ss; destruct (job_on c); reflexivity. Qed.

Lemma run_conn_false : forall c l s s' o, wf_run c l -> no_connect l -> s_conn s = false -> run c l s = Ok (s', o) ->
  s_conn s' = false.
Proof.
  induction l as [|(e & op) l IH]; intros s s' o R NC C H.
  - cbn in H. inv. auto.
  - apply run_cons in H. destruct H as (s1 & o1 & o2 & H1 & H2 & _). inversion R; subst.
    apply (IH s1 s' o2); auto.
    + intros e' f' Hin. apply NC with e'. now right.
    + apply step_conn in H1; auto. destruct H1 as [->|[(_ & f & -> & F)|(_ & ->)]]; auto.
      exfalso. apply (NC e f); [now left|exact F].
Qed.

(** Nothing happens in a slave that is not connected, not transferring, not
    computing and not measuring. *)
Definition quiet (x : env * op) : Prop :=
  match snd x with ORecv f => ~ is_cmd 0xFF f | OMain => True | OTrigger _ => True | _ => False end.

Definition at_rest (s : st) : Prop :=
  s_conn s = false /\ s_sact s = false /\ j_state (s_job s) = JIdle /\ d_run (s_daq s) = false.

Lemma at_rest_same : forall s s', same_session s s' -> at_rest s -> at_rest s'.
Proof.
  intros s s' (A & _ & _ & _ & _ & _ & _ & B & _ & _ & _ & _ & _ & D & E) (F & G & H & I).
  unfold at_rest. rewrite A, B, D, E. auto.
Qed.

Lemma quiet_step : forall c e op s s' o, quiet (e, op) -> at_rest s -> step c e op s = Ok (s', o) ->
  o = [] /\ same_session s s'.
Proof.
  intros c e op s s' o Q (C & S & J & R) H. unfold quiet in Q. cbn [snd] in Q. destruct op; try contradiction; cbn [step] in H.
  - apply receive_Ok in H. destruct H as [(_ & -> & ->)|(k & t & -> & L & H)]; [auto using ss_refl|].
    destruct H as [(C' & _)|[([(C' & _)|(_ & ->)] & _)|(_ & _ & -> & ->)]]; try congruence.
    + exfalso. apply Q. reflexivity.
    + split; auto. apply ss_rx.
  - unfold main_function, upload_block, checksum_main in H. rewrite S in H. cbn [negb] in H.
    assert (X : s' = s /\ o = []).
    { destruct (c_sbm c); cbn [andthen bind] in H; rewrite J in H; destruct (job_on c); cbn [bind app] in H; inv; auto. }
    destruct X as (-> & ->). auto using ss_refl.
  - unfold trigger, sample_event in H. rewrite R in H. destruct (negb (c_daq c)); cbn [negb bind] in H; inv; auto using ss_refl.
Qed.

Lemma quiet_run : forall c l s s' o, Forall quiet l -> at_rest s -> run c l s = Ok (s', o) -> o = [] /\ same_session s s'.
Proof.
  induction l as [|(e & op) l IH]; intros s s' o Q R H.
  - cbn in H. inv. auto using ss_refl.
  - apply run_cons in H. destruct H as (s1 & o1 & o2 & H1 & H2 & ->). inversion Q; subst.
    apply quiet_step in H1; auto. destruct H1 as (-> & S1).
    apply IH in H2; [|auto|eapply at_rest_same; eauto]. destruct H2 as (-> & S2).
    split; auto. eapply ss_trans; eauto.
Qed.

Lemma boot_rest : forall c m s, boot c m = Ok s -> at_rest s.
Proof.
  intros c m s H. unfold boot, xcp_init in H. invs. leaf; subst; ss; unfold at_rest.
  - destruct (job_on c); cbn; auto.
  - apply daq_init_run in H0. destruct H0 as (R & _). destruct (job_on c); ss; auto.
Qed.

(** ** C02 *)

Lemma bits_connect : forall c, wf_cfg c ->
  u8 (N.lor (if c_pgm c then 16 else 0) (N.lor (if c_daq c then 4 else 0) (if c_cal c then 1 else 0))) =
    (if c_cal c then 1 else 0) + (if c_daq c then 4 else 0) + (if c_pgm c then 16 else 0) /\
  u8 (N.lor (if c_motorola c then 1 else 0) (N.lor (c_gran c) (N.lor (if c_sbm c then 0x40 else 0) (if c_opt c 0xFB then 0x80 else 0)))) =
    (if c_motorola c then 1 else 0) + c_gran c + (if c_sbm c then 64 else 0) + (if c_opt c 0xFB then 128 else 0).
Proof.
  intros c W. destruct (wf_bytes c W) as (G & _). split.
  - destruct (c_pgm c), (c_daq c), (c_cal c); reflexivity.
  - destruct G as [-> | [-> | ->]]; destruct (c_motorola c), (c_sbm c), (c_opt c 0xFB); reflexivity.
Qed.

Lemma connect_frame : forall c e s, wf_cfg c -> dlc_ok c -> lenN (s_out s) = c_max_cto c ->
  exists ob o, lenN ob = c_max_cto c /\ h_connect c e s = Ok (bump c (set_s_out ob (set_s_conn true s)), o) /\
    sends o (connect_response c).
Proof.
  intros c e s W D L. unfold h_connect. destruct (bits_connect c W) as (-> & ->).
  pose proof (wf_cto c W). pose proof (wf_dto c W).
  assert (E : u8 (c_max_cto c) = c_max_cto c) by (unfold u8; change (2 ^ 8) with 256; lia). rewrite E.
  assert (E2 : hibyte (c_max_dto c) = c_max_dto c / 256) by (unfold hibyte; lia). rewrite E2.
  change (lobyte (c_max_dto c)) with (c_max_dto c mod 256). fold (connect_response c).
  destruct (send8_frame c 8 (connect_response c) (set_s_conn true s) W D L ltac:(lia) eq_refl eq_refl) as (ob & o & L2 & S & P).
  exists ob, o. split; [auto|]. split; [auto|]. destruct P as (p & -> & P1 & P2). exists p. split; [auto|]. split; [auto|].
  rewrite P2. unfold padded. destruct (c_max_dlc c); reflexivity.
Qed.

Lemma connect_Ok : forall c e f s, wf_cfg c -> dlc_ok c -> sinv c s -> s_conn s && s_busy s = false ->
  is_cmd 0xFF f -> lenN f <= c_ctobuf c ->
  exists s' o, step c e (ORecv f) s = Ok (s', o) /\ sends o (connect_response c) /\ same_session (set_s_conn true s) s'.
Proof.
  intros c e f s W D I CB K L. destruct f as [|k t]; [discriminate|]. injection K as ->. cbn [step].
  rewrite receive_val by auto. destruct (connect_frame c e (rx c (255 :: t) s) W D) as (ob & o & Lo & E & P).
  { apply (b_out _ _ (i_b _ _ I)). }
  exists (bump c (set_s_out ob (set_s_conn true (rx c (255 :: t) s)))), o. split; [|split; [exact P|]].
  - change (getN (table c) (255 - 255)) with (Some (h_connect c)).
    destruct (s_conn s); [destruct (s_busy s); [discriminate|]|]; exact E.
  - unfold same_session. ss. repeat split.
Qed.

(** ** C04 *)

Lemma busy_frame : forall c e f s, wf_cfg c -> dlc_ok c -> sinv c s -> s_conn s = true -> s_busy s = true ->
  f <> [] -> lenN f <= c_ctobuf c ->
  exists s' o, step c e (ORecv f) s = Ok (s', o) /\ sends o (padded c [0xFE; 0x10]) /\ same_session s s' /\
    s_ctos s' = s_ctos s.
Proof.
  intros c e f s W D I C B F L. destruct f as [|k t]; [congruence|]. cbn [step]. rewrite receive_val by auto. rewrite C, B.
  unfold busy_response. set (s1 := if c_stats c then _ else _).
  assert (X : same_session s s1 /\ lenN (s_out s1) = c_max_cto c /\ s_ctos s1 = s_ctos s).
  { unfold s1. pose proof (b_out _ _ (i_b _ _ I)). destruct (c_stats c); unfold same_session; cbn; intuition. }
  destruct X as (X1 & X2 & X3). clearbody s1.
  destruct (err_frame c 0x10 s1 W D X2 ltac:(lia)) as (ob & o & Lo & E & P). change 0x10 with 16 in *. rewrite E.
  exists (bump c (set_s_out ob s1)), o. split; [auto|]. split; [auto|]. split; [|exact X3].
  eapply ss_trans; [exact X1|apply ss_send].
Qed.

(** ** C05 *)

Lemma below_table : forall c e k t s, wf_cfg c -> sinv c s -> s_conn s = true -> s_busy s = false -> k < 0xC7 ->
  lenN (k :: t) <= c_ctobuf c -> step c e (ORecv (k :: t)) s = UB OobTable.
Proof.
  intros c e k t s W I C B K L. cbn [step]. rewrite receive_val by auto. rewrite C, B.
  destruct (getN (table c) (255 - k)) as [h|] eqn:G; [|reflexivity].
  apply getN_Some_lt in G. rewrite table_length in G. lia.
Qed.

Lemma table_unimpl : forall c k, 0xC7 <= k <= 0xFF -> implemented c k = false -> getN (table c) (255 - k) = Some (h_unknown c).
Proof.
  intros c k K H. assert (E : exists n, (n < 57)%nat /\ k = 255 - N.of_nat n) by (exists (N.to_nat (255 - k)); lia).
  destruct E as (n & Hn & ->). replace (255 - (255 - N.of_nat n)) with (N.of_nat n) by lia.
  unfold getN. rewrite Nnat.Nat2N.id. clear K.
  do 57 (destruct n as [|n];
    [cbn [table nth_error];
     match type of H with implemented c ?k = _ => let v := eval vm_compute in k in change k with v in H end;
     unfold implemented in H; cbn [existsb N.eqb Pos.eqb orb andb] in H;
     rewrite ?orb_false_r in H; try discriminate H; try rewrite H; reflexivity|]).
  lia.
Qed.

Lemma unknown_frame : forall c e k t s, wf_cfg c -> dlc_ok c -> sinv c s -> s_conn s = true -> s_busy s = false ->
  0xC7 <= k <= 0xFF -> implemented c k = false -> lenN (k :: t) <= c_ctobuf c ->
  exists s' o, step c e (ORecv (k :: t)) s = Ok (s', o) /\ sends o (padded c [0xFE; 0x20]) /\ same_session s s'.
Proof.
  intros c e k t s W D I C B K Im L. cbn [step]. rewrite receive_val by auto. rewrite C, B, (table_unimpl c k K Im).
  unfold h_unknown. destruct (err_frame c 0x20 (rx c (k :: t) s) W D (b_out _ _ (i_b _ _ I)) ltac:(lia)) as (ob & o & Lo & E & P).
  exists (bump c (set_s_out ob (rx c (k :: t) s))), o. split; [exact E|]. split; [exact P|].
  eapply ss_trans; [apply ss_rx|apply ss_send].
Qed.

(** ** C06 *)

Lemma rxbuf_splice : forall s f, splice (s_in s) 0 f = rxbuf s f.
Proof.
  intros. unfold splice, rxbuf, takeN, dropN, lenN. cbn [N.to_nat firstn app]. f_equal. f_equal. lia.
Qed.

Lemma one_response : forall c e k t s s' o, wf_cfg c -> dlc_ok c -> sinv c s -> s_conn s = true -> s_busy s = false ->
  k < 256 -> step c e (ORecv (k :: t)) s = Ok (s', o) ->
  (exists p, o = [p] /\ resp p) \/
  (o = [] /\ silent c k (rxbuf s (k :: t)) s s') \/
  ((k = 0xDE \/ k = 0xD8) /\ d_lcnt (s_daq s) <= gw c (rxbuf s (k :: t)) 2 mod we c /\ exists p q, o = [p; q] /\ resp p /\ resp q).
Proof.
  intros c e k t s s' o W D I C B K H. cbn [step] in H. apply receive_Ok in H.
  destruct H as [(X & _)|(k' & t' & E & L & H)]; [discriminate|]. injection E as <- <-.
  destruct H as [(_ & X & _)|[(_ & h & G & H)|(X & _)]]; try congruence.
  pose proof (entries_cmd c _ k h (fields_entries c e) K G _ _ _ H) as (Ein & _).
  apply (entries_cmd c _ k h (resp_entries c e (proj1 (wf_cto c W)) D) K G) in H.
  rewrite Ein in H. ss_in H. rewrite rxbuf_splice in H.
  destruct H as [H|[(-> & H)|H]]; [left; exact H|right; left; split; auto|right; right; exact H].
Qed.

(** ** Statements for reachable states *)

Lemma frame_before_connect : forall c m l s o,
  reachable c m l s o -> no_connect l ->
  s_conn s = false /\
  forall e f, ~ is_cmd 0xFF f -> lenN f <= c_ctobuf c ->
  exists s', step c e (ORecv f) s = Ok (s', []) /\ same_session s s' /\
    s_out s' = s_out s /\ s_ctr s' = s_ctr s /\ s_cros s' = s_cros s /\ s_crosb s' = s_crosb s.
Proof.
  intros c m l s o R NC. pose proof (reach_inv _ _ _ _ _ R) as I. destruct R as (W & _ & Wl & s0 & B & H).
  assert (C : s_conn s = false) by (eapply run_conn_false; eauto using boot_conn).
  split; [exact C|]. intros. apply ignored_Ok; auto.
Qed.

Lemma silence : forall c m l s o, reachable c m l s o -> Forall quiet l ->
  o = [] /\ exists s0, boot c m = Ok s0 /\ same_session s0 s.
Proof.
  intros c m l s o (W & _ & _ & s0 & B & H) Q. apply quiet_run in H; auto; [|eapply boot_rest; eauto].
  destruct H. split; auto. exists s0. auto.
Qed.

Lemma connect_thm : forall c m l s o e f,
  reachable c m l s o -> dlc_ok c -> s_conn s && s_busy s = false -> is_cmd 0xFF f -> lenN f <= c_ctobuf c ->
  exists s' o', step c e (ORecv f) s = Ok (s', o') /\ sends o' (connect_response c) /\ same_session (set_s_conn true s) s'.
Proof. intros. apply connect_Ok; eauto using reach_inv. apply H. Qed.

Lemma connected_until_init : forall c e op s s' o,
  wf_op c (e, op) -> s_conn s = true -> op <> OInit -> step c e op s = Ok (s', o) -> s_conn s' = true.
Proof.
  intros c e op s s' o W C N H. apply step_conn in H; auto. destruct H as [->|[(-> & _)|(-> & _)]]; congruence.
Qed.

Lemma busy_thm : forall c m l s o e f,
  reachable c m l s o -> dlc_ok c -> s_conn s = true -> s_busy s = true -> f <> [] -> lenN f <= c_ctobuf c ->
  exists s' o', step c e (ORecv f) s = Ok (s', o') /\ sends o' (padded c [0xFE; 0x10]) /\ same_session s s' /\
    s_ctos s' = s_ctos s.
Proof. intros. apply busy_frame; eauto using reach_inv. apply H. Qed.

Lemma unknown_thm : forall c m l s o e k t,
  reachable c m l s o -> dlc_ok c -> s_conn s = true -> s_busy s = false ->
  0xC7 <= k <= 0xFF -> implemented c k = false -> lenN (k :: t) <= c_ctobuf c ->
  exists s' o', step c e (ORecv (k :: t)) s = Ok (s', o') /\ sends o' (padded c [0xFE; 0x20]) /\ same_session s s'.
Proof. intros. apply unknown_frame; eauto using reach_inv. apply H. Qed.

Lemma below_table_thm : forall c m l s o e k t,
  reachable c m l s o -> s_conn s = true -> s_busy s = false -> k < 0xC7 -> lenN (k :: t) <= c_ctobuf c ->
  step c e (ORecv (k :: t)) s = UB OobTable.
Proof. intros. apply below_table; eauto using reach_inv. apply H. Qed.

Lemma one_response_thm : forall c m l s o e k t s' o',
  reachable c m l s o -> dlc_ok c -> s_conn s = true -> s_busy s = false -> k < 256 ->
  step c e (ORecv (k :: t)) s = Ok (s', o') ->
  (exists p, o' = [p] /\ resp p) \/
  (o' = [] /\ silent c k (rxbuf s (k :: t)) s s') \/
  ((k = 0xDE \/ k = 0xD8) /\ d_lcnt (s_daq s) <= gw c (rxbuf s (k :: t)) 2 mod we c /\
   exists p q, o' = [p; q] /\ resp p /\ resp q).
Proof. intros. eapply one_response; eauto using reach_inv. apply H. Qed.

Lemma disconnect_refuted : exists c m l e s o s' o' p,
  reachable c m (l ++ [(e, ORecv [0xFE])]) s o /\ s_busy s = false /\
  (exists o1, o = o1 ++ [p] /\ p_data p = [0xFF]) /\
  step c e (ORecv [0xFD]) s = Ok (s', o') /\ o' <> [].
Proof.
  exists cfg_eth, mem0, (map (pair env_yes) [ORecv [0xFF; 0]]), env_yes.
  pose (l := [ORecv [0xFF; 0]; ORecv [0xFE]]).
  exists (demo_st cfg_eth env_yes l), (demo_out cfg_eth env_yes l). eexists. eexists. eexists.
  split; [apply (eth_at l); vm_compute; reflexivity|]. split; [vm_compute; reflexivity|]. split.
  - exists (firstn 1 (demo_out cfg_eth env_yes l)). split; [vm_compute; reflexivity|reflexivity].
  - split; [vm_compute; reflexivity|discriminate].
Qed.

Lemma two_responses : exists c m l e s o,
  reachable c m l s o /\ s_conn s = true /\ s_busy s = false /\
  (exists s' p q, step c e (ORecv [0xDE; 0; 7; 0]) s = Ok (s', [p; q]) /\ p_data p = [0xFE; 0x22] /\ hd_error (p_data q) = Some 0xFF) /\
  (exists s' p q, step c e (ORecv [0xD8; 0; 7; 0]) s = Ok (s', [p; q]) /\ p_data p = [0xFE; 0x22] /\ p_data q = [0xFE; 0x21]).
Proof.
  exists cfg_can, mem0. pose (l := [ORecv [0xFF; 0]]). exists (map (pair env_yes) l), env_yes.
  exists (demo_st cfg_can env_yes l), (demo_out cfg_can env_yes l).
  split; [apply can_at; vm_compute; reflexivity|]. split; [vm_compute; reflexivity|]. split; [vm_compute; reflexivity|].
  split; eexists; eexists; eexists; (split; [vm_compute; reflexivity|split; vm_compute; reflexivity]).
Qed.
