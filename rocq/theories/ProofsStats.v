From Coq Require Import NArith ZArith List Bool Lia ZifyBool ZifyNat ZifyN.
From Verif Require Import Base Config Codec Checksum State Queue Daq Core Spec Lists Effects Handlers HTx HInv HInv2 HResp
  DaqInv HSpec Steps Ops ProofsDaqB ProofsFrames ProofsWrite Stats SpecStats.
Import ListNotations.
Open Scope N_scope.
Ltac Zify.zify_post_hook ::= Z.div_mod_to_equations.

Definition calm (o : list pkt) : Prop := filter is_busy o = [].
Lemma calm_app : forall a b, calm a -> calm b -> calm (a ++ b).
Proof. unfold calm. intros. rewrite filter_app, H, H0. reflexivity. Qed.
Lemma calm_one : forall p, is_busy p = false -> calm [p].
Proof. intros. unfold calm. cbn [filter]. rewrite H. reflexivity. Qed.
Lemma calm_nil : calm []. Proof. reflexivity. Qed.
Lemma calm_hd : forall d h x, hd_error x = Some 0xFF -> is_busy (mkPkt d h x) = false.
Proof. intros d h [|y x] H; cbn in H; [discriminate|]. injection H as ->. unfold is_busy. cbn [p_data nth]. destruct d; reflexivity. Qed.

Lemma send8_q : forall c len b x t s s' o, send8 c len (b :: x :: t) s = Ok (s', o) ->
  exists ob, s' = bump c (set_s_out ob s) /\
    (dlc_ok c -> 1 <= len <= 8 -> 8 <= c_max_cto c -> b <> 0xFE \/ x <> 0x10 -> calm o).
Proof.
  intros c len b x t s s' o H. apply send8_Ok in H. destruct H as (ob & H1 & H2 & -> & -> & H3 & H4).
  exists ob. split; [reflexivity|]. intros D L M B. apply calm_one.
  assert (1 <= len8 c len <= 8) by (unfold len8; destruct (c_max_dlc c) eqn:E; [rewrite (D E)|]; lia).
  rewrite H3 by lia. clear H1 H2 H3 H4. revert H. generalize (mk_hdr c (len8 c len) (s_ctr s)). generalize (len8 c len). intros n h H. unfold is_busy. cbn [p_dto p_data negb andb].
  rewrite take_cons by lia. destruct (N.eq_dec n 1) as [->|].
  - change (1 - 1) with 0. rewrite take_0. unfold splice. rewrite take_0. cbn [app]. rewrite take_cons by lia. change (1 - 1) with 0. rewrite take_0.
    cbn [nth]. change (0 =? 16) with false. apply andb_false_r.
  - rewrite (take_cons _ (n - 1)) by lia. unfold splice. rewrite take_0. cbn [app]. rewrite take_cons by lia. rewrite take_cons by lia. cbn [nth].
    destruct (N.eqb_spec b 0xFE); [|reflexivity]. destruct (N.eqb_spec x 0x10); [|reflexivity]. destruct B; contradiction.
Qed.

Ltac leaf_q :=
  match goal with
  | H : send8 _ _ (_ :: _ :: _) _ = Ok _ |- _ => apply send8_q in H; destruct H as (? & ? & ?)
  | H : send8 _ _ ((_ :: _) ++ _) _ = Ok _ |- _ => cbn [app] in H; apply send8_q in H; destruct H as (? & ? & ?)
  | _ => leaf_r
  end.
Ltac crush_q := unfold_h; repeat (first [inv1 | split1 | leaf_q]; subst; try discriminate).

Lemma upload_block_calm : forall c e s s' o, 8 <= c_max_cto c -> s_sact s = true -> upload_block c e s = Ok (s', o) -> calm o.
Proof.
  intros c e s s' o Wc A H. unfold upload_block in H. rewrite A in H. cbn [negb] in H.
  apply bind_Ok in H. destruct H as (s1 & H1 & H). apply bind_Ok in H. destruct H as (s2 & H2 & H).
  unfold andthen in H. apply bind_Ok in H. destruct H as ((s3 & o3) & H3 & H).
  apply bind_Ok in H. destruct H as ((s4 & o4) & H4 & H). apply Ok_inj in H. injection H as <- <-.
  assert (o4 = []) as -> by (destruct (_ =? _); invs; auto).
  apply poke_r in H1. destruct H1 as (ob1 & -> & P1 & _). destruct (P1 eq_refl _ _ eq_refl) as (N1 & E1).
  apply copy_out_r in H2. destruct H2 as (ob2 & -> & P2). destruct P2 as (N2 & E2); [lia|exact N1|].
  apply send_cto_r in H3. destruct H3 as (-> & -> & P3).
  rewrite app_nil_r. apply calm_one, calm_hd.
  rewrite P3; [ss; rewrite E2; ss; exact E1|]. destruct (_ <=? _), (c_max_dlc c); lia.
Qed.

Lemma upload_calm : forall c e n s s' o, 8 <= c_max_cto c -> upload c e n s = Ok (s', o) -> calm o.
Proof.
  intros c e n s s' o Wc H. unfold upload in H. destruct (c_sbm c).
  - apply bind_Ok in H. destruct H as (s1 & H1 & H). apply sbm_set_active_Ok in H1. subst s1.
    eapply upload_block_calm in H; auto.
  - apply bind_Ok in H. destruct H as (s1 & H1 & H). apply bind_Ok in H. destruct H as (s2 & H2 & H).
    apply poke_r in H1. destruct H1 as (ob1 & -> & P1 & _). destruct (P1 eq_refl _ _ eq_refl) as (N1 & E1).
    apply copy_out_r in H2. destruct H2 as (ob2 & -> & P2). destruct P2 as (N2 & E2); [lia|exact N1|].
    apply send_cto_r in H. destruct H as (-> & -> & P3). apply calm_one, calm_hd.
    rewrite P3; [ss; rewrite E2; ss; exact E1|]. destruct (c_max_dlc c); lia.
Qed.

Ltac hit := match goal with H : dlc_ok _ -> _ |- calm ?x =>
  match type of H with context [calm x] => apply H; [assumption|lia|lia|first [left; discriminate|right; discriminate]] end end.
Lemma calm_entries : forall c e, 8 <= c_max_cto c -> dlc_ok c -> entries c (fun k h => forall s s' o, h e s = Ok (s', o) -> calm o).
Proof.
  intros c e Wc D. apply table_each; intros.
  all: try (match goal with H : h_upload _ _ _ = _ |- _ => idtac | H : h_short_upload _ _ _ = _ |- _ => idtac end;
            unfold_up; repeat (first [inv1 | split1 | leaf_q]; subst; try discriminate);
            first [eapply upload_calm; eassumption | hit]).
  all: crush_q.
  all: try exact calm_nil.
  all: rewrite ?app_nil_r.
  all: repeat match goal with |- calm (_ ++ _) => apply calm_app end.
  all: try exact calm_nil; try hit.
  all: use_hd.
  all: try (apply calm_one, calm_hd; match goal with H : 1 <= _ -> hd_error _ = _ |- _ =>
                 rewrite H by (ss; splitif; lia); ss; congruence end).
  all: match goal with H : dlc_ok _ -> _ |- _ => apply H; [assumption|lia|lia|right] end.
  all: match goal with
    | H : daq_alloc _ _ _ = _ |- _ => apply alloc_codes in H
    | H : daq_alloc_odt _ _ _ _ = _ |- _ => apply alloc_odt_codes in H
    | H : daq_alloc_entry _ _ _ _ _ = _ |- _ => apply alloc_entry_codes in H
    end.
  all: match goal with H : alloc_out _ _ _ _ |- _ => destruct H as [->|[(-> & _)|(-> & _)]]; vm_compute; discriminate end.
Qed.

Definition unmoved (s s' : st) : Prop := s_ctos s' = s_ctos s /\ s_crosb s' = s_crosb s.
Lemma cks_calm : forall c v s s' o, 8 <= c_max_cto c -> dlc_ok c -> send_checksum c v s = Ok (s', o) -> calm o /\ unmoved s s'.
Proof.
  intros c v s s' o Wc D H. unfold send_checksum in H. cbn [app] in H. unfold unmoved.
  apply send8_q in H. destruct H as (ob & -> & H). split; [apply H; auto; [lia|left; discriminate]|split; reflexivity].
Qed.
Lemma main_calm : forall c e s s' o, 8 <= c_max_cto c -> dlc_ok c -> main_function c e s = Ok (s', o) -> calm o /\ unmoved s s'.
Proof.
  intros c e s s' o Wc D H. unfold main_function in H. apply andthen_Ok in H. destruct H as (s1 & o1 & o2 & H1 & H2 & ->).
  assert (E1 : calm o1 /\ unmoved s s1).
  { clear H2. destruct (c_sbm c); [|inv; unfold unmoved; auto using calm_nil].
    split.
    - destruct (s_sact s) eqn:A; [eapply upload_block_calm; eauto|]. unfold upload_block in H1. rewrite A in H1. cbn [negb] in H1. inv. exact calm_nil.
    - unfold_h. invs; auto; repeat (leaf; subst; try discriminate); unfold unmoved; ss; intuition. }
  assert (E2 : calm o2 /\ unmoved s1 s').
  { destruct (job_on c); [|inv; unfold unmoved; auto using calm_nil]. unfold checksum_main in H2. clear H1 E1.
    destruct (j_state (s_job s1)); try (invs; unfold unmoved; ss; auto using calm_nil; fail).
    apply bind_Ok in H2. destruct H2 as (v & _ & H2). apply bind_Ok in H2. destruct H2 as (s2 & H3 & H2). apply set_busy_Ok in H3. subst s2.
    apply andthen_Ok in H2. destruct H2 as (s3 & p1 & p2 & H3 & H4 & ->). apply cks_calm in H3; auto. destruct H3 as (C & U).
    inv. rewrite app_nil_r. split; [exact C|]. unfold unmoved in *. ss_in U. ss. exact U. }
  destruct E1 as (C1 & U1 & V1), E2 as (C2 & U2 & V2). split; [now apply calm_app|]. unfold unmoved. split; congruence.
Qed.
Lemma transmit_calm : forall c n s s' o, transmit c n s = Ok (s', o) -> calm o /\ unmoved s s'.
Proof.
  induction n; intros s s' o H; cbn [transmit] in H.
  - inv. unfold unmoved. auto using calm_nil.
  - apply bind_Ok in H. destruct H as ((data & q) & _ & H). unfold send_dto in H.
    apply bind_Ok in H. destruct H as ((s2 & o2) & H & H2). inv. apply IHn in H. destruct H as (K & D & E).
    split; [|unfold unmoved; ss_in D; ss_in E; auto]. now apply (calm_app [_]); [apply calm_one|].
Qed.
Lemma trigger_calm : forall c e ev s s' o, trigger c e ev s = Ok (s', o) -> calm o /\ unmoved s s'.
Proof.
  intros c e ev s s' o H. unfold trigger in H.
  destruct (negb (c_daq c)); [inv; unfold unmoved; auto using calm_nil|]. apply bind_Ok in H. destruct H as (r & H1 & H).
  destruct r as [q|]; [|inv; unfold unmoved; auto using calm_nil]. clear H1. apply transmit_calm in H. destruct H as (K & D & H).
  unfold unmoved in *. ss_in D. ss_in H. auto.
Qed.
Lemma special_calm : forall c ty code info s s' o, ty <> 0xFE -> 8 <= c_max_cto c -> special c ty code info s = Ok (s', o) -> calm o /\ unmoved s s'.
Proof.
  intros c ty code info s s' o T Wc H. unfold special in H. apply bind_Ok in H. destruct H as (s1 & H1 & H).
  apply poke_r in H1. destruct H1 as (ob1 & -> & P1 & _). cbn [app] in P1. destruct (P1 eq_refl _ _ eq_refl) as (N1 & E1).
  apply send_cto_r in H. destruct H as (-> & -> & P3). split; [|split; reflexivity].
  apply calm_one. unfold is_busy. cbn [p_dto p_data]. assert (L : 1 <= if c_max_dlc c then c_max_cto c else N.min (c_max_cto c - 2) (u8 (lenN info)) + 2) by (destruct (c_max_dlc c); lia).
  specialize (P3 L). ss_in P3. ss. rewrite E1 in P3. destruct (takeN _ ob1) as [|y t]; cbn in P3; [discriminate|]. injection P3 as ->.
  cbn [nth]. destruct (N.eqb_spec ty 0xFE); [contradiction|reflexivity].
Qed.

(** ** One operation *)

Definition grows (c : cfg) (cmds : N) (o : list pkt) (s s' : st) : Prop := busy_answers o <= cmds /\
  (c_stats c = true ->
  s_crosb s' = (s_crosb s + busy_answers o) mod 2 ^ 32 /\
  (s_ctos s' + busy_answers o) mod 2 ^ 32 = (s_ctos s + cmds) mod 2 ^ 32 /\ s_ctos s' < 2 ^ 32 /\ s_crosb s' < 2 ^ 32).
Lemma calm_grows : forall c s s' o, s_ctos s < 2 ^ 32 -> s_crosb s < 2 ^ 32 -> calm o /\ unmoved s s' -> grows c 0 o s s'.
Proof.
  intros c s s' o L1 L2 (C & U & V). unfold grows, busy_answers. unfold calm in C. rewrite C. change (lenN []) with 0. rewrite U, V.
  split; [lia|]. intros _. split; [rewrite N.add_0_r, N.mod_small; auto|]. auto.
Qed.

Lemma busy_one : forall c s s' o, 8 <= c_max_cto c -> dlc_ok c -> busy_response c s = Ok (s', o) -> busy_answers o = 1.
Proof.
  intros c s s' o Wc D H. unfold busy_response, err in H. apply send8_Ok in H. destruct H as (ob & H1 & H2 & _ & -> & H3 & H4).
  assert (L : 2 <= len8 c 2 <= 8) by (unfold len8; destruct (c_max_dlc c) eqn:E; [rewrite (D E)|]; lia).
  rewrite H3 by lia. clear H1 H2 H3 H4. revert L. generalize (mk_hdr c (len8 c 2)). generalize (len8 c 2). intros n h L.
  unfold busy_answers. cbn [filter]. unfold is_busy. cbn [p_dto p_data negb andb].
  rewrite take_cons by lia. rewrite (take_cons _ (n - 1)) by lia. unfold splice. rewrite take_0. cbn [app].
  rewrite take_cons by lia. rewrite take_cons by lia. cbn [nth]. reflexivity.
Qed.

Definition small (s : st) : Prop := s_ctos s < 2 ^ 32 /\ s_crosb s < 2 ^ 32.
Lemma u32_lt : forall x, u32 x < 2 ^ 32. Proof. intro x. apply N.mod_lt. discriminate. Qed.

Lemma recv_grows : forall c e f s s' o, 8 <= c_max_cto c -> dlc_ok c -> bytes f -> small s -> receive c e f s = Ok (s', o) ->
  small s' /\ grows c (if lenN f =? 0 then 0 else 1) o s s'.
Proof.
  intros c e f s s' o Wc D B (L1 & L2) H. apply receive_Ok in H.
  destruct H as [(-> & -> & ->)|(k & t & -> & L & H)].
  - split; [split; assumption|]. apply calm_grows; auto. split; [exact calm_nil|split; reflexivity].
  - rewrite lenN_cons. destruct (N.eqb_spec (lenN t + 1) 0); [lia|].
    destruct H as [(_ & _ & H)|[(_ & h & G & H)|(_ & _ & -> & ->)]].
    + pose proof (busy_one _ _ _ _ Wc D H) as Ho. apply busy_Ok in H. destruct H as (ob & _ & -> & _). unfold small, grows. rewrite Ho. ss.
      split; [destruct (c_stats c); auto using u32_lt|]. split; [lia|]. intro S. rewrite S. repeat split; auto using u32_lt.
    + assert (K : k < 256) by (apply Forall_inv in B; exact B).
      pose proof (entries_cmd c _ k h (calm_entries c e Wc D) K G _ _ _ H) as C.
      pose proof (entries_cmd c _ k h (fields_entries c e) K G _ _ _ H) as (_ & _ & F1 & F2 & _). ss_in F1. ss_in F2.
      unfold small, grows, busy_answers. unfold calm in C. rewrite C, F1, F2. change (lenN []) with 0.
      split; [destruct (c_stats c); auto using u32_lt|]. split; [lia|]. intro S. rewrite S. rewrite !N.add_0_r.
      split; [rewrite N.mod_small; auto|]. split; [unfold u32; apply N.mod_mod; discriminate|]. auto using u32_lt.
    + unfold small, grows, busy_answers. cbn [filter]. change (lenN []) with 0. ss.
      split; [destruct (c_stats c); auto using u32_lt|]. split; [lia|]. intro S. rewrite S. rewrite !N.add_0_r.
      split; [rewrite N.mod_small; auto|]. split; [unfold u32; apply N.mod_mod; discriminate|]. auto using u32_lt.
Qed.

Lemma init_zero : forall c s s', xcp_init c s = Ok s' -> s_ctos s' = 0 /\ s_crosb s' = 0 /\ s_cros s' = 0.
Proof.
  intros c s s' H. unfold xcp_init in H. apply bind_Ok in H. destruct H as (s1 & H1 & H). apply Ok_inj in H. subst s'.
  apply daq_init_st_Ok in H1. destruct H1 as [(E & ->)|(E & d & Hd & ->)]; destruct (job_on c); ss; auto.
Qed.
Definition counted (op : op) : N := match op with ORecv (_ :: _) => 1 | _ => 0 end.
Lemma step_grows : forall c e op s s' o, 8 <= c_max_cto c -> dlc_ok c -> wf_op c (e, op) -> small s -> step c e op s = Ok (s', o) ->
  small s' /\ (op <> OInit -> grows c (counted op) o s s').
Proof.
  intros c e op s s' o Wc D W L H.
  assert (K : forall o, calm o /\ unmoved s s' -> small s' /\ grows c 0 o s s').
  { intros o1 K. split; [|apply calm_grows; auto; apply L]. destruct K as (_ & U & V). unfold small. rewrite U, V. exact L. }
  destruct op; cbn [step counted] in *.
  - apply recv_grows in H; auto; [|apply W]. destruct H as (H1 & H2). split; [auto|]. intros _. destruct frame; [exact H2|]. rewrite lenN_cons in H2.
    destruct (N.eqb_spec (lenN frame + 1) 0); [lia|]. exact H2.
  - apply main_calm in H; auto. apply K in H. intuition.
  - apply trigger_calm in H; auto. apply K in H. intuition.
  - destruct (c_ev_api c); [apply special_calm in H; [|discriminate|auto]|inv]; (edestruct K; [|split; eauto]); eauto; split; [exact calm_nil|split; reflexivity].
  - destruct (c_srv_api c); [apply special_calm in H; [|discriminate|auto]|inv]; (edestruct K; [|split; eauto]); eauto; split; [exact calm_nil|split; reflexivity].
  - inv. (edestruct K; [|split; eauto]); eauto; split; [exact calm_nil|split; reflexivity].
  - inv. apply disconnect_fields in H. destruct H as (d & -> & _). (edestruct K; [|split; eauto]); eauto; split; [exact calm_nil|].
    unfold default_prot. split; destruct (c_protect c); reflexivity.
  - inv. (edestruct K; [|split; eauto]); eauto; split; [exact calm_nil|split; reflexivity].
  - inv. apply set_busy_Ok in H. subst. (edestruct K; [|split; eauto]); eauto; split; [exact calm_nil|split; reflexivity].
  - inv. apply init_zero in H. destruct H as (H1 & H2 & _). split; [unfold small; rewrite H1, H2; split; reflexivity|congruence].
Qed.
Lemma run_grows : forall c l s s' o, 8 <= c_max_cto c -> dlc_ok c -> wf_run c l -> small s -> run c l s = Ok (s', o) ->
  small s' /\ (no_init l -> grows c (commands l) o s s').
Proof.
  intros c l. induction l as [|(e, op) l IH]; intros s s' o Wc D W L H.
  - cbn in H. inv. split; [auto|]. intros _. unfold commands. cbn [filter]. apply calm_grows; try apply L. split; [exact calm_nil|split; reflexivity].
  - apply run_cons in H. destruct H as (s1 & o1 & o2 & H1 & H2 & ->). pose proof (Forall_inv W) as W2. pose proof (Forall_inv_tail W) as W3.
    destruct (step_grows _ _ _ _ _ _ Wc D W2 L H1) as (L1 & G1). destruct (IH _ _ _ Wc D W3 L1 H2) as (L2 & G2). split; [auto|].
    intros NI. specialize (G1 ltac:(intro; subst; apply Forall_inv in NI; cbn in NI; congruence)).
    specialize (G2 (Forall_inv_tail NI)). destruct G1 as (Q1 & G1), G2 as (Q2 & G2).
    assert (E1 : commands ((e, op) :: l) = counted op + commands l).
    { unfold commands. cbn [filter]. unfold is_command at 1. cbn [snd]. destruct op as [[|]| | | | | | | | | ]; cbn [counted]; rewrite ?lenN_cons; lia. }
    assert (E2 : busy_answers (o1 ++ o2) = busy_answers o1 + busy_answers o2).
    { unfold busy_answers. rewrite filter_app. apply lenN_app. }
    unfold grows. rewrite E1, E2. split; [lia|]. intro S. destruct (G1 S) as (A1 & A2 & A3 & A4), (G2 S) as (B1 & B2 & B3 & B4). repeat split; auto; lia.
Qed.

(** ** C113 *)

Lemma reach_small : forall c m l s o, reachable c m l s o -> dlc_ok c -> small s.
Proof.
  intros c m l s o (W & _ & R & s0 & B & H) D. pose proof (wf_cto c W) as Wc.
  assert (S0 : small s0). { unfold boot in B. apply init_zero in B. unfold small. destruct B as (-> & -> & _). split; reflexivity. }
  destruct (run_grows c l s0 s o ltac:(lia) D R S0 H) as (G & _). exact G.
Qed.
Lemma counts_thm : forall c m l s o l' s' o', reachable c m l s o -> wf_run c l' -> no_init l' -> run c l' s = Ok (s', o') ->
  c_stats c = true -> dlc_ok c ->
  s_cros s' = (s_cros s + lenN o') mod 2 ^ 32 /\
  s_crosb s' = (s_crosb s + busy_answers o') mod 2 ^ 32 /\
  (s_ctos s' = (s_ctos s + (commands l' - busy_answers o')) mod 2 ^ 32 /\ busy_answers o' <= commands l').
Proof.
  intros c m l s o l' s' o' R W' N H S D. pose proof (reach_small _ _ _ _ _ R D) as L. pose proof (counters_thm _ _ _ _ _ _ _ _ R W' N H) as (_ & _ & C).
  destruct R as (W & _). pose proof (wf_cto c W) as Wc. destruct (run_grows c l' s s' o' ltac:(lia) D W' L H) as ((L3 & _) & G).
  destruct (G N) as (Q & G'). destruct (G' S) as (G1 & G2 & _). repeat split; auto. lia.
Qed.

Lemma pd_int : forall n, percent_d (n mod 2 ^ 32) = as_int n.
Proof.
  intro n. unfold percent_d, as_int. assert (H : n mod 2 ^ 32 < 2 ^ 32) by (apply N.mod_lt; discriminate).
  assert (E : Z.of_N (n mod 2 ^ 32) = (Z.of_N n mod 2 ^ 32)%Z) by (rewrite N2Z.inj_mod; reflexivity). revert E H. generalize (n mod 2 ^ 32). intros v E H.
  change (2 ^ 32) with 4294967296 in *. change (2 ^ 31) with 2147483648 in *. change (2 ^ 32)%Z with 4294967296%Z in *. change (2 ^ 31)%Z with 2147483648%Z in *.
  destruct (N.ltb_spec v 2147483648); Z.div_mod_to_equations; lia.
Qed.
Lemma zero_info : forall c m l s o l' s' o', reachable c m l s o -> wf_run c l' -> no_init l' -> run c l' s = Ok (s', o') ->
  c_stats c = true -> dlc_ok c -> s_ctos s = 0 -> s_crosb s = 0 -> s_cros s = 0 ->
  system_information s' = info_of (commands l' - busy_answers o') (busy_answers o') (lenN o') /\ busy_answers o' <= commands l'.
Proof.
  intros c m l s o l' s' o' R W' N H S D Z1 Z2 Z3. destruct (counts_thm _ _ _ _ _ _ _ _ R W' N H S D) as (A & B & C & E).
  split; [|exact E]. unfold system_information, info_of. rewrite A, B, C, Z1, Z2, Z3, !N.add_0_l, !pd_int. reflexivity.
Qed.
Lemma start_thm : forall c m l s o, reachable c m l s o -> no_init l -> c_stats c = true -> dlc_ok c ->
  system_information s = info_of (commands l - busy_answers o) (busy_answers o) (lenN o) /\ busy_answers o <= commands l.
Proof.
  intros c m l s o (W & M & R & s0 & B & H) N S D.
  assert (R0 : reachable c m [] s0 []).
  { split; [exact W|]. split; [exact M|]. split; [constructor|]. exists s0. split; [exact B|reflexivity]. }
  unfold boot in B. apply init_zero in B. destruct B as (B1 & B2 & B3). eapply zero_info; eauto.
Qed.
Lemma init_thm : forall c m l s o e l' s' o', reachable c m l s o -> wf_env c e -> wf_run c l' -> no_init l' ->
  run c ((e, OInit) :: l') s = Ok (s', o') -> c_stats c = true -> dlc_ok c ->
  system_information s' = info_of (commands l' - busy_answers o') (busy_answers o') (lenN o') /\ busy_answers o' <= commands l'.
Proof.
  intros c m l s o e l' s' o' R We W' N H S D. apply run_cons in H. destruct H as (s1 & o1 & o2 & H1 & H2 & ->).
  assert (K : o1 = [] /\ xcp_init c s = Ok s1). { cbn [step] in H1. apply bind_Ok in H1. destruct H1 as (x & H1 & H3). inv. auto. }
  destruct K as (-> & K). apply init_zero in K. destruct K as (Z1 & Z2 & Z3). cbn [app] in *.
  assert (R1 : reachable c m (l ++ [(e, OInit)]) s1 (o ++ [])) by (eapply reach_step; eauto; split; [exact We|exact I]).
  eapply zero_info; eauto.
Qed.

Lemma int_small : forall v, v < 2 ^ 31 -> as_int v = Z.of_N v.
Proof.
  intros v H. unfold as_int. change (2 ^ 31) with 2147483648 in *. change (2 ^ 32)%Z with 4294967296%Z in *. change (2 ^ 31)%Z with 2147483648%Z in *.
  Z.div_mod_to_equations; lia.
Qed.
Lemma received_thm : forall c m l s o, reachable c m l s o -> no_init l -> c_stats c = true -> dlc_ok c ->
  commands l < 2 ^ 31 -> busy_answers o <> 0 -> (sh_ctos (system_information s) < Z.of_N (commands l))%Z.
Proof.
  intros c m l s o R N S D L B. destruct (start_thm _ _ _ _ _ R N S D) as (-> & Q). unfold info_of. cbn [sh_ctos].
  rewrite int_small by lia. lia.
Qed.
Lemma filter_less : forall A (f : A -> bool) l p, In p l -> f p = false -> lenN (filter f l) < lenN l.
Proof.
  intros A f l p. assert (K : forall t, lenN (filter f t) <= lenN t).
  { induction t as [|x t IH]; cbn [filter]; [lia|]. destruct (f x); rewrite ?lenN_cons; lia. }
  induction l as [|x t IH]; intros H F; [destruct H|]. cbn [filter]. rewrite lenN_cons. destruct H as [->|H].
  - rewrite F. specialize (K t). lia.
  - specialize (IH H F). destruct (f x); rewrite ?lenN_cons; lia.
Qed.
Lemma sent_thm : forall c m l s o p, reachable c m l s o -> no_init l -> c_stats c = true -> dlc_ok c ->
  lenN o < 2 ^ 31 -> In p o -> is_response p = false -> (Z.of_N (lenN (filter is_response o)) < sh_send (system_information s))%Z.
Proof.
  intros c m l s o p R N S D L I F. destruct (start_thm _ _ _ _ _ R N S D) as (-> & Q). unfold info_of. cbn [sh_send].
  rewrite int_small by lia. pose proof (filter_less _ _ _ _ I F). lia.
Qed.
Lemma negative_thm : forall c m l s o, reachable c m l s o -> no_init l -> c_stats c = true -> dlc_ok c ->
  2 ^ 31 <= lenN o < 2 ^ 32 -> (sh_send (system_information s) < 0)%Z.
Proof.
  intros c m l s o R N S D L. destruct (start_thm _ _ _ _ _ R N S D) as (-> & Q). unfold info_of. cbn [sh_send].
  unfold as_int. change (2 ^ 31) with 2147483648 in *. change (2 ^ 32) with 4294967296 in *. change (2 ^ 32)%Z with 4294967296%Z in *. change (2 ^ 31)%Z with 2147483648%Z in *.
  Z.div_mod_to_equations; lia.
Qed.

(** ** Runs with any number of frames *)
Lemma events_run : forall c e n m l s o, reachable c m l s o -> wf_env c e -> c_ev_api c = true ->
  exists s' o', reachable c m (l ++ repeat (e, OEvent 1 []) n) s' (o ++ o') /\ length o' = n.
Proof.
  intros c e n. induction n; intros m l s o R We E.
  - exists s, []. cbn [repeat]. rewrite !app_nil_r. auto.
  - pose proof (reach_inv _ _ _ _ _ R) as I. pose proof (b_out _ _ (i_b _ _ I)) as L. pose proof (wf_cto c ltac:(apply R)) as Wc.
    assert (H : exists s1 p, step c e (OEvent 1 []) s = Ok (s1, [p])).
    { cbn [step]. rewrite E. unfold special, poke. change (u8 (lenN [])) with 0. rewrite N.min_0_r. rewrite take_0. cbn [app].
      change (lenN [_; _]) with 2. destruct (N.ltb_spec (lenN (s_out s)) (0 + 2)); [lia|]. cbn [bind]. unfold send_cto. cbn [s_out set_s_out].
      rewrite lenN_splice by (change (lenN [_; _]) with 2; lia). destruct (N.ltb_spec (lenN (s_out s)) (if c_max_dlc c then c_max_cto c else 0 + 2)).
      - exfalso. destruct (c_max_dlc c); lia.
      - eauto. }
    destruct H as (s1 & p & H).
    assert (R1 : reachable c m (l ++ [(e, OEvent 1 [])]) s1 (o ++ [p])) by (eapply reach_step; eauto; split; [exact We|split; [reflexivity|constructor]]).
    destruct (IHn _ _ _ _ R1 We E) as (s2 & o2 & R2 & L2). exists s2, (p :: o2). cbn [repeat length].
    rewrite <- !app_assoc in R2. cbn [app] in R2. auto.
Qed.
