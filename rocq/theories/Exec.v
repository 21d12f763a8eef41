(** Forward evaluation of commands. *)
From Coq Require Import NArith ZArith List Bool Lia ZifyBool ZifyNat ZifyN.
From Verif Require Import Base Config Codec Checksum State Queue Daq Core Spec Lists Effects Handlers HTx HInv HInv2
  HFields HResp DaqInv HSpec Steps Demo ProofsSession.
Import ListNotations.
Open Scope N_scope.
Ltac Zify.zify_post_hook ::= Z.div_mod_to_equations.

(** Entry of the command table. *)
Definition entry (c : cfg) (k : N) : option handler := getN (table c) (255 - k).

Lemma exec_val : forall c m l s o e k t h, reachable c m l s o -> ready s -> lenN (k :: t) <= c_ctobuf c ->
  entry c k = Some h -> step c e (ORecv (k :: t)) s = h e (rx c (k :: t) s).
Proof.
  intros c m l s o e k t h R (C & B) L H. cbn [step].
  rewrite receive_val; [|apply R|eapply reach_inv; eauto|auto]. unfold entry in H. now rewrite C, B, H.
Qed.

Lemma rx_in : forall c f s, s_in (rx c f s) = rxbuf s f.
Proof. intros. unfold rx. ss. apply rxbuf_splice. Qed.
Lemma rx_out : forall c m l s o f, reachable c m l s o -> lenN (s_out (rx c f s)) = c_max_cto c.
Proof. intros. unfold rx. ss. apply (b_out _ _ (i_b _ _ (reach_inv _ _ _ _ _ H))). Qed.

Lemma send8_ans : forall c len bs s s1, wf_cfg c -> dlc_ok c -> lenN (s_out s) = c_max_cto c -> 1 <= len <= 8 ->
  lenN bs = 8 -> dropN len bs = repeat 0 (N.to_nat (8 - len)) -> same_session s1 s ->
  exists s' o, send8 c len bs s = Ok (s', o) /\ sends o (padded c (takeN len bs)) /\ same_session s1 s'.
Proof.
  intros c len bs s s1 W D L Ll Lb Z S. destruct (send8_frame c len bs s W D L Ll Lb Z) as (ob & o & Lo & E & P).
  exists (bump c (set_s_out ob s)), o. split; [exact E|]. split; [exact P|]. eapply ss_trans; [exact S|apply ss_send].
Qed.
Lemma err_ans : forall c code s s1, wf_cfg c -> dlc_ok c -> lenN (s_out s) = c_max_cto c -> code < 256 -> same_session s1 s ->
  exists s' o, err c code s = Ok (s', o) /\ sends o (padded c [0xFE; code]) /\ same_session s1 s'.
Proof.
  intros c code s s1 W D L K S. destruct (err_frame c code s W D L K) as (ob & o & Lo & E & P).
  exists (bump c (set_s_out ob s)), o. split; [exact E|]. split; [exact P|]. eapply ss_trans; [exact S|apply ss_send].
Qed.
Lemma pos_ans : forall c s s1, wf_cfg c -> dlc_ok c -> lenN (s_out s) = c_max_cto c -> same_session s1 s ->
  exists s' o, pos c s = Ok (s', o) /\ sends o (padded c [0xFF]) /\ same_session s1 s'.
Proof.
  intros c s s1 W D L S. destruct (pos_frame c s W D L) as (ob & o & Lo & E & P).
  exists (bump c (set_s_out ob s)), o. split; [exact E|]. split; [exact P|]. eapply ss_trans; [exact S|apply ss_send].
Qed.
Lemma res_err_ans : forall c code s s1, wf_cfg c -> dlc_ok c -> lenN (s_out s) = c_max_cto c -> code < 255 -> same_session s1 s ->
  exists s' o, send_result c code s = Ok (s', o) /\ sends o (padded c [0xFE; code]) /\ same_session s1 s'.
Proof.
  intros. unfold send_result. destruct (N.eqb_spec code 0xFF); [lia|]. apply err_ans; auto; lia.
Qed.

(** Guards that pass. *)
Lemma pgm_idle_no : forall c s k, ~ programming s -> pgm_idle c s k = k.
Proof. intros c s k H. unfold pgm_idle, programming in *. destruct (s_pgm s); try congruence; now rewrite andb_false_r. Qed.
Lemma daq_stopped_no : forall c s k, ~ measuring s -> daq_stopped c s k = k.
Proof. intros c s k H. unfold daq_stopped, measuring in *. destruct (d_run (s_daq s)); [congruence|]. now rewrite andb_false_r. Qed.
Lemma unlocked_no : forall c r s k, ~ locked c r s -> unlocked c r s k = k.
Proof.
  intros c r s k H. unfold unlocked, is_protected, locked in *. destruct (c_protect c); auto. cbn [andb].
  destruct (N.eqb_spec (N.land (s_prot s) r) r); auto. exfalso; auto.
Qed.
Lemma check_mem_yes : forall c e x a n w p s k, granted c e x a n w p -> check_mem c e x a n w p s k = k.
Proof.
  intros c e x a n w p s k H. unfold check_mem, granted in *. destruct (c_chkmem c); auto. now rewrite H.
Qed.
(** Guards that fail. *)
Lemma pgm_idle_yes : forall c s k, c_pgm c = true -> programming s -> pgm_idle c s k = send_result c 0x12 s.
Proof. intros c s k P H. unfold pgm_idle, programming in *. now rewrite P, H. Qed.
Lemma daq_stopped_yes : forall c s k, c_daq c = true -> measuring s -> daq_stopped c s k = send_result c 0x11 s.
Proof. intros c s k P H. unfold daq_stopped, measuring in *. now rewrite P, H. Qed.
Lemma unlocked_yes : forall c r s k, locked c r s -> unlocked c r s k = send_result c 0x25 s.
Proof. intros c r s k (P & H). unfold unlocked, is_protected. now rewrite P, H, N.eqb_refl. Qed.
Lemma check_mem_no : forall c e x a n w p s k, ~ granted c e x a n w p -> check_mem c e x a n w p s k = send_result c 0x24 s.
Proof.
  intros c e x a n w p s k H. unfold check_mem, granted in *. destruct (c_chkmem c); [|exfalso; apply H; discriminate].
  destruct (e_access e x a n w p); auto. exfalso; auto.
Qed.

(** Programming mode needs the PGM commands. *)
Lemma reach_pgm : forall c m l s o, reachable c m l s o -> programming s -> c_pgm c = true.
Proof.
  intros c m l s o R P. pose proof (i_pgm _ _ (reach_inv _ _ _ _ _ R)) as H. unfold programming, pgm_on in *.
  destruct (c_pgm c); auto. specialize (H eq_refl). rewrite P in H. discriminate.
Qed.
Lemma reach_daq : forall c m l s o, reachable c m l s o -> measuring s -> c_daq c = true.
Proof.
  intros c m l s o R P. pose proof (i_daq _ _ (reach_inv _ _ _ _ _ R)) as H. unfold measuring in *.
  destruct (c_daq c); auto. specialize (H eq_refl). congruence.
Qed.

(** Looks up an entry of the command table that the configuration enables. *)
Ltac tbl_try c h b := transitivity (Some (if b then h else h_unknown c)); [reflexivity|];
  repeat match goal with H : _ = true |- _ => rewrite H end; reflexivity.
Ltac tbl := lazymatch goal with |- entry ?c ?k = Some ?h =>
  first [ reflexivity | tbl_try c h (c_opt c k) | tbl_try c h (c_cal c) | tbl_try c h (c_cal c && c_opt c k)
        | tbl_try c h (c_daq c) | tbl_try c h (c_daq c && c_opt c k) | tbl_try c h (c_pgm c)
        | tbl_try c h (c_pgm c && c_opt c k) ] end.
