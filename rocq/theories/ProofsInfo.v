(** Exact answers of the information commands. *)
From Coq Require Import NArith ZArith List Bool Lia ZifyBool ZifyNat ZifyN.
From Verif Require Import Base Config Codec Checksum State Queue Daq Core Spec Lists Effects Handlers HTx HInv HInv2
  HFields HResp DaqInv HSpec Steps Demo ProofsSession Exec ProofsFrames SpecMem SpecDaq ProofsDaqB ProofsDaqD.
Import ListNotations.
Open Scope N_scope.
Ltac Zify.zify_post_hook ::= Z.div_mod_to_equations.

Section Info.
Variables (c : cfg) (m : mem) (l : list (env * op)) (s : st) (o : list pkt) (e : env).
Hypothesis R : reachable c m l s o.
Hypothesis RD : ready s.
Hypothesis D : dlc_ok c.

Let W : wf_cfg c := proj1 R.

Lemma rxo : forall f, lenN (s_out (rx c f s)) = c_max_cto c.
Proof. intros. eapply rx_out; eauto. Qed.

Lemma fill8 : forall bs s0 s1, lenN bs = 8 -> lenN (s_out s0) = c_max_cto c -> same_session s1 s0 ->
  exists s' o', send8 c 8 bs s0 = Ok (s', o') /\ sends o' (padded c bs) /\ same_session s1 s'.
Proof. intros. apply send8_full; auto. Qed.

Lemma status_thm : forall t, lenN (0xFD :: t) <= c_ctobuf c ->
  answers c e (0xFD :: t) s [0xFF; 0; (if c_protect c then s_prot s else 0); 0; 0; 0] s.
Proof.
  intros t L. unfold answers. rewrite (exec_val c m l s o e 0xFD t (h_status c) R RD L ltac:(tbl)). unfold h_status.
  apply (send8_ans c 6 [0xFF; 0; if c_protect c then s_prot s else 0; 0; 0; 0; 0; 0]); auto; [apply rxo|split; lia|apply ss_rx].
Qed.

Lemma synch_thm : forall t, lenN (0xFC :: t) <= c_ctobuf c -> refuses c e (0xFC :: t) s 0.
Proof.
  intros t L. unfold refuses, answers. rewrite (exec_val c m l s o e 0xFC t (h_synch c) R RD L ltac:(tbl)). unfold h_synch.
  apply err_ans; auto; [apply rxo|lia|apply ss_rx].
Qed.

Lemma small : forall x, x < 256 -> u8 x = x.
Proof. intros. unfold u8. apply N.mod_small. assumption. Qed.

Lemma comm_mode_thm : forall t, c_opt c 0xFB = true -> lenN (0xFB :: t) <= c_ctobuf c ->
  answers c e (0xFB :: t) s [0xFF; 0; (if c_mbm c then 1 else 0); 0; c_max_bs c; c_min_st c; c_queue_size c; 10] s.
Proof.
  intros t O L. unfold answers. rewrite (exec_val c m l s o e 0xFB t (h_comm_mode c) R RD L ltac:(tbl)). unfold h_comm_mode.
  destruct (wf_bytes c W) as (_ & B1 & B2 & B3 & _). rewrite !small by assumption. apply fill8; [reflexivity|apply rxo|apply ss_rx].
Qed.

(** ** GET_ID *)
Lemma get_id_known : forall t tl a n, c_opt c 0xFA = true -> lenN (0xFA :: t :: tl) <= c_ctobuf c -> wf_env c e ->
  (if t =? 0 then Some (c_id0 c) else if t =? 1 then Some (c_id1 c) else if c_idhook c then e_getid e t else None) = Some (a, n) ->
  answers c e (0xFA :: t :: tl) s ([0xFF; 0; 0; 0] ++ le_bytes 4 n) (set_s_maddr a (set_s_mext 0 s)).
Proof.
  intros t tl a n O L We H. unfold answers. rewrite (exec_val c m l s o e 0xFA (t :: tl) (h_get_id c) R RD L ltac:(tbl)). unfold h_get_id.
  rewrite rx_in. rewrite (gb_rx (0xFA :: t :: tl) s 1 t eq_refl : gb _ 1 = t). rewrite H.
  assert (N32 : n < 2 ^ 32).
  { revert H. destruct (t =? 0); [intros H; injection H as H; pose proof (wf_id0 c W) as Q; rewrite H in Q; cbn [snd] in Q; assert (2 ^ 16 < 2 ^ 32) by reflexivity; lia|].
    destruct (t =? 1); [intros H; injection H as H; pose proof (wf_id1 c W) as Q; rewrite H in Q; cbn [snd] in Q; assert (2 ^ 16 < 2 ^ 32) by reflexivity; lia|].
    destruct (c_idhook c); [|discriminate]. intros H. apply (wfe_id c e We) in H. apply H. }
  rewrite <- le32_le_bytes by assumption. apply fill8; [reflexivity|exact (rxo _)|]. unfold same_session, set_mta, rx. ss. repeat split.
Qed.

Lemma get_id_unknown : forall t tl, c_opt c 0xFA = true -> lenN (0xFA :: t :: tl) <= c_ctobuf c ->
  1 < t -> (if c_idhook c then e_getid e t else None) = None ->
  answers c e (0xFA :: t :: tl) s [0xFF; 0; 0; 0; 0; 0; 0; 0] s.
Proof.
  intros t tl O L T H. unfold answers. rewrite (exec_val c m l s o e 0xFA (t :: tl) (h_get_id c) R RD L ltac:(tbl)). unfold h_get_id.
  rewrite rx_in. rewrite (gb_rx (0xFA :: t :: tl) s 1 t eq_refl : gb _ 1 = t).
  replace (t =? 0) with false by lia. replace (t =? 1) with false by lia. rewrite H. apply fill8; [reflexivity|exact (rxo _)|apply ss_rx].
Qed.

(** ** DAQ information *)
Hypothesis NP : ~ programming s.

Lemma resolution_thm : forall t, c_daq c = true -> c_opt c 0xD9 = true -> ~ locked c 4 s -> lenN (0xD9 :: t) <= c_ctobuf c ->
  answers c e (0xD9 :: t) s [0xFF; 1; (c_max_dto c - 1) mod 256; 1; (c_max_dto c - 1) mod 256; 0x34; 1; 0] s.
Proof.
  intros t Hd O Lk L. unfold answers. rewrite (exec_val c m l s o e 0xD9 t (h_daq_resolution c) R RD L ltac:(tbl)). unfold h_daq_resolution.
  rewrite pgm_idle_no by exact NP. rewrite unlocked_no by exact Lk. apply fill8; [reflexivity|exact (rxo _)|apply ss_rx].
Qed.

End Info.

Section Info2.
Variables (c : cfg) (m : mem) (l : list (env * op)) (s : st) (o : list pkt) (e : env).
Hypothesis R : reachable c m l s o.
Hypothesis RD : ready s.
Hypothesis D : dlc_ok c.
Let W : wf_cfg c := proj1 R.

Lemma ev_info_thm : forall r a b tl x, let f := 0xD7 :: r :: a :: b :: tl in let n := field c [a; b] in
  c_daq c = true -> c_opt c 0xD7 = true -> ~ locked c 4 s -> bytes f -> lenN f <= c_ctobuf c ->
  getN (c_events c) n = Some x ->
  let named := negb ((ev_name x =? 0) || (ev_nlen x =? 0)) in
  answers c e f s [0xFF; ev_props x; 1; (if named then ev_nlen x else 0); ev_cycle x; ev_unit x; 0]
    (if named then set_s_maddr (ev_name x) (set_s_mext 0 s) else s).
Proof.
  intros r a b tl x f n Hd O Lk B L G named. unfold answers. unfold f at 1.
  rewrite (exec_val c m l s o e 0xD7 (r :: a :: b :: tl) (h_daq_event_info c) R RD L ltac:(tbl)). fold f. unfold h_daq_event_info.
  rewrite unlocked_no by exact Lk. rewrite rx_in.
  assert (E : gw c (rxbuf s f) 2 = n).
  { unfold gw. rewrite (gb_rx f s 2 a eq_refl : gb _ 2 = a), (gb_rx f s 3 b eq_refl : gb _ (2 + 1) = b). unfold n, field.
    destruct (c_motorola c); cbn [be_value le_value rev app fold_left]; unfold be_value, le_value; cbn [rev app fold_right]; lia. }
  rewrite E. pose proof (getN_Some_lt _ _ _ _ G) as Ln. pose proof (wf_ev c W Hd) as We.
  assert (U : u8 (c_nevents c) = c_nevents c) by (unfold u8, c_nevents; apply N.mod_small; lia).
  rewrite U. replace (c_nevents c <=? n) with false by (unfold c_nevents; lia). rewrite G. fold named.
  apply (send8_ans c 7 [0xFF; ev_props x; 1; if named then ev_nlen x else 0; ev_cycle x; ev_unit x; 0; 0]); auto;
    [destruct named; eapply rx_out; eauto|split; lia|].
  destruct named; [|apply ss_rx]. unfold same_session, set_mta, rx. ss. repeat split.
Qed.

Lemma ev_info_bad : forall r a b tl, let f := 0xD7 :: r :: a :: b :: tl in let n := field c [a; b] in
  c_daq c = true -> c_opt c 0xD7 = true -> ~ locked c 4 s -> bytes f -> lenN f <= c_ctobuf c -> lenN (c_events c) <= n -> refuses c e f s 0x22.
Proof.
  intros r a b tl f n Hd O Lk B L G. unfold refuses, answers. unfold f at 1.
  rewrite (exec_val c m l s o e 0xD7 (r :: a :: b :: tl) (h_daq_event_info c) R RD L ltac:(tbl)). fold f. unfold h_daq_event_info.
  rewrite unlocked_no by exact Lk. rewrite rx_in.
  assert (E : gw c (rxbuf s f) 2 = n).
  { unfold gw. rewrite (gb_rx f s 2 a eq_refl : gb _ 2 = a), (gb_rx f s 3 b eq_refl : gb _ (2 + 1) = b). unfold n, field.
    destruct (c_motorola c); unfold be_value, le_value; cbn [rev app fold_right]; lia. }
  rewrite E. pose proof (wf_ev c W Hd) as We.
  assert (U : u8 (c_nevents c) = c_nevents c) by (unfold u8, c_nevents; apply N.mod_small; lia).
  rewrite U. replace (c_nevents c <=? n) with true by (unfold c_nevents; lia). apply res_err_ans; auto; [eapply rx_out; eauto|lia|apply ss_rx].
Qed.

(** ** Programming *)
Lemma program_start_thm : forall t, c_pgm c = true -> ~ locked c 16 s -> ~ measuring s -> lenN (0xD2 :: t) <= c_ctobuf c ->
  answers c e (0xD2 :: t) s [0xFF; 0; 0; c_max_cto c; c_max_bs_pgm c; c_min_st_pgm c; 0] (set_s_pgm PgmActive s).
Proof.
  intros t Hp Lk Me L. unfold answers. rewrite (exec_val c m l s o e 0xD2 t (h_program_start c) R RD L ltac:(tbl)). unfold h_program_start.
  rewrite unlocked_no by exact Lk. rewrite daq_stopped_no by exact Me.
  destruct (wf_bytes c W) as (_ & _ & _ & _ & B1 & B2 & _). pose proof (wf_cto c W). rewrite !small by lia.
  apply (send8_ans c 7 [0xFF; 0; 0; c_max_cto c; c_max_bs_pgm c; c_min_st_pgm c; 0; 0]); auto; [exact (rx_out _ _ _ _ _ _ R)|split; lia|].
  unfold same_session, rx. ss. repeat split.
Qed.

Lemma pgm_info_thm : forall t, c_pgm c = true -> c_opt c 0xCE = true -> lenN (0xCE :: t) <= c_ctobuf c ->
  answers c e (0xCE :: t) s [0xFF; c_pgm_props c; c_max_sector c] s.
Proof.
  intros t Hp O L. unfold answers. rewrite (exec_val c m l s o e 0xCE t (h_pgm_info c) R RD L ltac:(tbl)). unfold h_pgm_info.
  destruct (wf_bytes c W) as (_ & _ & _ & _ & _ & _ & B1 & B2). rewrite !small by lia.
  apply (send8_ans c 3 [0xFF; c_pgm_props c; c_max_sector c; 0; 0; 0; 0; 0]); auto; [exact (rx_out _ _ _ _ _ _ R)|split; lia|apply ss_rx].
Qed.

Lemma sector_thm : forall md n tl, let f := 0xCD :: md :: n :: tl in c_pgm c = true -> c_opt c 0xCD = true -> lenN f <= c_ctobuf c -> n < c_max_sector c -> md <= 1 ->
  answers c e f s [0xFF; 2 * n mod 256; (2 * n + 1) mod 256; 0; 0; 0; 0; 0] s.
Proof.
  intros md n tl f Hp O L N1 M1. unfold answers. unfold f. rewrite (exec_val c m l s o e 0xCD (md :: n :: tl) (h_sector_info c) R RD L ltac:(tbl)). fold f. unfold h_sector_info.
  rewrite rx_in, (gb_rx f s 1 md eq_refl : gb _ 1 = md), (gb_rx f s 2 n eq_refl : gb _ 2 = n).
  replace (c_max_sector c <=? n) with false by lia. replace (1 <? md) with false by lia.
  unfold u8. rewrite (N.mul_comm n 2). apply send8_full; auto; [exact (rx_out _ _ _ _ _ _ R)|apply ss_rx].
Qed.
Lemma sector_bad : forall md n tl, let f := 0xCD :: md :: n :: tl in c_pgm c = true -> c_opt c 0xCD = true -> lenN f <= c_ctobuf c -> c_max_sector c <= n \/ 1 < md ->
  refuses c e f s (if c_max_sector c <=? n then 0x28 else 0x27).
Proof.
  intros md n tl f Hp O L H. unfold refuses, answers. unfold f. rewrite (exec_val c m l s o e 0xCD (md :: n :: tl) (h_sector_info c) R RD L ltac:(tbl)). fold f. unfold h_sector_info.
  rewrite rx_in, (gb_rx f s 1 md eq_refl : gb _ 1 = md), (gb_rx f s 2 n eq_refl : gb _ 2 = n).
  destruct (c_max_sector c <=? n) eqn:E; [|replace (1 <? md) with true by lia];
    (apply res_err_ans; auto; [exact (rx_out _ _ _ _ _ _ R)|lia|apply ss_rx]).
Qed.

(** PROGRAM_CLEAR and the others: outside of programming mode refused. *)
Lemma pgm_seq_thm : forall k t, In k [0xD1; 0xD0; 0xCF; 0xCC; 0xCB; 0xCA; 0xC9; 0xC8] -> c_pgm c = true -> (k < 0xCF -> c_opt c k = true) -> lenN (k :: t) <= c_ctobuf c ->
  ~ programming s -> refuses c e (k :: t) s 0x29.
Proof.
  intros k t I Hp O L NP. unfold refuses, answers.
  assert (E : forall x, pgm_active c (rx c (k :: t) s) x = send_result c 0x29 (rx c (k :: t) s)).
  { intros x. unfold pgm_active. change (s_pgm (rx c (k :: t) s)) with (s_pgm s). unfold programming in NP. destruct (s_pgm s); congruence. }
  assert (G : exists h, entry c k = Some h /\ h e (rx c (k :: t) s) = send_result c 0x29 (rx c (k :: t) s)).
  { cbn [In] in I.
    destruct I as [<-|[<-|[<-|I]]];
      [exists (h_program_only_check c); split; [tbl|apply E] | exists (h_program c); split; [tbl|apply E] | exists (h_program_reset c); split; [tbl|apply E] |].
    exists (h_program_only_check c); split; [|apply E].
    repeat (destruct I as [<-|I]; [specialize (O ltac:(lia)); clear - Hp O; tbl|]). contradiction. }
  destruct G as (h & G1 & G2). rewrite (exec_val c m l s o e k t h R RD L G1), G2. apply res_err_ans; auto; [exact (rx_out _ _ _ _ _ _ R)|lia|apply ss_rx].
Qed.

Lemma program_reset_thm : forall t, c_pgm c = true -> programming s -> lenN (0xCF :: t) <= c_ctobuf c ->
  answers c e (0xCF :: t) s [0xFF] (set_s_pgm PgmIdle s).
Proof.
  intros t Hp P L. unfold answers. rewrite (exec_val c m l s o e 0xCF t (h_program_reset c) R RD L ltac:(tbl)). unfold h_program_reset, pgm_active.
  change (s_pgm (rx c (0xCF :: t) s)) with (s_pgm s). rewrite P. apply pos_ans; auto; [exact (rx_out _ _ _ _ _ _ R)|]. unfold same_session, rx. ss. repeat split.
Qed.

End Info2.
