(** Exact answers of GET_SEED, UNLOCK, CLEAR_DAQ_LIST, GET_DAQ_LIST_MODE and the
    CAN transport layer commands. *)
From Coq Require Import NArith ZArith List Bool Lia ZifyBool ZifyNat ZifyN.
From Verif Require Import Base Config Codec Checksum State Queue Daq Core Spec Lists Effects Handlers HTx HInv HInv2
  HFields HResp DaqInv HSpec Steps Demo ProofsSession Exec ProofsFrames SpecMem SpecDaq ProofsDaqB ProofsDaqD ProofsInfo.
Import ListNotations.
Open Scope N_scope.
Ltac Zify.zify_post_hook ::= Z.div_mod_to_equations.

Lemma is_prot_iff : forall c r s, is_protected c r s = true <-> locked c r s.
Proof.
  intros. unfold is_protected, locked. destruct (c_protect c); cbn [andb]; split; try discriminate; try (intros [H _]; discriminate).
  - intros. split; [reflexivity|]. now apply N.eqb_eq.
  - intros [_ H]. now apply N.eqb_eq.
Qed.

Section Info3.
Variables (c : cfg) (m : mem) (l : list (env * op)) (s : st) (o : list pkt) (e : env).
Hypothesis R : reachable c m l s o.
Hypothesis RD : ready s.
Let W : wf_cfg c := proj1 R.

(** ** Seeds *)
Lemma seed_unknown : forall md r tl, let f := 0xF8 :: md :: r :: tl in
  dlc_ok c -> c_opt c 0xF8 = true -> ~ programming s -> lenN f <= c_ctobuf c ->
  ~ ((r = 1 /\ c_cal c = true) \/ (r = 4 /\ c_daq c = true) \/ (r = 16 /\ c_pgm c = true)) -> refuses c e f s 0x22.
Proof.
  intros md r tl f D O P L H. unfold refuses, answers. unfold f at 1. rewrite (exec_val c m l s o e 0xF8 (md :: r :: tl) (h_get_seed c) R RD L ltac:(tbl)). fold f. unfold h_get_seed.
  rewrite pgm_idle_no by exact P. rewrite rx_in, (gb_rx f s 2 r eq_refl : gb _ 2 = r).
  assert (E : seed_resource_ok c r = false).
  { unfold seed_resource_ok. destruct (N.eqb_spec r 16), (N.eqb_spec r 4), (N.eqb_spec r 1), (c_pgm c), (c_daq c), (c_cal c); cbn [andb orb]; try reflexivity; exfalso; apply H; auto. }
  rewrite E. cbn [negb]. apply err_ans; auto; [exact (rx_out _ _ _ _ _ _ R)|lia|apply ss_rx].
Qed.

Lemma seed_locked : forall md r tl, let f := 0xF8 :: md :: r :: tl in let n := N.min (c_max_cto c - 2) (lenN (e_seed e r)) in
  c_max_dlc c = false -> c_opt c 0xF8 = true -> ~ programming s -> lenN f <= c_ctobuf c ->
  ((r = 1 /\ c_cal c = true) \/ (r = 4 /\ c_daq c = true) \/ (r = 16 /\ c_pgm c = true)) -> locked c r s -> e_seed e r <> [] ->
  answers c e f s (0xFF :: n :: firstn (N.to_nat n) (e_seed e r)) (set_s_seed (N.lor (s_seed s) r) s).
Proof.
  intros md r tl f n D O P L H Lk Ne. unfold answers. unfold f at 1. rewrite (exec_val c m l s o e 0xF8 (md :: r :: tl) (h_get_seed c) R RD L ltac:(tbl)). fold f. unfold h_get_seed.
  rewrite pgm_idle_no by exact P. rewrite rx_in, (gb_rx f s 2 r eq_refl : gb _ 2 = r).
  assert (E : seed_resource_ok c r = true).
  { unfold seed_resource_ok. destruct H as [[-> ->]|[[-> ->]|[-> ->]]]; cbn [N.eqb Pos.eqb andb orb]; try reflexivity; now destruct (c_pgm c). }
  rewrite E. cbn [negb]. replace (is_protected c r (rx c f s)) with true by (symmetry; now apply is_prot_iff).
  assert (Lp : 0 < lenN (e_seed e r)) by (destruct (e_seed e r); [contradiction|unfold lenN; cbn [length]; lia]).
  pose proof (wf_cto c W) as Wc. fold n. replace (n =? 0) with false by lia. rewrite D.
  pose proof (rx_out _ _ _ _ _ f R) as Lo.
  assert (Lt : lenN (takeN n (e_seed e r)) = n) by (rewrite lenN_take; lia).
  unfold poke at 1. rewrite Lo, Lt. replace (c_max_cto c <? 2 + n) with false by lia. cbn [bind].
  set (ob := splice (s_out (rx c f s)) 2 (takeN n (e_seed e r))).
  assert (Lob : lenN ob = c_max_cto c) by (unfold ob; rewrite lenN_splice; lia).
  unfold poke. ss. rewrite Lob. change (lenN [0xFF; n]) with 2. replace (c_max_cto c <? 0 + 2) with false by lia. cbn [bind].
  unfold send_cto. ss. set (oc := splice ob 0 [0xFF; n]).
  assert (Loc : lenN oc = c_max_cto c) by (unfold oc; rewrite lenN_splice; change (lenN [0xFF; n]) with 2; lia).
  rewrite Loc. replace (c_max_cto c <? n + 2) with false by lia.
  do 2 eexists. split; [reflexivity|]. split.
  - unfold sends. eexists. split; [reflexivity|]. split; [reflexivity|]. cbn [p_data]. unfold padded. rewrite D.
    unfold oc, ob, splice. unfold takeN, dropN. cbn [firstn app length N.to_nat]. change (lenN [0xFF; n]) with 2.
    replace (N.to_nat (n + 2)) with (S (S (N.to_nat n))) by lia. cbn [app firstn]. do 2 f_equal.
    change (N.to_nat (0 + 2)) with 2%nat. change (N.to_nat 2) with 2%nat.
    set (x := s_out (rx c f s)) in *. assert (Q : (2 <= length x)%nat) by (unfold lenN in Lo; lia).
    destruct x as [|x0 [|x1 x]]; cbn [length] in Q; try lia. cbn [firstn app skipn].
    change (Pos.to_nat 2) with 2%nat. cbn [firstn app].
    rewrite firstn_app. rewrite firstn_firstn, Nat.min_id. rewrite firstn_length.
    unfold lenN in *. replace (N.to_nat n - Nat.min (N.to_nat n) (length (e_seed e r)))%nat with 0%nat by lia. cbn [firstn]. apply app_nil_r.
  - unfold same_session, bump, rx. ss. repeat split.
Qed.

Lemma seed_free : forall md r tl, let f := 0xF8 :: md :: r :: tl in
  c_max_dlc c = false -> c_opt c 0xF8 = true -> ~ programming s -> lenN f <= c_ctobuf c ->
  ((r = 1 /\ c_cal c = true) \/ (r = 4 /\ c_daq c = true) \/ (r = 16 /\ c_pgm c = true)) -> ~ locked c r s ->
  answers c e f s [0xFF; 0] (set_s_seed (N.lor (s_seed s) r) s).
Proof.
  intros md r tl f D O P L H Lk. unfold answers. unfold f at 1. rewrite (exec_val c m l s o e 0xF8 (md :: r :: tl) (h_get_seed c) R RD L ltac:(tbl)). fold f. unfold h_get_seed.
  rewrite pgm_idle_no by exact P. rewrite rx_in, (gb_rx f s 2 r eq_refl : gb _ 2 = r).
  assert (E : seed_resource_ok c r = true).
  { unfold seed_resource_ok. destruct H as [[-> ->]|[[-> ->]|[-> ->]]]; cbn [N.eqb Pos.eqb andb orb]; try reflexivity; now destruct (c_pgm c). }
  rewrite E. cbn [negb]. replace (is_protected c r (rx c f s)) with false by (symmetry; destruct (is_protected c r (rx c f s)) eqn:X; [|reflexivity]; apply is_prot_iff in X; contradiction).
  cbn [bind]. rewrite D. pose proof (wf_cto c W) as Wc. pose proof (rx_out _ _ _ _ _ f R) as Lo.
  unfold poke. ss. rewrite Lo. change (lenN [0xFF; 0]) with 2. replace (c_max_cto c <? 0 + 2) with false by lia. cbn [bind].
  unfold send_cto. ss. set (oc := splice (s_out (rx c f s)) 0 [0xFF; 0]).
  assert (Loc : lenN oc = c_max_cto c) by (unfold oc; rewrite lenN_splice; change (lenN [0xFF; 0]) with 2; lia).
  rewrite Loc. replace (c_max_cto c <? 0 + 2) with false by lia.
  do 2 eexists. split; [reflexivity|]. split.
  - unfold sends. eexists. split; [reflexivity|]. split; [reflexivity|]. cbn [p_data]. unfold padded. rewrite D. reflexivity.
  - unfold same_session, bump, rx. ss. repeat split.
Qed.

Lemma unlock_none : forall tl, let f := 0xF7 :: tl in dlc_ok c -> c_opt c 0xF7 = true -> ~ programming s -> lenN f <= c_ctobuf c ->
  s_seed s = 0 -> refuses c e f s 0x29.
Proof.
  intros tl f D O P L H. unfold refuses, answers. unfold f at 1. rewrite (exec_val c m l s o e 0xF7 tl (h_unlock c) R RD L ltac:(tbl)). fold f. unfold h_unlock.
  rewrite pgm_idle_no by exact P. change (s_seed (rx c f s)) with (s_seed s). rewrite H. cbn [N.eqb]. apply err_ans; auto; [exact (rx_out _ _ _ _ _ _ R)|lia|apply ss_rx].
Qed.

Lemma unlock_ok : forall n tl, let f := 0xF7 :: n :: tl in dlc_ok c -> c_opt c 0xF7 = true -> ~ programming s -> lenN f <= c_ctobuf c ->
  s_seed s <> 0 -> e_unlock e (s_seed s) n (skipn 2 (rxbuf s f)) = true ->
  answers c e f s [0xFF; N.ldiff (s_prot s) (s_seed s)] (set_s_seed 0 (set_s_prot (N.ldiff (s_prot s) (s_seed s)) s)).
Proof.
  intros n tl f D O P L H K. unfold answers. unfold f at 1. rewrite (exec_val c m l s o e 0xF7 (n :: tl) (h_unlock c) R RD L ltac:(tbl)). fold f. unfold h_unlock.
  rewrite pgm_idle_no by exact P. change (s_seed (rx c f s)) with (s_seed s). replace (s_seed s =? 0) with false by lia.
  rewrite rx_in, (gb_rx f s 1 n eq_refl : gb _ 1 = n). change (dropN 2 (rxbuf s f)) with (skipn 2 (rxbuf s f)). rewrite K.
  change (s_prot (rx c f s)) with (s_prot s). ss.
  destruct (send8_ans c 2 [0xFF; N.ldiff (s_prot s) (s_seed s); 0; 0; 0; 0; 0; 0] (set_s_prot (N.ldiff (s_prot s) (s_seed s)) (rx c f s))
    (set_s_prot (N.ldiff (s_prot s) (s_seed s)) s) W D (rx_out _ _ _ _ _ _ R) ltac:(lia) eq_refl eq_refl) as (s' & o' & X1 & X2 & X3).
  { unfold same_session, rx. ss. repeat split. }
  rewrite X1. cbn [bind]. do 2 eexists. split; [reflexivity|]. split; [exact X2|].
  unfold same_session in *. ss. ss_in X3. decompose [and] X3. repeat split; assumption.
Qed.

(** ** DAQ list commands without effect *)
Hypothesis D : dlc_ok c.
Lemma clear_thm : forall t, daq_open c s -> lenN (0xE3 :: t) <= c_ctobuf c -> answers c e (0xE3 :: t) s [0xFF] s.
Proof.
  intros t (Hd & P & Lk) L. unfold answers. rewrite (exec_val c m l s o e 0xE3 t (h_clear_daq_list c) R RD L ltac:(tbl)). unfold h_clear_daq_list.
  rewrite pgm_idle_no by exact P. rewrite unlocked_no by exact Lk. apply pos_ans; auto; [exact (rx_out _ _ _ _ _ _ R)|apply ss_rx].
Qed.
Lemma list_mode_thm : forall t, daq_open c s -> lenN (0xDF :: t) <= c_ctobuf c -> answers c e (0xDF :: t) s [0xFF] s.
Proof.
  intros t (Hd & P & Lk) L. unfold answers. rewrite (exec_val c m l s o e 0xDF t (h_get_daq_list_mode c) R RD L ltac:(tbl)). unfold h_get_daq_list_mode.
  rewrite pgm_idle_no by exact P. rewrite unlocked_no by exact Lk. apply pos_ans; auto; [exact (rx_out _ _ _ _ _ _ R)|apply ss_rx].
Qed.

(** ** CAN transport layer commands *)
Lemma slave_id_thm : forall x y z md tl, let f := 0xF2 :: 0xFF :: x :: y :: z :: md :: tl in c_opt c 0xF2 = true -> ~ programming s -> lenN f <= c_ctobuf c ->
  answers c e f s ([0xFF] ++ (if md =? 1 then [0xFF - 0x58; 0xFF - 0x43; 0xFF - 0x50] else [0x58; 0x43; 0x50]) ++ le_bytes 4 (c_can_id c)) s.
Proof.
  intros x y z md tl f O P L. unfold answers. unfold f at 1. rewrite (exec_val c m l s o e 0xF2 (0xFF :: x :: y :: z :: md :: tl) (h_tl_cmd c) R RD L ltac:(tbl)). fold f. unfold h_tl_cmd.
  rewrite pgm_idle_no by exact P. rewrite rx_in, (gb_rx f s 1 0xFF eq_refl : gb _ 1 = 0xFF), (gb_rx f s 5 md eq_refl : gb _ 5 = md). cbn [N.eqb Pos.eqb].
  pose proof (wf_ids c W) as Q. inversion Q as [|? ? Q1 Q2]; subst. rewrite <- le32_le_bytes by exact Q1.
  destruct (md =? 1); apply send8_full; auto; try reflexivity; try exact (rx_out _ _ _ _ _ _ R); apply ss_rx.
Qed.
Lemma daq_id_thm : forall n tl, let f := 0xF2 :: 0xFE :: n :: tl in c_opt c 0xF2 = true -> ~ programming s -> lenN f <= c_ctobuf c ->
  match getN (c_daq_ids c) n with
  | Some id => answers c e f s ([0xFF; 1; 0; 0] ++ le_bytes 4 id) s
  | None => refuses c e f s 0x22
  end.
Proof.
  intros n tl f O P L. unfold refuses, answers. unfold f at 1 2. rewrite (exec_val c m l s o e 0xF2 (0xFE :: n :: tl) (h_tl_cmd c) R RD L ltac:(tbl)). fold f. unfold h_tl_cmd.
  rewrite pgm_idle_no by exact P. rewrite rx_in, (gb_rx f s 1 0xFE eq_refl : gb _ 1 = 0xFE), (gb_rx f s 2 n eq_refl : gb _ 2 = n). cbn [N.eqb Pos.eqb].
  destruct (getN (c_daq_ids c) n) as [id|] eqn:G.
  - pose proof (wf_ids c W) as Q. inversion Q as [|? ? Q1 Q2]; subst. rewrite Forall_forall in Q2.
    assert (I : id < 2 ^ 32). { apply Q2. unfold getN in G. eapply nth_error_In; eauto. }
    rewrite <- le32_le_bytes by exact I. apply send8_full; auto; try reflexivity; [exact (rx_out _ _ _ _ _ _ R)|apply ss_rx].
  - apply err_ans; auto; [exact (rx_out _ _ _ _ _ _ R)|lia|apply ss_rx].
Qed.
End Info3.
