(** Identification and upload; announced and real parameters. *)
From Coq Require Import NArith ZArith List Bool Lia ZifyBool ZifyNat ZifyN.
From Verif Require Import Base Config Cfgs Codec Checksum State Queue Daq Core Spec Lists Effects Handlers HTx HInv HInv2
  HFields HResp DaqInv HSpec Steps Demo ProofsSession Exec ProofsFrames SpecMem ProofsMem ProofsWrite SpecDaq ProofsDaqB ProofsDaqD DemoDaq SpecInfo ProofsInfo ProofsInfo2.
Import ListNotations.
Open Scope N_scope.
Ltac Zify.zify_post_hook ::= Z.div_mod_to_equations.

Lemma wf_small : wf_cfg cfg_small. Proof. wf_cfg_tac. Qed.
Lemma wf_ts2 : wf_cfg cfg_ts2. Proof. wf_cfg_tac. Qed.
Lemma wf_wide : wf_cfg cfg_wide. Proof. wf_cfg_tac. Qed.
Lemma wf_be : wf_cfg cfg_be. Proof. wf_cfg_tac. Qed.
Lemma wf_long : forall c, wf_cfg c -> wf_env c env_long.
Proof.
  intros c W. destruct (wf_yes c W). constructor; auto. intros r. split; [exact eq_refl|]. cbn [e_seed env_long].
  repeat constructor. unfold u8. apply N.mod_upper_bound. discriminate.
Qed.

Lemma id_uploadable : forall c m l s o e t tl a n, reachable c m l s o -> ready s -> dlc_ok c -> c_opt c 0xFA = true -> bytes (0xFA :: t :: tl) ->
  lenN (0xFA :: t :: tl) <= c_ctobuf c -> wf_env c e -> identification c e t = Some (a, n) ->
  exists s1 o1, step c e (ORecv (0xFA :: t :: tl)) s = Ok (s1, o1) /\
    forall e' k tl', c_opt c 0xF5 = true -> c_sbm c = false -> ~ programming s -> lenN (0xF5 :: k :: tl') <= c_ctobuf c ->
      granted c e' 0 a k false false -> 1 <= k < c_max_cto c -> in_space c (target c e' 0 a) k ->
      delivers c e' (0xF5 :: k :: tl') s1 (0xFF :: mem_at (s_mem s) (target c e' 0 a) k) (mta_at c 0 (a + k) s).
Proof.
  intros c m l s o e t tl a n R RD D O B L We H.
  destruct (get_id_known c m l s o e R RD D t tl a n O L We H) as (s1 & o1 & E & S & Q).
  exists s1, o1. split; [exact E|]. intros e' k tl' O' Sb P L' G K I.
  assert (R1 : reachable c m (l ++ [(e, ORecv (0xFA :: t :: tl))]) s1 (o ++ o1)).
  { eapply reach_step; eauto. split; [exact We|]. exact B. }
  unfold same_session in Q. ss_in Q. destruct Q as (Q1 & Q2 & Q3 & Q4 & Q5 & Q6 & Q7 & Q8 & Q9 & Q10 & Q11 & Q12 & Q13 & Q14 & Q15).
  assert (RD1 : ready s1) by (unfold ready in *; rewrite Q1, Q2; exact RD).
  assert (P1 : ~ programming s1) by (unfold programming in *; rewrite Q3; exact P).
  pose proof (upload_thm c m _ s1 _ e' R1 RD1 k tl' O' Sb P1 L') as U. rewrite Q6, Q7 in U. specialize (U G K I). rewrite Q13 in U.
  destruct U as (s2 & o2 & U1 & U2 & U3). exists s2, o2. split; [exact U1|]. split; [exact U2|].
  eapply ss_trans; [|exact U3]. unfold same_session, advanced, mta_at. ss. rewrite Q6, Q7. repeat split; auto.
Qed.

(** Lengths of time stamps. *)
Lemma le_bytes_len : forall n v, lenN (le_bytes n v) = N.of_nat n.
Proof. induction n; intros; cbn [le_bytes]; unfold lenN in *; cbn [length]; [reflexivity|]. specialize (IHn (v / 256)). lia. Qed.
Lemma stamp_len : forall c v, lenN (stamp c v) = c_ts_size c.
Proof. intros. unfold stamp. destruct (c_host_be c); unfold lenN; rewrite ?rev_length; pose proof (le_bytes_len (N.to_nat (c_ts_size c)) v) as H; unfold lenN in H; lia. Qed.

Lemma resolution_ts : forall c m l s o e t, reachable c m l s o -> ready s -> dlc_ok c -> daq_open c s -> c_opt c 0xD9 = true ->
  lenN (0xD9 :: t) <= c_ctobuf c -> c_ts_size c <> 4 ->
  exists p s', step c e (ORecv (0xD9 :: t)) s = Ok (s', [p]) /\ forall v, N.land (nth 5 (p_data p) 0) 7 <> lenN (stamp c v).
Proof.
  intros c m l s o e t R RD D (Hd & P & Lk) O L T. destruct (resolution_thm c m l s o e R RD D P t Hd O Lk L) as (s' & o' & E & (p & -> & _ & Dp) & _).
  exists p, s'. split; [exact E|]. intros v. rewrite stamp_len, Dp. unfold padded. cbn [length]. destruct (c_max_dlc c); cbn [app nth]; change (N.land 52 7) with 4; congruence.
Qed.
Lemma resolution_small : forall c m l s o e t, reachable c m l s o -> ready s -> dlc_ok c -> daq_open c s -> c_opt c 0xD9 = true ->
  lenN (0xD9 :: t) <= c_ctobuf c -> c_max_dto c <= 256 ->
  answers c e (0xD9 :: t) s [0xFF; 1; c_max_dto c - 1; 1; c_max_dto c - 1; 0x34; 1; 0] s.
Proof.
  intros c m l s o e t R RD D (Hd & P & Lk) O L T. pose proof (resolution_thm c m l s o e R RD D P t Hd O Lk L) as H.
  pose proof (wf_dto c (proj1 R)). rewrite (N.mod_small (c_max_dto c - 1) 256) in H by lia. exact H.
Qed.
Lemma resolution_wide : forall c m l s o e t, reachable c m l s o -> ready s -> dlc_ok c -> daq_open c s -> c_opt c 0xD9 = true ->
  lenN (0xD9 :: t) <= c_ctobuf c -> 256 < c_max_dto c ->
  exists p s', step c e (ORecv (0xD9 :: t)) s = Ok (s', [p]) /\ nth 4 (p_data p) 0 <> c_max_dto c - 1.
Proof.
  intros c m l s o e t R RD D (Hd & P & Lk) O L T. destruct (resolution_thm c m l s o e R RD D P t Hd O Lk L) as (s' & o' & E & (p & -> & _ & Dp) & _).
  exists p, s'. split; [exact E|]. rewrite Dp. unfold padded. cbn [length].
  assert (X : (c_max_dto c - 1) mod 256 < 256) by (apply N.mod_upper_bound; discriminate).
  destruct (c_max_dlc c); cbn [app nth]; lia.
Qed.
Lemma entry_too_long : exists m l s o e, reachable cfg_daq m l s o /\ measuring s /\
  (exists s1 p, step cfg_daq e (ORecv [0xD9]) s = Ok (s1, [p]) /\ nth 4 (p_data p) 0 = 63) /\
  represents cfg_daq s [[[(0x1000, 63)]]] /\ step cfg_daq e (OTrigger 0) s = UB Assert.
Proof.
  exists mem0, (map (pair env_yes) ex_max_entry), (demo_st cfg_daq env_yes ex_max_entry), (demo_out cfg_daq env_yes ex_max_entry), env_yes.
  assert (R : reachable cfg_daq mem0 (map (pair env_yes) ex_max_entry) (demo_st cfg_daq env_yes ex_max_entry) (demo_out cfg_daq env_yes ex_max_entry)) by (apply daq_at; vm_compute; reflexivity).
  split; [exact R|]. split; [vm_compute; reflexivity|]. split.
  - assert (RD : ready (demo_st cfg_daq env_yes ex_max_entry)) by (vm_compute; split; reflexivity).
    assert (Op : daq_open cfg_daq (demo_st cfg_daq env_yes ex_max_entry)) by (apply daq_open_b; vm_compute; reflexivity).
    destruct (resolution_small _ _ _ _ _ env_yes [] R RD (fun H : false = true => False_ind _ (Bool.diff_false_true H)) Op eq_refl) as (s1 & o1 & E & (p & -> & _ & Dp) & _);
      [discriminate|discriminate|].
    exists s1, p. split; [exact E|]. rewrite Dp. reflexivity.
  - split; [apply daq_rep; vm_compute; reflexivity|]. vm_compute. reflexivity.
Qed.

Lemma get_id_none : forall c m l s o e t tl, reachable c m l s o -> ready s -> dlc_ok c -> c_opt c 0xFA = true ->
  lenN (0xFA :: t :: tl) <= c_ctobuf c -> identification c e t = None -> answers c e (0xFA :: t :: tl) s [0xFF; 0; 0; 0; 0; 0; 0; 0] s.
Proof.
  intros c m l s o e t tl R RD D O L H. unfold identification in H. destruct (N.eqb_spec t 0); [discriminate|]. destruct (N.eqb_spec t 1); [discriminate|].
  apply (get_id_unknown c m l s o e R RD D t tl O L); [lia|exact H].
Qed.
Lemma program_sequence : forall c m l s o e k t, reachable c m l s o -> ready s -> dlc_ok c -> program_code c k -> lenN (k :: t) <= c_ctobuf c ->
  ~ programming s -> refuses c e (k :: t) s 0x29.
Proof. intros c m l s o e k t R RD D (I & P & O) L NP. exact (pgm_seq_thm c m l s o e R RD D k t I P O L NP). Qed.
Lemma seed_rest : forall c m l s o e r tl, let f := 0xF8 :: 1 :: r :: tl in
  reachable c m l s o -> ready s -> c_max_dlc c = false -> c_opt c 0xF8 = true -> ~ programming s -> lenN f <= c_ctobuf c ->
  has_resource c r -> locked c r s -> c_max_cto c - 2 < lenN (e_seed e r) ->
  answers c e f s (0xFF :: c_max_cto c - 2 :: firstn (N.to_nat (c_max_cto c - 2)) (e_seed e r)) (set_s_seed (N.lor (s_seed s) r) s).
Proof.
  intros c m l s o e r tl f R RD D O P L H Lk Ls. pose proof (seed_locked c m l s o e R RD 1 r tl D O P L H Lk) as X. cbv zeta in X.
  rewrite N.min_l in X by lia. apply X. intro E. rewrite E in Ls. unfold lenN in Ls. cbn [length] in Ls. lia.
Qed.
Lemma daq_id_motorola : forall c m l s o e n tl id, let f := 0xF2 :: 0xFE :: 0 :: n :: tl in
  reachable c m l s o -> ready s -> dlc_ok c -> c_opt c 0xF2 = true -> ~ programming s -> lenN f <= c_ctobuf c -> c_motorola c = true ->
  getN (c_daq_ids c) 0 = Some id -> field c [0; n] = n /\ answers c e f s ([0xFF; 1; 0; 0] ++ le_bytes 4 id) s.
Proof.
  intros c m l s o e n tl id f R RD D O P L M G. split.
  - unfold field. rewrite M. unfold be_value, le_value. cbn [rev app fold_right]. lia.
  - pose proof (daq_id_thm c m l s o e R RD D 0 (n :: tl) O P L) as X. rewrite G in X. exact X.
Qed.
Lemma status_running : forall c m l s o e t, reachable c m l s o -> ready s -> dlc_ok c -> measuring s -> lenN (0xFD :: t) <= c_ctobuf c ->
  exists s' p, step c e (ORecv (0xFD :: t)) s = Ok (s', [p]) /\ p_dto p = false /\ N.testbit (nth 1 (p_data p) 0) 6 = false.
Proof.
  intros c m l s o e t R RD D _ L. destruct (status_thm c m l s o e R RD D t L) as (s' & o' & E & (p & -> & Q & Dp) & _).
  exists s', p. split; [exact E|]. split; [exact Q|]. rewrite Dp. unfold padded. destruct (c_max_dlc c); reflexivity.
Qed.
