(** Definedness of operations. *)
From Coq Require Import NArith ZArith List Bool Lia ZifyBool ZifyNat ZifyN.
From Verif Require Import Base Config Cfgs Codec Checksum State Queue Daq Core Spec Lists Effects Handlers HTx HInv HInv2
  HFields HResp DaqInv HSpec Steps Demo ProofsSession Exec ProofsFrames SpecMem SpecDaq SpecInfo SpecSafe ProofsDaqA ProofsDaqB ProofsInfo ProofsInfo2.
Import ListNotations.
Open Scope N_scope.
Ltac Zify.zify_post_hook ::= Z.div_mod_to_equations.

Definition fine {A} (r : out A) : Prop := exists x, r = Ok x.
Lemma fine_ok : forall A (x : A), fine (Ok x). Proof. intros. eexists. reflexivity. Qed.
Lemma fine_ub : forall A w, ~ fine (@UB A w). Proof. intros A w (x & H). discriminate. Qed.
Lemma fine_bind : forall A B (r : out A) (f : A -> out B), fine (bind r f) <-> exists x, r = Ok x /\ fine (f x).
Proof.
  intros. destruct r; cbn [bind]; split.
  - intros H. eauto.
  - intros (x & E & H). injection E as ->. exact H.
  - intros H. now apply fine_ub in H.
  - intros (x & E & _). discriminate.
Qed.
Lemma defined_fine : forall c e x s, defined c e x s <-> fine (step c e x s).
Proof. intros. unfold defined, fine. split; [intros (s' & o & E)|intros ((s' & o) & E)]; eauto. Qed.

Section Fine.
Variables (c : cfg).
Hypothesis W : wf_cfg c.
Definition lo (s : st) : Prop := lenN (s_out s) = c_max_cto c.

Lemma fine_poke : forall off bs s, lo s -> off + lenN bs <= c_max_cto c -> exists s', poke off bs s = Ok s' /\ lo s' /\ s' = set_s_out (splice (s_out s) off bs) s.
Proof.
  intros off bs s L H. unfold poke, lo in *. rewrite L. replace (c_max_cto c <? off + lenN bs) with false by lia.
  eexists. split; [reflexivity|]. split; [|reflexivity]. ss. rewrite lenN_splice; lia.
Qed.
Lemma fine_cto : forall n s, lo s -> n <= c_max_cto c -> fine (send_cto c n s).
Proof. intros n s L H. unfold send_cto, lo in *. rewrite L. replace (c_max_cto c <? n) with false by lia. apply fine_ok. Qed.
Lemma fine_send8 : forall n bs s, lo s -> n <= 8 -> fine (send8 c n bs s).
Proof.
  intros n bs s L H. unfold send8. pose proof (wf_cto c W).
  set (n' := if c_max_dlc c then _ else _). assert (n' <= c_max_cto c) by (unfold n'; destruct (c_max_dlc c); lia).
  destruct (N.leb_spec n' 8).
  - destruct (fine_poke 0 (takeN n' bs) s L) as (s' & E & L' & _); [rewrite lenN_take; lia|]. rewrite E. cbn [bind]. now apply fine_cto.
  - cbn [bind]. now apply fine_cto.
Qed.
Lemma fine_pos : forall s, lo s -> fine (pos c s). Proof. intros. apply fine_send8; auto; lia. Qed.
Lemma fine_err : forall k s, lo s -> fine (err c k s). Proof. intros. apply fine_send8; auto; lia. Qed.
Lemma fine_res : forall k s, lo s -> fine (send_result c k s). Proof. intros. unfold send_result. destruct (_ =? _); [now apply fine_pos|now apply fine_err]. Qed.

Lemma fine_idle : forall s k, lo s -> (programming s -> c_pgm c = true) -> (fine (pgm_idle c s k) <-> (~ programming s -> fine k)).
Proof.
  intros s k L P. unfold pgm_idle, programming in *. destruct (s_pgm s); rewrite ?andb_false_r; try (split; [auto|intros H; apply H; discriminate]).
  rewrite P by reflexivity. cbn [andb]. split; [intros _ H; exfalso; now apply H|]. intros _. now apply fine_res.
Qed.
Lemma fine_unlocked : forall r s k, lo s -> (fine (unlocked c r s k) <-> (~ locked c r s -> fine k)).
Proof.
  intros r s k L. unfold unlocked. destruct (is_protected c r s) eqn:E.
  - apply is_prot_iff in E. split; [intros _ H; contradiction|]. intros _. now apply fine_res.
  - assert (~ locked c r s) by (intro X; apply is_prot_iff in X; congruence). split; auto.
Qed.
Lemma fine_stopped : forall s k, lo s -> (measuring s -> c_daq c = true) -> (fine (daq_stopped c s k) <-> (~ measuring s -> fine k)).
Proof.
  intros s k L P. unfold daq_stopped, measuring in *. destruct (d_run (s_daq s)); rewrite ?andb_false_r; [|split; [auto|intros H; apply H; discriminate]].
  rewrite P by reflexivity. cbn [andb]. split; [intros _ H; exfalso; now apply H|]. intros _. now apply fine_res.
Qed.
Lemma fine_check : forall e x a n w p s k, lo s -> (fine (check_mem c e x a n w p s k) <-> (granted c e x a n w p -> fine k)).
Proof.
  intros e x a n w p s k L. unfold check_mem, granted. destruct (c_chkmem c); cbn [andb]; [|split; [auto|intros H; apply H; discriminate]].
  destruct (e_access e x a n w p); cbn [negb].
  - split; auto.
  - split; [intros _ H; specialize (H eq_refl); discriminate|]. intros _. now apply fine_res.
Qed.
Lemma fine_active : forall s k, lo s -> fine k -> fine (pgm_active c s k).
Proof. intros s k L K. unfold pgm_active. destruct (s_pgm s); auto; now apply fine_res. Qed.
Lemma fine_init : forall s, (c_daq c = true -> pdu_size c <= 1 + c_max_dto c) -> fine (daq_init_st c s).
Proof.
  intros s P. unfold daq_init_st. destruct (c_daq c); [|apply fine_ok]. unfold daq_init, queue_init. specialize (P eq_refl).
  replace (pdu_size c <=? 1 + c_max_dto c) with true by lia. cbn [bind]. apply fine_ok.
Qed.
End Fine.

Lemma reach_pdu : forall c m l s o, reachable c m l s o -> c_daq c = true -> pdu_size c <= 1 + c_max_dto c.
Proof.
  intros c m l s o (_ & _ & _ & s0 & B & _) Hd. unfold boot, xcp_init, daq_init_st, daq_init, queue_init in B. rewrite Hd in B.
  destruct (N.leb_spec (pdu_size c) (1 + c_max_dto c)); [assumption|]. cbn [bind] in B. discriminate.
Qed.

(** Parameters. *)
Lemma par_gb : forall s f i, gb (rxbuf s f) (N.of_nat i) = param s f i.
Proof. intros. unfold gb, param. now rewrite Nat2N.id. Qed.
Lemma par_gw : forall c s f i, gw c (rxbuf s f) (N.of_nat i) = param2 c s f i.
Proof. intros. rewrite gw_eq. unfold param2. rewrite <- !par_gb, Nat2N.inj_add. reflexivity. Qed.
Lemma par_gd : forall c s f i, gd c (rxbuf s f) (N.of_nat i) = param4 c s f i.
Proof. intros. rewrite gd_eq. unfold param4. rewrite <- !par_gb, !Nat2N.inj_add. reflexivity. Qed.

(** Handlers of the harmless commands. *)
Section Harmless.
Variables (c : cfg).
Hypothesis W : wf_cfg c.
Hypothesis Q : c_daq c = true -> pdu_size c <= 1 + c_max_dto c.
Let lo := lo c.
Definition clean (h : handler) : Prop := forall e s, lenN (s_out s) = c_max_cto c -> (measuring s -> c_daq c = true) ->
  (programming s -> c_pgm c = true) -> fine (h e s).
Local Ltac open := intros e s L D P.
Local Ltac f8 := first [apply fine_send8; auto; lia | apply fine_pos; auto | apply fine_err; auto | apply fine_res; auto].

Lemma fine_disc : forall s, fine (xcp_disconnect c s).
Proof. intros. apply fine_init, Q. Qed.
Lemma fine_then : forall (r : res) k, fine r -> (forall s, fine (k s)) -> fine (andthen r k).
Proof.
  intros r k ((s & o) & E) K. rewrite E. unfold andthen. cbn [bind]. destruct (K s) as ((s1 & o1) & E1). rewrite E1. cbn [bind]. apply fine_ok.
Qed.
Lemma fine_dis2 : forall s, fine (s1 <- xcp_disconnect c s ;; Ok (s1, @nil pkt)).
Proof. intros. destruct (fine_disc s) as (x & E). rewrite E. apply fine_ok. Qed.

Lemma cl_unknown : clean (h_unknown c). Proof. open. unfold h_unknown. f8. Qed.
Lemma cl_connect : clean (h_connect c). Proof. open. unfold h_connect. f8. Qed.
Lemma cl_disconnect : clean (h_disconnect c).
Proof. open. apply fine_idle; auto. intros _. apply fine_then; [f8|]. intros. apply fine_dis2. Qed.
Lemma cl_status : clean (h_status c). Proof. open. unfold h_status. f8. Qed.
Lemma cl_synch : clean (h_synch c). Proof. open. unfold h_synch. f8. Qed.
Lemma cl_comm : clean (h_comm_mode c). Proof. open. unfold h_comm_mode. f8. Qed.
Lemma cl_id : clean (h_get_id c). Proof. open. unfold h_get_id. cbv zeta. destruct (if _ =? 0 then _ else _) as [(a & n)|]; f8. Qed.
Lemma cl_unlock : clean (h_unlock c).
Proof.
  open. apply fine_idle; auto. intros _. destruct (s_seed s =? 0); [f8|]. apply fine_bind.
  destruct (e_unlock e (s_seed s) (gb (s_in s) 1) (dropN 2 (s_in s))).
  - cbv zeta. set (s1 := set_s_prot _ s). destruct (fine_send8 c W 2 [0xFF; s_prot s1; 0; 0; 0; 0; 0; 0] s1 L ltac:(lia)) as ((s2 & o2) & E).
    exists (s2, o2). split; [exact E|apply fine_ok].
  - destruct (fine_then (err c 0x25 s) (fun s => s1 <- xcp_disconnect c s ;; Ok (s1, []))) as ((s2 & o2) & E).
    + f8.
    + intros. apply fine_dis2.
    + exists (s2, o2). split; [exact E|apply fine_ok].
Qed.
Lemma cl_set_mta : clean (h_set_mta c). Proof. open. unfold h_set_mta. f8. Qed.
Lemma cl_tl : clean (h_tl_cmd c).
Proof.
  open. apply fine_idle; auto. intros _. cbv zeta. destruct (_ =? 0xFF); [f8|]. destruct (_ =? 0xFE); [destruct (getN _ _); f8|].
  destruct (_ =? 0xFD); [apply fine_ok|f8].
Qed.
Lemma cl_user : clean (h_user c). Proof. open. apply fine_idle; auto. intros _. apply fine_ok. Qed.
Lemma cl_clear : clean (h_clear_daq_list c). Proof. open. apply fine_idle; auto. intros _. apply fine_unlocked; auto. intros _. f8. Qed.
Lemma cl_get_mode : clean (h_get_daq_list_mode c). Proof. open. apply fine_idle; auto. intros _. apply fine_unlocked; auto. intros _. f8. Qed.
Lemma cl_synch_daq : clean (h_start_stop_synch c).
Proof. open. apply fine_idle; auto. intros _. apply fine_unlocked; auto. intros _. do 3 (destruct (_ =? _); [f8|]). f8. Qed.
Lemma cl_clock : clean (h_daq_clock c). Proof. open. apply fine_idle; auto. intros _. apply fine_unlocked; auto. intros _. f8. Qed.
Lemma cl_proc : clean (h_daq_processor_info c). Proof. open. apply fine_idle; auto. intros _. apply fine_unlocked; auto. intros _. cbv zeta. f8. Qed.
Lemma cl_reso : clean (h_daq_resolution c). Proof. open. apply fine_idle; auto. intros _. apply fine_unlocked; auto. intros _. f8. Qed.
Lemma cl_event : clean (h_daq_event_info c).
Proof.
  open. unfold h_daq_event_info. cbv zeta. apply fine_unlocked; auto. intros _. destruct (N.leb_spec (u8 (c_nevents c)) (gw c (s_in s) 2)); [f8|].
  destruct (getN (c_events c) (gw c (s_in s) 2)) eqn:G.
  - destruct (negb _); f8.
  - apply getN_None in G. unfold c_nevents, u8 in *. exfalso. lia.
Qed.
Lemma cl_free : clean (h_free_daq c). Proof. open. apply fine_unlocked; auto. intros _. apply fine_idle; auto. intros _. f8. Qed.
Lemma cl_start : clean (h_program_start c). Proof. open. apply fine_unlocked; auto. intros _. apply fine_stopped; auto. intros _. f8. Qed.
Lemma cl_check : clean (h_program_only_check c). Proof. open. apply fine_active; auto. f8. Qed.
Lemma cl_program : clean (h_program c).
Proof. open. apply fine_active; auto. apply fine_check; auto. intros _. f8. Qed.
Lemma cl_reset : clean (h_program_reset c). Proof. open. apply fine_active; auto. f8. Qed.
Lemma cl_pgm : clean (h_pgm_info c). Proof. open. unfold h_pgm_info. f8. Qed.
Lemma cl_sector : clean (h_sector_info c).
Proof. open. unfold h_sector_info. cbv zeta. destruct (_ <=? _); [f8|]. destruct (_ <? _); f8. Qed.

Lemma cl_if : forall (b : bool) h, clean h -> clean (if b then h else h_unknown c).
Proof. intros [] h H; [exact H|apply cl_unknown]. Qed.
Lemma harmless_clean : forall k, In k harmless -> exists h, entry c k = Some h /\ clean h.
Proof.
  intros k H. unfold harmless in H.
  repeat (destruct H as [<-|H];
    [ eexists; split; [unfold entry, table, getN; cbv zeta; cbn [N.sub Pos.sub_mask Pos.sub N.to_nat Pos.to_nat nth_error]; vm_compute N.to_nat; cbn [nth_error]; reflexivity
    | first [ exact cl_unknown | exact cl_connect | exact cl_disconnect | exact cl_status | exact cl_synch | apply cl_if;
      first [ exact cl_comm | exact cl_id | exact cl_unlock | exact cl_set_mta | exact cl_tl | exact cl_user | exact cl_clear | exact cl_get_mode
            | exact cl_synch_daq | exact cl_clock | exact cl_proc | exact cl_reso | exact cl_event | exact cl_free | exact cl_start
            | exact cl_check | exact cl_program | exact cl_reset | exact cl_pgm | exact cl_sector ] ] ]|]).
  contradiction.
Qed.
End Harmless.

Lemma reach_lo : forall c m l s o, reachable c m l s o -> lenN (s_out s) = c_max_cto c.
Proof. intros c m l s o R. apply (b_out _ _ (i_b _ _ (reach_inv _ _ _ _ _ R))). Qed.

(** The facts that definedness rests on; later states of other builds have them too. *)
Definition valid (c : cfg) (s : st) : Prop := wf_cfg c /\ sinv c s.
Lemma reach_valid : forall c m l s o, reachable c m l s o -> valid c s.
Proof. intros c m l s o R. split; [apply R|eapply reach_inv; eauto]. Qed.
Lemma exec_inv : forall c s e k t h, valid c s -> ready s -> lenN (k :: t) <= c_ctobuf c -> entry c k = Some h ->
  step c e (ORecv (k :: t)) s = h e (rx c (k :: t) s).
Proof. intros c s e k t h (W & I) (C & B) L H. cbn [step]. rewrite receive_val by auto. unfold entry in H. now rewrite C, B, H. Qed.
Lemma val_out : forall c s f, valid c s -> lenN (s_out (rx c f s)) = c_max_cto c.
Proof. intros c s f (_ & I). unfold rx. ss. apply (b_out _ _ (i_b _ _ I)). Qed.
Lemma val_lo : forall c s, valid c s -> lenN (s_out s) = c_max_cto c.
Proof. intros c s (_ & I). apply (b_out _ _ (i_b _ _ I)). Qed.
Lemma val_pgm : forall c s, valid c s -> programming s -> c_pgm c = true.
Proof.
  intros c s (_ & I) P. pose proof (i_pgm _ _ I) as H. unfold programming, pgm_on in *. destruct (c_pgm c); auto. specialize (H eq_refl). rewrite P in H. discriminate.
Qed.
Lemma val_daq : forall c s, valid c s -> measuring s -> c_daq c = true.
Proof. intros c s (_ & I) P. pose proof (i_daq _ _ I) as H. unfold measuring in *. destruct (c_daq c); auto. specialize (H eq_refl). congruence. Qed.

(** Frames that find the slave not connected or busy. *)
Lemma unready_fine : forall c s e f, valid c s -> lenN f <= c_ctobuf c -> ~ ready s -> defined c e (ORecv f) s.
Proof.
  intros c s e f R Lf NR. pose proof (val_lo _ _ R) as L. assert (W : wf_cfg c) by apply R. apply defined_fine. cbn [step].
  destruct f as [|k t]; [apply fine_ok|]. rewrite receive_val; [|exact W|apply R|auto].
  destruct (s_conn s) eqn:C.
  - destruct (s_busy s) eqn:B.
    + unfold busy_response. apply fine_err; auto. unfold lo. destruct (c_stats c); ss; exact L.
    + exfalso. apply NR. split; assumption.
  - destruct (_ =? _); [|apply fine_ok]. unfold h_connect. cbv zeta. apply fine_send8; [exact W|exact L|lia].
Qed.
Lemma harmless_fine : forall c s e k t, valid c s -> (c_daq c = true -> pdu_size c <= 1 + c_max_dto c) -> lenN (k :: t) <= c_ctobuf c -> In k harmless ->
  defined c e (ORecv (k :: t)) s.
Proof.
  intros c s e k t R Pd Lf H. assert (W : wf_cfg c) by apply R.
  destruct (s_conn s) eqn:C; [|apply unready_fine; auto; intros (X & _); congruence].
  destruct (s_busy s) eqn:B; [apply unready_fine; auto; intros (_ & X); congruence|].
  destruct (harmless_clean c W Pd k H) as (h & E & K).
  apply defined_fine. rewrite (exec_inv c s e k t h R (conj C B) Lf E). apply K.
  - now apply val_out.
  - intros M. now apply (val_daq c s).
  - intros M. now apply (val_pgm c s).
Qed.
Lemma safe_unready : forall c m l s o e f, reachable c m l s o -> lenN f <= c_ctobuf c -> ~ ready s -> defined c e (ORecv f) s.
Proof. intros c m l s o e f R. apply unready_fine. eapply reach_valid; eauto. Qed.
Lemma safe_harmless : forall c m l s o e k t, reachable c m l s o -> lenN (k :: t) <= c_ctobuf c -> In k harmless ->
  defined c e (ORecv (k :: t)) s.
Proof. intros c m l s o e k t R. apply harmless_fine; [eapply reach_valid|eapply reach_pdu]; eauto. Qed.
(** Codes below the table. *)
Lemma unsafe_code : forall c m l s o e k t, reachable c m l s o -> ready s -> lenN (k :: t) <= c_ctobuf c -> k < 0xC7 ->
  ~ defined c e (ORecv (k :: t)) s.
Proof.
  intros c m l s o e k t R (C & B) Lf H. rewrite defined_fine. cbn [step].
  rewrite receive_val; [|apply R|eapply reach_inv; eauto|auto]. rewrite C, B.
  assert (G : getN (table c) (255 - k) = None) by (apply getN_None; change (lenN (table c)) with 57; lia).
  rewrite G. apply fine_ub.
Qed.
Lemma unsafe_long : forall c s e f, c_ctobuf c < lenN f -> ~ defined c e (ORecv f) s.
Proof.
  intros c s e f H. rewrite defined_fine. cbn [step]. unfold receive. destruct (N.eqb_spec (lenN f) 0); [lia|].
  destruct (N.ltb_spec (c_ctobuf c) (lenN f)); [|lia]. apply fine_ub.
Qed.

(** Locks that may be taken twice. *)
Lemma enter_rec : forall c k s, c_lock c = LockRecursive -> enter c k s = Ok (set_s_held (k :: s_held s) s).
Proof. intros c k s H. unfold enter. now rewrite H. Qed.
Lemma busy_rec : forall c b s, c_lock c = LockRecursive -> exists h, set_busy c b s = Ok (set_s_held h (set_s_busy b s)).
Proof. intros c b s H. unfold set_busy. rewrite enter_rec by auto. cbn [bind]. eexists. reflexivity. Qed.
Lemma active_rec : forall c b s, c_lock c = LockRecursive -> exists h, sbm_set_active c b s = Ok (set_s_held h (set_s_sact b (set_s_busy b s))).
Proof.
  intros c b s H. unfold sbm_set_active. rewrite enter_rec by auto. cbn [bind].
  destruct (busy_rec c b (set_s_held (0 :: s_held s) s) H) as (h & E). rewrite E. cbn [bind]. eexists. reflexivity.
Qed.
Lemma fine_active0 : forall c b s, c_lock c = LockRecursive -> fine (s1 <- sbm_set_active c b s ;; Ok (s1, @nil pkt)).
Proof. intros. destruct (active_rec c b s H) as (h & E). rewrite E. apply fine_ok. Qed.

Section Mem.
Variables (c : cfg).
Hypothesis W : wf_cfg c.
Hypothesis K : c_lock c = LockRecursive.

Lemma fine_out : forall e x a n s, lenN (s_out s) = c_max_cto c -> n < c_max_cto c ->
  (readable c e x a n -> exists s', copy_out c e x a n 1 s = Ok s' /\ lenN (s_out s') = c_max_cto c /\ s_srem s' = s_srem s) /\
  (~ readable c e x a n -> exists w, copy_out c e x a n 1 s = UB w).
Proof.
  intros e x a n s L Ln. unfold readable, in_space, copy_out. change (map_addr c e x a) with (target c e x a). cbv zeta. split.
  - intros (P & Q). destruct (N.eqb_spec n 0); [lia|]. destruct (N.ltb_spec (aspace c) (target c e x a + n)); [lia|].
    destruct (fine_poke c 1 (mread (s_mem s) (target c e x a) n) s L) as (s' & E & L' & ES); [rewrite lenN_mread; lia|].
    exists s'. split; [exact E|]. split; [exact L'|]. rewrite ES. reflexivity.
  - intros H. destruct (N.eqb_spec n 0); [eauto|]. destruct (N.ltb_spec (aspace c) (target c e x a + n)); [eauto|].
    exfalso. apply H. split; lia.
Qed.

Lemma fine_block : forall e s, lenN (s_out s) = c_max_cto c -> s_sact s = true ->
  (fine (upload_block c e s) <-> readable c e (s_mext s) (s_maddr s) (N.min (s_srem s) (c_max_cto c - 1))).
Proof.
  intros e s L A. pose proof (wf_cto c W). unfold upload_block. rewrite A. cbn [negb].
  set (last := s_srem s <=? c_max_cto c - 1).
  assert (EL : (if last then s_srem s else c_max_cto c - 1) = N.min (s_srem s) (c_max_cto c - 1)) by (unfold last; destruct (N.leb_spec (s_srem s) (c_max_cto c - 1)); lia).
  rewrite EL. set (n := N.min _ _). cbv zeta.
  destruct (fine_poke c 0 [0xFF] s L) as (s1 & E1 & L1 & S1); [change (lenN [0xFF]) with 1; lia|]. rewrite E1. cbn [bind].
  assert (Ln : n < c_max_cto c) by (unfold n; lia).
  destruct (fine_out e (s_mext s) (s_maddr s) n s1 L1 Ln) as (F1 & F2). split.
  - intros F. destruct (N.eq_dec n 0) as [Z|Z].
    + exfalso. destruct F2 as (w & E); [intros (X & _); lia|]. rewrite E in F. now apply fine_ub in F.
    + destruct (N.le_gt_cases (target c e (s_mext s) (s_maddr s) + n) (aspace c)).
      * split; [lia|assumption].
      * exfalso. destruct F2 as (w & E); [intros (_ & X); unfold in_space in X; lia|]. rewrite E in F. now apply fine_ub in F.
  - intros Rd. destruct (F1 Rd) as (s2 & E2 & L2 & S2). rewrite E2. cbn [bind]. apply fine_then.
    + apply (fine_cto c); [unfold lo; ss; exact L2|]. destruct last eqn:La; [|lia]. destruct (c_max_dlc c); lia.
    + intros s3. destruct (_ =? _); [now apply fine_active0|apply fine_ok].
Qed.

Lemma fine_upload : forall e n s, lenN (s_out s) = c_max_cto c -> (c_sbm c = false -> n < c_max_cto c) ->
  (fine (upload c e n s) <-> readable c e (s_mext s) (s_maddr s) (first_piece c n)).
Proof.
  intros e n s L Hn. pose proof (wf_cto c W). unfold upload, first_piece. destruct (c_sbm c).
  - destruct (active_rec c true (set_s_srem n s) K) as (h & E). rewrite E. cbn [bind].
    rewrite fine_block; [|ss; exact L|reflexivity]. reflexivity.
  - specialize (Hn eq_refl). destruct (fine_poke c 0 [0xFF] s L) as (s1 & E1 & L1 & S1); [change (lenN [0xFF]) with 1; lia|]. rewrite E1. cbn [bind].
    destruct (fine_out e (s_mext s) (s_maddr s) n s1 L1 Hn) as (F1 & F2). split.
    + intros F. destruct (N.eq_dec n 0) as [Z|Z].
      * exfalso. destruct F2 as (w & E); [intros (X & _); lia|]. rewrite E in F. now apply fine_ub in F.
      * destruct (N.le_gt_cases (target c e (s_mext s) (s_maddr s) + n) (aspace c)).
        -- split; [lia|assumption].
        -- exfalso. destruct F2 as (w & E); [intros (_ & X); unfold in_space in X; lia|]. rewrite E in F. now apply fine_ub in F.
    + intros Rd. destruct (F1 Rd) as (s2 & E2 & L2 & S2). rewrite E2. cbn [bind].
      apply (fine_cto c); [unfold lo; ss; exact L2|]. destruct (c_max_dlc c); lia.
Qed.

Lemma fine_calc : forall s a n st first, fine (calc_mem c s a n st first) <-> in_space c a n.
Proof.
  intros. unfold calc_mem, in_space. destruct (N.ltb_spec (aspace c) (a + n)).
  - split; [intros F; now apply fine_ub in F|lia].
  - split; [auto|intros; apply fine_ok].
Qed.

Lemma slice_fine : forall off n s, off + n <= lenN (s_in s) -> exists bs, slice_in off n s = Ok bs /\ lenN bs = n.
Proof.
  intros off n s H. unfold slice_in. destruct (N.ltb_spec (lenN (s_in s)) (off + n)); [lia|]. eexists. split; [reflexivity|].
  rewrite lenN_take, lenN_drop. lia.
Qed.
Lemma fine_copy_in : forall e x a bs s, fine (copy_in c e x a bs s) <-> 1 <= lenN bs /\ target c e x a <> 0 /\ in_space c (target c e x a) (lenN bs).
Proof.
  intros. unfold copy_in, in_space. change (map_addr c e x a) with (target c e x a). cbv zeta.
  destruct (N.eqb_spec (target c e x a) 0); [split; [intros F; now apply fine_ub in F|tauto]|].
  destruct (N.eqb_spec (lenN bs) 0); [split; [intros F; now apply fine_ub in F|lia]|].
  destruct (N.ltb_spec (aspace c) (target c e x a + lenN bs)); [split; [intros F; now apply fine_ub in F|lia]|].
  split; [intros _; repeat split; auto; lia|intros; apply fine_ok].
Qed.
Lemma copy_in_out : forall e x a bs s s', copy_in c e x a bs s = Ok s' -> s_out s' = s_out s.
Proof.
  intros e x a bs s s' H. unfold copy_in in H. cbv zeta in H. repeat (destruct (_ : bool) in H; [discriminate|]).
  injection H as <-. reflexivity.
Qed.
Lemma fine_dl : forall e off n s (k : st -> res), off + n <= lenN (s_in s) -> lenN (s_out s) = c_max_cto c ->
  (forall s', lenN (s_out s') = c_max_cto c -> fine (k s')) ->
  (fine (s1 <- download_copy c e off n s ;; k s1) <-> writable c e (s_mext s) (s_maddr s) off n).
Proof.
  intros e off n s k Hi L Hk. unfold download_copy, writable.
  destruct (N.leb_spec (2 ^ 32) (c_buf_addr c + off)) as [H|H].
  - cbn [bind]. split; [intros F; now apply fine_ub in F|]. intros (_ & _ & _ & X). lia.
  - destruct (slice_fine off n s Hi) as (bs & E & Lb). rewrite E. cbn [bind].
    pose proof (fine_copy_in e (s_mext s) (s_maddr s) bs s) as FC. rewrite Lb in FC. split.
    + intros F. apply fine_bind in F. destruct F as (x & F & _). apply (fun y => proj1 (fine_bind _ _ _ y)) in F || idtac.
      assert (G : fine (copy_in c e (s_mext s) (s_maddr s) bs s)).
      { destruct (copy_in c e (s_mext s) (s_maddr s) bs s); [apply fine_ok|discriminate F]. }
      apply FC in G. tauto.
    + intros (A & B & C & _). destruct (proj2 FC (conj A (conj B C))) as (s1 & E1). rewrite E1. cbn [bind]. apply Hk.
      change (s_out (inc_mta c n s1)) with (s_out s1). now rewrite (copy_in_out _ _ _ _ _ _ E1).
Qed.
Lemma fine_shl : forall v sh, fine (shl_int v sh) <-> sh <= 31 /\ v * 2 ^ sh < 2 ^ 31.
Proof.
  intros. unfold shl_int. destruct (N.ltb_spec 31 sh); cbn [orb]; [split; [intros F; now apply fine_ub in F|lia]|].
  destruct (N.leb_spec (2 ^ 31) (v * 2 ^ sh)); split; try (intros F; now apply fine_ub in F); try lia; intros; apply fine_ok.
Qed.
Lemma fine_mod : forall v sh am xm, fine (modify_value v sh am xm) <->
  sh <= 31 /\ N.lxor am 0xFFFF * 2 ^ sh < 2 ^ 31 /\ xm * 2 ^ sh < 2 ^ 31.
Proof.
  intros. unfold modify_value. rewrite fine_bind. split.
  - intros (a & Ea & F). apply fine_bind in F. destruct F as (x & Ex & _).
    pose proof (proj1 (fine_shl _ _) (ex_intro _ a Ea)). pose proof (proj1 (fine_shl _ _) (ex_intro _ x Ex)). tauto.
  - intros (A & B & C). destruct (proj2 (fine_shl _ _) (conj A B)) as (a & Ea). destruct (proj2 (fine_shl _ _) (conj A C)) as (x & Ex).
    exists a. split; [exact Ea|]. rewrite Ex. cbn [bind]. apply fine_ok.
Qed.
End Mem.

Local Ltac rxs := match goal with |- context [gb (s_in (rx ?c ?f ?s)) ?i] =>
   rewrite (rx_in c f s) end.
Lemma min_small : forall c n, wf_cfg c -> n < c_max_cto c -> first_piece c n = n.
Proof. intros c n W H. unfold first_piece. destruct (c_sbm c); lia. Qed.
Lemma u8_cto : forall c, wf_cfg c -> u8 (c_max_cto c - 1) = c_max_cto c - 1.
Proof. intros c W. pose proof (wf_cto c W). unfold u8. apply N.mod_small. lia. Qed.
Lemma fine_impl : forall A (r : out A) (P Q : Prop), (Q -> (fine r <-> P)) -> ((Q -> fine r) <-> (Q -> P)).
Proof. intros. tauto. Qed.

Lemma seed_res_iff : forall c r, seed_resource_ok c r = true <-> has_resource c r.
Proof.
  intros. unfold seed_resource_ok, has_resource. rewrite !orb_true_iff, !andb_true_iff, !N.eqb_eq. tauto.
Qed.

Section Iff.
Variables (c : cfg) (s : st).
Hypothesis R : valid c s.
Hypothesis RD : ready s.
Hypothesis K : c_lock c = LockRecursive.
Let W : wf_cfg c := proj1 R.
Lemma rlo : forall f, lo c (rx c f s). Proof. intros f. exact (val_out c s f R). Qed.
Lemma rpgm : forall f, programming (rx c f s) -> c_pgm c = true.
Proof. intros f H. exact (val_pgm c s R H). Qed.
Lemma rdaq : forall f, measuring (rx c f s) -> c_daq c = true.
Proof. intros f H. exact (val_daq c s R H). Qed.
Lemma rin : forall f, lenN f <= c_ctobuf c -> lenN (s_in (rx c f s)) = c_ctobuf c.
Proof.
  intros f H. unfold rx, count_ctos. change (lenN (splice (s_in s) 0 f) = c_ctobuf c).
  pose proof (b_in _ _ (i_b _ _ (proj2 R))) as B. rewrite lenN_splice; lia.
Qed.

Lemma iff_upload : forall e t, let f := 0xF5 :: t in lenN f <= c_ctobuf c -> c_opt c 0xF5 = true ->
  (defined c e (ORecv f) s <-> upload_rule c e s f).
Proof.
  intros e t f Lf O. rewrite defined_fine. unfold f at 1. rewrite (exec_inv c s e 0xF5 t (h_upload c) R RD Lf ltac:(tbl)). fold f.
  unfold h_upload, upload_rule. cbv zeta. rewrite rx_in, (par_gb s f 1 : gb (rxbuf s f) 1 = _).
  rewrite fine_idle; [|exact W|apply rlo|apply rpgm]. change (programming (rx c f s)) with (programming s). apply fine_impl. intros NP.
  rewrite fine_check; [|exact W|apply rlo]. change (s_mext (rx c f s)) with (s_mext s). change (s_maddr (rx c f s)) with (s_maddr s).
  apply fine_impl. intros G. rewrite u8_cto by exact W. pose proof (wf_cto c W).
  destruct (c_sbm c) eqn:B; cbn [negb andb].
  - rewrite fine_upload; [|exact W|exact K|apply rlo|congruence]. split; [intros X _; exact X|intros X; apply X; discriminate].
  - destruct (N.ltb_spec (c_max_cto c - 1) (param s f 1)).
    + split; [intros _ X; specialize (X eq_refl); lia|]. intros _. apply fine_err; [exact W|apply rlo].
    + rewrite fine_upload; [|exact W|exact K|apply rlo|intros; lia]. split; [intros X _; exact X|intros X; apply X; intros _; lia].
Qed.
Lemma iff_short_upload : forall e t, let f := 0xF4 :: t in lenN f <= c_ctobuf c -> c_opt c 0xF4 = true ->
  (defined c e (ORecv f) s <-> short_upload_rule c e s f).
Proof.
  intros e t f Lf O. rewrite defined_fine. unfold f at 1. rewrite (exec_inv c s e 0xF4 t (h_short_upload c) R RD Lf ltac:(tbl)). fold f.
  unfold h_short_upload, short_upload_rule. cbv zeta. rewrite rx_in, (par_gb s f 1 : gb (rxbuf s f) 1 = _), (par_gb s f 3 : gb (rxbuf s f) 3 = _), (par_gd c s f 4 : gd c (rxbuf s f) 4 = _).
  rewrite fine_idle; [|exact W|apply rlo|apply rpgm]. change (programming (rx c f s)) with (programming s). apply fine_impl. intros NP.
  rewrite fine_check; [|exact W|apply rlo]. change (s_mext (rx c f s)) with (s_mext s). change (s_maddr (rx c f s)) with (s_maddr s).
  apply fine_impl. intros G. rewrite u8_cto by exact W. pose proof (wf_cto c W).
  destruct (N.ltb_spec (c_max_cto c - 1) (param s f 1)).
  - split; [intros _ X; exfalso; lia|]. intros _. apply fine_err; [exact W|apply rlo].
  - rewrite fine_upload; [|exact W|exact K|apply rlo|intros; lia]. rewrite min_small by (exact W || lia).
    split; [intros X _; exact X|intros X; apply X; lia].
Qed.
Lemma iff_checksum : forall e t, let f := 0xF3 :: t in lenN f <= c_ctobuf c -> c_opt c 0xF3 = true ->
  (defined c e (ORecv f) s <-> checksum_rule c e s f).
Proof.
  intros e t f Lf O. rewrite defined_fine. unfold f at 1. rewrite (exec_inv c s e 0xF3 t (h_checksum c) R RD Lf ltac:(tbl)). fold f.
  unfold h_checksum, checksum_rule. cbv zeta. rewrite rx_in, (par_gd c s f 4 : gd c (rxbuf s f) 4 = _).
  rewrite fine_idle; [|exact W|apply rlo|apply rpgm]. change (programming (rx c f s)) with (programming s). apply fine_impl. intros NP.
  rewrite fine_check; [|exact W|apply rlo]. change (s_mext (rx c f s)) with (s_mext s). change (s_maddr (rx c f s)) with (s_maddr s).
  apply fine_impl. intros G. set (n := param4 c s f 4).
  destruct ((0 <? c_max_blk c) && (c_max_blk c <? n)) eqn:B.
  - split; [intros _ X; exfalso; lia|]. intros _. unfold send_checksum_oor. apply fine_send8; [exact W|apply rlo|lia].
  - destruct (negb (c_chunked c) || (n <=? c_chunk c)) eqn:Q.
    + rewrite fine_bind. split.
      * intros (v & E & _) _ _. apply (fine_calc c (rx c f s) (s_maddr s) n 0 true). eexists; exact E.
      * intros X. assert (IS : in_space c (s_maddr s) n) by (apply X; [lia|destruct (c_chunked c); [right; cbn [negb orb] in Q; lia|now left]]).
        apply (fine_calc c (rx c f s) (s_maddr s) n 0 true) in IS. destruct IS as (v & E). exists v. split; [exact E|].
        unfold send_checksum. apply fine_send8; [exact W|apply rlo|lia].
    + split; [intros _ _ X; exfalso; destruct (c_chunked c); cbn [negb orb] in Q; [destruct X as [X|X]; [discriminate|lia]|discriminate]|]. intros _. unfold start_checksum. rewrite enter_rec by exact K. cbn [bind].
      match goal with |- context [if ?b then Ok (leave _ _) else _] => destruct b; [apply fine_ok|] end. destruct (busy_rec c true (set_s_held (0 :: s_held (rx c f s)) (rx c f s)) K) as (h & E). rewrite E. apply fine_ok.
Qed.
Lemma iff_download : forall e t, let f := 0xF0 :: t in lenN f <= c_ctobuf c -> c_cal c = true ->
  (defined c e (ORecv f) s <-> download_rule c e s f).
Proof.
  intros e t f Lf O. rewrite defined_fine. unfold f at 1. rewrite (exec_inv c s e 0xF0 t (h_download c) R RD Lf ltac:(tbl)). fold f.
  unfold h_download, download_rule. cbv zeta. rewrite rx_in, (par_gb s f 1 : gb (rxbuf s f) 1 = _).
  rewrite fine_idle; [|exact W|apply rlo|apply rpgm]. change (programming (rx c f s)) with (programming s). apply fine_impl. intros NP.
  rewrite fine_check; [|exact W|apply rlo]. change (s_mext (rx c f s)) with (s_mext s). change (s_maddr (rx c f s)) with (s_maddr s).
  apply fine_impl. intros G. set (n := param s f 1). pose proof (wf_cto c W). pose proof (rin f Lf) as LI. unfold c_ctobuf in LI.
  change (c_dl c) with (max_data c). assert (D : max_data c = c_max_cto c - 2) by reflexivity. unfold u16. change (2 ^ 16) with 65536.
  destruct (c_mbm c).
  - destruct (N.ltb_spec ((c_max_bs c * max_data c) mod 65536) n).
    + split; [intros _ X; exfalso; lia|]. intros _. apply fine_err; [exact W|apply rlo].
    + destruct (N.ltb_spec (max_data c) n).
      * rewrite fine_dl; [|match goal with |- ?a <= _ => change (a <= lenN (s_in (rx c f s))) end; lia|apply rlo|intros; apply fine_ok].
        rewrite N.min_r by lia. split; [intros X _; exact X|intros X; apply X; lia].
      * rewrite fine_dl; [|match goal with |- ?a <= _ => change (a <= lenN (s_in (rx c f s))) end; lia|apply rlo|intros; apply fine_pos; auto].
        rewrite N.min_l by lia. split; [intros X _; exact X|intros X; apply X; lia].
  - destruct (N.ltb_spec (max_data c) n).
    + split; [intros _ X; exfalso; lia|]. intros _. apply fine_err; [exact W|apply rlo].
    + rewrite fine_dl; [|match goal with |- ?a <= _ => change (a <= lenN (s_in (rx c f s))) end; lia|apply rlo|intros; apply fine_pos; auto].
      rewrite N.min_l by lia. split; [intros X _; exact X|intros X; apply X; lia].
Qed.
Lemma iff_download_next : forall e t, let f := 0xEF :: t in lenN f <= c_ctobuf c -> c_cal c = true -> c_opt c 0xEF = true ->
  (defined c e (ORecv f) s <-> download_next_rule c e s f).
Proof.
  intros e t f Lf O O2. rewrite defined_fine. unfold f at 1. rewrite (exec_inv c s e 0xEF t (h_download_next c) R RD Lf ltac:(tbl)). fold f.
  unfold h_download_next, download_next_rule. cbv zeta. rewrite rx_in, (par_gb s f 1 : gb (rxbuf s f) 1 = _).
  rewrite fine_idle; [|exact W|apply rlo|apply rpgm]. change (programming (rx c f s)) with (programming s). apply fine_impl. intros NP.
  change (s_mact (rx c f s)) with (s_mact s). pose proof (wf_cto c W). pose proof (rin f Lf) as LI. unfold c_ctobuf in LI.
  change (c_dl c) with (max_data c). assert (D : max_data c = c_max_cto c - 2) by reflexivity.
  destruct (s_mact s); cbn [negb].
  - rewrite fine_dl; [|match goal with |- ?a <= _ => change (a <= lenN (s_in (rx c f s))) end; lia|apply rlo|].
    + split; [intros X _; exact X|intros X; apply X; reflexivity].
    + intros s' L'. destruct (_ =? 0); [apply fine_pos; auto|apply fine_ok].
  - split; [intros _ X; discriminate|]. intros _. apply fine_err; [exact W|apply rlo].
Qed.
Lemma iff_download_max : forall e t, let f := 0xEE :: t in lenN f <= c_ctobuf c -> c_cal c = true -> c_opt c 0xEE = true ->
  (defined c e (ORecv f) s <-> download_max_rule c e s).
Proof.
  intros e t f Lf O O2. rewrite defined_fine. unfold f at 1. rewrite (exec_inv c s e 0xEE t (h_download_max c) R RD Lf ltac:(tbl)). fold f.
  unfold h_download_max, download_max_rule. cbv zeta.
  rewrite fine_idle; [|exact W|apply rlo|apply rpgm]. change (programming (rx c f s)) with (programming s). apply fine_impl. intros NP.
  pose proof (wf_cto c W). pose proof (rin f Lf) as LI. unfold c_ctobuf in LI.
  assert (D : c_dl c + 1 = c_max_cto c - 1) by (unfold c_dl; lia). rewrite D.
  rewrite fine_dl; [reflexivity|match goal with |- ?a <= _ => change (a <= lenN (s_in (rx c f s))) end; lia|apply rlo|intros; apply fine_pos; auto].
Qed.
Lemma iff_short_download : forall e t, let f := 0xED :: t in lenN f <= c_ctobuf c -> c_cal c = true -> c_opt c 0xED = true ->
  (defined c e (ORecv f) s <-> short_download_rule c e s f).
Proof.
  intros e t f Lf O O2. rewrite defined_fine. unfold f at 1. rewrite (exec_inv c s e 0xED t (h_short_download c) R RD Lf ltac:(tbl)). fold f.
  unfold h_short_download, short_download_rule. cbv zeta. rewrite rx_in, (par_gb s f 1 : gb (rxbuf s f) 1 = _), (par_gb s f 3 : gb (rxbuf s f) 3 = _), (par_gd c s f 4 : gd c (rxbuf s f) 4 = _).
  rewrite fine_idle; [|exact W|apply rlo|apply rpgm]. change (programming (rx c f s)) with (programming s). apply fine_impl. intros NP.
  rewrite fine_check; [|exact W|apply rlo].
  apply fine_impl. intros G. set (n := param s f 1). pose proof (wf_cto c W). pose proof (rin f Lf) as LI. unfold c_ctobuf in LI.
  destruct (N.ltb_spec (c_max_cto c - 8) n).
  - split; [intros _ X; exfalso; lia|]. intros _. apply fine_err; [exact W|apply rlo].
  - destruct (slice_fine 8 n (rx c f s)) as (bs & E & Lb); [lia|]. rewrite E. cbn [bind]. rewrite fine_bind.
    pose proof (fine_copy_in c e (param s f 3) (param4 c s f 4) bs (rx c f s)) as FC. rewrite Lb in FC. split.
    + intros (x & Ex & _) _. apply FC. eexists; exact Ex.
    + intros X. destruct (proj2 FC (X H0)) as (x & Ex). exists x. split; [exact Ex|]. apply fine_pos; [exact W|].
      unfold lo. change (s_out (inc_mta c n x)) with (s_out x). rewrite (copy_in_out _ _ _ _ _ _ _ Ex). apply rlo.
Qed.
Lemma iff_modify : forall e t, let f := 0xEC :: t in lenN f <= c_ctobuf c -> c_cal c = true -> c_opt c 0xEC = true ->
  (defined c e (ORecv f) s <-> modify_rule c e s f).
Proof.
  intros e t f Lf O O2. rewrite defined_fine. unfold f at 1. rewrite (exec_inv c s e 0xEC t (h_modify_bits c) R RD Lf ltac:(tbl)). fold f.
  unfold h_modify_bits, modify_rule. cbv zeta. rewrite rx_in, (par_gb s f 1 : gb (rxbuf s f) 1 = _), (par_gw c s f 2 : gw c (rxbuf s f) 2 = _), (par_gw c s f 4 : gw c (rxbuf s f) 4 = _).
  rewrite fine_check; [|exact W|apply rlo]. change (s_mext (rx c f s)) with (s_mext s). change (s_maddr (rx c f s)) with (s_maddr s).
  apply fine_impl. intros G. unfold in_space.
  destruct (N.eqb_spec (s_maddr s) 0); cbn [orb]; [split; [intros F; now apply fine_ub in F|tauto]|].
  destruct (N.ltb_spec (aspace c) (s_maddr s + 4)); [split; [intros F; now apply fine_ub in F|lia]|].
  rewrite fine_bind. split.
  - intros (v & E & _). pose proof (proj1 (fine_mod _ _ _ _) (ex_intro _ v E)). tauto.
  - intros (_ & _ & X). destruct (proj2 (fine_mod (word_val (c_host_be c) (mread (s_mem (rx c f s)) (s_maddr s) 4)) _ _ _) X) as (v & E).
    exists v. split; [exact E|]. apply fine_pos; [exact W|apply rlo].
Qed.
Lemma iff_seed : forall e t, let f := 0xF8 :: t in lenN f <= c_ctobuf c -> c_opt c 0xF8 = true ->
  (defined c e (ORecv f) s <-> seed_rule c e s f).
Proof.
  intros e t f Lf O. rewrite defined_fine. unfold f at 1. rewrite (exec_inv c s e 0xF8 t (h_get_seed c) R RD Lf ltac:(tbl)). fold f.
  unfold h_get_seed, seed_rule. cbv zeta. rewrite rx_in, (par_gb s f 2 : gb (rxbuf s f) 2 = _).
  rewrite fine_idle; [|exact W|apply rlo|apply rpgm]. change (programming (rx c f s)) with (programming s). apply fine_impl. intros NP.
  set (r := param s f 2). pose proof (wf_cto c W).
  assert (HR : seed_resource_ok c r = true <-> has_resource c r) by (apply seed_res_iff).
  destruct (seed_resource_ok c r) eqn:S; cbn [negb].
  - change (is_protected c r (rx c f s)) with (is_protected c r s). destruct (is_protected c r s) eqn:P.
    + assert (LK : locked c r s) by (now apply is_prot_iff). destruct (e_seed e r) as [|b tl] eqn:ES.
      * change (lenN (@nil N)) with 0. replace (N.min (c_max_cto c - 2) 0 =? 0) with true by lia. cbn [bind].
        split; [intros F; now apply fine_ub in F|]. intros X. exfalso. apply X; tauto.
      * split; [intros _ _ _; discriminate|]. intros _. rewrite lenN_cons. set (n := N.min _ _). replace (n =? 0) with false by (unfold n; lia).
        destruct (fine_poke c 2 (takeN n (b :: tl)) (rx c f s) (rlo f)) as (s1 & E1 & L1 & _); [rewrite lenN_take, lenN_cons; unfold n; lia|].
        rewrite E1. cbn [bind]. destruct (fine_poke c 0 [0xFF; n] (set_s_seed (N.lor (s_seed s1) r) s1) L1) as (s2 & E2 & L2 & _); [change (lenN [0xFF; n]) with 2; lia|].
        rewrite E2. cbn [bind]. apply fine_cto; [exact L2|]. destruct (c_max_dlc c); unfold n; lia.
    + assert (NL : ~ locked c r s) by (intro X; apply is_prot_iff in X; congruence). split; [intros _ _ X; contradiction|]. intros _. cbn [bind].
      destruct (fine_poke c 0 [0xFF; 0] (set_s_seed (N.lor (s_seed (rx c f s)) r) (rx c f s)) (rlo f)) as (s2 & E2 & L2 & _); [change (lenN [0xFF; 0]) with 2; lia|].
      rewrite E2. cbn [bind]. apply fine_cto; [exact L2|]. destruct (c_max_dlc c); lia.
  - split; [intros _ X; apply HR in X; discriminate|]. intros _. apply fine_err; [exact W|apply rlo].
Qed.
End Iff.
