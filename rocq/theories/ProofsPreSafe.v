(** Definedness of operations of the build with predefined DAQ lists. *)
From Coq Require Import NArith ZArith List Bool Lia ZifyBool ZifyNat ZifyN.
From Verif Require Import Base Config Cfgs Codec Checksum State Queue Daq Core Spec Lists Effects Handlers HTx HInv HInv2
  HFields HResp DaqInv HSpec Steps Demo Ops ProofsSession Exec ProofsFrames SpecMem SpecDaq SpecInfo SpecSafe ProofsDaqA ProofsDaqB ProofsDaqC
  ProofsDaqD ProofsDaqE ProofsDaqF ProofsDaqG ProofsInfo ProofsInfo2 ProofsSafe ProofsSafe2 Predef SpecPre ProofsPre ProofsPre2 ProofsPre3 SpecPreSafe.
Import ListNotations.
Open Scope N_scope.
Ltac Zify.zify_post_hook ::= Z.div_mod_to_equations.

Lemma sdefined_fine : forall c p e x z, sdefined c p e x z <-> fine (sstep c p e x z).
Proof. intros. unfold sdefined, fine. split; [intros (z' & o & E)|intros ((z' & o) & E)]; eauto. Qed.
Lemma fine_lift : forall r z, fine (Predef.lift r z) <-> fine r.
Proof.
  intros r z. unfold Predef.lift. rewrite fine_bind. split.
  - intros ((s & o) & -> & _). apply fine_ok.
  - intros ((s & o) & ->). exists (s, o). split; [reflexivity|apply fine_ok].
Qed.
Lemma sreach_valid : forall c p es m l z o, sreachable c p es m l z o -> valid c (z_st z).
Proof. intros c p es m l z o R. split; [apply R|]. apply (sreach_inv _ _ _ _ _ _ _ R). Qed.
Lemma sreach_pdu : forall c p es m l z o, sreachable c p es m l z o -> pdu_size c <= 1 + c_max_dto c.
Proof.
  intros c p es m l z o (_ & (Hd & _) & _ & _ & _ & z0 & B & _). unfold sboot, sinit, sdaq_init, queue_init in B. rewrite Hd in B.
  destruct (N.leb_spec (pdu_size c) (1 + c_max_dto c)); [assumption|]. cbn [bind] in B. discriminate.
Qed.

Section Own.
Variables (c : cfg) (p : predef) (es : list (N * N)) (z : sst) (t : tree).
Hypothesis W : wf_cfg c.
Hypothesis St : static c.
Hypothesis Wp : wf_pre c p es.
Hypothesis Z : zinv c p es z.
Hypothesis Sm : c_max_ent c < 65536.
Hypothesis Pd : pdu_size c <= 1 + c_max_dto c.
Let V : valid c (z_st z) := conj W (proj1 Z).
Let Hd : c_daq c = true := proj1 St.

Lemma zlo : forall f, lo c (z_st (rz c f z)).
Proof. intro f. exact (val_out c (z_st z) f V). Qed.
Lemma fine_sidle : forall f k, fine (spgm_idle c (rz c f z) k) <-> (~ programming (z_st z) -> fine k).
Proof.
  intros f k. unfold spgm_idle, programming. change (s_pgm (z_st (rz c f z))) with (s_pgm (z_st z)).
  pose proof (val_pgm c _ V) as Q. unfold programming in Q. destruct (s_pgm (z_st z)); rewrite ?andb_false_r; try (split; [auto|intros H; apply H; discriminate]).
  rewrite Q by reflexivity. cbn [andb]. split; [intros _ H; exfalso; now apply H|]. intros _. apply fine_lift. apply fine_res; auto. apply zlo.
Qed.
Lemma fine_sunl : forall f r k, fine (sunlocked c r (rz c f z) k) <-> (~ locked c r (z_st z) -> fine k).
Proof.
  intros f r k. unfold sunlocked. assert (X : is_protected c r (z_st (rz c f z)) = is_protected c r (z_st z)) by reflexivity. rewrite X.
  destruct (is_protected c r (z_st z)) eqn:E.
  - apply is_prot_iff in E. split; [intros _ H; contradiction|]. intros _. apply fine_lift. apply fine_res; auto. apply zlo.
  - assert (~ locked c r (z_st z)) by (intro Y; apply is_prot_iff in Y; congruence). split; auto.
Qed.
Lemma fine_sstop : forall f k, fine (sdaq_stopped c (rz c f z) k) <-> (~ measuring (z_st z) -> fine k).
Proof.
  intros f k. unfold sdaq_stopped, measuring. change (d_run (s_daq (z_st (rz c f z)))) with (d_run (s_daq (z_st z))). rewrite Hd. cbn [andb].
  destruct (d_run (s_daq (z_st z))); [|split; [auto|intros H; apply H; discriminate]].
  split; [intros _ H; exfalso; now apply H|]. intros _. apply fine_lift. apply fine_res; auto. apply zlo.
Qed.
Lemma fine_sdisc : forall z1, fine (z2 <- sdisconnect c z1 ;; Ok (z2, @nil pkt)).
Proof.
  intros z1. unfold sdisconnect, sdaq_init, queue_init. rewrite Hd. replace (pdu_size c <=? 1 + c_max_dto c) with true by lia. cbn [bind]. apply fine_ok.
Qed.
Lemma fine_sthen : forall (r : sres) k, fine r -> (forall z1 o1, r = Ok (z1, o1) -> fine (k z1)) -> fine (sthen r k).
Proof.
  intros r k ((z1 & o1) & E) K. specialize (K _ _ E). rewrite E. unfold sthen. cbn [bind]. destruct K as ((z2 & o2) & E1). rewrite E1. cbn [bind]. apply fine_ok.
Qed.

Lemma beyond_le : forall n, beyond c n (count_of p) = (count_of p <=? n).
Proof.
  intro n. destruct (pre_beyond c p n) as [->|(X & _)]; [reflexivity|]. exfalso.
  destruct (we_cases c) as [(A & E)|[(A & E)|(A & E)]]; rewrite E in X; try discriminate. lia.
Qed.
Lemma sum_fine : forall n i acc, i + N.of_nat n <= count_of p -> fine (ssum c p n i acc).
Proof.
  induction n; intros i acc H; cbn [ssum]; [apply fine_ok|]. unfold list_conf. destruct (getN_lt_Some _ (pr_lists p) i) as ((a & b) & G); [unfold count_of in H; lia|].
  rewrite G. cbn [bind]. apply IHn. lia.
Qed.
Lemma first_fine : forall n, fine (sfirst_pid c p n).
Proof.
  intro n. unfold sfirst_pid. rewrite beyond_le. destruct (N.leb_spec (count_of p) n); [apply fine_ok|]. destruct (sum_fine (N.to_nat n) 0 0) as (v & E); [lia|].
  rewrite E. apply fine_ok.
Qed.

Hypothesis RD : ready (z_st z).
Variable e : env.
Lemma own_fine : forall k r h, lenN (k :: r) <= c_ctobuf c -> own c p k = Some h -> (sdefined c p e (ORecv (k :: r)) z <-> fine (h e (rz c (k :: r) z))).
Proof. intros k r h L K. rewrite sdefined_fine. rewrite (srecv_val c p es W) by auto. destruct RD as (-> & ->). cbn [andb negb]. now rewrite K. Qed.
Lemma else_fine : forall k r, lenN (k :: r) <= c_ctobuf c -> own c p k = None -> (sdefined c p e (ORecv (k :: r)) z <-> defined c e (ORecv (k :: r)) (z_st z)).
Proof.
  intros k r L K. rewrite sdefined_fine, defined_fine. rewrite (srecv_val c p es W) by auto. rewrite K.
  replace (if s_conn (z_st z) && negb (s_busy (z_st z)) then None else None) with (@None shandler) by (now destruct (_ && _)). apply fine_lift.
Qed.
Lemma unknown_fine : forall k r, lenN (k :: r) <= c_ctobuf c -> own c p k = None -> entry c k = Some (h_unknown c) -> sdefined c p e (ORecv (k :: r)) z.
Proof.
  intros k r L K E. apply else_fine; auto. apply defined_fine. rewrite (exec_inv c _ e k r _ V RD L E). unfold h_unknown. apply fine_err; auto. exact (val_out c _ _ V).
Qed.

Lemma rz_in' : forall f, s_in (z_st (rz c f z)) = rxbuf (z_st z) f.
Proof. intro f. unfold rz. cbn [z_st with_st]. apply rx_in. Qed.
Ltac zl := first [exact (zlo _) | apply zlo].
Lemma ptr_fine : describes c p es t -> forall r, lenN (0xE2 :: r) <= c_ctobuf c -> sdefined c p e (ORecv (0xE2 :: r)) z.
Proof.
  intros Ds r L. apply (own_fine 0xE2 r (zh_set_daq_ptr c p)); [exact L|cbn [own]; now rewrite Hd|]. unfold zh_set_daq_ptr. cbv zeta.
  apply fine_sstop. intros _. apply fine_sidle. intros _. apply fine_sunl. intros _.
  set (f := 0xE2 :: r). set (n := gw _ _ _ mod _). set (o := gb _ 4). set (k := gb _ 5).
  assert (Q : count_of p = lenN t) by apply Ds.
  assert (F : fine (svalidate c p n o k)).
  { unfold svalidate. rewrite beyond_le. destruct (N.leb_spec (count_of p) n); [apply fine_ok|]. destruct (getN_lt_Some _ t n) as (os & G); [lia|].
    destruct (pre_list c p es t Wp Ds n os G) as (a & E & _). rewrite E. cbn [bind]. destruct (beyond c o (lenN os)) eqn:B; [apply fine_ok|].
    unfold beyond in B. destruct (getN_lt_Some _ os o) as (xs & Go).
    { assert (X : (we c =? 2 ^ 32) = false) by (destruct (we_cases c) as [(A & X)|[(A & X)|(A & X)]]; [now rewrite X|now rewrite X|exfalso; lia]).
      rewrite X in B. apply N.leb_gt in B. exact B. }
    destruct (pre_odt c p es t Ds n os o xs G Go) as (g & E1 & _). rewrite E1. cbn [bind]. apply fine_ok. }
  destruct F as (b & E). rewrite E. cbn [bind]. destruct b; cbn [negb]; apply fine_lift; [apply fine_pos|apply fine_err]; auto; zl.
Qed.
Lemma disc_fine : forall r, lenN (0xFE :: r) <= c_ctobuf c -> sdefined c p e (ORecv (0xFE :: r)) z.
Proof.
  intros r L. apply (own_fine 0xFE r (zh_disconnect c)); [exact L|reflexivity|]. unfold zh_disconnect. apply fine_sidle. intros _.
  apply fine_sthen; [|intros; apply fine_sdisc]. apply fine_lift. apply fine_pos; auto. zl.
Qed.
Lemma unlock_fine : c_opt c 0xF7 = true -> forall r, lenN (0xF7 :: r) <= c_ctobuf c -> sdefined c p e (ORecv (0xF7 :: r)) z.
Proof.
  intros O r L. apply (own_fine 0xF7 r (zh_unlock c)); [exact L|cbn [own]; now rewrite O|]. unfold zh_unlock. cbv zeta. apply fine_sidle. intros _.
  destruct (_ =? 0); [apply fine_lift, fine_err; auto; zl|]. apply fine_bind.
  match goal with |- exists x, ?a = _ /\ _ => assert (F : fine a) end.
  { destruct (e_unlock _ _ _ _); [apply fine_lift, fine_send8; auto; [zl|lia]|]. apply fine_sthen; [|intros; apply fine_sdisc]. apply fine_lift, fine_err; auto. zl. }
  destruct F as ((z2 & o2) & E). exists (z2, o2). split; [exact E|apply fine_ok].
Qed.
Lemma synch_fine : forall r, lenN (0xDD :: r) <= c_ctobuf c -> sdefined c p e (ORecv (0xDD :: r)) z.
Proof.
  intros r L. apply (own_fine 0xDD r (zh_start_stop_synch c)); [exact L|cbn [own]; now rewrite Hd|]. unfold zh_start_stop_synch. cbv zeta.
  apply fine_sidle. intros _. apply fine_sunl. intros _. destruct (_ =? 1); [|destruct (_ =? 0); [|destruct (_ =? 2)]]; apply fine_lift; [| | |apply fine_err; auto; zl]; apply fine_pos; auto; zl.
Qed.
Lemma processor_fine : c_opt c 0xDA = true -> forall r, lenN (0xDA :: r) <= c_ctobuf c -> sdefined c p e (ORecv (0xDA :: r)) z.
Proof.
  intros O r L. apply (own_fine 0xDA r (zh_daq_processor_info c p)); [exact L|cbn [own]; now rewrite Hd, O|]. unfold zh_daq_processor_info. cbv zeta.
  apply fine_sidle. intros _. apply fine_sunl. intros _. apply fine_lift, fine_send8; auto; [zl|lia].
Qed.

Lemma swrite_none : forall sz a z1, count_of p = 0 -> ~ fine (swrite c p sz a z1).
Proof.
  clear Sm Pd. intros sz a z1 C F. unfold swrite, entry_idx, odt_conf, list_conf in F. unfold count_of, lenN in C.
  destruct (pr_lists p) eqn:E; [|cbn in C; lia]. replace (getN (@nil (N * N)) (d_plist (s_daq (z_st z1)))) with (@None (N * N)) in F by (unfold getN; now destruct (N.to_nat _)). cbn [bind] in F. now apply fine_ub in F.
Qed.
Lemma write_iff : forall r, let f := 0xE1 :: r in lenN f <= c_ctobuf c -> (sdefined c p e (ORecv f) z <-> pre_write_rule c p (z_st z)).
Proof.
  clear Sm Pd. intros r f L. unfold f at 1. rewrite (own_fine 0xE1 r (zh_write_daq c p) L ltac:(cbn [own]; now rewrite Hd)). fold f. unfold zh_write_daq, pre_write_rule. cbv zeta.
  rewrite fine_sstop, fine_sidle, fine_sunl. change (s_daq (z_st (rz c f z))) with (s_daq (z_st z)).
  pose proof Z as (_ & _ & _ & _ & P & _). destruct (N.ltb_spec (d_plist (s_daq (z_st z))) (count_of p)) as [H|H].
  - split; [intros _ _ _; lia|]. intros _ _ _ _. apply fine_lift, fine_res; auto. zl.
  - assert (C : count_of p = 0) by (destruct (N.eq_dec (count_of p) 0); auto; specialize (P n); lia).
    split; [|intros Q NM NP NL; exfalso; now apply (Q (conj Hd (conj NP NL)) NM)]. intros Q (_ & NP & NL) NM _. specialize (Q NM NP NL). apply fine_bind in Q.
    destruct Q as (x & Q & _). apply (swrite_none (gb (s_in (z_st (rz c f z))) 2) (gd c (s_in (z_st (rz c f z))) 4) (rz c f z) C). rewrite Q. apply fine_ok.
Qed.
Lemma multiple_iff : c_opt c 0xC7 = true -> forall r, let f := 0xC7 :: r in lenN f <= c_ctobuf c -> (sdefined c p e (ORecv f) z <-> pre_multiple_rule c p (z_st z) f).
Proof.
  clear Sm Pd. intros O r f L. unfold f at 1. rewrite (own_fine 0xC7 r (zh_write_daq_multiple c p) L ltac:(cbn [own]; now rewrite Hd, O)). fold f. unfold zh_write_daq_multiple, pre_multiple_rule. cbv zeta.
  rewrite rz_in', (par_gb (z_st z) f 1 : gb (rxbuf (z_st z) f) 1 = _). set (n := param (z_st z) f 1).
  destruct (N.ltb_spec (c_max_cto c) (n * 8 + 2)) as [B|B].
  { split; [intros _ _ _ _ X; lia|]. intros _. apply fine_lift, fine_res; auto. zl. }
  rewrite fine_sstop, fine_sidle, fine_sunl. change (s_daq (z_st (rz c f z))) with (s_daq (z_st z)).
  pose proof Z as (_ & _ & _ & _ & P & _). destruct (N.ltb_spec (d_plist (s_daq (z_st z))) (count_of p)) as [H|H].
  { split; [intros _ _ _ _ _; lia|]. intros _ _ _ _. apply fine_lift, fine_res; auto. zl. }
  assert (C : count_of p = 0) by (destruct (N.eq_dec (count_of p) 0); auto; specialize (P n0); lia).
  pose proof (wf_cto c W) as WC. pose proof (rin c (z_st z) V f L) as LI. rewrite rx_in in LI.
  destruct (N.eq_dec n 0) as [Z0|Z0].
  - split; [intros _ _ _ X; congruence|]. intros _ _ _ _. rewrite Z0. destruct (N.ltb_spec (lenN (rxbuf (z_st z) f)) (0 * 8 + 2)) as [X|X]; [exfalso; unfold c_ctobuf in LI; lia|].
    cbn [N.to_nat swrites bind]. apply fine_lift, fine_pos; auto. zl.
  - split; [|intros Q NM NP NL; exfalso; apply (Q (conj Hd (conj NP NL)) NM Z0 B C)].
    intros Q (_ & NP & NL) NM _ _ _. specialize (Q NM NP NL). destruct (_ <? _); [now apply fine_ub in Q|]. apply fine_bind in Q. destruct Q as (x & Q & _).
    destruct (N.to_nat n) as [|j] eqn:J; [lia|]. cbn [swrites] in Q. apply bind_Ok in Q. destruct Q as (z1 & Q & _).
    eapply (swrite_none _ _ (rz c f z) C). rewrite Q. apply fine_ok.
Qed.
(** Bits of the mode that are refused. *)
Lemma mode_bits : forall md, N.land md 3 = 0 <-> (N.land md 2 =? 2) = false /\ (N.land md 1 =? 1) = false.
Proof.
  clear. intro md. rewrite (land_bit md 1 : (N.land md 2 =? 2) = _), (land_bit md 0 : (N.land md 1 =? 1) = _). change 3 with (N.ones 2). rewrite N.land_ones. change (2 ^ 2) with 4.
  rewrite (N.div_mod md 4) at 2 3 by lia. set (q := md / 4). pose proof (N.mod_lt md 4 ltac:(lia)). set (r := md mod 4) in *.
  assert (T : forall k, k < 2 -> N.testbit (4 * q + r) k = N.testbit r k).
  { intros k Hk. rewrite <- (N.mod_pow2_bits_low (4 * q + r) 2 k Hk). f_equal. change (2 ^ 2) with 4. rewrite N.mul_comm, N.add_comm, N.mod_add by lia. apply N.mod_small; lia. }
  rewrite !T by lia. destruct (N.eq_dec r 0) as [->|]; [split; auto|]. destruct (N.eq_dec r 1) as [->|]; [split; [lia|intros (_ & X); discriminate X]|].
  destruct (N.eq_dec r 2) as [->|]; [split; [lia|intros (X & _); discriminate X]|]. replace r with 3 by lia. split; [lia|intros (X & _); discriminate X].
Qed.
Lemma zbuf : forall f, bytes f -> bytes (rxbuf (z_st z) f).
Proof. intros f B. unfold rxbuf. apply bytes_app; [exact B|]. apply skipn_Forall. apply (b_inb _ _ (i_b _ _ (proj1 Z))). Qed.
Lemma modes_len : lenN (z_modes z) = count_of p. Proof. apply Z. Qed.

Lemma pmode_iff : forall r, let f := 0xE0 :: r in lenN f <= c_ctobuf c -> bytes f -> (sdefined c p e (ORecv f) z <-> pre_mode_rule c p (z_st z) f).
Proof.
  intros r f L B. unfold f at 1. rewrite (own_fine 0xE0 r (zh_set_daq_list_mode c p) L ltac:(cbn [own]; now rewrite Hd)). fold f. unfold zh_set_daq_list_mode, pre_mode_rule. cbv zeta.
  rewrite rz_in', (par_gb (z_st z) f 1 : gb (rxbuf (z_st z) f) 1 = _), (par_gb (z_st z) f 6 : gb (rxbuf (z_st z) f) 6 = _),
    (par_gw c (z_st z) f 2 : gw c (rxbuf (z_st z) f) 2 = _), (par_gw c (z_st z) f 4 : gw c (rxbuf (z_st z) f) 4 = _).
  rewrite (list_par c (z_st z) f (zbuf f B) Sm). rewrite fine_sstop, fine_sidle, fine_sunl.
  set (md := param (z_st z) f 1). pose proof (mode_bits md) as B3. unfold daq_open.
  destruct (N.land md 2 =? 2) eqn:B2.
  { split; [intros _ _ _ X; apply B3 in X; destruct X; discriminate|]. intros _ _ _ _. apply fine_lift, fine_err; auto. zl. }
  destruct (N.land md 1 =? 1) eqn:B1.
  { split; [intros _ _ _ X; apply B3 in X; destruct X; discriminate|]. intros _ _ _ _. apply fine_lift, fine_err; auto. zl. }
  destruct (N.ltb_spec 1 (param (z_st z) f 6)).
  { split; [intros _ _ _ _ X; lia|]. intros _ _ _ _. apply fine_lift, fine_err; auto. zl. }
  assert (X3 : N.land md 3 = 0) by now apply B3.
  enough (E : fine (d <- add_event (list_param c (z_st z) f) (param2 c (z_st z) f 4) (s_daq (z_st (rz c f z)));; old <- mode_get (rz c f z) (list_param c (z_st z) f);;
     Predef.lift (pos c (z_st (with_modes (updN (z_modes (rz c f z)) (list_param c (z_st z) f) (apply_mode old md)) (with_st (set_s_daq d (z_st (rz c f z))) (rz c f z)))))
       (with_modes (updN (z_modes (rz c f z)) (list_param c (z_st z) f) (apply_mode old md)) (with_st (set_s_daq d (z_st (rz c f z))) (rz c f z)))) <->
     (param2 c (z_st z) f 4 < lenN (c_events c) /\ list_param c (z_st z) f < count_of p)).
  { split; [intros Q (_ & NP & NL) NM _ _; apply E; auto|]. intros Q NM NP NL. apply E. apply Q; auto. }
  change (s_daq (z_st (rz c f z))) with (s_daq (z_st z)). rewrite fine_bind. unfold add_event. pose proof (d_lfelen _ _ (i_d _ _ (proj1 Z))) as Lf'. unfold c_nevents in Lf'. rewrite Lf'.
  destruct (N.ltb_spec (param2 c (z_st z) f 4) (lenN (c_events c))).
  2: { split; [intros (x & X & _); discriminate|]. lia. }
  unfold mode_get. change (z_modes (rz c f z)) with (z_modes z). destruct (N.lt_ge_cases (list_param c (z_st z) f) (count_of p)) as [Y|Y].
  - split; [auto|]. intros _. eexists. split; [reflexivity|]. destruct (getN_lt_Some _ (z_modes z) (list_param c (z_st z) f)) as (old & G); [rewrite modes_len; exact Y|].
    rewrite G. cbn [bind]. apply fine_lift, fine_pos; auto. zl.
  - split; [|lia]. intros (x & X & Q). exfalso. destruct (getN (z_modes z) (list_param c (z_st z) f)) eqn:G; [apply getN_Some_lt in G; rewrite modes_len in G; lia|].
    cbn [bind] in Q. now apply fine_ub in Q.
Qed.
Lemma fine_sthen_inv : forall (r : sres) k, fine (sthen r k) -> exists z1 o1, r = Ok (z1, o1) /\ fine (k z1).
Proof.
  clear. intros r k F. unfold sthen in F. apply fine_bind in F. destruct F as ((z1 & o1) & E & F). exists z1, o1. split; [exact E|]. apply fine_bind in F. destruct F as (x & F & _). rewrite F. apply fine_ok.
Qed.
Lemma report : forall f l z1 o1, bytes f -> lenN f <= c_ctobuf c ->
  ((if count_of p <=? l then Predef.lift (err c 0x22 (z_st (rz c f z))) (rz c f z) else Ok (rz c f z, [])) : sres) = Ok (z1, o1) ->
  lo c (z_st z1) /\ lenN (z_modes z1) = count_of p.
Proof.
  intros f l z1 o1 B L H. pose proof (rz_inv c p es f z Z B L) as Zr. assert (Z1 : zinv c p es z1).
  { destruct (_ <=? _); [eapply (lift_err c p es); eauto|injection H as <- _; exact Zr]. }
  destruct Z1 as (I1 & M1 & _). split; [apply (b_out _ _ (i_b _ _ I1))|exact M1].
Qed.
Lemma report_fine : forall f l, fine ((if count_of p <=? l then Predef.lift (err c 0x22 (z_st (rz c f z))) (rz c f z) else Ok (rz c f z, [])) : sres).
Proof. intros. destruct (_ <=? _); [apply fine_lift, fine_err; auto; zl|apply fine_ok]. Qed.
Lemma select_iff : forall r, let f := 0xDE :: r in lenN f <= c_ctobuf c -> bytes f -> (sdefined c p e (ORecv f) z <-> pre_select_rule c p (z_st z) f).
Proof.
  intros r f L B. unfold f at 1. rewrite (own_fine 0xDE r (zh_start_stop_list c p) L ltac:(cbn [own]; now rewrite Hd)). fold f. unfold zh_start_stop_list, pre_select_rule. cbv zeta.
  rewrite rz_in', (par_gb (z_st z) f 1 : gb (rxbuf (z_st z) f) 1 = _), (par_gw c (z_st z) f 2 : gw c (rxbuf (z_st z) f) 2 = _).
  rewrite (list_par c (z_st z) f (zbuf f B) Sm). rewrite fine_sidle, fine_sunl. set (md := param (z_st z) f 1). set (n := list_param c (z_st z) f). unfold daq_open.
  destruct (report_fine f n) as ((z1 & o1) & E). destruct (report f n z1 o1 B L E) as (L1 & M1). rewrite E.
  match goal with |- (_ -> _ -> fine (sthen _ ?k)) <-> _ => assert (T : fine (sthen (Ok (z1, o1)) k) <-> fine (k z1)) end.
  { split; [intros F; apply fine_sthen_inv in F; destruct F as (z2 & o2 & X & F); injection X as <- <-; exact F|]. intros F. apply fine_sthen; [apply fine_ok|]. intros z2 o2 X. injection X as <- <-. exact F. }
  rewrite T. clear T. enough (Q : fine (if 2 <? md then Predef.lift (err c 0x22 (z_st z1)) z1 else
    z2 <- (if md =? 2 then old <- mode_get z1 n;; Ok (with_modes (updN (z_modes z1) n (N.lor old 0x40)) z1) else Ok z1);; r0 <- sfirst_pid c p n;;
    Predef.lift (send8 c 8 [0xFF; u8 (match r0 with Some v => v | None => 0 end); 0; 0; 0; 0; 0; 0] (z_st z2)) z2) <-> (md = 2 -> n < count_of p)).
  { split; [intros H (_ & NP & NL); apply Q; auto|]. intros H NP NL. apply Q. apply H; auto. }
  destruct (first_fine n) as (v & Ev). rewrite Ev. destruct (N.ltb_spec 2 md); [split; [lia|intros _; apply fine_lift, fine_err; auto]|].
  destruct (N.eqb_spec md 2) as [M|M].
  2: { split; [congruence|]. intros _. cbn [bind]. apply fine_lift, fine_send8; auto; lia. }
  unfold mode_get. destruct (getN (z_modes z1) n) eqn:G.
  - apply getN_Some_lt in G. split; [lia|]. intros _. cbn [bind]. apply fine_lift, fine_send8; auto; lia.
  - apply getN_None in G. cbn [bind]. split; [intros F; now apply fine_ub in F|]. intros H1. specialize (H1 M). lia.
Qed.
Lemma info_iff : c_opt c 0xD8 = true -> forall r, let f := 0xD8 :: r in lenN f <= c_ctobuf c -> bytes f -> (sdefined c p e (ORecv f) z <-> pre_info_rule c p (z_st z) f).
Proof.
  intros O r f L B. unfold f at 1. rewrite (own_fine 0xD8 r (zh_daq_list_info c p) L ltac:(cbn [own]; now rewrite Hd, O)). fold f. unfold zh_daq_list_info, pre_info_rule. cbv zeta.
  rewrite rz_in', (par_gw c (z_st z) f 2 : gw c (rxbuf (z_st z) f) 2 = _).
  rewrite (list_par c (z_st z) f (zbuf f B) Sm). rewrite fine_sidle, fine_sunl. set (n := list_param c (z_st z) f). unfold daq_open.
  destruct (report_fine f n) as ((z1 & o1) & E). destruct (report f n z1 o1 B L E) as (L1 & M1). rewrite E.
  match goal with |- (_ -> _ -> fine (sthen _ ?k)) <-> _ => assert (T : fine (sthen (Ok (z1, o1)) k) <-> fine (k z1)) end.
  { split; [intros F; apply fine_sthen_inv in F; destruct F as (z2 & o2 & X & F); injection X as <- <-; exact F|]. intros F. apply fine_sthen; [apply fine_ok|]. intros z2 o2 X. injection X as <- <-. exact F. }
  rewrite T. clear T. enough (Q : fine ('(nodts, _) <- list_conf p n;; Predef.lift (send8 c 8 [0xFF; 7; u8 nodts; 0; 0; 0; 0; 0] (z_st z1)) z1) <-> n < count_of p).
  { split; [intros H (_ & NP & NL); apply Q; auto|]. intros H NP NL. apply Q. apply H; auto. }
  unfold list_conf, count_of. destruct (getN (pr_lists p) n) as [(a & b)|] eqn:G.
  - apply getN_Some_lt in G. split; [auto|]. intros _. cbn [bind]. apply fine_lift, fine_send8; auto; lia.
  - apply getN_None in G. cbn [bind]. split; [intros F; now apply fine_ub in F|lia].
Qed.

(** ** Commands of both builds *)
Lemma not_own : forall k, In k shared_codes -> own c p k = None.
Proof. clear. intros k H. cbn in H. repeat (destruct H as [<-|H]; [reflexivity|]). destruct H. Qed.
Lemma off_else : forall k r h (b : bool), lenN (k :: r) <= c_ctobuf c -> entry c k = Some (if b then h else h_unknown c) -> b = false -> defined c e (ORecv (k :: r)) (z_st z).
Proof. intros k r h b L E ->. apply defined_fine. rewrite (exec_inv c _ e k r _ V RD L E). unfold h_unknown. apply fine_err; auto. exact (val_out c _ _ V). Qed.
Lemma shared_iff : c_lock c = LockRecursive -> forall k r, In k shared_codes -> lenN (k :: r) <= c_ctobuf c ->
  (sdefined c p e (ORecv (k :: r)) z <-> command_rule c e (z_st z) (k :: r) k).
Proof.
  intros K k r H L. rewrite (else_fine k r L (not_own k H)). cbn [In shared_codes] in H.
  repeat match type of H with ?a = k \/ _ => destruct H as [<-|H] | False => destruct H end; cbn [command_rule]; cbv zeta.
  - destruct (c_opt c 0xF8) eqn:O; [rewrite (iff_seed c (z_st z) V RD e r L O); tauto|]. split; [intros _ X; discriminate|]. intros _. now apply (off_else 0xF8 r (h_get_seed c) (c_opt c 0xF8)).
  - destruct (c_opt c 0xF5) eqn:O; [rewrite (iff_upload c (z_st z) V RD K e r L O); tauto|]. split; [intros _ X; discriminate|]. intros _. now apply (off_else 0xF5 r (h_upload c) (c_opt c 0xF5)).
  - destruct (c_opt c 0xF4) eqn:O; [rewrite (iff_short_upload c (z_st z) V RD K e r L O); tauto|]. split; [intros _ X; discriminate|]. intros _. now apply (off_else 0xF4 r (h_short_upload c) (c_opt c 0xF4)).
  - destruct (c_opt c 0xF3) eqn:O; [rewrite (iff_checksum c (z_st z) V RD K e r L O); tauto|]. split; [intros _ X; discriminate|]. intros _. now apply (off_else 0xF3 r (h_checksum c) (c_opt c 0xF3)).
  - destruct (c_cal c) eqn:O; [rewrite (iff_download c (z_st z) V RD e r L O); tauto|]. split; [intros _ X; discriminate|]. intros _. now apply (off_else 0xF0 r (h_download c) (c_cal c)).
  - destruct (c_cal c && c_opt c 0xEF) eqn:O; [apply andb_true_iff in O; destruct O as (O & O2); rewrite (iff_download_next c (z_st z) V RD e r L O O2); tauto|].
    split; [intros _ X Y; rewrite X, Y in O; discriminate|]. intros _. now apply (off_else 0xEF r (h_download_next c) (c_cal c && c_opt c 0xEF)).
  - destruct (c_cal c && c_opt c 0xEE) eqn:O; [apply andb_true_iff in O; destruct O as (O & O2); rewrite (iff_download_max c (z_st z) V RD e r L O O2); tauto|].
    split; [intros _ X Y; rewrite X, Y in O; discriminate|]. intros _. now apply (off_else 0xEE r (h_download_max c) (c_cal c && c_opt c 0xEE)).
  - destruct (c_cal c && c_opt c 0xED) eqn:O; [apply andb_true_iff in O; destruct O as (O & O2); rewrite (iff_short_download c (z_st z) V RD e r L O O2); tauto|].
    split; [intros _ X Y; rewrite X, Y in O; discriminate|]. intros _. now apply (off_else 0xED r (h_short_download c) (c_cal c && c_opt c 0xED)).
  - destruct (c_cal c && c_opt c 0xEC) eqn:O; [apply andb_true_iff in O; destruct O as (O & O2); rewrite (iff_modify c (z_st z) V RD e r L O O2); tauto|].
    split; [intros _ X Y; rewrite X, Y in O; discriminate|]. intros _. now apply (off_else 0xEC r (h_modify_bits c) (c_cal c && c_opt c 0xEC)).
Qed.
Lemma harmless_pre : describes c p es t -> forall k r, In k pre_harmless -> lenN (k :: r) <= c_ctobuf c -> sdefined c p e (ORecv (k :: r)) z.
Proof.
  intros Ds k r H L. unfold pre_harmless in H. apply in_app_iff in H. destruct H as [H|H].
  - cbn [In] in H. destruct H as [<-|H]; [now apply ptr_fine|].
    assert (F : Forall (fun k => c_opt c k = false) [0xD6; 0xD5; 0xD4; 0xD3]) by apply St. inversion F as [|? ? _ F1]; subst. inversion F1 as [|? ? X1 F2]; subst. inversion F2 as [|? ? X2 F3]; subst. inversion F3 as [|? ? X3 _]; subst.
    repeat match type of H with ?a = k \/ _ => destruct H as [<-|H] | False => destruct H end; apply unknown_fine; auto.
    + transitivity (Some (if c_daq c && c_opt c 0xD5 then h_alloc_daq c else h_unknown c)); [reflexivity|now rewrite X1, andb_false_r].
    + transitivity (Some (if c_daq c && c_opt c 0xD4 then h_alloc_odt c else h_unknown c)); [reflexivity|now rewrite X2, andb_false_r].
    + transitivity (Some (if c_daq c && c_opt c 0xD3 then h_alloc_odt_entry c else h_unknown c)); [reflexivity|now rewrite X3, andb_false_r].
  - destruct (own c p k) as [h|] eqn:O; [|apply else_fine; auto; apply harmless_fine; auto].
    assert (X : k = 0xFE \/ k = 0xF7 \/ k = 0xDD \/ k = 0xDA).
    { cbn [In harmless] in H. repeat match type of H with ?a = k \/ _ => destruct H as [<-|H] | False => destruct H end; try tauto; discriminate O. }
    destruct X as [-> | [-> | [-> | ->]]]; [now apply disc_fine| |now apply synch_fine|]; cbn [own] in O.
    + destruct (c_opt c 0xF7) eqn:Q; [now apply unlock_fine|discriminate].
    + destruct (c_daq c && c_opt c 0xDA) eqn:Q; [|discriminate]. apply andb_true_iff in Q. now apply processor_fine.
Qed.
End Own.

(** ** From reachable states *)
Section Reach.
Variables (c : cfg) (p : predef) (es : list (N * N)) (m : mem) (l : list (env * op)) (z : sst) (o : list pkt) (t : tree) (e : env).
Hypothesis R : sreachable c p es m l z o.
Hypothesis Sm : c_max_ent c < 65536.
Let W : wf_cfg c. Proof. apply R. Qed.
Let St : static c. Proof. apply R. Qed.
Let Wp : wf_pre c p es. Proof. apply R. Qed.
Let Z : zinv c p es z. Proof. exact (sreach_inv _ _ _ _ _ _ _ R). Qed.
Let Pd : pdu_size c <= 1 + c_max_dto c. Proof. exact (sreach_pdu _ _ _ _ _ _ _ R). Qed.

Lemma pre_harmless_thm : ready (z_st z) -> describes c p es t -> forall k r, In k pre_harmless -> lenN (k :: r) <= c_ctobuf c -> sdefined c p e (ORecv (k :: r)) z.
Proof. intros RD Ds. exact (harmless_pre c p es z t W St Wp Z Sm Pd RD e Ds). Qed.
Lemma pre_unready_thm : forall f, lenN f <= c_ctobuf c -> ~ ready (z_st z) -> sdefined c p e (ORecv f) z.
Proof.
  intros f L N. destruct f as [|k r]; [now exists z, []|]. rewrite sdefined_fine, (srecv_val c p es W) by auto.
  replace (if s_conn (z_st z) && negb (s_busy (z_st z)) then own c p k else None) with (@None shandler).
  2: { unfold ready in N. destruct (s_conn (z_st z)), (s_busy (z_st z)); cbn; try reflexivity. exfalso. now apply N. }
  apply fine_lift. apply (proj1 (defined_fine c e (ORecv (k :: r)) (z_st z))). apply unready_fine; auto. exact (sreach_valid _ _ _ _ _ _ _ R).
Qed.
Lemma pre_shared_thm : ready (z_st z) -> c_lock c = LockRecursive -> forall k r, In k shared_codes -> lenN (k :: r) <= c_ctobuf c ->
  (sdefined c p e (ORecv (k :: r)) z <-> command_rule c e (z_st z) (k :: r) k).
Proof. intros RD K. exact (shared_iff c p es z W Z RD e K). Qed.
Lemma pre_main_thm : c_lock c = LockRecursive -> (sdefined c p e OMain z <-> main_rule c e (z_st z)).
Proof.
  intros K. rewrite sdefined_fine. cbn [sstep]. rewrite fine_lift. rewrite <- defined_fine. apply main_iff; auto. exact (sreach_valid _ _ _ _ _ _ _ R).
Qed.
Lemma pre_write_thm : ready (z_st z) -> forall r, lenN (0xE1 :: r) <= c_ctobuf c -> (sdefined c p e (ORecv (0xE1 :: r)) z <-> pre_write_rule c p (z_st z)).
Proof. intros RD. exact (write_iff c p es z W St Z RD e). Qed.
Lemma pre_multiple_thm : ready (z_st z) -> c_opt c 0xC7 = true -> forall r, let f := 0xC7 :: r in lenN f <= c_ctobuf c ->
  (sdefined c p e (ORecv f) z <-> pre_multiple_rule c p (z_st z) f).
Proof. intros RD. exact (multiple_iff c p es z W St Z RD e). Qed.
Lemma pre_mode_thm : ready (z_st z) -> forall r, let f := 0xE0 :: r in lenN f <= c_ctobuf c -> bytes f -> (sdefined c p e (ORecv f) z <-> pre_mode_rule c p (z_st z) f).
Proof. intros RD. exact (pmode_iff c p es z W St Z Sm Pd RD e). Qed.
Lemma pre_select_thm : ready (z_st z) -> forall r, let f := 0xDE :: r in lenN f <= c_ctobuf c -> bytes f -> (sdefined c p e (ORecv f) z <-> pre_select_rule c p (z_st z) f).
Proof. intros RD. exact (select_iff c p es z W St Z Sm Pd RD e). Qed.
Lemma pre_info_thm : ready (z_st z) -> c_opt c 0xD8 = true -> forall r, let f := 0xD8 :: r in lenN f <= c_ctobuf c -> bytes f ->
  (sdefined c p e (ORecv f) z <-> pre_info_rule c p (z_st z) f).
Proof. intros RD. exact (info_iff c p es z W St Z Sm Pd RD e). Qed.

Lemma pre_trigger_thm : wf_env c e -> stamp_ok c -> describes c p es t -> forall ev, pre_trigger_rule c e t z ev -> sdefined c p e (OTrigger ev) z.
Proof.
  intros We So Ds ev Ru. destruct (d_run (s_daq (z_st z))) eqn:M.
  2: { exists z, []. apply pre_idle. unfold measuring. congruence. }
  destruct (getN (d_lfe (s_daq (z_st z))) ev) as [l'|] eqn:A.
  - destruct (getN t l') as [os|] eqn:G.
    + destruct (Ru M l' os A G) as (Sa & Q). destruct (pre_event c p es m l z o e t ev l' os R We So Ds M A G Sa Q) as (z' & o' & E & _). now exists z', o'.
    + rewrite sdefined_fine. cbn [sstep]. rewrite (proj1 St). unfold strigger. rewrite M. cbn [negb]. destruct (_ <=? ev); [apply fine_ok|]. rewrite A.
      unfold sfirst_pid. rewrite beyond_le by auto. apply getN_None in G. assert (Q : count_of p = lenN t) by apply Ds. destruct (N.leb_spec (count_of p) l'); [|lia]. cbn [bind]. apply fine_ok.
  - rewrite sdefined_fine. cbn [sstep]. rewrite (proj1 St). unfold strigger. rewrite M. cbn [negb]. apply getN_None in A. rewrite (d_lfelen _ _ (i_d _ _ (proj1 Z))) in A.
    unfold u8. destruct (N.leb_spec (c_nevents c mod 2 ^ 8) ev); [apply fine_ok|]. exfalso. pose proof (N.mod_le (c_nevents c) (2 ^ 8) ltac:(lia)). lia.
Qed.

Lemma pre_code_thm : ready (z_st z) -> forall k r, lenN (k :: r) <= c_ctobuf c -> k < 0xC7 -> ~ sdefined c p e (ORecv (k :: r)) z.
Proof.
  clear Sm Pd. intros RD k r L H. rewrite (else_fine c p es z W Z e); auto.
  - rewrite defined_fine. cbn [step]. rewrite receive_val; [|exact W|apply Z|auto]. destruct RD as (-> & ->).
    assert (G : getN (table c) (255 - k) = None) by (apply getN_None; change (lenN (table c)) with 57; lia). rewrite G. apply fine_ub.
  - assert (G : forall j, (j < 199)%nat -> own c p (N.of_nat j) = None) by (intros j Hj; do 199 (destruct j as [|j]; [reflexivity|]); lia).
    specialize (G (N.to_nat k) ltac:(lia)). now rewrite N2Nat.id in G.
Qed.

Lemma pre_command_thm : ready (z_st z) -> c_lock c = LockRecursive -> describes c p es t -> forall k r, k < 256 -> bytes (k :: r) -> lenN (k :: r) <= c_ctobuf c ->
  pre_command_rule c p e (z_st z) (k :: r) k -> sdefined c p e (ORecv (k :: r)) z.
Proof.
  intros RD K Ds k r Hk B L Ru.
  destruct (in_dec N.eq_dec k pre_harmless) as [Hh|Hh]; [now apply pre_harmless_thm|].
  destruct (in_dec N.eq_dec k shared_codes) as [Hs|Hs].
  { apply pre_shared_thm; auto. clear -Hs Ru. cbn [In shared_codes] in Hs. repeat match type of Hs with ?a = k \/ _ => destruct Hs as [<-|Hs]; [exact Ru|] | False => destruct Hs end. }
  assert (CK : k = 0xE1 \/ k = 0xE0 \/ k = 0xDE \/ k = 0xD8 \/ k = 0xC7 \/ k < 0xC7).
  { destruct (N.lt_ge_cases k 0xC7); [tauto|].
    assert (G : forall j, (j < 57)%nat -> ~ In (0xC7 + N.of_nat j) pre_harmless -> ~ In (0xC7 + N.of_nat j) shared_codes -> let x := 0xC7 + N.of_nat j in
      x = 0xE1 \/ x = 0xE0 \/ x = 0xDE \/ x = 0xD8 \/ x = 0xC7 \/ x < 0xC7).
    { intros j Hj. do 57 (destruct j as [|j]; [cbn [N.of_nat]; intros N1 N2; first [exfalso; apply N1; vm_compute; tauto | exfalso; apply N2; vm_compute; tauto | vm_compute; tauto]|]). lia. }
    specialize (G (N.to_nat (k - 0xC7)) ltac:(lia)). replace (0xC7 + N.of_nat (N.to_nat (k - 0xC7))) with k in G by lia. auto. }
  assert (U : forall k r b h, lenN (k :: r) <= c_ctobuf c -> own c p k = None -> entry c k = Some (if b : bool then h else h_unknown c) -> b = false -> sdefined c p e (ORecv (k :: r)) z).
  { intros k' r' b h L' N' E ->. now apply (unknown_fine c p es z W Z RD e). }
  destruct CK as [->|[->|[->|[->|[->|CK]]]]]; cbn [pre_command_rule] in Ru.
  - now apply pre_write_thm.
  - now apply pre_mode_thm.
  - now apply pre_select_thm.
  - destruct (c_opt c 0xD8) eqn:O; [apply pre_info_thm; auto|]. apply (U 0xD8 r (c_daq c && c_opt c 0xD8) (h_daq_list_info c)); auto; [cbn [own]; now rewrite O, andb_false_r|now rewrite O, andb_false_r].
  - destruct (c_opt c 0xC7) eqn:O; [apply pre_multiple_thm; auto|]. apply (U 0xC7 r (c_daq c && c_opt c 0xC7) (h_write_daq_multiple c)); auto; [cbn [own]; now rewrite O, andb_false_r|now rewrite O, andb_false_r].
  - exfalso. assert (G : forall j, (j < 199)%nat -> pre_command_rule c p e (z_st z) (N.of_nat j :: r) (N.of_nat j) -> 0xC7 <= N.of_nat j).
    { intros j Hj. do 199 (destruct j as [|j]; [exact (fun h => h)|]). lia. }
    specialize (G (N.to_nat k) ltac:(lia)). rewrite N2Nat.id in G. specialize (G Ru). lia.
Qed.
Lemma pre_op_thm : forall x, wf_op c (e, x) -> c_lock c = LockRecursive -> stamp_ok c -> describes c p es t -> pre_rule c p e t z x -> sdefined c p e x z.
Proof.
  intros x (We & Wx) K So Ds Ru. cbn [fst snd] in *. pose proof (val_lo _ _ (sreach_valid _ _ _ _ _ _ _ R)) as L.
  destruct x as [f| |ev|k i|k i|a bs| |x a|b|]; cbn [pre_rule] in Ru.
  - destruct f as [|k r]; [now exists z, []|]. destruct Ru as (Lf & Ru).
    destruct (s_conn (z_st z)) eqn:C; [|apply pre_unready_thm; auto; intros (X & _); congruence].
    destruct (s_busy (z_st z)) eqn:B; [apply pre_unready_thm; auto; intros (_ & X); congruence|].
    apply pre_command_thm; auto; [split; auto|inversion Wx; auto|apply Ru; split; auto].
  - now apply pre_main_thm.
  - now apply pre_trigger_thm.
  - rewrite sdefined_fine. cbn [sstep]. apply fine_lift. cbn [step]. destruct (c_ev_api c); [now apply special_fine|apply fine_ok].
  - rewrite sdefined_fine. cbn [sstep]. apply fine_lift. cbn [step]. destruct (c_srv_api c); [now apply special_fine|apply fine_ok].
  - rewrite sdefined_fine. cbn [sstep]. apply fine_lift. apply fine_ok.
  - rewrite sdefined_fine. cbn [sstep]. apply (fine_sdisc c St Sm Pd).
  - rewrite sdefined_fine. cbn [sstep]. apply fine_lift. apply fine_ok.
  - rewrite sdefined_fine. cbn [sstep]. apply fine_lift. cbn [step]. destruct (busy_rec c b (z_st z) K) as (h & E). rewrite E. apply fine_ok.
  - rewrite sdefined_fine. cbn [sstep]. unfold sinit. cbv zeta. rewrite (proj1 St). unfold sdaq_init, queue_init. pose proof Pd. replace (pdu_size c <=? 1 + c_max_dto c) with true by lia. cbn [bind]. apply fine_ok.
Qed.
End Reach.

Lemma sreach_step : forall c p es m l z o e x z' o', sreachable c p es m l z o -> wf_op c (e, x) -> sstep c p e x z = Ok (z', o') ->
  sreachable c p es m (l ++ [(e, x)]) z' (o ++ o').
Proof.
  intros c p es m l z o e x z' o' (W & St & Wp & M & Wl & z0 & B & H) Wx E. do 4 (split; [assumption|]).
  split; [apply Forall_app; split; [exact Wl|constructor; [exact Wx|constructor]]|]. exists z0. split; [exact B|].
  clear B. revert z0 o H. induction l as [|(e1 & x1) l IH]; intros z0 o H; cbn [srun app] in *.
  - injection H as <- <-. unfold sthen. rewrite E. cbn [bind srun]. now rewrite app_nil_r.
  - unfold sthen in *. apply bind_Ok in H. destruct H as ((z1 & o1) & E1 & H). apply bind_Ok in H. destruct H as ((z2 & o2) & E2 & H). injection H as <- <-.
    rewrite E1. cbn [bind]. inversion Wl as [|? ? _ Wl']; subst. rewrite (IH Wl' z1 o2 E2). cbn [bind]. now rewrite app_assoc.
Qed.
Lemma pre_run_thm : forall c p es m t l' l z o, sreachable c p es m l z o -> wf_run c l' -> c_lock c = LockRecursive -> c_max_ent c < 65536 -> stamp_ok c ->
  describes c p es t -> pre_abides c p t l' z -> exists z' o', srun c p l' z = Ok (z', o').
Proof.
  induction l' as [|(e & x) l' IH]; intros l z o R Wr K Sm So Ds A; [now exists z, []|]. inversion Wr as [|y w Wx Wr']; subst.
  destruct A as (Ru & A). destruct (pre_op_thm c p es m l z o t e R Sm x Wx K So Ds Ru) as (z1 & o1 & E).
  destruct (IH (l ++ [(e, x)]) z1 (o ++ o1) (sreach_step _ _ _ _ _ _ _ _ _ _ _ R Wx E) Wr' K Sm So Ds (A _ _ E)) as (z2 & o2 & E2).
  exists z2, (o1 ++ o2). cbn [srun]. unfold sthen. rewrite E. cbn [bind]. rewrite E2. reflexivity.
Qed.
