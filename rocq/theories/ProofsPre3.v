(** Predefined DAQ lists: events and commands. *)
From Coq Require Import NArith ZArith List Bool Lia ZifyBool ZifyNat ZifyN.
From Verif Require Import Base Config Codec Checksum State Queue Daq Core Spec Lists Effects Handlers HTx HInv HInv2
  HFields HResp DaqInv HSpec Steps Demo Ops ProofsSession Exec ProofsFrames SpecMem SpecDaq ProofsDaqA ProofsDaqB ProofsDaqC ProofsDaqD ProofsDaqE ProofsDaqF ProofsDaqG
  Predef SpecPre ProofsPre ProofsPre2.
Import ListNotations.
Open Scope N_scope.
Ltac Zify.zify_post_hook ::= Z.div_mod_to_equations.

(** ** Events *)
Lemma stamp_S1 : forall c ts i, stamp_of c ts (i + 1) = [].
Proof. intros c [v|] i; cbn; auto. now destruct (N.eqb_spec (i + 1) 0); [lia|]. Qed.
Section Sample.
Variables (c : cfg) (p : predef) (es : list (N * N)) (t : tree) (m : mem).
Variables (W : wf_cfg c) (Wp : wf_pre c p es) (Ds : describes c p es t).

Lemma pre_list : forall l os, getN t l = Some os -> exists f, list_conf p l = Ok (lenN os, f) /\ f < 65536.
Proof.
  intros l os G. destruct Ds as (_ & _ & D). destruct (D l os G) as (f & E & _). exists f. unfold list_conf. rewrite E. split; [reflexivity|].
  destruct Wp as [_ F _ _]. rewrite Forall_forall in F. apply (F _ (getN_In _ _ _ _ E)).
Qed.
Lemma pre_odt : forall l os o xs, getN t l = Some os -> getN os o = Some xs -> exists g, odt_conf c p l o = Ok (lenN xs, g) /\
  forall k x, getN xs k = Some x -> entry_idx c p l o k = Ok (g + k) /\ entry_get es (g + k) = Ok x.
Proof.
  intros l os o xs G Go. destruct Ds as (_ & _ & D). destruct (D l os G) as (f & E & D1). destruct (D1 o xs Go) as (B & g & E1 & D2).
  exists g. assert (X : odt_conf c p l o = Ok (lenN xs, g)).
  { unfold odt_conf, list_conf. rewrite E. cbn [bind]. rewrite (N.mod_small f) by lia. rewrite N.mod_small by lia. now rewrite E1. }
  split; [exact X|]. intros k x Gk. destruct (D2 k x Gk) as (K1 & K2 & K3). unfold entry_idx, entry_get. rewrite X. cbn [bind].
  unfold u16. rewrite (N.mod_small k) by exact K1. rewrite N.mod_small by exact K2. now rewrite K3.
Qed.
Lemma pre_sum : forall n i, i + N.of_nat n <= lenN t -> ssum c p n i (odts_before t i) = Ok (odts_before t (i + N.of_nat n)).
Proof.
  induction n; intros i B; cbn [ssum]; [now rewrite N.add_0_r|].
  destruct (getN_lt_Some _ t i) as (os & G); [lia|]. destruct (pre_list i os G) as (f & E & _). rewrite E. cbn [bind].
  rewrite <- (before_S _ _ _ G). rewrite N.mod_small by (pose proof (before_le t (i + 1)); destruct Ds as (_ & Q & _); lia).
  rewrite IHn by lia. f_equal. f_equal. lia.
Qed.
Lemma pre_beyond : forall l, beyond c l (count_of p) = (count_of p <=? l) \/ (we c = 2 ^ 32 /\ count_of p = 0).
Proof.
  intro l. unfold beyond. destruct (N.eqb_spec (we c) (2 ^ 32)); [|auto]. destruct (N.eqb_spec (count_of p) 0); [auto|left].
  destruct (N.ltb_spec (count_of p - 1) l); destruct (N.leb_spec (count_of p) l); auto; lia.
Qed.
Lemma pre_first : forall l os, getN t l = Some os -> sfirst_pid c p l = Ok (Some (odts_before t l)).
Proof.
  intros l os G. pose proof (getN_Some_lt _ _ _ _ G) as L. unfold sfirst_pid. assert (Q : count_of p = lenN t) by apply Ds.
  assert (B : beyond c l (count_of p) = false). { destruct (pre_beyond l) as [->|(_ & Z)]; [|lia]. apply N.leb_gt. lia. }
  rewrite B. rewrite <- (before_0 t). rewrite pre_sum by lia. rewrite N.add_0_l, N2Nat.id. reflexivity.
Qed.

Lemma sentries_val : forall l os o xs, getN t l = Some os -> getN os o = Some xs -> Forall (fun x => 1 <= snd x /\ in_space c (fst x) (snd x)) xs ->
  forall n k data, k + N.of_nat n = lenN xs -> lenN data + lenN (bytes_of m (dropN k xs)) <= c_max_dto c ->
  sentries c p es m l o n k data = Ok (data ++ bytes_of m (dropN k xs)).
Proof.
  intros l os o xs G Go F. destruct (pre_odt _ _ _ _ G Go) as (g & _ & Ee). induction n; intros k data Hk Hl; cbn [sentries].
  - replace (dropN k xs) with (@nil (N * N)) by (unfold dropN; symmetry; apply skipn_all2; unfold lenN in Hk; lia). cbn. now rewrite app_nil_r.
  - destruct (getN_lt_Some _ xs k) as ((a & len) & Gk); [lia|]. destruct (Ee k _ Gk) as (E1 & E2). rewrite E1. cbn [bind]. rewrite E2. cbn [bind].
    pose proof (proj1 (Forall_forall _ _) F _ (getN_In _ _ _ _ Gk)) as (B1 & B2). cbn [fst snd] in B1, B2. unfold in_space in B2.
    rewrite (drop_get _ _ _ _ Gk) in *. unfold bytes_of in *. cbn [map concat fst snd] in *. rewrite lenN_app, mem_at_len in Hl.
    destruct (N.ltb_spec (c_max_dto c - lenN data) len); [lia|]. destruct (N.eqb_spec len 0); [lia|]. destruct (N.ltb_spec (aspace c) (a + len)); [lia|].
    rewrite IHn; [|lia|rewrite lenN_app, mread_at, mem_at_len; lia]. rewrite mread_at, <- app_assoc. reflexivity.
Qed.
Lemma sodts_fill : forall ts l os, getN t l = Some os ->
  forall a b i q fs, i + N.of_nat a + N.of_nat b = lenN os ->
  (forall j xs, i <= j < i + N.of_nat a -> getN os j = Some xs -> sampled_ok c (stamp_of c ts j) xs) ->
  queued c q fs -> q_head q + N.of_nat a <= 4 ->
  exists q', sodts c p es m ts l (a + b) i (odts_before t l + i) q =
      sodts c p es m ts l b (i + N.of_nat a) (odts_before t l + (i + N.of_nat a)) q' /\
    queued c q' (fs ++ dtos m (stamp_of c ts i) (odts_before t l + i) (firstn a (dropN i os))) /\
    q_head q' = q_head q + N.of_nat a /\ q_tail q' = q_tail q /\ q_ovl q' = q_ovl q.
Proof.
  intros ts l os G. induction a; intros b i q fs Hi S Q Hq.
  - exists q. change (N.of_nat 0) with 0. rewrite !N.add_0_r. cbn [plus firstn dtos]. rewrite app_nil_r. auto.
  - cbn [plus sodts]. destruct (getN_lt_Some _ os i) as (xs & Ge); [lia|].
    destruct (pre_odt _ _ _ _ G Ge) as (g & E1 & _). rewrite E1. cbn [bind].
    destruct (S i xs) as (S1 & S2); [lia|exact Ge|]. fold (stamp_of c ts i).
    rewrite <- (bytes_of_len m) in S2.
    rewrite (sentries_val l os i xs G Ge S1); [|lia|].
    2: { unfold dropN. cbn [N.to_nat skipn]. rewrite lenN_cons. lia. }
    unfold dropN at 1. cbn [N.to_nat skipn bind].
    set (f := _ ++ bytes_of m xs).
    assert (Lf : lenN f = 1 + lenN (stamp_of c ts i) + lenN (bytes_of m xs)) by (unfold f; rewrite lenN_app, lenN_cons; lia).
    destruct (enqueue_queued c f q fs W Q) as (q1 & X1 & X2 & X3 & X4 & X5); [lia|lia|]. rewrite X1. cbn [bind].
    assert (Go : odt_at t l i = Some xs) by (unfold odt_at; now rewrite G).
    assert (P : (odts_before t l + i + 1) mod we c = odts_before t l + (i + 1)).
    { rewrite N.mod_small; [lia|]. pose proof (pid_bound _ _ _ _ Go). destruct Ds as (_ & Q1 & _). lia. }
    rewrite P. destruct (IHa b (i + 1) q1 (fs ++ [f])) as (q2 & Y1 & Y2 & Y3 & Y4 & Y5); [lia| |exact X2|lia|].
    { intros j es' Hj. apply S. lia. }
    exists q2. replace (i + N.of_nat (Datatypes.S a)) with (i + 1 + N.of_nat a) by lia. split; [exact Y1|]. split; [|split; [lia|split; congruence]].
    rewrite (drop_get _ _ _ _ Ge). cbn [firstn dtos]. rewrite <- app_assoc in Y2. cbn [app] in Y2. rewrite stamp_S1 in Y2.
    replace (odts_before t l + i + 1) with (odts_before t l + (i + 1)) by lia. exact Y2.
Qed.
End Sample.

Lemma dtos_len : forall m os ts pid, lenN (dtos m ts pid os) = lenN os.
Proof. induction os as [|x y IH]; intros; [reflexivity|]; cbn [dtos]; rewrite !lenN_cons; now rewrite IH. Qed.

Lemma pre_event : forall c p es m l z o e t ev l' os, sreachable c p es m l z o -> wf_env c e -> stamp_ok c -> describes c p es t ->
  measuring (z_st z) -> assigned (z_st z) ev l' -> getN t l' = Some os -> sampleable c (list_stamp c e z l') os -> used (z_st z) + lenN os <= 4 ->
  exists z' o', sstep c p e (OTrigger ev) z = Ok (z', o') /\ emits o' (dtos (s_mem (z_st z)) (list_stamp c e z l') (odts_before t l') os) /\
    same_but_queue (z_st z) (z_st z') /\ z_entries z' = z_entries z /\ z_modes z' = z_modes z /\ used (z_st z') = used (z_st z) + lenN os.
Proof.
  intros c p es m l z o e t ev l' os R We So Ds M As G Sa Hq. pose proof (sreach_inv _ _ _ _ _ _ _ R) as (I & B & _ & C & _ & E).
  destruct R as (W & (Hd & _) & Wp & _). cbn [sstep]. rewrite Hd. unfold strigger. unfold measuring in M. rewrite M. cbn [negb].
  pose proof (getN_Some_lt _ _ _ _ As) as Lev. rewrite (d_lfelen _ _ (i_d _ _ I)) in Lev. pose proof (wf_ev c W Hd) as Wev. fold (c_nevents c) in Wev.
  unfold u8 at 1. rewrite N.mod_small by (change (2 ^ 8) with 256; lia). destruct (N.leb_spec (c_nevents c) ev); [lia|]. unfold assigned in As. rewrite As.
  rewrite (pre_first c p es t Wp Ds l' os G). cbn [bind]. destruct (pre_list c p es t Wp Ds l' os G) as (f & E1 & _). rewrite E1. cbn [bind].
  assert (Q1 : count_of p = lenN t) by apply Ds. pose proof (getN_Some_lt _ _ _ _ G) as Ll.
  destruct (getN_lt_Some _ (z_modes z) l') as (md & Gm); [lia|]. unfold mode_get. rewrite Gm. cbn [bind]. rewrite C.
  set (ts := if c_ts c && _ then Some (e_timer e) else None).
  assert (Te : forall i, stamp_of c ts i = if i =? 0 then list_stamp c e z l' else []).
  { intro i. unfold stamp_of, ts, list_stamp, mode_of. rewrite Gm. unfold stamped. rewrite bit4. clear ts. destruct (c_ts c && N.testbit md 4); [|now destruct (i =? 0)].
    destruct (i =? 0); [|reflexivity]. apply ts_stamp; auto. apply We. }
  destruct (sodts_fill c p es t (s_mem (z_st z)) W Ds ts l' os G (length os) 0 0 (d_q (s_daq (z_st z))) []) as (q & Eq & Q & H1 & H2 & _).
  - unfold lenN. lia.
  - intros j xs _ Gj. rewrite Te. now apply Sa.
  - apply queued_nil; [exact (d_qinv _ _ (i_d _ _ I))|exact E].
  - unfold used, lenN in *. lia.
  - rewrite N.add_0_r, Nat.add_0_r in Eq. unfold lenN at 1. rewrite Nat2N.id. rewrite Eq. cbn [sodts bind]. rewrite Te in Q. unfold dropN in Q. cbn [N.to_nat skipn N.eqb] in Q.
    rewrite firstn_all, N.add_0_r in Q. cbn [app] in Q. set (fs := dtos _ _ _ os) in *.
    assert (Lf : lenN fs = lenN os) by apply dtos_len.
    assert (P : N.to_nat (pending c q) = length fs).
    { unfold pending, qmod. rewrite (wf_qs c W). destruct Q as (_ & Q2 & Q3 & _). unfold lenN in *. lia. }
    rewrite P. destruct (transmit_queued c fs (upd_daq (set_d_q q) (z_st z)) W Q) as (s' & o' & X1 & X2 & X3 & X4 & X5 & X6).
    unfold lift. rewrite X1. cbn [bind]. exists (with_st s' z), o'. split; [reflexivity|]. split; [split; auto|]. cbn [z_st with_st z_entries z_modes].
    split; [destruct X4 as (q' & X4); exists q'; exact X4|]. split; [exact C|]. split; [reflexivity|]. unfold used. rewrite X5. ss. unfold lenN. lia.
Qed.
Lemma pre_idle : forall c p e ev z, ~ measuring (z_st z) -> sstep c p e (OTrigger ev) z = Ok (z, []).
Proof. intros c p e ev z M. cbn [sstep]. unfold strigger, measuring in *. destruct (c_daq c); [|reflexivity]. destruct (d_run _); [congruence|reflexivity]. Qed.

(** ** Commands *)
Lemma lift_val : forall r z s o, r = Ok (s, o) -> lift r z = Ok (with_st s z, o).
Proof. intros r z s o ->. reflexivity. Qed.
Lemma nth_map : forall A B (f : A -> B) l i, getN (map f l) i = option_map f (getN l i).
Proof. intros. unfold getN. apply nth_error_map. Qed.

Section Cmd.
Variables (c : cfg) (p : predef) (es : list (N * N)) (m : mem) (l : list (env * op)) (z : sst) (o : list pkt) (e : env).
Variables (R : sreachable c p es m l z o) (RD : ready (z_st z)) (D : dlc_ok c).
Let W : wf_cfg c := proj1 R.
Let Hd : c_daq c = true := proj1 (proj1 (proj2 R)).
Let Wp : wf_pre c p es := proj1 (proj2 (proj2 R)).
Let Z := sreach_inv _ _ _ _ _ _ _ R.

Lemma own_val : forall k t h, lenN (k :: t) <= c_ctobuf c -> own c p k = Some h -> sstep c p e (ORecv (k :: t)) z = h e (rz c (k :: t) z).
Proof. intros k t h L K. rewrite (srecv_val c p es W) by auto. destruct RD as (-> & ->). cbn [andb negb]. now rewrite K. Qed.
Lemma rz_out : forall f, lenN (s_out (z_st (rz c f z))) = c_max_cto c.
Proof. intro f. unfold rz, rx. cbn [z_st with_st]. ss. apply (b_out _ _ (i_b _ _ (proj1 Z))). Qed.
Lemma rz_in : forall f, s_in (z_st (rz c f z)) = rxbuf (z_st z) f.
Proof. intro f. unfold rz. cbn [z_st with_st]. apply rx_in. Qed.

(** Guards. *)
Lemma sidle_no : forall z1 k, ~ programming (z_st z1) -> spgm_idle c z1 k = k.
Proof. intros z1 k H. unfold spgm_idle, programming in *. destruct (s_pgm (z_st z1)); try congruence; now rewrite andb_false_r. Qed.
Lemma sunl_no : forall r z1 k, ~ locked c r (z_st z1) -> sunlocked c r z1 k = k.
Proof.
  intros r z1 k H. unfold sunlocked, is_protected, locked in *. destruct (c_protect c); auto. cbn [andb].
  destruct (N.eqb_spec (N.land (s_prot (z_st z1)) r) r); auto. exfalso; auto.
Qed.
Lemma sstop_no : forall z1 k, ~ measuring (z_st z1) -> sdaq_stopped c z1 k = k.
Proof. intros z1 k H. unfold sdaq_stopped, measuring in *. destruct (d_run _); [congruence|]. now rewrite andb_false_r. Qed.
Lemma sstop_yes : forall z1 k, measuring (z_st z1) -> sdaq_stopped c z1 k = lift (send_result c 0x11 (z_st z1)) z1.
Proof. intros z1 k H. unfold sdaq_stopped, measuring in *. now rewrite Hd, H. Qed.
Variables (Np : ~ programming (z_st z)) (Nl : ~ locked c 4 (z_st z)).
Lemma sopen : forall f k, spgm_idle c (rz c f z) (sunlocked c 4 (rz c f z) k) = k.
Proof. intros f k. rewrite sidle_no by exact Np. now rewrite sunl_no by exact Nl. Qed.

(** Responses. *)
Lemma z_ans : forall f d ms bs z1, z1 = mkZ (set_s_daq d (rx c f (z_st z))) (z_entries z) ms -> lenN bs = 8 ->
  forall len, 1 <= len <= 8 -> dropN len bs = repeat 0 (N.to_nat (8 - len)) ->
  exists z' o', lift (send8 c len bs (z_st z1)) z1 = Ok (z', o') /\ sends o' (padded c (takeN len bs)) /\ same_slave (with_modes ms (zdaq d z)) z'.
Proof.
  intros f d ms bs z1 -> Lb len Hl Hz. cbn [z_st].
  destruct (send8_ans c len bs (set_s_daq d (rx c f (z_st z))) (set_s_daq d (z_st z)) W D) as (s' & o' & X1 & X2 & X3); auto.
  - ss. exact (rz_out f).
  - apply (ss_daq c (z_st z) f d).
  - rewrite X1. exists (with_st s' (mkZ (set_s_daq d (rx c f (z_st z))) (z_entries z) ms)), o'. split; [reflexivity|]. split; [exact X2|]. split; [exact X3|]. split; reflexivity.
Qed.
Lemma set_same : forall s, set_s_daq (s_daq s) s = s. Proof. intros []. reflexivity. Qed.
Lemma z_same : with_modes (z_modes z) (zdaq (s_daq (z_st z)) z) = z.
Proof. unfold with_modes, zdaq, with_st. rewrite set_same. destruct z. reflexivity. Qed.
Lemma rz_mk : forall f, rz c f z = mkZ (set_s_daq (s_daq (z_st z)) (rx c f (z_st z))) (z_entries z) (z_modes z).
Proof. intro f. unfold rz, with_st. f_equal. Qed.
Lemma z_err : forall f k, k < 256 -> exists z' o', lift (err c k (z_st (rz c f z))) (rz c f z) = Ok (z', o') /\ sends o' (padded c [0xFE; k]) /\ same_slave z z'.
Proof.
  intros f k Hk. destruct (z_ans f (s_daq (z_st z)) (z_modes z) [0xFE; u8 k; 0; 0; 0; 0; 0; 0] (rz c f z) (rz_mk f) eq_refl 2) as (z' & o' & X1 & X2 & X3); [lia|reflexivity|].
  exists z', o'. split; [exact X1|]. split; [|now rewrite z_same in X3]. unfold u8 in X2. rewrite N.mod_small in X2 by exact Hk. exact X2.
Qed.
Lemma z_pos : forall f d ms z1, z1 = mkZ (set_s_daq d (rx c f (z_st z))) (z_entries z) ms ->
  exists z' o', lift (pos c (z_st z1)) z1 = Ok (z', o') /\ sends o' (padded c [0xFF]) /\ same_slave (with_modes ms (zdaq d z)) z'.
Proof. intros f d ms z1 E. apply (z_ans f d ms [0xFF; 0; 0; 0; 0; 0; 0; 0] z1 E eq_refl 1); [lia|reflexivity]. Qed.

(** WRITE_DAQ and WRITE_DAQ_MULTIPLE. *)
Lemma write_no : forall t, let f := 0xE1 :: t in count_of p <> 0 -> ~ measuring (z_st z) -> lenN f <= c_ctobuf c -> srefuses c p e f z 0x23.
Proof.
  intros t f Hc M L. unfold srefuses, sanswers, f. rewrite (own_val 0xE1 t (zh_write_daq c p) L) by (cbn [own]; now rewrite Hd). fold f.
  unfold zh_write_daq. rewrite sstop_no by exact M. rewrite sopen. destruct Z as (_ & _ & _ & _ & Hp & _). specialize (Hp Hc).
  change (d_plist (s_daq (z_st (rz c f z)))) with (d_plist (s_daq (z_st z))). destruct (N.ltb_spec (d_plist (s_daq (z_st z))) (count_of p)); [|lia].
  unfold send_result. destruct (_ =? _) eqn:E0; [discriminate|]. apply z_err. lia.
Qed.
Lemma writes_no : forall n t, let f := 0xC7 :: n :: t in count_of p <> 0 -> ~ measuring (z_st z) -> c_opt c 0xC7 = true -> n * 8 + 2 <= c_max_cto c ->
  lenN f <= c_ctobuf c -> srefuses c p e f z 0x23.
Proof.
  intros n t f Hc M Ho Hn L. unfold srefuses, sanswers, f. rewrite (own_val 0xC7 _ (zh_write_daq_multiple c p) L) by (cbn [own]; now rewrite Hd, Ho). fold f.
  unfold zh_write_daq_multiple. rewrite sstop_no by exact M. rewrite sopen, rz_in. change (gb (rxbuf (z_st z) f) 1) with n.
  destruct (N.ltb_spec (c_max_cto c) (n * 8 + 2)); [lia|]. destruct Z as (_ & _ & _ & _ & Hp & _). specialize (Hp Hc).
  change (d_plist (s_daq (z_st (rz c f z)))) with (d_plist (s_daq (z_st z))). destruct (N.ltb_spec (d_plist (s_daq (z_st z))) (count_of p)); [|lia].
  unfold send_result. destruct (_ =? _) eqn:E0; [discriminate|]. apply z_err. lia.
Qed.
Lemma write_wild : forall t, let f := 0xE1 :: t in count_of p = 0 -> ~ measuring (z_st z) -> lenN f <= c_ctobuf c -> sstep c p e (ORecv f) z = UB OobEntity.
Proof.
  intros t f Hc M L. unfold f. rewrite (own_val 0xE1 t (zh_write_daq c p) L) by (cbn [own]; now rewrite Hd). fold f.
  unfold zh_write_daq. rewrite sstop_no by exact M. rewrite sopen, Hc. destruct (N.ltb_spec (d_plist (s_daq (z_st (rz c f z)))) 0); [lia|].
  unfold swrite, entry_idx, odt_conf, list_conf. unfold count_of, lenN in Hc. destruct (pr_lists p); [|cbn in Hc; lia].
  replace (getN (@nil (N * N)) (d_plist (s_daq (z_st (rz c f z))))) with (@None (N * N)); [reflexivity|]. unfold getN. now destruct (N.to_nat _).
Qed.

Ltac bt H := inversion H as [|? ? _ W1]; subst; inversion W1 as [|? ? _ W2]; subst; inversion W2 as [|? ? Xa W3]; subst; inversion W3 as [|? ? Xb W4]; subst.
Lemma mode_at : forall l', l' < count_of p -> exists md, mode_of z l' = Some md /\ forall f, mode_get (rz c f z) l' = Ok md.
Proof.
  intros l' L. destruct Z as (_ & B & _). destruct (getN_lt_Some _ (z_modes z) l') as (md & G); [lia|]. exists md. split; [exact G|].
  intro f. unfold mode_get, rz, with_st. cbn [z_modes]. now rewrite G.
Qed.
Lemma fit_mod : forall a b, a < 256 -> b < 256 -> fits c (field c [a; b]) -> field c [a; b] mod we c = field c [a; b].
Proof. intros. apply mod_we_small; [now apply field2|assumption]. Qed.

(** SET_DAQ_LIST_MODE. *)
Lemma mode_bit : forall old x i, 4 <= i < 8 -> N.testbit (apply_mode old x) i = N.testbit x i.
Proof.
  intros old x i Hi. unfold apply_mode. cbn [fold_left].
  assert (B : forall g, N.testbit (2 ^ g) i = (g =? i)) by (intro; apply N.pow2_bits_eqb).
  assert (K : forall acc g, g < 8 -> N.testbit (set_reset acc x (2 ^ g)) i = if g =? i then N.testbit x i else N.testbit acc i).
  { intros acc g Hg. unfold set_reset. assert (T : (N.land x (2 ^ g) =? 2 ^ g) = N.testbit x g).
    { destruct (N.testbit x g) eqn:T; [apply N.eqb_eq|apply N.eqb_neq].
      - apply N.bits_inj. intro j. rewrite N.land_spec, N.pow2_bits_eqb. destruct (N.eqb_spec g j); [subst; now rewrite T|apply andb_false_r].
      - intro H. apply (f_equal (fun v => N.testbit v g)) in H. rewrite N.land_spec, N.pow2_bits_true, T in H. discriminate. }
    rewrite T. assert (Q : 255 - 2 ^ g = N.ldiff 255 (2 ^ g)).
    { assert (g = 0 \/ g = 1 \/ g = 2 \/ g = 3 \/ g = 4 \/ g = 5 \/ g = 6 \/ g = 7) as X by lia. destruct X as [->|[->|[->|[->|[->|[->|[->| ->]]]]]]]; reflexivity. }
    destruct (N.eqb_spec g i).
    - subst g. destruct (N.testbit x i); [rewrite N.lor_spec, N.pow2_bits_true; apply orb_true_r|].
      rewrite Q, N.land_spec, N.ldiff_spec, N.pow2_bits_true. now rewrite andb_false_r, andb_false_r.
    - destruct (N.testbit x g); [rewrite N.lor_spec, B; destruct (N.eqb_spec g i); [contradiction|apply orb_false_r]|].
      rewrite Q, N.land_spec, N.ldiff_spec, B. destruct (N.eqb_spec g i); [contradiction|].
      assert (i = 4 \/ i = 5 \/ i = 6 \/ i = 7) as X by lia. destruct X as [->|[->|[->| ->]]]; destruct (N.testbit acc _); reflexivity. }
  change 0x10 with (2 ^ 4). change 0x01 with (2 ^ 0). change 0x02 with (2 ^ 1). change 0x20 with (2 ^ 5). change 0x40 with (2 ^ 6). change 0x80 with (2 ^ 7).
  rewrite !K by lia. assert (i = 4 \/ i = 5 \/ i = 6 \/ i = 7) as X by lia. destruct X as [->|[->|[->| ->]]]; reflexivity.
Qed.
Lemma setmode_val : forall mode a b v w pre tl, let f := 0xE0 :: mode :: a :: b :: v :: w :: pre :: tl in let l' := field c [a; b] in
  bytes f -> lenN f <= c_ctobuf c -> ~ measuring (z_st z) -> fits c l' ->
  sstep c p e (ORecv f) z = (if N.land mode 2 =? 2 then lift (err c 0x21 (z_st (rz c f z))) (rz c f z) else if N.land mode 1 =? 1 then lift (err c 0x21 (z_st (rz c f z))) (rz c f z)
    else if 1 <? pre then lift (err c 0x22 (z_st (rz c f z))) (rz c f z) else
      d <- add_event l' (field c [v; w]) (s_daq (z_st z)) ;; old <- mode_get (rz c f z) l' ;;
      let z1 := with_modes (updN (z_modes z) l' (apply_mode old mode)) (with_st (set_s_daq d (z_st (rz c f z))) (rz c f z)) in lift (pos c (z_st z1)) z1).
Proof.
  intros mode a b v w pre tl f l' Wf Hl M Fl. bt Wf. unfold f. rewrite (own_val 0xE0 _ (zh_set_daq_list_mode c p) Hl) by (cbn [own]; now rewrite Hd). fold f.
  unfold zh_set_daq_list_mode. rewrite sstop_no by exact M. rewrite sopen, rz_in, !gw_eq. change (gb (rxbuf (z_st z) f) 1) with mode. change (gb (rxbuf (z_st z) f) 2) with a. change (gb (rxbuf (z_st z) f) (2 + 1)) with b.
  change (gb (rxbuf (z_st z) f) 4) with v. change (gb (rxbuf (z_st z) f) (4 + 1)) with w. change (gb (rxbuf (z_st z) f) 6) with pre.
  rewrite fit_mod by auto. reflexivity.
Qed.
Lemma setmode_thm : forall mode a b v w pre tl, let f := 0xE0 :: mode :: a :: b :: v :: w :: pre :: tl in let l' := field c [a; b] in let ev := field c [v; w] in
  bytes f -> lenN f <= c_ctobuf c -> ~ measuring (z_st z) -> l' < count_of p -> N.land mode 3 = 0 -> pre <= 1 -> ev < c_nevents c ->
  exists md, sanswers c p e f z [0xFF] (put_mode l' md (zdaq (set_d_lfe (put ev (l' mod 256) (d_lfe (s_daq (z_st z)))) (s_daq (z_st z))) z)) /\
    stamped md = N.testbit mode 4 /\ selected md = N.testbit mode 6 /\ started md = N.testbit mode 7.
Proof.
  intros mode a b v w pre tl f l' ev Wf Hl M Lc Hm Hp He.
  assert (Fl : fits c l'). { intro Q. pose proof (wp_count _ _ _ Wp) as X. unfold we in X. destruct (N.ltb_spec (c_max_ent c) 256); [|lia]. change (2 ^ 8) with 256 in X. lia. }
  pose proof (setmode_val mode a b v w pre tl Wf Hl M Fl) as V. fold f l' ev in V. destruct (land3 _ Hm) as (M2 & M1). rewrite M1, M2 in V. cbn [N.eqb] in V.
  destruct (N.ltb_spec 1 pre); [lia|]. unfold add_event in V. rewrite (d_lfelen _ _ (i_d _ _ (proj1 Z))) in V. destruct (N.ltb_spec ev (c_nevents c)); [|lia]. cbn [bind] in V.
  destruct (mode_at l' Lc) as (old & Go & Gg). rewrite Gg in V. cbn [bind] in V.
  exists (apply_mode old mode). split; [|unfold stamped, selected, started; rewrite !mode_bit by lia; auto].
  assert (E1 : updN (d_lfe (s_daq (z_st z))) ev (u8 l') = put ev (l' mod 256) (d_lfe (s_daq (z_st z)))).
  { rewrite put_upd; [reflexivity|]. rewrite (d_lfelen _ _ (i_d _ _ (proj1 Z))). lia. }
  assert (E2 : updN (z_modes z) l' (apply_mode old mode) = put l' (apply_mode old mode) (z_modes z)).
  { rewrite put_upd; [reflexivity|]. destruct Z as (_ & B & _). lia. }
  rewrite E1, E2 in V. unfold sanswers. rewrite V.
  apply (z_pos f (set_d_lfe (put ev (l' mod 256) (d_lfe (s_daq (z_st z)))) (s_daq (z_st z))) (put l' (apply_mode old mode) (z_modes z))). reflexivity.
Qed.
Lemma setmode_wild : forall mode a b v w pre tl, let f := 0xE0 :: mode :: a :: b :: v :: w :: pre :: tl in let l' := field c [a; b] in let ev := field c [v; w] in
  bytes f -> lenN f <= c_ctobuf c -> ~ measuring (z_st z) -> fits c l' -> count_of p <= l' -> N.land mode 3 = 0 -> pre <= 1 -> ev < c_nevents c ->
  sstep c p e (ORecv f) z = UB OobEntity.
Proof.
  intros mode a b v w pre tl f l' ev Wf Hl M Fl Lc Hm Hp He.
  pose proof (setmode_val mode a b v w pre tl Wf Hl M Fl) as V. fold f l' ev in V. destruct (land3 _ Hm) as (M2 & M1). rewrite M1, M2 in V. cbn [N.eqb] in V.
  destruct (N.ltb_spec 1 pre); [lia|]. unfold add_event in V. rewrite (d_lfelen _ _ (i_d _ _ (proj1 Z))) in V. destruct (N.ltb_spec ev (c_nevents c)); [|lia]. cbn [bind] in V.
  rewrite V. unfold mode_get, rz, with_st. cbn [z_modes]. assert (G : getN (z_modes z) l' = None) by (apply getN_None; destruct Z as (_ & B & _); lia). now rewrite G.
Qed.

(** START_STOP_DAQ_LIST. *)
Lemma sslist_thm : forall t mode a b tl os, let f := 0xDE :: mode :: a :: b :: tl in let l' := field c [a; b] in
  describes c p es t -> getN t l' = Some os -> bytes f -> lenN f <= c_ctobuf c -> mode <= 2 ->
  exists md, mode_of z l' = Some md /\ sanswers c p e f z [0xFF; odts_before t l' mod 256; 0; 0; 0; 0; 0; 0] (if mode =? 2 then put_mode l' (N.setbit md 6) z else z).
Proof.
  intros t mode a b tl os f l' Ds G Wf Hl Hm. assert (Q : count_of p = lenN t) by apply Ds. pose proof (getN_Some_lt _ _ _ _ G) as Ll.
  assert (Fl : fits c l'). { intro X0. pose proof (wp_count _ _ _ Wp) as X. unfold we in X. destruct (N.ltb_spec (c_max_ent c) 256); [|lia]. change (2 ^ 8) with 256 in X. lia. }
  destruct (mode_at l') as (md & Go & Gg); [lia|]. exists md. split; [exact Go|]. bt Wf. unfold sanswers, f. rewrite (own_val 0xDE _ (zh_start_stop_list c p) Hl) by (cbn [own]; now rewrite Hd). fold f.
  unfold zh_start_stop_list. rewrite sopen, rz_in, gw_eq. change (gb (rxbuf (z_st z) f) 1) with mode. change (gb (rxbuf (z_st z) f) 2) with a. change (gb (rxbuf (z_st z) f) (2 + 1)) with b.
  rewrite (fit_mod a b) by auto. fold l'. destruct (N.leb_spec (count_of p) l'); [lia|]. unfold sthen. cbn [bind]. destruct (N.ltb_spec 2 mode); [lia|].
  rewrite (pre_first c p es t Wp Ds l' os G). cbn [bind].
  assert (Y : forall ms z1, z1 = mkZ (set_s_daq (s_daq (z_st z)) (rx c f (z_st z))) (z_entries z) ms ->
    exists z' o', ('(z2, o2) <- lift (send8 c 8 [0xFF; u8 (odts_before t l'); 0; 0; 0; 0; 0; 0] (z_st z1)) z1;; Ok (z2, [] ++ o2)) = Ok (z', o') /\
      sends o' (padded c [0xFF; odts_before t l' mod 256; 0; 0; 0; 0; 0; 0]) /\ same_slave (with_modes ms (zdaq (s_daq (z_st z)) z)) z').
  { intros ms z1 E1. destruct (z_ans f (s_daq (z_st z)) ms [0xFF; u8 (odts_before t l'); 0; 0; 0; 0; 0; 0] z1 E1 eq_refl 8) as (z' & o' & X1 & X2 & X3); [lia|reflexivity|].
    exists z', o'. rewrite X1. cbn [bind app]. auto. }
  destruct (mode =? 2).
  - rewrite Gg. cbn [bind]. replace (N.lor md 64) with (N.setbit md 6) by apply N.setbit_spec'.
    replace (put_mode l' (N.setbit md 6) z) with (with_modes (put l' (N.setbit md 6) (z_modes z)) (zdaq (s_daq (z_st z)) z)).
    2: { unfold put_mode, with_modes, zdaq, with_st. rewrite set_same. reflexivity. }
    apply Y. unfold with_modes. rewrite rz_mk. cbn [z_st z_entries z_modes]. f_equal. rewrite put_upd; [reflexivity|]. destruct Z as (_ & B & _). lia.
  - cbn [bind]. pose proof (Y _ _ (rz_mk f)) as Y1. rewrite z_same in Y1. exact Y1.
Qed.
Lemma sslist_wild : forall a b tl, let f := 0xDE :: 2 :: a :: b :: tl in let l' := field c [a; b] in
  bytes f -> lenN f <= c_ctobuf c -> fits c l' -> count_of p <= l' -> sstep c p e (ORecv f) z = UB OobEntity.
Proof.
  intros a b tl f l' Wf Hl Fl Hc. bt Wf. unfold f. rewrite (own_val 0xDE _ (zh_start_stop_list c p) Hl) by (cbn [own]; now rewrite Hd). fold f.
  unfold zh_start_stop_list. rewrite sopen, rz_in, gw_eq. change (gb (rxbuf (z_st z) f) 1) with 2. change (gb (rxbuf (z_st z) f) 2) with a. change (gb (rxbuf (z_st z) f) (2 + 1)) with b.
  rewrite (fit_mod a b) by auto. fold l'. destruct (N.leb_spec (count_of p) l'); [|lia].
  destruct (z_err f 0x22) as (z1 & o1 & X1 & _ & X3); [lia|]. unfold sthen. rewrite X1. cbn [bind]. destruct (N.ltb_spec 2 2); [lia|]. cbn [N.eqb Pos.eqb].
  unfold mode_get. replace (z_modes z1) with (z_modes z) by (symmetry; apply X3).
  assert (G : getN (z_modes z) l' = None) by (apply getN_None; destruct Z as (_ & B & _); lia). now rewrite G.
Qed.

(** START_STOP_SYNCH. *)
Lemma sel_bit : forall md, (N.land md 0x40 =? 0x40) = selected md.
Proof.
  intro md. unfold selected. change 0x40 with (2 ^ 6). destruct (N.testbit md 6) eqn:T; [apply N.eqb_eq|apply N.eqb_neq].
  - apply N.bits_inj. intro j. rewrite N.land_spec, N.pow2_bits_eqb. destruct (N.eqb_spec 6 j); [subst; now rewrite T|apply andb_false_r].
  - intro H. apply (f_equal (fun v => N.testbit v 6)) in H. rewrite N.land_spec, N.pow2_bits_true, T in H. discriminate.
Qed.
Lemma clr7 : forall md, md < 256 -> N.land md 0x7F = N.clearbit md 7.
Proof.
  intros md H. change 0x7F with (N.ldiff 255 (2 ^ 7)). rewrite N.clearbit_spec'. rewrite <- (N.mod_small md (2 ^ 8)) at 2 by exact H. rewrite <- N.land_ones.
  apply N.bits_inj. intro j. rewrite N.land_spec, !N.ldiff_spec, N.land_spec. change 255 with (N.ones 8). now rewrite andb_assoc.
Qed.
Lemma clr6 : forall md, md < 256 -> N.land md 0xBF = N.clearbit md 6.
Proof.
  intros md H. change 0xBF with (N.ldiff 255 (2 ^ 6)). rewrite N.clearbit_spec'. rewrite <- (N.mod_small md (2 ^ 8)) at 2 by exact H. rewrite <- N.land_ones.
  apply N.bits_inj. intro j. rewrite N.land_spec, !N.ldiff_spec, N.land_spec. change 255 with (N.ones 8). now rewrite andb_assoc.
Qed.
Lemma ss_synched : forall mode md, md < 256 -> ss_mode (mode =? 1) md = synched mode md.
Proof.
  intros mode md H. unfold ss_mode, synched. rewrite sel_bit. destruct (selected md); [|reflexivity]. destruct (mode =? 1).
  - rewrite clr6 by (apply lor_lt8; lia). reflexivity.
  - rewrite clr6 by (apply land_lt8; lia). f_equal. now apply clr7.
Qed.
Lemma synch_thm : forall mode tl, let f := 0xDD :: mode :: tl in lenN f <= c_ctobuf c -> mode <= 2 ->
  sanswers c p e f z [0xFF] (with_modes (map (synched mode) (z_modes z)) (zdaq (if mode =? 2 then s_daq (z_st z) else set_d_run (mode =? 1) (s_daq (z_st z))) z)).
Proof.
  intros mode tl f Hl Hm. unfold sanswers, f. rewrite (own_val 0xDD _ (zh_start_stop_synch c) Hl) by (cbn [own]; now rewrite Hd). fold f.
  unfold zh_start_stop_synch. rewrite sopen, rz_in. change (gb (rxbuf (z_st z) f) 1) with mode.
  assert (E : map (synched mode) (z_modes z) = map (ss_mode (mode =? 1)) (z_modes z)).
  { apply map_ext_in. intros x Hx. symmetry. apply ss_synched. destruct Z as (_ & _ & B & _). rewrite Forall_forall in B. auto. }
  rewrite E. assert (Q : mode = 0 \/ mode = 1 \/ mode = 2) by lia. destruct Q as [->|[->| ->]]; cbn [N.eqb Pos.eqb].
  - apply (z_pos f (set_d_run false (s_daq (z_st z)))). reflexivity.
  - apply (z_pos f (set_d_run true (s_daq (z_st z)))). reflexivity.
  - apply (z_pos f (s_daq (z_st z))). unfold ss_all, with_modes. rewrite rz_mk. reflexivity.
Qed.

(** Information. *)
Lemma pinfo_thm : forall t, let f := 0xDA :: t in c_opt c 0xDA = true -> lenN f <= c_ctobuf c ->
  sanswers c p e f z [0xFF; N.lor (if c_prescaler c then 2 else 0) (if c_ts c then 0x10 else 0); count_of p mod 256; count_of p / 256 mod 256;
    c_nevents c mod 256; c_nevents c / 256 mod 256; count_of p mod 256; 0] z.
Proof.
  intros t f Ho L. unfold sanswers, f. rewrite (own_val 0xDA t (zh_daq_processor_info c p) L) by (cbn [own]; now rewrite Hd, Ho). fold f.
  unfold zh_daq_processor_info. rewrite sopen.
  destruct (z_ans f (s_daq (z_st z)) (z_modes z) [0xFF; sproperties c; lobyte (count_of p); hibyte (count_of p); lobyte (u16 (c_nevents c)); hibyte (u16 (c_nevents c)); u8 (count_of p); 0] (rz c f z) (rz_mk f) eq_refl 8)
    as (z' & o' & X1 & X2 & X3); [lia|reflexivity|]. exists z', o'. split; [exact X1|]. rewrite z_same in X3. split; [|exact X3].
  pose proof (wf_ev c W Hd) as Wev. fold (c_nevents c) in Wev. unfold u16 in X2. rewrite N.mod_small in X2 by (change (2 ^ 16) with 65536; lia). exact X2.
Qed.
Lemma linfo_thm : forall t r a b tl os, let f := 0xD8 :: r :: a :: b :: tl in let l' := field c [a; b] in
  describes c p es t -> getN t l' = Some os -> c_opt c 0xD8 = true -> bytes f -> lenN f <= c_ctobuf c ->
  sanswers c p e f z [0xFF; 7; lenN os mod 256; 0; 0; 0; 0; 0] z.
Proof.
  intros t r a b tl os f l' Ds G Ho Wf Hl. assert (Q : count_of p = lenN t) by apply Ds. pose proof (getN_Some_lt _ _ _ _ G) as Ll.
  assert (Fl : fits c l'). { intro X0. pose proof (wp_count _ _ _ Wp) as X. unfold we in X. destruct (N.ltb_spec (c_max_ent c) 256); [|lia]. change (2 ^ 8) with 256 in X. lia. }
  bt Wf. unfold sanswers, f. rewrite (own_val 0xD8 _ (zh_daq_list_info c p) Hl) by (cbn [own]; now rewrite Hd, Ho). fold f.
  unfold zh_daq_list_info. rewrite sopen, rz_in, gw_eq. change (gb (rxbuf (z_st z) f) 2) with a. change (gb (rxbuf (z_st z) f) (2 + 1)) with b.
  rewrite (fit_mod a b) by auto. fold l'. destruct (N.leb_spec (count_of p) l'); [lia|]. unfold sthen. cbn [bind].
  destruct (pre_list c p es t Wp Ds l' os G) as (f0 & E1 & _). rewrite E1. cbn [bind].
  destruct (z_ans f (s_daq (z_st z)) (z_modes z) [0xFF; 7; u8 (lenN os); 0; 0; 0; 0; 0] (rz c f z) (rz_mk f) eq_refl 8) as (z' & o' & X1 & X2 & X3); [lia|reflexivity|].
  rewrite X1. cbn [bind app]. exists z', o'. rewrite z_same in X3. auto.
Qed.
Lemma linfo_wild : forall r a b tl, let f := 0xD8 :: r :: a :: b :: tl in let l' := field c [a; b] in
  c_opt c 0xD8 = true -> bytes f -> lenN f <= c_ctobuf c -> fits c l' -> count_of p <= l' -> sstep c p e (ORecv f) z = UB OobEntity.
Proof.
  intros r a b tl f l' Ho Wf Hl Fl Hc. bt Wf. unfold f. rewrite (own_val 0xD8 _ (zh_daq_list_info c p) Hl) by (cbn [own]; now rewrite Hd, Ho). fold f.
  unfold zh_daq_list_info. rewrite sopen, rz_in, gw_eq. change (gb (rxbuf (z_st z) f) 2) with a. change (gb (rxbuf (z_st z) f) (2 + 1)) with b.
  rewrite (fit_mod a b) by auto. fold l'. destruct (N.leb_spec (count_of p) l'); [|lia].
  destruct (z_err f 0x22) as (z1 & o1 & X1 & _ & X3); [lia|]. unfold sthen. rewrite X1. cbn [bind].
  unfold list_conf. assert (G : getN (pr_lists p) l' = None) by (apply getN_None; exact Hc). now rewrite G.
Qed.
End Cmd.

(** ** Assignments *)
Lemma zeros_get : forall (l : list N) i x, Forall (fun x => x = 0) l -> getN l i = Some x -> x = 0.
Proof. intros l i x F G. rewrite Forall_forall in F. apply F. eapply getN_In; eauto. Qed.
Lemma assign_kept : forall c p es m l1 l2 z1 o1 z2 o2, sreachable c p es m l1 z1 o1 -> sreachable c p es m (l1 ++ l2) z2 o2 ->
  (forall e t, ~ In (e, ORecv (0xE0 :: t)) l2) -> forall ev l', assigned (z_st z2) ev l' <-> assigned (z_st z1) ev l'.
Proof.
  intros c p es m l1 l2 z1 o1 z2 o2 R1 R2 Hn ev l'. pose proof (sreach_inv _ _ _ _ _ _ _ R1) as I1.
  destruct R1 as (W & St & Wp & _ & _ & z0 & B & H1). destruct R2 as (_ & _ & _ & _ & Wl & z0' & B' & H2). rewrite B in B'. injection B' as <-.
  apply srun_app in H2. destruct H2 as (z3 & o3 & o4 & H2 & H3 & _). rewrite H1 in H2. injection H2 as <- <-.
  apply Forall_app in Wl. destruct Wl as (_ & Wl). destruct (srun_inv c p es W St _ _ _ _ Wl I1 H3) as (_ & L). specialize (L Hn). unfold assigned, lfe in *. now rewrite L.
Qed.
Lemma assign_none : forall c p es m l z o, sreachable c p es m l z o -> (forall e t, ~ In (e, ORecv (0xE0 :: t)) l) ->
  forall ev, ev < c_nevents c -> assigned (z_st z) ev 0.
Proof.
  intros c p es m l z o R Hn ev He. pose proof (sreach_inv _ _ _ _ _ _ _ R) as I. destruct R as (W & St & Wp & M & Wl & z0 & B & H).
  apply (sboot_inv c p es W St) in B; auto. destruct B as (I0 & _ & F & _). destruct (srun_inv c p es W St _ _ _ _ Wl I0 H) as (_ & L). specialize (L Hn).
  unfold assigned, lfe in *. destruct (getN_lt_Some _ (d_lfe (s_daq (z_st z))) ev) as (x & G); [rewrite (d_lfelen _ _ (i_d _ _ (proj1 I))); exact He|].
  rewrite G. f_equal. rewrite L in G. eapply zeros_get; eauto.
Qed.

(** ** The forms used by the properties *)

Lemma entries_kept : forall c p es m l z o, sreachable c p es m l z o -> z_entries z = es.
Proof. intros c p es m l z o R. apply sreach_inv in R. apply R. Qed.
Ltac opened := intros; match goal with H : daq_open _ _ |- _ => destruct H as (? & ? & ?) end.
Lemma write_p : forall c p es m l z o e t,
  sreachable c p es m l z o -> ready (z_st z) -> dlc_ok c -> daq_open c (z_st z) -> count_of p <> 0 -> ~ measuring (z_st z) ->
  lenN (0xE1 :: t) <= c_ctobuf c -> srefuses c p e (0xE1 :: t) z 0x23.
Proof. opened. eapply write_no; eassumption. Qed.
Lemma writes_p : forall c p es m l z o e n t,
  sreachable c p es m l z o -> ready (z_st z) -> dlc_ok c -> daq_open c (z_st z) -> count_of p <> 0 -> ~ measuring (z_st z) ->
  c_opt c 0xC7 = true -> n * 8 + 2 <= c_max_cto c -> lenN (0xC7 :: n :: t) <= c_ctobuf c -> srefuses c p e (0xC7 :: n :: t) z 0x23.
Proof. opened. eapply writes_no; eassumption. Qed.
Lemma write_wild_p : forall c p es m l z o e t,
  sreachable c p es m l z o -> ready (z_st z) -> daq_open c (z_st z) -> count_of p = 0 -> ~ measuring (z_st z) ->
  lenN (0xE1 :: t) <= c_ctobuf c -> sstep c p e (ORecv (0xE1 :: t)) z = UB OobEntity.
Proof. opened. eapply write_wild; eassumption. Qed.
Lemma setmode_p : forall c p es m l z o e mode a b v w pre tl,
  let f := 0xE0 :: mode :: a :: b :: v :: w :: pre :: tl in let l' := field c [a; b] in let ev := field c [v; w] in
  sreachable c p es m l z o -> ready (z_st z) -> dlc_ok c -> daq_open c (z_st z) -> ~ measuring (z_st z) -> bytes f -> lenN f <= c_ctobuf c ->
  l' < count_of p -> N.land mode 3 = 0 -> pre <= 1 -> ev < c_nevents c ->
  exists md, sanswers c p e f z [0xFF] (put_mode l' md (zdaq (set_d_lfe (put ev (l' mod 256) (d_lfe (s_daq (z_st z)))) (s_daq (z_st z))) z)) /\
    stamped md = N.testbit mode 4 /\ selected md = N.testbit mode 6 /\ started md = N.testbit mode 7.
Proof. opened. eapply setmode_thm; eassumption. Qed.
Lemma setmode_wild_p : forall c p es m l z o e mode a b v w pre tl,
  let f := 0xE0 :: mode :: a :: b :: v :: w :: pre :: tl in let l' := field c [a; b] in let ev := field c [v; w] in
  sreachable c p es m l z o -> ready (z_st z) -> daq_open c (z_st z) -> ~ measuring (z_st z) -> bytes f -> lenN f <= c_ctobuf c ->
  fits c l' -> count_of p <= l' -> N.land mode 3 = 0 -> pre <= 1 -> ev < c_nevents c -> sstep c p e (ORecv f) z = UB OobEntity.
Proof. opened. eapply setmode_wild; eassumption. Qed.
Lemma sslist_p : forall c p es m l z o e t mode a b tl os,
  let f := 0xDE :: mode :: a :: b :: tl in let l' := field c [a; b] in
  sreachable c p es m l z o -> ready (z_st z) -> dlc_ok c -> daq_open c (z_st z) -> describes c p es t -> getN t l' = Some os ->
  bytes f -> lenN f <= c_ctobuf c -> mode <= 2 ->
  exists md, mode_of z l' = Some md /\
    sanswers c p e f z [0xFF; odts_before t l' mod 256; 0; 0; 0; 0; 0; 0] (if mode =? 2 then put_mode l' (N.setbit md 6) z else z).
Proof. opened. eapply sslist_thm; eassumption. Qed.
Lemma sslist_wild_p : forall c p es m l z o e a b tl,
  let f := 0xDE :: 2 :: a :: b :: tl in let l' := field c [a; b] in
  sreachable c p es m l z o -> ready (z_st z) -> dlc_ok c -> daq_open c (z_st z) -> bytes f -> lenN f <= c_ctobuf c ->
  fits c l' -> count_of p <= l' -> sstep c p e (ORecv f) z = UB OobEntity.
Proof. opened. eapply sslist_wild; eassumption. Qed.
Lemma synch_p : forall c p es m l z o e mode tl,
  let f := 0xDD :: mode :: tl in
  sreachable c p es m l z o -> ready (z_st z) -> dlc_ok c -> daq_open c (z_st z) -> lenN f <= c_ctobuf c -> mode <= 2 ->
  sanswers c p e f z [0xFF] (with_modes (map (synched mode) (z_modes z))
    (zdaq (if mode =? 2 then s_daq (z_st z) else set_d_run (mode =? 1) (s_daq (z_st z))) z)).
Proof. opened. eapply synch_thm; eassumption. Qed.
Lemma pinfo_p : forall c p es m l z o e t,
  sreachable c p es m l z o -> ready (z_st z) -> dlc_ok c -> daq_open c (z_st z) -> c_opt c 0xDA = true -> lenN (0xDA :: t) <= c_ctobuf c ->
  sanswers c p e (0xDA :: t) z
    [0xFF; N.lor (if c_prescaler c then 2 else 0) (if c_ts c then 0x10 else 0); count_of p mod 256; count_of p / 256 mod 256;
     c_nevents c mod 256; c_nevents c / 256 mod 256; count_of p mod 256; 0] z.
Proof. opened. eapply pinfo_thm; eassumption. Qed.
Lemma linfo_p : forall c p es m l z o e t r a b tl os,
  let f := 0xD8 :: r :: a :: b :: tl in let l' := field c [a; b] in
  sreachable c p es m l z o -> ready (z_st z) -> dlc_ok c -> daq_open c (z_st z) -> describes c p es t -> getN t l' = Some os ->
  c_opt c 0xD8 = true -> bytes f -> lenN f <= c_ctobuf c ->
  sanswers c p e f z [0xFF; 7; lenN os mod 256; 0; 0; 0; 0; 0] z.
Proof. opened. eapply linfo_thm; eassumption. Qed.
Lemma linfo_wild_p : forall c p es m l z o e r a b tl,
  let f := 0xD8 :: r :: a :: b :: tl in let l' := field c [a; b] in
  sreachable c p es m l z o -> ready (z_st z) -> dlc_ok c -> daq_open c (z_st z) -> c_opt c 0xD8 = true -> bytes f -> lenN f <= c_ctobuf c ->
  fits c l' -> count_of p <= l' -> sstep c p e (ORecv f) z = UB OobEntity.
Proof. opened. eapply linfo_wild; eassumption. Qed.
