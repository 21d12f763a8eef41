From Coq Require Import NArith ZArith List Bool Lia ZifyBool ZifyNat ZifyN.
From Verif Require Import Base Config Codec Checksum State Queue Daq Core Spec SpecMem SpecDaq Lists Effects Handlers HTx HInv HInv2 HResp
  DaqInv HSpec Steps Ops Exec ProofsDaqA ProofsDaqB ProofsDaqC ProofsDaqE ProofsDaqF ProofsDaqG ProofsFrames ProofsWrite ProofsProt Sampler SpecSampler ProofsSampler ProofsSampler2 ProofsSampler3.
Import ListNotations.
Open Scope N_scope.
Ltac Zify.zify_post_hook ::= Z.div_mod_to_equations.

Lemma hdr_empty : forall d i, emptied d -> i < lenN (d_ents d) -> hdr_at d i = Ok (0, 0).
Proof.
  intros d i (_ & _ & _ & _ & F & _) L. destruct (getN_lt_Some _ _ _ L) as (x & Hx). unfold hdr_at, ent_at. rewrite Hx. cbn [bind].
  pose proof (proj1 (Forall_forall _ _) F _ (getN_In _ _ _ _ Hx)) as (_ & ->). reflexivity.
Qed.
Lemma header_lt : forall d i n f, header d i n f -> i < lenN (d_ents d).
Proof.
  intros d i n f H. destruct (getN (d_ents d) i) eqn:E; [exact (getN_Some_lt _ _ _ _ E)|]. unfold header, body_at in H. rewrite E in H. cbn in H. destruct H as [H|(H & _)]; discriminate.
Qed.
(** What follows an interruption. *)
Lemma others_one : forall n e x k, others (repeat Go n ++ Other e x :: repeat Go k) = [(e, x)].
Proof. intros. rewrite others_app. rewrite others_go. cbn [app others flat_map]. fold (others (repeat Go k)). now rewrite others_go. Qed.
Lemma interrupted : forall c n x s x1 e op s1 p k x2 s2 o2, take_all c (repeat Go n) x s = Ok (x1, s, []) -> step c e op s = Ok (s1, p) ->
  take_all c (repeat Go k) x1 s1 = Ok (x2, s2, o2) -> take_all c (repeat Go n ++ Other e op :: repeat Go k) x s = Ok (x2, s2, p ++ o2).
Proof. intros. rewrite (all_app _ _ _ _ _ _ _ _ H). cbn [take_all take]. rewrite H0. cbn [bind]. rewrite H1. reflexivity. Qed.

Section Main.
Variables (c : cfg) (m : mem) (l : list (env * op)) (s : st) (o : list pkt) (e : env) (t : tree) (ev l' : N) (os : list (list (N * N))).
Variables (R : reachable c m l s o) (We : wf_env c e) (Sm : c_max_ent c < 65536) (So : stamp_ok c).
Variables (Rp : represents c s t) (M : measuring s) (As : assigned s ev l') (G : getN t l' = Some os).
Variables (Sa : sampleable c (time_stamp c e s) os) (HU : used s + lenN os <= 4).
Let W := proj1 R.
Let I := i_d _ _ (reach_inv _ _ _ _ _ R).
Let Hd := reach_daq _ _ _ _ _ R M.
Let TS := time_stamp c e s.
Let B := odts_before t l'.

Lemma cut_gen : forall e1 f s1 r a len es, getN os 0 = Some ((a, len) :: es) -> step c e1 (ORecv f) s = Ok (s1, [r]) ->
  dinv c (s_daq s1) -> queued c (d_q (s_daq s1)) [] -> q_head (d_q (s_daq s1)) < 4 -> emptied (s_daq s1) ->
  exists w s' p, others w = [(e1, ORecv f)] /\ take_all c w (Called ev (e_timer e)) s = Ok (Rest, s', [r; p]) /\
    p_dto p = true /\ p_data p = B mod 256 :: TS ++ mem_at (s_mem s) a len.
Proof.
  intros e1 f s1 r a len es Ge St I1 Q1 Hh Em. destruct Rp as (fo & fe & Rb).
  destruct (Sa 0 _ Ge) as (_ & S2). cbn [map concat snd N.eqb] in S2. rewrite lenN_app in S2. fold TS in S2. unfold lenN in S2 at 2. rewrite repeat_length in S2.
  set (data := B mod 256 :: TS ++ mem_at (s_mem s) a len). assert (Ld : lenN data = 1 + lenN TS + len) by (unfold data; rewrite lenN_cons, lenN_app, mem_at_len; lia).
  assert (A1 : goes c (Called ev (e_timer e)) s (Entries l' 0 B TS (fo l') 1 data)).
  { eapply goes_trans; [eapply to_entries; eauto|]. eapply goes_trans; [eapply to_copy; eauto; [reflexivity|]|].
    - rewrite lenN_cons. fold TS. lia.
    - replace data with ((B mod 256 :: TS) ++ mread_nat (s_mem s) a (N.to_nat len)); [apply goes_copy|]. unfold data. rewrite <- mread_at. reflexivity. }
  destruct A1 as (n & A1).
  assert (Lf : fo l' < lenN (d_ents (s_daq s1))).
  { pose proof (r_odt _ _ _ _ _ Rb _ _ _ (odt_there _ _ _ G _ _ Ge)) as K. rewrite N.add_0_r in K. apply header_lt in K. rewrite (d_len _ _ I) in K. now rewrite (d_len _ _ I1). }
  assert (Ll : l' < lenN (d_ents (s_daq s1))).
  { pose proof (header_lt _ _ _ _ (r_list _ _ _ _ _ Rb _ _ G)) as K. rewrite (d_len _ _ I) in K. now rewrite (d_len _ _ I1). }
  destruct (enqueue_queued c data _ [] W Q1 Hh ltac:(lia)) as (q1 & X1 & X2 & X3 & X4 & _). cbn [app] in X2.
  set (s2 := upd_daq (set_d_q q1) s1).
  destruct (transmit_queued c [data] s2 W X2) as (s' & o' & T1 & T2 & T3 & _).
  assert (A2 : comes c (Entries l' 0 B TS (fo l') 1 data) s1 (transmit c 1 s2)).
  { eapply comes_go; [unfold next; cbv zeta; rewrite (hdr_empty _ _ Em Lf); cbn [bind]; reflexivity|].
    eapply comes_go; [unfold next; cbv zeta; rewrite X1; cbn [bind]; reflexivity|].
    eapply comes_go; [unfold next; cbv zeta; change (hdr_at (s_daq (upd_daq (set_d_q q1) s1)) l') with (hdr_at (s_daq s1) l'); rewrite (hdr_empty _ _ Em Ll); cbn [bind]; reflexivity|].
    assert (Qm : qmod c = 5) by (unfold qmod; now rewrite (wf_qs c W)). destruct X2 as (_ & Y1 & Y2 & _). unfold lenN in Y1; cbn [length] in Y1.
    apply comes_send; change (d_q (s_daq s2)) with q1; cbv zeta; unfold pending; rewrite ?Qm; lia. }
  cbn [length] in T1. rewrite T1 in A2. destruct A2 as (k & A2). cbn [final] in A2.
  destruct o' as [|p [|p' o']]; try discriminate. cbn in T2. injection T2 as T2. inversion T3; subst.
  exists (repeat Go n ++ Other e1 (ORecv f) :: repeat Go k), s', p. split; [apply others_one|]. split; [exact (interrupted _ _ _ _ _ _ _ _ _ _ _ _ _ A1 St A2)|]. auto.
Qed.

Lemma cut_free : forall e1 a len es, ready s -> dlc_ok c -> daq_open c s -> wf_env c e1 -> c_opt c 0xD6 = true -> getN os 0 = Some ((a, len) :: es) ->
  exists w s' r p, others w = [(e1, ORecv [0xD6])] /\ take_all c w (Called ev (e_timer e)) s = Ok (Rest, s', [r; p]) /\
    p_dto r = false /\ p_data r = padded c [0xFF] /\ p_dto p = true /\ p_data p = B mod 256 :: TS ++ mem_at (s_mem s) a len.
Proof.
  intros e1 a len es RD D Op We1 Ho Ge. assert (Lc : lenN [0xD6] <= c_ctobuf c) by (unfold c_ctobuf; pose proof (wf_cto c W); cbn; lia).
  destruct (free_thm c m l s o e1 R RD D Op [] Ho Lc) as (d & (s1 & o1 & St & (r & -> & P1 & P2) & SS) & Em & _ & _ & _ & _ & _ & Hq).
  assert (E1 : s_daq s1 = d) by apply SS. assert (Wo : wf_op c (e1, ORecv [0xD6])) by (split; [exact We1|repeat constructor; reflexivity]).
  pose proof (reach_step _ _ _ _ _ _ _ _ _ R Wo St) as R1. pose proof (i_d _ _ (reach_inv _ _ _ _ _ R1)) as I1.
  pose proof (getN_Some_lt _ _ _ _ Ge).
  destruct (cut_gen e1 [0xD6] s1 r a len es Ge St I1) as (w & s' & p & H1 & H2 & H3 & H4).
  - apply queued_nil; [exact (d_qinv _ _ I1)|eapply queue_rest; eauto].
  - rewrite E1, Hq. unfold used in HU. lia.
  - now rewrite E1.
  - exists w, s', r, p. auto 8.
Qed.
Lemma cut_disconnect : forall e1 a len es, ready s -> dlc_ok c -> ~ programming s -> wf_env c e1 -> getN os 0 = Some ((a, len) :: es) ->
  exists w s' r p, others w = [(e1, ORecv [0xFE])] /\ take_all c w (Called ev (e_timer e)) s = Ok (Rest, s', [r; p]) /\
    p_dto r = false /\ p_data r = padded c [0xFF] /\ p_dto p = true /\ p_data p = B mod 256 :: TS ++ mem_at (s_mem s) a len.
Proof.
  intros e1 a len es RD D Op We1 Ge. assert (Lc : lenN [0xFE] <= c_ctobuf c) by (unfold c_ctobuf; pose proof (wf_cto c W); cbn; lia).
  destruct (disconnect_thm c m l s o e1 [0xFE] R D RD Op eq_refl Lc) as (s1 & o1 & St & (r & -> & P1 & P2) & _).
  assert (Wo : wf_op c (e1, ORecv [0xFE])) by (split; [exact We1|repeat constructor; reflexivity]).
  pose proof (reach_step _ _ _ _ _ _ _ _ _ R Wo St) as R1. pose proof (i_d _ _ (reach_inv _ _ _ _ _ R1)) as I1.
  destruct (cmd_FE c W D Sm e1 [] s s1 [r] (reach_inv _ _ _ _ _ R) St) as [(_ & K)|(_ & K)].
  { exfalso. apply (proj1 K). exists r. split; [reflexivity|]. split; [exact P1|]. rewrite P2. unfold padded. destruct (c_max_dlc c); reflexivity. }
  specialize (K Hd). destruct (init_queue _ _ _ K) as (Z1 & Z2 & _). destruct (emptied_init _ _ _ K) as (Em & _).
  destruct (cut_gen e1 [0xFE] s1 r a len es Ge St I1) as (w & s' & p & H1 & H2 & H3 & H4).
  - apply queued_nil; [exact (d_qinv _ _ I1)|congruence].
  - rewrite Z1. lia.
  - exact Em.
  - exists w, s', r, p. auto 8.
Qed.

(** ** Frames after the end of the measurement *)
Lemma late_stop : forall e1, ready s -> dlc_ok c -> daq_open c s -> wf_env c e1 ->
  exists w s' r o', others w = [(e1, ORecv [0xDD; 0])] /\ take_all c w (Called ev (e_timer e)) s = Ok (Rest, s', r :: o') /\
    p_dto r = false /\ p_data r = padded c [0xFF] /\ ~ measuring s' /\ emits o' (dtos (s_mem s) TS B os).
Proof.
  intros e1 RD D Op We1. destruct Rp as (fo & fe & Rb). assert (Lc : lenN [0xDD; 0] <= c_ctobuf c) by (unfold c_ctobuf; pose proof (wf_cto c W); cbn; lia).
  destruct (synch_thm c m l s o e1 R RD D Op 0 [] Lc ltac:(lia)) as (d & (s1 & o1 & St & (r & -> & P1 & P2) & SS) & T & _ & Hq & _ & _ & _ & Hr). cbn [N.eqb] in Hr.
  assert (E1 : s_daq s1 = d) by apply SS. assert (E2 : s_mem s1 = s_mem s) by apply SS.
  assert (Wo : wf_op c (e1, ORecv [0xDD; 0])) by (split; [exact We1|repeat constructor; reflexivity]).
  pose proof (reach_step _ _ _ _ _ _ _ _ _ R Wo St) as R1. pose proof (i_d _ _ (reach_inv _ _ _ _ _ R1)) as I1. rewrite <- E1 in T, Hq, Hr.
  pose proof (rep_tables c fo fe _ _ t T Rb) as Rb1.
  set (ms := fun m' : mem => m' = s_mem s).
  assert (Hc : forall i es f, 0 <= i -> getN os i = Some es -> captured ms (if i =? 0 then TS else []) (B + i) es f -> frame_ok c s e t l' os ms i f) by (intros i es f _ A K es' A'; replace es' with es by congruence; exact K).
  destruct (to_loop c m l s o e t ev l' os R We Sm So Rp M As G HU) as (n & A1).
  assert (V : Inv c t fo (s_daq s1) l' os TS (used s) ms (frame_ok c s e t l' os ms) 0 (Loop l' 0 (B + 0) TS) (d_q (s_daq s1)) [] (ocost (dropN 0 os) + lenN os + 2)).
  { apply v_loop; [|lia]. rewrite Hq. eapply stored_start; eauto. }
  rewrite N.add_0_r in V.
  destruct (next_go c t fo fe (s_daq s1) l' os W Sm I1 Rb1 G TS (used s) Sa HU ms _ 0 Hc _ _ _ _ s1 V (q_self _) E2) as (s' & o' & q' & A2 & F & E3 & _ & V').
  exists (repeat Go n ++ Other e1 (ORecv [0xDD; 0]) :: repeat Go (N.to_nat (ocost (dropN 0 os) + lenN os + 2))), s', r, o'.
  split; [apply others_one|]. split; [exact (interrupted _ _ _ _ _ _ _ _ _ _ _ _ _ A1 St A2)|]. split; [exact P1|]. split; [exact P2|].
  split; [unfold measuring; rewrite E3; cbn [d_run set_d_q]; rewrite Hr; discriminate|]. cbn [app] in V'. inversion V' as [| | | | | | |? ? V1 V2 V3 V4]. subst. split.
  - apply (captures_stable ms).
    + intros m' es x j -> _ _ _. reflexivity.
    + split; [exact V3|]. intros i es f Ge Gf. exact (V4 _ _ Gf _ Ge).
  - apply Forall_forall. intros p Hp. rewrite <- F in Hp. apply filter_In in Hp. tauto.
Qed.

(** ** Values of more than one byte *)
Lemma torn_thm : forall e1 a len es bs, getN os 0 = Some ((a, len) :: es) -> lenN bs = len -> 
  exists w s' o' f fs, others w = [(e1, OAppWrite a bs)] /\ take_all c w (Called ev (e_timer e)) s = Ok (Rest, s', o') /\ emits o' (f :: fs) /\
    exists tl, f = B mod 256 :: TS ++ (s_mem s a :: List.tl bs) ++ tl.
Proof.
  intros e1 a len es bs Ge Lb. destruct Rp as (fo & fe & Rb).
  destruct (Sa 0 _ Ge) as (S1 & S2). pose proof S2 as S3. cbn [map concat snd N.eqb] in S2. rewrite lenN_app in S2. fold TS in S2. unfold lenN in S2 at 2. rewrite repeat_length in S2.
  inversion S1 as [|? ? (B1 & _) _]; subst. cbn [snd] in B1. destruct bs as [|b bs]; [cbn in B1; lia|]. rewrite lenN_cons in *.
  set (len := lenN bs + 1) in *. set (s1 := set_s_mem (mwrite (s_mem s) a (b :: bs)) s).
  assert (A1 : goes c (Called ev (e_timer e)) s (Copy l' 0 B TS (fo l') 0 ((B mod 256 :: TS) ++ [s_mem s a]) (a + 1) (length bs))).
  { eapply goes_trans; [eapply to_entries; eauto|]. eapply goes_trans; [eapply to_copy; eauto; [reflexivity|]|].
    - rewrite lenN_cons. fold TS. lia.
    - replace (N.to_nat len) with (S (length bs)) by (unfold len, lenN; lia). eapply goes_step; [reflexivity|apply goes_refl]. }
  destruct A1 as (n & A1). set (data := (B mod 256 :: TS) ++ s_mem s a :: bs).
  assert (E1 : s_daq s1 = s_daq s) by reflexivity.
  assert (A2 : goes c (Copy l' 0 B TS (fo l') 0 ((B mod 256 :: TS) ++ [s_mem s a]) (a + 1) (length bs)) s1 (Put l' 0 B TS (data ++ bytes_of (s_mem s1) es))).
  { eapply goes_trans; [apply goes_copy|]. assert (X : mread_nat (s_mem s1) (a + 1) (length bs) = bs).
    { pose proof (mread_mwrite (b :: bs) (s_mem s) a) as Y. unfold mread in Y. rewrite lenN_cons in Y. replace (N.to_nat (lenN bs + 1)) with (S (length bs)) in Y by (unfold lenN; lia).
      cbn [mread_nat] in Y. injection Y as _ Y. exact Y. }
    rewrite X. replace (((B mod 256 :: TS) ++ [s_mem s a]) ++ bs) with data by (unfold data; rewrite <- app_assoc; reflexivity).
    change (bytes_of (s_mem s1) es) with (bytes_of (s_mem s1) (dropN 1 ((a, len) :: es))). eapply (to_put c m l s o e t l' os) with (j := length es); eauto.
    - rewrite lenN_cons. unfold lenN. lia.
    - change (dropN 1 ((a, len) :: es)) with es. unfold data. rewrite lenN_app, !lenN_cons. fold TS. unfold len in S2. lia. }
  destruct A2 as (k & A2). set (f := data ++ bytes_of (s_mem s1) es) in *.
  set (C := fun (i : N) (g : list N) => i = 0 -> g = f).
  assert (Hc : forall i es' g, 1 <= i -> getN os i = Some es' -> captured (fun _ => True) (if i =? 0 then TS else []) (odts_before t l' + i) es' g -> C i g) by (intros i es' g Hi _ _ H0; lia).
  pose proof (getN_Some_lt _ _ _ _ Ge) as Lo.
  destruct (enqueue_queued c f (d_q (s_daq s)) [] W) as (q1 & X1 & X2 & X3 & X4 & _).
  { eapply event_q; eauto. }
  { unfold used in HU. lia. }
  { unfold f, data. rewrite lenN_app, bytes_of_len. rewrite lenN_app, !lenN_cons. fold TS. unfold len in S2. lia. }
  set (s2 := upd_daq (set_d_q q1) s1).
  assert (A3 : next c (Put l' 0 B TS f) s1 = stay (Loop l' (0 + 1) (B + 1) TS) s2).
  { unfold next. cbv zeta. rewrite E1, X1. cbn [bind]. do 2 f_equal. rewrite N.mod_small; [reflexivity|]. pose proof (pid_bound _ _ _ _ (odt_there _ _ _ G _ _ Ge)). pose proof (ent_lt_we c W). destruct (d_layout _ _ I) as (L1 & L2 & _). rewrite (d_len _ _ I) in L2.
    pose proof (r_count _ _ _ _ _ Rb). pose proof (getN_Some_lt _ _ _ _ G). unfold B. lia. }
  assert (V : Inv c t fo (s_daq s) l' os TS (used s) (fun _ => True) C 1 (Loop l' 1 (B + 1) TS) q1 [] (ocost (dropN 1 os) + lenN os + 2)).
  { apply v_loop; [|lia]. split; [lia|]. exists [f]. split; [exact X2|]. split; [unfold used; lia|]. split; [reflexivity|]. intros j g Hg H0. subst j. cbn in Hg. now injection Hg as <-. }
  destruct (next_go c t fo fe (s_daq s) l' os W Sm I Rb G TS (used s) Sa HU (fun _ => True) C 1 Hc _ _ _ _ s2 V) as (s' & o' & q' & A4 & F & _ & _ & V').
  { reflexivity. } { exact Logic.I. }
  cbn [app] in V'. inversion V' as [| | | | | | |? ? V1 V2 V3 V4]. subst.
  destruct (map p_data o') as [|g fs] eqn:Eo; [cbn in V3; lia|]. specialize (V4 0 g eq_refl eq_refl). subst g.
  exists (repeat Go n ++ Other e1 (OAppWrite a (b :: bs)) :: repeat Go (k + S (N.to_nat (ocost (dropN 1 os) + lenN os + 2)))), s', o', f, fs.
  split; [apply others_one|]. split; [|split].
  - apply (interrupted c n _ s _ e1 (OAppWrite a (b :: bs)) s1 [] _ _ s' o' A1 eq_refl). rewrite repeat_app, (all_app _ _ _ _ _ _ _ _ A2). cbn [repeat take_all take]. rewrite A3. unfold stay. cbn [bind].
    change (0 + 1) with 1. rewrite A4. reflexivity.
  - split; [exact Eo|]. apply Forall_forall. intros p Hp. rewrite <- F in Hp. apply filter_In in Hp. tauto.
  - exists (bytes_of (s_mem s1) es). unfold f, data. cbn [List.tl app]. rewrite <- app_assoc. reflexivity.
Qed.
End Main.
