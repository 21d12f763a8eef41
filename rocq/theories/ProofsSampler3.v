From Coq Require Import NArith ZArith List Bool Lia ZifyBool ZifyNat ZifyN.
From Verif Require Import Base Config Codec Checksum State Queue Daq Core Spec SpecMem SpecDaq Lists Effects Handlers HTx HInv HInv2 HResp
  DaqInv HSpec Steps Ops Exec ProofsDaqA ProofsDaqB ProofsDaqC ProofsDaqE ProofsDaqF ProofsDaqG ProofsFrames ProofsWrite ProofsProt Sampler SpecSampler ProofsSampler ProofsSampler2.
Import ListNotations.
Open Scope N_scope.
Ltac Zify.zify_post_hook ::= Z.div_mod_to_equations.

Lemma q_self : forall d, d = set_d_q (d_q d) d.
Proof. destruct d. reflexivity. Qed.

Lemma taken_stable : forall (ms : mem -> Prop) m x bs, (forall m' j, ms m' -> j < snd x -> m' (fst x + j) = m (fst x + j)) -> taken ms x bs -> bs = mem_at m (fst x) (snd x).
Proof.
  intros ms m x bs Hm (L & H). rewrite <- mread_at. apply getN_ext. intro i. destruct (N.lt_ge_cases i (snd x)) as [A|A].
  - rewrite getN_mread by exact A. destruct (getN_lt_Some _ bs i ltac:(lia)) as (b & Hb). rewrite Hb. destruct (H _ _ Hb) as (m' & M' & ->). f_equal. auto.
  - rewrite !(proj2 (getN_None _ _ _)); [reflexivity| |lia]. rewrite mread_at, mem_at_len. exact A.
Qed.
Lemma captured_stable : forall (ms : mem -> Prop) m ts pid es f, (forall m' x j, ms m' -> In x es -> j < snd x -> m' (fst x + j) = m (fst x + j)) -> captured ms ts pid es f -> f = dto m ts pid es.
Proof.
  intros ms m ts pid es f Hm (parts & -> & H). unfold dto. do 2 f_equal. induction H as [|x p es ps A _ IH]; [reflexivity|]. cbn [map concat]. rewrite <- IH; [|intros; apply Hm; auto; now right].
  f_equal. apply (taken_stable ms); [|exact A]. intros. apply Hm; auto. now left.
Qed.
Lemma captures_stable : forall (ms : mem -> Prop) m os ts pid fs, (forall m' es x j, ms m' -> In es os -> In x es -> j < snd x -> m' (fst x + j) = m (fst x + j)) ->
  captures ms ts pid os fs -> fs = dtos m ts pid os.
Proof.
  induction os as [|es os IH]; intros ts pid fs Hm (L & H).
  - destruct fs; [reflexivity|]. rewrite lenN_cons in L. cbn in L. lia.
  - destruct fs as [|f fs]; [rewrite lenN_cons in L; cbn in L; lia|]. rewrite !lenN_cons in L. cbn [dtos]. f_equal.
    + apply (captured_stable ms); [intros; eapply Hm; eauto; now left|]. specialize (H 0 es f eq_refl eq_refl). now rewrite N.add_0_r in H.
    + apply IH; [intros; eapply Hm; eauto; now right|]. split; [lia|]. intros i es' f' Ge Gf. specialize (H (i + 1) es' f'). unfold getN in H. replace (N.to_nat (i + 1)) with (S (N.to_nat i)) in H by lia.
      specialize (H Ge Gf). destruct (N.eqb_spec (i + 1) 0); [lia|]. rewrite N.add_assoc in H. replace (pid + 1 + i) with (pid + i + 1) by lia. destruct (i =? 0); exact H.
Qed.

(** ** Composition *)
Lemma all_app : forall c w1 w2 x s x1 s1 o1, take_all c w1 x s = Ok (x1, s1, o1) ->
  take_all c (w1 ++ w2) x s = ('(x2, s2, o2) <- take_all c w2 x1 s1 ;; Ok (x2, s2, o1 ++ o2)).
Proof.
  induction w1 as [|u w1 IH]; intros w2 x s x1 s1 o1 H.
  - cbn in H. injection H as <- <- <-. cbn [app]. destruct (take_all c w2 x s) as [((x2 & s2) & o2)|]; reflexivity.
  - cbn [take_all app] in H |- *. destruct (take c u x s) as [((x2 & s2) & o2)|]; [|discriminate]. cbn [bind] in H |- *.
    destruct (take_all c w1 x2 s2) as [((x3 & s3) & o3)|] eqn:T; [|discriminate]. cbn [bind] in H. injection H as <- <- <-. rewrite (IH _ _ _ _ _ _ T).
    destruct (take_all c w2 x3 s3) as [((x4 & s4) & o4)|]; [|reflexivity]. cbn [bind]. now rewrite app_assoc.
Qed.
Definition goes (c : cfg) (x : sampler) (s : st) (x1 : sampler) : Prop := exists n, take_all c (repeat Go n) x s = Ok (x1, s, []).
Lemma goes_refl : forall c x s, goes c x s x.
Proof. intros. now exists 0%nat. Qed.
Lemma goes_step : forall c x s x1 x2, next c x s = stay x1 s -> goes c x1 s x2 -> goes c x s x2.
Proof. intros c x s x1 x2 H (n & Hn). exists (S n). cbn [repeat take_all take]. rewrite H. unfold stay. cbn [bind]. now rewrite Hn. Qed.
Lemma goes_trans : forall c x s x1 x2, goes c x s x1 -> goes c x1 s x2 -> goes c x s x2.
Proof.
  intros c x s x1 x2 (n & Hn) (k & Hk). exists (n + k)%nat. rewrite repeat_app, (all_app _ _ _ _ _ _ _ _ Hn), Hk. reflexivity.
Qed.
Lemma others_go : forall n, others (repeat Go n) = [].
Proof. induction n; [reflexivity|exact IHn]. Qed.
Lemma others_app : forall a b, others (a ++ b) = others a ++ others b.
Proof. intros. unfold others. apply flat_map_app. Qed.
Lemma goes_copy : forall c s l i pid ts oi k n data a, goes c (Copy l i pid ts oi k data a n) s (Entries l i pid ts oi (k + 1) (data ++ mread_nat (s_mem s) a n)).
Proof.
  induction n; intros data a.
  - cbn [mread_nat]. rewrite app_nil_r. eapply goes_step; [reflexivity|apply goes_refl].
  - eapply goes_step; [reflexivity|]. cbn [mread_nat]. change (s_mem s a :: mread_nat (s_mem s) (a + 1) n) with ([s_mem s a] ++ mread_nat (s_mem s) (a + 1) n). rewrite app_assoc. apply IHn.
Qed.

Section Main.
Variables (c : cfg) (m : mem) (l : list (env * op)) (s : st) (o : list pkt) (e : env) (t : tree) (ev l' : N) (os : list (list (N * N))).
Variables (R : reachable c m l s o) (We : wf_env c e) (Sm : c_max_ent c < 65536) (So : stamp_ok c).
Variables (Rp : represents c s t) (M : measuring s) (As : assigned s ev l') (G : getN t l' = Some os).
Variables (Sa : sampleable c (time_stamp c e s) os) (HU : used s + lenN os <= 4).
Let W := proj1 R.
Let I := i_d _ _ (reach_inv _ _ _ _ _ R).
Let Hd := reach_daq _ _ _ _ _ R M.
Let TS := time_stamp c e s.
Let B := odts_before t l'.

Lemma stamp_eq : TS = stamp_bytes c (s_daq s) (e_timer e).
Proof. unfold TS, time_stamp, stamp_bytes. rewrite bit4. destruct (c_ts c && _); [|reflexivity]. symmetry. apply ts_stamp; auto. apply We. Qed.
Lemma ev_lt : ev < u8 (c_nevents c).
Proof.
  pose proof (getN_Some_lt _ _ _ _ As) as Lev. rewrite (d_lfelen _ _ I) in Lev. pose proof (wf_ev c W Hd) as Wev. fold (c_nevents c) in Wev.
  unfold u8. rewrite N.mod_small by (change (2 ^ 8) with 256; lia). exact Lev.
Qed.
Lemma stored_start : forall C, stored c (used s) C 0 (d_q (s_daq s)) 0.
Proof.
  intro C. split; [lia|]. exists []. split; [eapply event_q; eauto|]. split; [unfold used; lia|]. split; [reflexivity|]. intros j f H. unfold getN in H. destruct (N.to_nat j); discriminate.
Qed.
Definition frame_ok (ms : mem -> Prop) (i : N) (f : list N) : Prop := forall es, getN os i = Some es -> captured ms (if i =? 0 then TS else []) (B + i) es f.
Lemma inv_start : forall fo ms C, Inv c t fo (s_daq s) l' os TS (used s) ms C 0 (Called ev (e_timer e)) (d_q (s_daq s)) [] (ocost os + lenN os + 4).
Proof. intros. apply v_called; auto using stored_start, stamp_eq, ev_lt. Qed.

Lemma event_conc : forall w x s' o', Forall (harmless c) w -> take_all c w (Called ev (e_timer e)) s = Ok (x, s', o') ->
  (exists q, s_daq s' = set_d_q q (s_daq s)) /\
  (x = Rest -> captures (fun m' => In m' (moments c w (Called ev (e_timer e)) s)) TS B os (daq_frames o') /\ used s' = used s + lenN os).
Proof.
  intros w x s' o' F H. destruct Rp as (fo & fe & Rb). set (ms := fun m' => In m' (moments c w (Called ev (e_timer e)) s)).
  assert (Hc : forall i es f, 0 <= i -> getN os i = Some es -> captured ms (if i =? 0 then TS else []) (B + i) es f -> frame_ok ms i f) by (intros i es f _ A K es' A'; congruence).
  destruct (all_inv c t fo fe (s_daq s) l' os W Sm I Rb G TS (used s) Sa HU ms (frame_ok ms) 0 Hc w _ _ _ _ s x s' o' Hd M F (inv_start fo ms _) (q_self _) (fun m' K => K) H) as (q & E & V).
  split; [now exists q|]. intros ->. cbn [app] in V. inversion V as [| | | | | | |? ? V1 V2 V3 V4]. subst. split.
  - split; [assumption|]. intros i es f Ge Gf. exact (V4 _ _ Gf _ Ge).
  - unfold used in *. rewrite E. exact V2.
Qed.
Lemma event_safe : forall w y, Forall (harmless c) w -> take_all c w (Called ev (e_timer e)) s = UB y ->
  exists w1 e1 o1 w2 x1 s1 p1, w = w1 ++ Other e1 o1 :: w2 /\ take_all c w1 (Called ev (e_timer e)) s = Ok (x1, s1, p1) /\ step c e1 o1 s1 = UB y.
Proof.
  intros w y F H. destruct Rp as (fo & fe & Rb).
  exact (all_ub c t fo fe (s_daq s) l' os W Sm I Rb G TS (used s) Sa HU (fun _ => True) (fun _ _ => True) 0 (fun _ _ _ _ _ _ => Logic.I) w _ _ _ _ s y Hd M F (inv_start fo _ _) (q_self _) (fun _ _ => Logic.I) H).
Qed.
Lemma event_ends : exists n, forall w x s' o', Forall (harmless c) w -> n <= accesses w -> take_all c w (Called ev (e_timer e)) s = Ok (x, s', o') -> x = Rest.
Proof.
  destruct Rp as (fo & fe & Rb). exists (ocost os + lenN os + 4). intros w x s' o' F Hn H.
  destruct (all_inv c t fo fe (s_daq s) l' os W Sm I Rb G TS (used s) Sa HU (fun _ => True) (fun _ _ => True) 0 (fun _ _ _ _ _ _ => Logic.I) w _ _ _ _ s x s' o' Hd M F (inv_start fo _ _) (q_self _) (fun _ _ => Logic.I) H) as (q & E & V).
  replace (ocost os + lenN os + 4 - accesses w) with 0 in V by lia. inversion V; auto; exfalso; unfold later in *; lia.
Qed.
Lemma event_stable : forall w s' o', Forall (harmless c) w -> take_all c w (Called ev (e_timer e)) s = Ok (Rest, s', o') ->
  (forall m' es x j, In m' (moments c w (Called ev (e_timer e)) s) -> In es os -> In x es -> j < snd x -> m' (fst x + j) = s_mem s (fst x + j)) ->
  daq_frames o' = dtos (s_mem s) TS B os.
Proof. intros w s' o' F H Hm. destruct (event_conc _ _ _ _ F H) as (_ & K). destruct (K eq_refl) as (K1 & _). exact (captures_stable _ _ _ _ _ _ Hm K1). Qed.

(** ** Runs up to a place *)
Lemma to_loop : goes c (Called ev (e_timer e)) s (Loop l' 0 B TS).
Proof.
  destruct Rp as (fo & fe & Rb).
  eapply goes_step with (x1 := Begun l' (e_timer e)).
  - unfold next. cbv zeta. unfold measuring in M. rewrite M. cbn [negb]. pose proof ev_lt. destruct (N.leb_spec (u8 (c_nevents c)) ev); [lia|]. unfold assigned in As. now rewrite As.
  - eapply goes_step; [|apply goes_refl]. unfold next. cbv zeta. rewrite (first_pid_rep c fo fe _ t l' W Sm I Rb). pose proof (getN_Some_lt _ _ _ _ G). destruct (N.ltb_spec l' (lenN t)); [|lia]. cbn [bind].
    fold (stamp_bytes c (s_daq s) (e_timer e)). now rewrite <- stamp_eq.
Qed.
Lemma to_entries : forall fo fe es, represents_by fo fe c (s_daq s) t -> getN os 0 = Some es -> goes c (Called ev (e_timer e)) s (Entries l' 0 B TS (fo l') 0 (B mod 256 :: TS)).
Proof.
  intros fo fe es Rb Ge. eapply goes_trans; [apply to_loop|]. eapply goes_step; [|apply goes_refl]. unfold next. cbv zeta. rewrite (hdr_val _ _ _ _ (r_list _ _ _ _ _ Rb _ _ G)). cbn [bind].
  pose proof (getN_Some_lt _ _ _ _ Ge). destruct (N.ltb_spec 0 (lenN os)); [|lia]. destruct (rep_odt_index c W Sm _ _ _ _ _ _ _ I Rb (odt_there _ _ _ G _ _ Ge)) as (-> & _). cbn [bind].
  rewrite N.add_0_r. reflexivity.
Qed.
Lemma to_copy : forall fo fe es a len k data s1, represents_by fo fe c (s_daq s) t -> s_daq s1 = s_daq s -> getN os 0 = Some es -> getN es k = Some (a, len) ->
  lenN data + len <= c_max_dto c -> goes c (Entries l' 0 B TS (fo l') k data) s1 (Copy l' 0 B TS (fo l') k data a (N.to_nat len)).
Proof.
  intros fo fe es a len k data s1 Rb E1 Ge Gk Ld. eapply goes_step; [|apply goes_refl]. unfold next. cbv zeta. rewrite E1.
  pose proof (odt_there _ _ _ G _ _ Ge) as Go. pose proof (r_odt _ _ _ _ _ Rb _ _ _ Go) as Hh. rewrite N.add_0_r in Hh. rewrite (hdr_val _ _ _ _ Hh). cbn [bind].
  pose proof (getN_Some_lt _ _ _ _ Gk). destruct (N.ltb_spec k (lenN es)); [|lia]. assert (V : entry_at t l' 0 k = Some (a, len)) by (unfold entry_at; now rewrite Go).
  destruct (rep_entry_index c W Sm _ _ _ _ _ _ _ _ I Rb V) as (-> & _). cbn [bind].
  destruct (entry_val _ _ _ (r_entry _ _ _ _ _ Rb _ _ _ _ V)) as (x & -> & E2). cbn [bind]. rewrite E2. cbn [bind].
  destruct (Sa 0 es Ge) as (S1 & _). pose proof (proj1 (Forall_forall _ _) S1 _ (getN_In _ _ _ _ Gk)) as (B1 & B2). cbn [fst snd] in B1, B2. unfold in_space in B2.
  destruct (N.ltb_spec (c_max_dto c - lenN data) len); [lia|]. destruct (N.eqb_spec len 0); [lia|]. destruct (N.ltb_spec (aspace c) (a + len)); [lia|]. reflexivity.
Qed.
Lemma to_put : forall fo fe es s1, represents_by fo fe c (s_daq s) t -> s_daq s1 = s_daq s -> getN os 0 = Some es -> forall j k data,
  lenN es = k + N.of_nat j -> lenN data + lenN (concat (map (fun x : N * N => repeat 0 (N.to_nat (snd x))) (dropN k es))) <= c_max_dto c ->
  goes c (Entries l' 0 B TS (fo l') k data) s1 (Put l' 0 B TS (data ++ bytes_of (s_mem s1) (dropN k es))).
Proof.
  intros fo fe es s1 Rb E1 Ge. induction j; intros k data Hj Ld.
  - rewrite dropN_all by lia. unfold bytes_of. cbn [map concat]. rewrite app_nil_r. eapply goes_step; [|apply goes_refl]. unfold next. cbv zeta. rewrite E1.
    pose proof (r_odt _ _ _ _ _ Rb _ _ _ (odt_there _ _ _ G _ _ Ge)) as Hh. rewrite N.add_0_r in Hh. rewrite (hdr_val _ _ _ _ Hh). cbn [bind]. destruct (N.ltb_spec k (lenN es)); [lia|]. reflexivity.
  - destruct (getN_lt_Some _ es k ltac:(lia)) as ((a & len) & Gk). rewrite (drop_get _ _ _ _ Gk) in Ld |- *. cbn [map concat snd] in Ld. rewrite lenN_app in Ld. unfold lenN in Ld at 2. rewrite repeat_length in Ld.
    eapply goes_trans; [eapply to_copy; eauto; lia|]. eapply goes_trans; [apply goes_copy|]. unfold bytes_of. cbn [map concat fst snd]. rewrite app_assoc.
    assert (X : mread_nat (s_mem s1) a (N.to_nat len) = mem_at (s_mem s1) a len) by (rewrite <- mread_at; reflexivity). rewrite X. apply IHj; [lia|]. rewrite lenN_app, mem_at_len. lia.
Qed.
End Main.
