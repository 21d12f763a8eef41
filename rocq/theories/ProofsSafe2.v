(** Definedness of DAQ commands, of the main function and of events. *)
From Coq Require Import NArith ZArith List Bool Lia ZifyBool ZifyNat ZifyN.
From Verif Require Import Base Config Cfgs Codec Checksum State Queue Daq Core Spec Lists Effects Handlers HTx HInv HInv2
  HFields HResp DaqInv HSpec Steps Demo ProofsSession Exec ProofsFrames SpecMem SpecDaq SpecInfo SpecSafe ProofsDaqA ProofsDaqB
  ProofsDaqD ProofsDaqE ProofsDaqF ProofsWrite ProofsInfo ProofsInfo2 ProofsSafe.
Import ListNotations.
Open Scope N_scope.
Ltac Zify.zify_post_hook ::= Z.div_mod_to_equations.

Lemma list_par : forall c s f, bytes (rxbuf s f) -> c_max_ent c < 65536 -> param2 c s f 2 mod we c = list_param c s f.
Proof.
  intros c s f B H. assert (P : param2 c s f 2 < 65536).
  { unfold param2, param, field. assert (Q : forall i, nth i (rxbuf s f) 0 < 256).
    { intro i. destruct (nth_in_or_default i (rxbuf s f) 0) as [X| ->]; [|lia]. unfold bytes in B. rewrite Forall_forall in B. now apply B. }
    pose proof (Q 2%nat). pose proof (Q (2 + 1)%nat). destruct (c_motorola c); unfold be_value; cbn [rev app le_value]; lia. }
  unfold list_param. destruct (we_cases c) as [(A & ->)|[(A & ->)|(A & ->)]]; destruct (N.ltb_spec (c_max_ent c) 256); try lia; try reflexivity;
    apply N.mod_small; change (2 ^ 16) with 65536 in *; change (2 ^ 32) with 4294967296; lia.
Qed.
Lemma kind_hdr : forall d k a b i n f x, a <= b -> b <= lenN (d_ents d) -> header d i n f ->
  hdr_at (set_d_ents (on_range (set_kind k) a b (d_ents d)) (set_d_alloc x d)) i = Ok (n, f).
Proof.
  intros d k a b i n f x H1 H2 H. apply hdr_val. unfold header, body_at in *. ss. rewrite body_kind by auto. exact H.
Qed.
Lemma fine_seq : forall c d, (pdu_size c <= 1 + c_max_dto c) -> fine (seq_error c d).
Proof.
  intros c d P. unfold seq_error. destruct (c_reset_seq c); [|apply fine_ok]. unfold daq_init, queue_init.
  replace (pdu_size c <=? 1 + c_max_dto c) with true by lia. cbn [bind]. apply fine_ok.
Qed.

Section Tables.
Variables (c : cfg) (d : daqst) (t : tree) (fo : N -> N) (fe : N -> N -> N).
Hypothesis W : wf_cfg c.
Hypothesis Sm : c_max_ent c < 65536.
Hypothesis I : dinv c d.
Hypothesis Rp : represents_by fo fe c d t.
Hypothesis P : pdu_size c <= 1 + c_max_dto c.
Let lay : d_ecnt d <= lenN (d_ents d). Proof. pose proof (d_layout _ _ I) as (L1 & L2 & _). lia. Qed.

Lemma top_ge : forall n, n < 65536 -> d_ecnt d <= ent_sum c (d_ecnt d) n.
Proof. intros n H. rewrite ent_sum_exact; auto; [lia|]. pose proof lay. rewrite (d_len _ _ I) in *. lia. Qed.

Lemma fine_alloc : forall n, n < 65536 -> fine (daq_alloc c n d).
Proof.
  intros n Hn. unfold daq_alloc. destruct (negb _); [now apply fine_seq|]. cbv zeta. pose proof (top_ge n Hn).
  destruct (N.ltb_spec (c_max_ent c) (ent_sum c (d_ecnt d) n)); [apply fine_ok|].
  destruct (existsb is_bent _) eqn:X; [|apply fine_ok]. exfalso. apply existsb_exists in X. destruct X as (y & Hy & Yb).
  apply In_nth_error in Hy. destruct Hy as (i & Hi).
  assert (G : getN (d_ents d) (d_ecnt d + N.of_nat i) = Some y).
  { pose proof (nth_error_Some (takeN (ent_sum c (d_ecnt d) n - d_ecnt d) (dropN (d_ecnt d) (d_ents d))) i) as Z. rewrite Hi in Z.
    assert (Li : (i < length (takeN (ent_sum c (d_ecnt d) n - d_ecnt d) (dropN (d_ecnt d) (d_ents d))))%nat) by (apply Z; discriminate).
    assert (Li' : N.of_nat i < lenN (takeN (ent_sum c (d_ecnt d) n - d_ecnt d) (dropN (d_ecnt d) (d_ents d)))) by (unfold lenN; lia).
    rewrite lenN_take in Li'. rewrite <- getN_drop. rewrite <- (getN_take _ (ent_sum c (d_ecnt d) n - d_ecnt d)) by lia. unfold getN. now rewrite Nat2N.id. }
  pose proof (getN_Some_lt _ _ _ _ G) as Lt. rewrite (d_len _ _ I) in Lt.
  pose proof (r_free _ _ _ _ _ Rp (d_ecnt d + N.of_nat i) ltac:(lia)) as Z. unfold body_at in Z. rewrite G in Z. cbn in Z. injection Z as Z.
  unfold is_bent in Yb. rewrite Z in Yb. discriminate.
Qed.
Lemma fine_alloc_odt : forall l n, l < lenN t -> n < 65536 -> fine (daq_alloc_odt c l n d).
Proof.
  intros l n Hl Hn. unfold daq_alloc_odt. destruct (negb _); [now apply fine_seq|]. cbv zeta. pose proof (top_ge n Hn).
  destruct (N.ltb_spec (c_max_ent c) (ent_sum c (d_ecnt d) n)); [apply fine_ok|].
  destruct (getN_lt_Some _ _ _ Hl) as (os & G).
  pose proof (kind_hdr d KOdt (d_ecnt d) (ent_sum c (d_ecnt d) n) l _ _ AOdt H ltac:(rewrite (d_len _ _ I); lia) (r_list _ _ _ _ _ Rp _ _ G)) as E.
  unfold hdr_at in E. destruct (ent_at _ l) as [x|]; [|discriminate]. cbn [bind] in *. rewrite E. cbn [bind]. apply fine_ok.
Qed.
Lemma fine_alloc_entry : forall l o n, odt_at t l o <> None -> o < 256 -> n < 65536 -> fine (daq_alloc_entry c l o n d).
Proof.
  intros l o n Ho Lo Hn. unfold daq_alloc_entry. destruct (negb _); [now apply fine_seq|]. cbv zeta. pose proof (top_ge n Hn).
  destruct (N.ltb_spec (c_max_ent c) (ent_sum c (d_ecnt d) n)); [apply fine_ok|].
  destruct (odt_at t l o) as [es|] eqn:Eo; [|congruence]. destruct (odt_list _ _ _ _ Eo) as (os & G1 & G2).
  set (d1 := set_d_ents _ _).
  pose proof (kind_hdr d KEntry (d_ecnt d) (ent_sum c (d_ecnt d) n) l _ _ AEntry H ltac:(rewrite (d_len _ _ I); lia) (r_list _ _ _ _ _ Rp _ _ G1)) as E.
  fold d1 in E. rewrite E. cbn [bind].
  destruct (rep_odt_index c W Sm _ _ _ _ _ _ _ I Rp Eo) as (_ & B). pose proof (ent_lt_we c W).
  assert (X : (fo l + u16 o) mod we c = fo l + o) by (unfold u16; rewrite (N.mod_small o) by (change (2 ^ 16) with 65536; lia); apply N.mod_small; lia). rewrite X.
  unfold ent_at. destruct (getN (d_ents d1) (fo l + o)) eqn:Y; [cbn [bind]; apply fine_ok|].
  apply getN_None in Y. unfold d1 in Y. ss_in Y. rewrite lenN_on_range in Y by (rewrite ?(d_len _ _ I); lia). rewrite (d_len _ _ I) in Y. lia.
Qed.
Lemma fine_write : forall sz a, entry_at t (d_plist d) (d_podt d) (d_pent d) <> None -> fine (write_daq_entry c sz a d).
Proof.
  clear lay P. intros sz a H. destruct (entry_at _ _ _ _) as [x|] eqn:E; [|congruence].
  destruct (rep_entry_index c W Sm _ _ _ _ _ _ _ _ I Rp E) as (E1 & B). unfold write_daq_entry. rewrite E1. cbn [bind]. unfold ent_at.
  destruct (getN (d_ents d) _) eqn:Y; [cbn [bind]; apply fine_ok|]. apply getN_None in Y. rewrite (d_len _ _ I) in Y. lia.
Qed.
End Tables.

Lemma fine_multiple : forall c buf n i d t fo fe, wf_cfg c -> c_max_ent c < 65536 -> dinv c d -> represents_by fo fe c d t ->
  (forall j, j < N.of_nat n -> entry_at t (d_plist d) (d_podt d) (d_pent d + j) <> None) -> fine (write_multiple c buf n i d).
Proof.
  induction n as [|n IH]; intros i d t fo fe W Sm I Rp H; [apply fine_ok|]. cbn [write_multiple].
  assert (H0 : entry_at t (d_plist d) (d_podt d) (d_pent d) <> None) by (rewrite <- (N.add_0_r (d_pent d)); apply H; lia).
  set (sz := gb buf _). set (a := gd c buf _).
  destruct (fine_write c d t fo fe W Sm I Rp sz a H0) as (d1 & E). rewrite E. cbn [bind].
  destruct (entry_at t (d_plist d) (d_podt d) (d_pent d)) as [x|] eqn:Ex; [|congruence].
  pose proof (rep_write c W Sm _ _ _ _ _ _ _ _ I Rp Ex E) as Rp1. pose proof (dinv_write _ _ _ _ _ I E) as I1.
  assert (S : d_plist d1 = d_plist d /\ d_podt d1 = d_podt d /\ d_pent d1 = (d_pent d + 1) mod we c).
  { unfold write_daq_entry in E. apply bind_Ok in E. destruct E as (q & _ & E). apply bind_Ok in E. destruct E as (y & _ & E). injection E as <-. auto. }
  destruct S as (S1 & S2 & S3). destruct n as [|n]; [apply fine_ok|].
  assert (Sp : (d_pent d + 1) mod we c = d_pent d + 1).
  { pose proof (H 1 ltac:(lia)) as X. destruct (entry_at t (d_plist d) (d_podt d) (d_pent d + 1)) eqn:Y; [|congruence].
    destruct (rep_entry_index c W Sm _ _ _ _ _ _ _ _ I Rp Y) as (_ & B). pose proof (ent_lt_we c W). apply N.mod_small. lia. }
  eapply IH; [exact W|exact Sm|exact I1|exact Rp1|]. intros j Hj. rewrite S1, S2, S3, Sp.
  rewrite (put_entry_at _ _ _ _ _ _ Ex). destruct (_ =? _); [discriminate|]. rewrite <- N.add_assoc. apply H. lia.
Qed.

Lemma land_bit : forall x k, (N.land x (2 ^ k) =? 2 ^ k) = N.testbit x k.
Proof.
  intros x k. destruct (N.testbit x k) eqn:T.
  - apply N.eqb_eq. apply N.bits_inj. intro n. rewrite N.land_spec. destruct (N.eq_dec n k) as [->|H]; [rewrite T; reflexivity|].
    rewrite N.pow2_bits_false by congruence. apply andb_false_r.
  - apply N.eqb_neq. intro H. assert (X : N.testbit (N.land x (2 ^ k)) k = true) by (rewrite H; apply N.pow2_bits_true). rewrite N.land_spec, T in X. discriminate.
Qed.
Lemma send8_same : forall c n bs s s' o, send8 c n bs s = Ok (s', o) -> lenN (s_out s') = lenN (s_out s) /\ s_daq s' = s_daq s /\ s_job s' = s_job s.
Proof.
  intros c n bs s s' o H. unfold send8 in H. apply bind_Ok in H. destruct H as (s1 & H1 & H2).
  assert (X : lenN (s_out s1) = lenN (s_out s) /\ s_daq s1 = s_daq s /\ s_job s1 = s_job s).
  { destruct (_ <=? 8); [|injection H1 as <-; auto]. apply poke_o in H1. destruct H1 as (ob & Lo & _ & ->). ss. auto. }
  unfold send_cto in H2. destruct (_ <? _); [discriminate|]. injection H2 as <- _. exact X.
Qed.

Lemma first_pid_same : forall c d d' l, d_ents d' = d_ents d -> d_lcnt d' = d_lcnt d -> first_pid c d' l = first_pid c d l.
Proof.
  intros c d d' l E L. unfold first_pid. rewrite L. destruct (beyond _ _ _); auto.
  assert (H : forall n i a, sum_odts c d' n i a = sum_odts c d n i a); [|now rewrite H].
  induction n as [|n IH]; intros; [reflexivity|]. cbn [sum_odts]. unfold hdr_at, ent_at. rewrite E. destruct (getN (d_ents d) i); [|reflexivity].
  cbn [bind]. destruct (hdr_of _) as [(a0 & b)|]; [|reflexivity]. cbn [bind]. apply IH.
Qed.

Lemma then_at : forall (r : res) k s o, r = Ok (s, o) -> fine (k s) -> fine (andthen r k).
Proof. intros r k s o -> ((s1 & o1) & E). unfold andthen. cbn [bind]. rewrite E. apply fine_ok. Qed.

Section DaqCmd.
Variables (c : cfg) (m : mem) (l : list (env * op)) (s : st) (o : list pkt).
Hypothesis R : reachable c m l s o.
Hypothesis RD : ready s.
Hypothesis Hd : c_daq c = true.
Let W : wf_cfg c := proj1 R.
Let I : dinv c (s_daq s). Proof. exact (i_d _ _ (reach_inv _ _ _ _ _ R)). Qed.
Let P : pdu_size c <= 1 + c_max_dto c. Proof. exact (reach_pdu _ _ _ _ _ R Hd). Qed.

Lemma rx_bytes : forall f, bytes f -> bytes (rxbuf s f).
Proof.
  intros f B. unfold rxbuf. apply bytes_app; [exact B|]. apply skipn_Forall. apply (b_inb _ _ (i_b _ _ (reach_inv _ _ _ _ _ R))).
Qed.
Lemma par_lt : forall f i, bytes f -> param s f i < 256.
Proof.
  intros f i B. unfold param. pose proof (rx_bytes f B) as Q. unfold bytes in Q. rewrite Forall_forall in Q.
  destruct (nth_in_or_default i (rxbuf s f) 0) as [X| ->]; [now apply Q|lia].
Qed.
Lemma list_lt : forall f, bytes f -> c_max_ent c < 65536 -> list_param c s f < 65536.
Proof.
  intros f B Sm. unfold list_param, param2, field. pose proof (par_lt f 2 B). pose proof (par_lt f (2 + 1) B).
  destruct (_ <? 256); destruct (c_motorola c); unfold be_value; cbn [rev app le_value]; lia.
Qed.

Lemma iff_mode : forall e t, let f := 0xE0 :: t in lenN f <= c_ctobuf c ->
  (defined c e (ORecv f) s <-> mode_rule c s f).
Proof.
  intros e t f Lf. rewrite defined_fine. unfold f at 1. rewrite (exec_val c m l s o e 0xE0 t (h_set_daq_list_mode c) R RD Lf ltac:(tbl)). fold f.
  unfold h_set_daq_list_mode, mode_rule. cbv zeta.
  rewrite rx_in, (par_gb s f 1 : gb (rxbuf s f) 1 = _), (par_gb s f 6 : gb (rxbuf s f) 6 = _), (par_gw c s f 2 : gw c (rxbuf s f) 2 = _), (par_gw c s f 4 : gw c (rxbuf s f) 4 = _).
  pose proof (rlo c s (reach_valid _ _ _ _ _ R) f) as L.
  rewrite fine_stopped; [|exact W|exact L|intros _; exact Hd]. change (measuring (rx c f s)) with (measuring s). apply fine_impl. intros _.
  rewrite fine_idle; [|exact W|exact L|apply (rpgm c s (reach_valid _ _ _ _ _ R))]. change (programming (rx c f s)) with (programming s). apply fine_impl. intros _.
  rewrite fine_unlocked; [|exact W|exact L]. change (locked c 4 (rx c f s)) with (locked c 4 s). apply fine_impl. intros _.
  set (md := param s f 1). assert (B3 : N.land md 3 = 0 <-> (N.land md 2 =? 2) = false /\ (N.land md 1 =? 1) = false).
  { rewrite (land_bit md 1 : (N.land md 2 =? 2) = _), (land_bit md 0 : (N.land md 1 =? 1) = _). change 3 with (N.ones 2). rewrite N.land_ones. clear. change (2 ^ 2) with 4.
    rewrite (N.div_mod md 4) at 2 3 by lia. set (q := md / 4). pose proof (N.mod_lt md 4 ltac:(lia)). set (r := md mod 4) in *.
    assert (T : forall k, k < 2 -> N.testbit (4 * q + r) k = N.testbit r k).
    { intros k Hk. rewrite <- (N.mod_pow2_bits_low (4 * q + r) 2 k Hk). f_equal. change (2 ^ 2) with 4. rewrite N.mul_comm, N.add_comm, N.mod_add by lia. apply N.mod_small; lia. }
    rewrite !T by lia. destruct (N.eq_dec r 0) as [->|]; [split; auto|]. destruct (N.eq_dec r 1) as [->|]; [split; [lia|intros (_ & X); discriminate X]|].
    destruct (N.eq_dec r 2) as [->|]; [split; [lia|intros (X & _); discriminate X]|]. replace r with 3 by lia. split; [lia|intros (X & _); discriminate X]. }
  destruct (N.land md 2 =? 2) eqn:B2.
  { split; [intros _ X; apply B3 in X; destruct X; discriminate|]. intros _. now apply fine_err. }
  destruct (N.land md 1 =? 1) eqn:B1.
  { split; [intros _ X; apply B3 in X; destruct X; discriminate|]. intros _. now apply fine_err. }
  destruct (N.ltb_spec 1 (param s f 6)).
  { split; [intros _ _ X; lia|]. intros _. now apply fine_err. }
  change (s_daq (rx c f s)) with (s_daq s). rewrite fine_bind. unfold add_event. pose proof (d_lfelen _ _ I) as Lf'. unfold c_nevents in Lf'. rewrite Lf'.
  destruct (N.ltb_spec (param2 c s f 4) (lenN (c_events c))).
  - split; [auto|]. intros _. eexists. split; [reflexivity|]. apply fine_pos; [exact W|exact L].
  - split; [intros (x & X & _); discriminate|]. intros X. assert (param2 c s f 4 < lenN (c_events c)) by (apply X; [now apply B3|lia]). lia.
Qed.

Lemma daq_fine : forall e k t, let f := k :: t in lenN f <= c_ctobuf c -> bytes f -> c_max_ent c < 65536 ->
  In k daq_codes -> (k = 0xE2 \/ k = 0xE1 \/ k = 0xDE \/ c_opt c k = true) -> daq_rule c s f k -> defined c e (ORecv f) s.
Proof.
  intros e k t f Lf B Sm K O Ru. apply defined_fine. pose proof (rlo c s (reach_valid _ _ _ _ _ R) f) as L. pose proof (rpgm c s (reach_valid _ _ _ _ _ R) f) as RP.
  pose proof (list_lt f B Sm) as LL. pose proof (list_par c s f (rx_bytes f B) Sm) as LP.
  assert (OP : ~ programming s -> ~ locked c 4 s -> daq_open c s) by (intros; split; auto).
  unfold daq_rule in Ru. unfold daq_codes in K. cbn [In] in K. destruct K as [<-|[<-|[<-|[<-|[<-|[<-|[<-|[<-|[]]]]]]]]].
  - unfold f at 1; rewrite (exec_val c m l s o _ 0xE2 t (h_set_daq_ptr c) R RD Lf ltac:(tbl)); fold f. unfold h_set_daq_ptr. cbv zeta. apply fine_stopped; auto. intros _. apply fine_idle; auto. intros NP.
    apply fine_unlocked; auto. intros NL. destruct (Ru (OP NP NL)) as (tr & Rp & _). change (s_daq (rx c f s)) with (s_daq s).
    rewrite (validate_rep c m l s o R Sm tr _ _ _ Rp). cbn [bind]. destruct (entry_at _ _ _ _); cbn [negb]; [apply fine_pos|apply fine_err]; auto.
  - unfold f at 1; rewrite (exec_val c m l s o _ 0xE1 t (h_write_daq c) R RD Lf ltac:(tbl)); fold f. unfold h_write_daq. cbv zeta. apply fine_stopped; auto. intros NM. apply fine_idle; auto. intros NP.
    apply fine_unlocked; auto. intros NL. destruct (Ru (OP NP NL)) as (tr & (fo & fe & Rp) & En). change (s_daq (rx c f s)) with (s_daq s).
    apply fine_bind. destruct (fine_write c (s_daq s) tr fo fe W Sm I Rp (gb (s_in (rx c f s)) 2) (gd c (s_in (rx c f s)) 4) (En NM)) as (d1 & E).
    exists d1. split; [exact E|]. apply fine_pos; auto.
  - unfold f at 1; rewrite (exec_val c m l s o _ 0xDE t (h_start_stop_list c) R RD Lf ltac:(tbl)); fold f. unfold h_start_stop_list. cbv zeta. apply fine_idle; auto. intros NP.
    apply fine_unlocked; auto. intros NL. destruct (Ru (OP NP NL)) as (tr & (fo & fe & Rp) & _).
    set (md := gb _ 1). set (ln := gw _ _ _ mod _).
    assert (KK : forall s', lo c s' -> s_daq s' = s_daq s -> fine (if 2 <? md then err c 0x22 s' else
       let s1 := if md =? 2 then upd_daq (fun d => set_d_mode (N.lor (d_mode d) 0x40) d) s' else s' in
       p <- first_pid c (s_daq s1) ln ;; let pid := match p with Some v => v | None => 0 end in send8 c 8 [0xFF; u8 pid; 0; 0; 0; 0; 0; 0] s1)).
    { intros s' L' D'. destruct (2 <? md); [now apply fine_err|]. cbv zeta. set (s1 := if md =? 2 then _ else _).
      assert (F : first_pid c (s_daq s1) ln = first_pid c (s_daq s) ln).
      { unfold s1. destruct (md =? 2); [|now rewrite D']. apply first_pid_same; unfold upd_daq; ss; now rewrite D'. }
      rewrite F, (first_pid_rep c fo fe _ tr ln W Sm I Rp). cbn [bind]. apply fine_send8; auto; [|lia]. unfold s1. destruct (md =? 2); auto. }
    change (d_lcnt (s_daq (rx c f s))) with (d_lcnt (s_daq s)). destruct (d_lcnt (s_daq s) <=? ln).
    + destruct (fine_err c W 0x22 (rx c f s) L) as ((s2 & o2) & E). eapply then_at; [exact E|].
      destruct (send8_same _ _ _ _ _ _ E) as (X1 & X2 & _). apply KK; [unfold lo; rewrite X1; exact L|exact X2].
    + eapply then_at; [reflexivity|]. apply KK; auto.
  - destruct O as [O|[O|[O|O]]]; try discriminate. unfold f at 1; rewrite (exec_val c m l s o _ 0xD8 t (h_daq_list_info c) R RD Lf ltac:(tbl)); fold f. unfold h_daq_list_info. cbv zeta. apply fine_idle; auto. intros NP.
    apply fine_unlocked; auto. intros NL. destruct (Ru (OP NP NL)) as (tr & (fo & fe & Rp) & Hl).
    rewrite rx_in, (par_gw c s f 2 : gw c (rxbuf s f) 2 = _), LP. change (s_daq (rx c f s)) with (s_daq s).
    destruct (N.leb_spec (d_lcnt (s_daq s)) (list_param c s f)); [rewrite (r_lists _ _ _ _ _ Rp) in *; lia|].
    unfold andthen. cbn [bind]. destruct (getN_lt_Some _ _ _ Hl) as (os & G). change (s_daq (rx c f s)) with (s_daq s).
    rewrite (hdr_val _ _ _ _ (r_list _ _ _ _ _ Rp _ _ G)). cbn [bind]. destruct (fine_err c W 0x21 (rx c f s) L) as ((s2 & o2) & E). rewrite E. apply fine_ok.
  - destruct O as [O|[O|[O|O]]]; try discriminate. unfold f at 1; rewrite (exec_val c m l s o _ 0xD5 t (h_alloc_daq c) R RD Lf ltac:(tbl)); fold f. unfold h_alloc_daq. apply fine_idle; auto. intros NP.
    apply fine_unlocked; auto. intros NL. destruct (Ru (OP NP NL)) as (tr & (fo & fe & Rp) & _).
    rewrite rx_in, (par_gw c s f 2 : gw c (rxbuf s f) 2 = _), LP. change (s_daq (rx c f s)) with (s_daq s).
    destruct (fine_alloc c (s_daq s) tr fo fe W Sm I Rp P (list_param c s f) LL) as ((d1 & r) & E). rewrite E. cbn [bind]. apply fine_res; auto.
  - destruct O as [O|[O|[O|O]]]; try discriminate. unfold f at 1; rewrite (exec_val c m l s o _ 0xD4 t (h_alloc_odt c) R RD Lf ltac:(tbl)); fold f. unfold h_alloc_odt. apply fine_idle; auto. intros NP.
    apply fine_unlocked; auto. intros NL. destruct (Ru (OP NP NL)) as (tr & (fo & fe & Rp) & Hl).
    rewrite rx_in, (par_gw c s f 2 : gw c (rxbuf s f) 2 = _), LP, (par_gb s f 4 : gb (rxbuf s f) 4 = _). change (s_daq (rx c f s)) with (s_daq s).
    pose proof (par_lt f 4 B).
    destruct (fine_alloc_odt c (s_daq s) tr fo fe W Sm I Rp P (list_param c s f) (param s f 4) Hl ltac:(lia)) as ((d1 & r) & E). rewrite E. cbn [bind]. apply fine_res; auto.
  - destruct O as [O|[O|[O|O]]]; try discriminate. unfold f at 1; rewrite (exec_val c m l s o _ 0xD3 t (h_alloc_odt_entry c) R RD Lf ltac:(tbl)); fold f. unfold h_alloc_odt_entry. apply fine_idle; auto. intros NP.
    apply fine_unlocked; auto. intros NL. destruct (Ru (OP NP NL)) as (tr & (fo & fe & Rp) & Ho).
    rewrite rx_in, (par_gw c s f 2 : gw c (rxbuf s f) 2 = _), LP, (par_gb s f 4 : gb (rxbuf s f) 4 = _), (par_gb s f 5 : gb (rxbuf s f) 5 = _). change (s_daq (rx c f s)) with (s_daq s).
    pose proof (par_lt f 4 B). pose proof (par_lt f 5 B).
    destruct (fine_alloc_entry c (s_daq s) tr fo fe W Sm I Rp P (list_param c s f) (param s f 4) (param s f 5) Ho ltac:(lia) ltac:(lia)) as ((d1 & r) & E).
    rewrite E. cbn [bind]. apply fine_res; auto.
  - destruct O as [O|[O|[O|O]]]; try discriminate. unfold f at 1; rewrite (exec_val c m l s o _ 0xC7 t (h_write_daq_multiple c) R RD Lf ltac:(tbl)); fold f. unfold h_write_daq_multiple. cbv zeta.
    pose proof (rin c s (reach_valid _ _ _ _ _ R) f Lf) as LI. rewrite rx_in in LI. rewrite rx_in, (par_gb s f 1 : gb (rxbuf s f) 1 = _). set (n := param s f 1) in *.
    destruct (N.ltb_spec (c_max_cto c) (n * 8 + 2)); [apply fine_res; auto|].
    apply fine_stopped; auto. intros NM. apply fine_idle; auto. intros NP.
    apply fine_unlocked; auto. intros NL. destruct (Ru (OP NP NL)) as (tr & (fo & fe & Rp) & En).
    destruct (N.ltb_spec (lenN (rxbuf s f)) (n * 8 + 2)); [unfold c_ctobuf in LI; lia|]. change (s_daq (rx c f s)) with (s_daq s).
    destruct (fine_multiple c (rxbuf s f) (N.to_nat n) 0 (s_daq s) tr fo fe W Sm I Rp) as (d1 & E).
    { intros j Hj. apply En; auto. lia. }
    rewrite E. cbn [bind]. apply fine_pos; auto.
Qed.
End DaqCmd.

(** ** The main function *)
Lemma block_same : forall c e s s' o, upload_block c e s = Ok (s', o) -> lenN (s_out s') = lenN (s_out s) /\ s_job s' = s_job s.
Proof.
  intros c e s s' o H. unfold upload_block in H. destruct (negb _); [injection H as <- _; auto|]. cbv zeta in H.
  apply bind_Ok in H. destruct H as (s1 & H1 & H). apply bind_Ok in H. destruct H as (s2 & H2 & H).
  apply poke_o in H1. destruct H1 as (ob & L1 & _ & ->). unfold copy_out in H2. cbv zeta in H2. destruct (_ =? 0) in H2; [discriminate|].
  destruct (_ <? _) in H2; [discriminate|]. apply poke_o in H2. destruct H2 as (ob2 & L2 & _ & ->). ss_in L2.
  unfold andthen in H. apply bind_Ok in H. destruct H as ((s3 & o3) & H3 & H). apply bind_Ok in H. destruct H as ((s4 & o4) & H4 & H). injection H as <- _.
  unfold send_cto in H3. destruct (_ <? _) in H3; [discriminate|]. injection H3 as <- _.
  destruct (_ =? 0) in H4; [|injection H4 as <- _; ss; split; [congruence|reflexivity]].
  apply bind_Ok in H4. destruct H4 as (s5 & H5 & H4). injection H4 as <- _. unfold sbm_set_active, set_busy, enter in H5.
  destruct (c_lock c); repeat (cbn [bind] in H5; try destruct (existsb _ _) in H5; try discriminate);
  injection H5 as <-; unfold leave; ss; (split; [congruence|reflexivity]).
Qed.
Lemma fine_job : forall c s, wf_cfg c -> c_lock c = LockRecursive -> lenN (s_out s) = c_max_cto c ->
  (fine (checksum_main c s) <->
   match j_state (s_job s) with
   | JIdle => True
   | JFinal => in_space c (j_addr (s_job s)) (j_size (s_job s))
   | _ => in_space c (j_addr (s_job s)) (c_chunk c)
   end).
Proof.
  intros c s W K L. unfold checksum_main. cbv zeta. destruct (j_state (s_job s)).
  - split; auto. intros _. apply fine_ok.
  - rewrite fine_bind. split; [intros (v & E & _); eapply fine_calc; eexists; exact E|]. intros H. apply (fine_calc c s _ _ 0 true) in H. destruct H as (v & E). exists v. split; [exact E|apply fine_ok].
  - rewrite fine_bind. split; [intros (v & E & _); eapply fine_calc; eexists; exact E|]. intros H. apply (fine_calc c s _ _ (j_sum (s_job s)) false) in H. destruct H as (v & E). exists v. split; [exact E|apply fine_ok].
  - rewrite fine_bind. split; [intros (v & E & _); eapply fine_calc; eexists; exact E|]. intros H. apply (fine_calc c s _ _ (j_sum (s_job s)) false) in H. destruct H as (v & E). exists v. split; [exact E|].
    match goal with |- fine (bind (set_busy c false ?x) _) => destruct (busy_rec c false x K) as (h & EB); rewrite EB end. cbn [bind].
    apply fine_then; [|intros; apply fine_ok]. unfold send_checksum. apply fine_send8; [exact W|exact L|lia].
Qed.
Lemma main_iff : forall c s e, valid c s -> c_lock c = LockRecursive ->
  (defined c e OMain s <-> main_rule c e s).
Proof.
  intros c s e R K. assert (W : wf_cfg c) by apply R. pose proof (val_lo _ _ R) as L. rewrite defined_fine. cbn [step]. unfold main_function, main_rule.
  assert (J : forall s', lenN (s_out s') = c_max_cto c -> s_job s' = s_job s ->
     (fine (if job_on c then checksum_main c s' else Ok (s', [])) <-> (c_opt c 0xF3 = true -> c_chunked c = true -> match j_state (s_job s) with
     | JIdle => True | JFinal => in_space c (j_addr (s_job s)) (j_size (s_job s)) | _ => in_space c (j_addr (s_job s)) (c_chunk c) end))).
  { intros s' L' E. unfold job_on. destruct (c_opt c 0xF3); cbn [andb]; [|split; [intros _ X; discriminate|intros _; apply fine_ok]].
    destruct (c_chunked c); [|split; [intros _ _ X; discriminate|intros _; apply fine_ok]].
    rewrite fine_job by auto. rewrite E. tauto. }
  unfold andthen. rewrite fine_bind. destruct (c_sbm c) eqn:B.
  - split.
    + intros ((s1 & o1) & E & F). destruct (block_same _ _ _ _ _ E) as (L1 & J1). split.
      * intros _ A. apply (fine_block c W K e s L A). eexists; exact E.
      * apply (J s1); [congruence|exact J1|]. apply fine_bind in F. destruct F as ((s2 & o2) & F & _). eexists; exact F.
    + intros (A & Q). assert (F : fine (upload_block c e s)).
      { destruct (s_sact s) eqn:X; [apply (fine_block c W K e s L X); auto|]. unfold upload_block. rewrite X. apply fine_ok. }
      destruct F as ((s1 & o1) & E). exists (s1, o1). split; [exact E|]. destruct (block_same _ _ _ _ _ E) as (L1 & J1).
      destruct (proj2 (J s1 ltac:(congruence) J1) Q) as ((s2 & o2) & F). apply fine_bind. exists (s2, o2). split; [exact F|apply fine_ok].
  - split.
    + intros ((s1 & o1) & E & F). injection E as <- <-. split; [discriminate|]. apply (J s); auto. apply fine_bind in F. destruct F as ((s2 & o2) & F & _). eexists; exact F.
    + intros (_ & Q). exists (s, []). split; [reflexivity|]. destruct (proj2 (J s L eq_refl) Q) as ((s2 & o2) & F). apply fine_bind. exists (s2, o2). split; [exact F|apply fine_ok].
Qed.

(** ** Events *)
Lemma iff_main : forall c m l s o e, reachable c m l s o -> c_lock c = LockRecursive ->
  (defined c e OMain s <-> main_rule c e s).
Proof. intros c m l s o e R. apply main_iff. eapply reach_valid; eauto. Qed.
Lemma trigger_fine : forall c m l s o e ev, reachable c m l s o -> wf_env c e -> c_max_ent c < 65536 -> stamp_ok c ->
  trigger_rule c e s ev -> defined c e (OTrigger ev) s.
Proof.
  intros c m l s o e ev R We Sm So Ru. destruct (d_run (s_daq s)) eqn:M.
  2: { exists s, []. apply idle_thm. unfold measuring. congruence. }
  destruct (Ru M) as (t & Rp & H). assert (W : wf_cfg c) by apply R. pose proof (reach_daq _ _ _ _ _ R M) as Hd. pose proof (i_d _ _ (reach_inv _ _ _ _ _ R)) as I.
  destruct (getN (d_lfe (s_daq s)) ev) as [l'|] eqn:A.
  - destruct (getN t l') as [os|] eqn:G.
    + destruct (H l' os A G) as (Sa & [Q|Q]).
      * destruct (event_thm c m l s o e t ev l' os R We Sm So Rp M A G Sa Q) as (s' & o' & E & _). now exists s', o'.
      * destruct (N.le_gt_cases (lenN os) 4).
        -- destruct (event_thm c m l s o e t ev l' os R We Sm So Rp M A G Sa ltac:(lia)) as (s' & o' & E & _). now exists s', o'.
        -- destruct (event_drop c m l s o e t ev l' os R We Sm So Rp M A G Sa Q ltac:(lia)) as (s' & o' & E & _). now exists s', o'.
    + apply defined_fine. cbn [step]. unfold trigger, sample_event. rewrite Hd, M. cbn [negb]. destruct (_ <=? ev); [apply fine_ok|]. rewrite A.
      destruct Rp as (fo & fe & Rb). rewrite (first_pid_rep c fo fe _ t l' W Sm I Rb). apply getN_None in G. destruct (N.ltb_spec l' (lenN t)); [lia|]. apply fine_ok.
  - apply defined_fine. cbn [step]. unfold trigger, sample_event. rewrite Hd, M. cbn [negb]. apply getN_None in A. rewrite (d_lfelen _ _ I) in A.
    unfold u8. destruct (N.leb_spec (c_nevents c mod 2 ^ 8) ev); [apply fine_ok|]. lia.
Qed.

(** ** All operations *)
Lemma off_fine : forall c m l s o e k t h (b : bool), reachable c m l s o -> ready s -> lenN (k :: t) <= c_ctobuf c ->
  entry c k = Some (if b then h else h_unknown c) -> b = false -> defined c e (ORecv (k :: t)) s.
Proof.
  intros c m l s o e k t h b R RD Lf E ->. apply defined_fine. rewrite (exec_val c m l s o e k t _ R RD Lf E). unfold h_unknown. apply fine_err; [apply R|]. exact (rx_out c m l s o _ R).
Qed.
Lemma special_fine : forall c ty k info s, wf_cfg c -> lenN (s_out s) = c_max_cto c -> fine (special c ty k info s).
Proof.
  intros c ty k info s W L. pose proof (wf_cto c W). unfold special. cbv zeta. set (n := N.min _ _).
  destruct (fine_poke c 0 ([ty; u8 k] ++ takeN n info) s L) as (s1 & E & L1 & _).
  { rewrite lenN_app, lenN_take. change (lenN [ty; u8 k]) with 2. unfold n. lia. }
  rewrite E. cbn [bind]. apply fine_cto; [exact L1|]. destruct (c_max_dlc c); unfold n; lia.
Qed.

Lemma command_fine : forall c m l s o e k t, reachable c m l s o -> ready s -> wf_env c e -> bytes (k :: t) -> k < 256 ->
  c_lock c = LockRecursive -> c_max_ent c < 65536 -> lenN (k :: t) <= c_ctobuf c -> command_rule c e s (k :: t) k -> defined c e (ORecv (k :: t)) s.
Proof.
  intros c m l s o e k t R RD We B Hk K Sm Lf Ru.
  destruct (in_dec N.eq_dec k harmless) as [Hh|Hh]; [eapply safe_harmless; eauto|].
  assert (CK : k = 0xF8 \/ k = 0xF5 \/ k = 0xF4 \/ k = 0xF3 \/ k = 0xF0 \/ k = 0xEF \/ k = 0xEE \/ k = 0xED \/ k = 0xEC \/ k = 0xE0 \/
     k = 0xE2 \/ k = 0xE1 \/ k = 0xDE \/ k = 0xD8 \/ k = 0xD5 \/ k = 0xD4 \/ k = 0xD3 \/ k = 0xC7 \/ (k < 0xC7)).
  { destruct (N.lt_ge_cases k 0xC7); [tauto|].
    assert (G : forall j, (j < 57)%nat -> ~ In (0xC7 + N.of_nat j) harmless -> let x := 0xC7 + N.of_nat j in
      x = 0xF8 \/ x = 0xF5 \/ x = 0xF4 \/ x = 0xF3 \/ x = 0xF0 \/ x = 0xEF \/ x = 0xEE \/ x = 0xED \/ x = 0xEC \/ x = 0xE0 \/
     x = 0xE2 \/ x = 0xE1 \/ x = 0xDE \/ x = 0xD8 \/ x = 0xD5 \/ x = 0xD4 \/ x = 0xD3 \/ x = 0xC7 \/ (x < 0xC7)).
    { intros j Hj. do 57 (destruct j as [|j]; [cbn [N.of_nat]; intros N1; first [exfalso; apply N1; vm_compute; tauto | vm_compute; tauto]|]). lia. }
    specialize (G (N.to_nat (k - 0xC7)) ltac:(lia)). replace (0xC7 + N.of_nat (N.to_nat (k - 0xC7))) with k in G by lia. auto. }
  destruct CK as [->|[->|[->|[->|[->|[->|[->|[->|[->|[->|[->|[->|[->|[->|[->|[->|[->|[->|CK]]]]]]]]]]]]]]]]]]; cbn [command_rule] in Ru; cbv zeta in Ru.
  - destruct (c_opt c 0xF8) eqn:O; [|eapply (off_fine c m l s o e 0xF8 t (h_get_seed c) (c_opt c 0xF8)); eauto]. apply (iff_seed c s (reach_valid _ _ _ _ _ R) RD); auto.
  - destruct (c_opt c 0xF5) eqn:O; [|eapply (off_fine c m l s o e 0xF5 t (h_upload c) (c_opt c 0xF5)); eauto]. apply (iff_upload c s (reach_valid _ _ _ _ _ R) RD K); auto.
  - destruct (c_opt c 0xF4) eqn:O; [|eapply (off_fine c m l s o e 0xF4 t (h_short_upload c) (c_opt c 0xF4)); eauto]. apply (iff_short_upload c s (reach_valid _ _ _ _ _ R) RD K); auto.
  - destruct (c_opt c 0xF3) eqn:O; [|eapply (off_fine c m l s o e 0xF3 t (h_checksum c) (c_opt c 0xF3)); eauto]. apply (iff_checksum c s (reach_valid _ _ _ _ _ R) RD K); auto.
  - destruct (c_cal c) eqn:O; [|eapply (off_fine c m l s o e 0xF0 t (h_download c) (c_cal c)); eauto]. apply (iff_download c s (reach_valid _ _ _ _ _ R) RD); auto.
  - destruct (c_cal c && c_opt c 0xEF) eqn:O; [|eapply (off_fine c m l s o e 0xEF t (h_download_next c) (c_cal c && c_opt c 0xEF)); eauto]. apply andb_true_iff in O. destruct O. apply (iff_download_next c s (reach_valid _ _ _ _ _ R) RD); auto.
  - destruct (c_cal c && c_opt c 0xEE) eqn:O; [|eapply (off_fine c m l s o e 0xEE t (h_download_max c) (c_cal c && c_opt c 0xEE)); eauto]. apply andb_true_iff in O. destruct O. apply (iff_download_max c s (reach_valid _ _ _ _ _ R) RD); auto.
  - destruct (c_cal c && c_opt c 0xED) eqn:O; [|eapply (off_fine c m l s o e 0xED t (h_short_download c) (c_cal c && c_opt c 0xED)); eauto]. apply andb_true_iff in O. destruct O. apply (iff_short_download c s (reach_valid _ _ _ _ _ R) RD); auto.
  - destruct (c_cal c && c_opt c 0xEC) eqn:O; [|eapply (off_fine c m l s o e 0xEC t (h_modify_bits c) (c_cal c && c_opt c 0xEC)); eauto]. apply andb_true_iff in O. destruct O. apply (iff_modify c s (reach_valid _ _ _ _ _ R) RD); auto.
  - destruct (c_daq c) eqn:O; [|eapply (off_fine c m l s o e 0xE0 t (h_set_daq_list_mode c) (c_daq c)); eauto]. apply (iff_mode c m l s o R RD); auto.
  - destruct (c_daq c) eqn:O; [|eapply (off_fine c m l s o e 0xE2 t (h_set_daq_ptr c) (c_daq c)); eauto]. apply (daq_fine c m l s o R RD); cbn; auto.
  - destruct (c_daq c) eqn:O; [|eapply (off_fine c m l s o e 0xE1 t (h_write_daq c) (c_daq c)); eauto]. apply (daq_fine c m l s o R RD); cbn; auto.
  - destruct (c_daq c) eqn:O; [|eapply (off_fine c m l s o e 0xDE t (h_start_stop_list c) (c_daq c)); eauto]. apply (daq_fine c m l s o R RD); cbn; auto.
  - destruct (c_daq c && c_opt c 0xD8) eqn:O; [|eapply (off_fine c m l s o e 0xD8 t (h_daq_list_info c) (c_daq c && c_opt c 0xD8)); eauto]. apply andb_true_iff in O. destruct O. apply (daq_fine c m l s o R RD); cbn; auto 8.
  - destruct (c_daq c && c_opt c 0xD5) eqn:O; [|eapply (off_fine c m l s o e 0xD5 t (h_alloc_daq c) (c_daq c && c_opt c 0xD5)); eauto]. apply andb_true_iff in O. destruct O. apply (daq_fine c m l s o R RD); cbn; auto 8.
  - destruct (c_daq c && c_opt c 0xD4) eqn:O; [|eapply (off_fine c m l s o e 0xD4 t (h_alloc_odt c) (c_daq c && c_opt c 0xD4)); eauto]. apply andb_true_iff in O. destruct O. apply (daq_fine c m l s o R RD); cbn; auto 8.
  - destruct (c_daq c && c_opt c 0xD3) eqn:O; [|eapply (off_fine c m l s o e 0xD3 t (h_alloc_odt_entry c) (c_daq c && c_opt c 0xD3)); eauto]. apply andb_true_iff in O. destruct O. apply (daq_fine c m l s o R RD); cbn; auto 8.
  - destruct (c_daq c && c_opt c 0xC7) eqn:O; [|eapply (off_fine c m l s o e 0xC7 t (h_write_daq_multiple c) (c_daq c && c_opt c 0xC7)); eauto]. apply andb_true_iff in O. destruct O. apply (daq_fine c m l s o R RD); cbn; auto 10.
  - exfalso. assert (Q : 0xC7 <= k); [|lia]. unfold command_rule in Ru.
    assert (G : forall j, (j < 199)%nat -> command_rule c e s (N.of_nat j :: t) (N.of_nat j) -> 0xC7 <= N.of_nat j).
    { intros j Hj. do 199 (destruct j as [|j]; [exact (fun h => h)|]). lia. }
    specialize (G (N.to_nat k) ltac:(lia)). rewrite N2Nat.id in G. apply G. exact Ru.
Qed.
Lemma op_fine : forall c m l s o e x, reachable c m l s o -> wf_op c (e, x) -> c_lock c = LockRecursive -> c_max_ent c < 65536 -> stamp_ok c ->
  rule c e s x -> defined c e x s.
Proof.
  intros c m l s o e x R (We & Wx) K Sm So Ru. assert (W : wf_cfg c) by apply R. pose proof (reach_lo _ _ _ _ _ R) as L. pose proof (reach_pdu _ _ _ _ _ R) as Pd.
  cbn [fst snd] in *. destruct x as [f| |ev|k i|k i|a bs| |x a|b|]; cbn [rule] in Ru.
  - destruct f as [|k t]; [now exists s, []|]. destruct Ru as (Lf & Ru).
    destruct (s_conn s) eqn:C; [|eapply safe_unready; eauto; intros (X & _); congruence].
    destruct (s_busy s) eqn:B; [eapply safe_unready; eauto; intros (_ & X); congruence|].
    apply (command_fine c m l s o e k t); auto; [split; auto|inversion Wx; auto|apply Ru; split; auto].
  - apply (iff_main c m l s o e R K). exact Ru.
  - eapply trigger_fine; eauto.
  - apply defined_fine. cbn [step]. destruct (c_ev_api c); [now apply special_fine|apply fine_ok].
  - apply defined_fine. cbn [step]. destruct (c_srv_api c); [now apply special_fine|apply fine_ok].
  - now exists (set_s_mem (mwrite (s_mem s) a bs) s), [].
  - apply defined_fine. cbn [step]. destruct (fine_disc c Pd s) as (s1 & E). rewrite E. apply fine_ok.
  - now exists (set_mta x a s), [].
  - apply defined_fine. cbn [step]. destruct (busy_rec c b s K) as (h & E). rewrite E. apply fine_ok.
  - apply defined_fine. cbn [step]. unfold xcp_init. cbv zeta. match goal with |- context [daq_init_st c ?x] => destruct (fine_init c x Pd) as (s1 & E) end.
    rewrite E. apply fine_ok.
Qed.
Lemma run_fine : forall c m l' l s o, reachable c m l s o -> wf_run c l' -> c_lock c = LockRecursive -> c_max_ent c < 65536 -> stamp_ok c ->
  abides c l' s -> exists s' o', run c l' s = Ok (s', o').
Proof.
  induction l' as [|(e & x) l' IH]; intros l s o R Wr K Sm So A; [now exists s, []|]. inversion Wr as [|y z Wx Wr']; subst.
  destruct A as (Ru & A). destruct (op_fine c m l s o e x R Wx K Sm So Ru) as (s1 & o1 & E).
  destruct (IH (l ++ [(e, x)]) s1 (o ++ o1) (reach_step _ _ _ _ _ _ _ _ _ R Wx E) Wr' K Sm So (A _ _ E)) as (s2 & o2 & E2).
  exists s2, (o1 ++ o2). cbn [run]. unfold andthen. rewrite E. cbn [bind]. rewrite E2. reflexivity.
Qed.

(** Abiding runs, for concrete cases. *)
Lemma demo_snoc : forall c e l x, demo_ok c e (l ++ [x]) = true ->
  exists o, step c e x (demo_st c e l) = Ok (demo_st c e (l ++ [x]), o).
Proof.
  intros c e l x H. apply andb_true_iff in H. destruct H as (_ & H). unfold demo_st, demo in *. destruct (boot c mem0) as [s0|]; [|discriminate].
  cbn [bind] in *. rewrite map_app in *. cbn [map] in *. destruct (run c (map (pair e) l ++ [(e, x)]) s0) as [(s & o)|] eqn:E; [|discriminate].
  apply run_app in E. destruct E as (s1 & o1 & o2 & E1 & E2 & _). rewrite E1. cbn [run] in E2. unfold andthen in E2.
  apply bind_Ok in E2. destruct E2 as ((s2 & o3) & E2 & E3). cbn [bind] in E3. injection E3 as <- _. exists o3. exact E2.
Qed.
Lemma abides_demo : forall c e l x r, demo_ok c e (l ++ [x]) = true -> rule c e (demo_st c e l) x ->
  abides c (map (pair e) r) (demo_st c e (l ++ [x])) -> abides c (map (pair e) (x :: r)) (demo_st c e l).
Proof.
  intros c e l x r H Ru A. destruct (demo_snoc _ _ _ _ H) as (o & E). cbn [map abides]. split; [exact Ru|].
  intros s' o' E'. rewrite E in E'. injection E' as <- _. exact A.
Qed.
