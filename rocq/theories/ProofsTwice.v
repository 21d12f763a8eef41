(** Repeated allocation for one ODT or one list (C143). *)
From Coq Require Import NArith ZArith List Bool Lia ZifyBool ZifyNat ZifyN.
From Verif Require Import Base Config Codec Checksum State Queue Daq Core Spec Lists Effects Handlers HTx HInv HInv2
  HFields HResp DaqInv HSpec Steps Demo Ops ProofsSession Exec ProofsFrames SpecProt ProofsProt SpecMem ProofsMem ProofsWrite SpecDaq ProofsDaqA ProofsDaqB ProofsDaqC ProofsDaqD SpecTwice.
Import ListNotations.
Open Scope N_scope.
Ltac Zify.zify_post_hook ::= Z.div_mod_to_equations.

Lemma rep_loosely : forall fo fe c d t, represents_by fo fe c d t -> loosely_by fo fe c d t.
Proof. intros fo fe c d t [r1 r2 r3 r4 r5 r6 r7 r8 r9 r10 r11]. constructor; auto. lia. Qed.

Section Entries.
Variables (c : cfg) (W : wf_cfg c) (Small : c_max_ent c < 65536).
Lemma lo_odt_index : forall d t l o es fo fe, dinv c d -> loosely_by fo fe c d t -> odt_at t l o = Some es ->
  odt_index c d l o = Ok (fo l + o) /\ fo l + o < c_max_ent c.
Proof.
  intros d t l o es fo fe I R H. destruct (odt_list _ _ _ _ H) as (os & H1 & H2).
  pose proof (k_odt_in _ _ _ _ _ R _ _ _ H) as B. pose proof (hdr_val _ _ _ _ (k_list _ _ _ _ _ R _ _ H1)) as E.
  pose proof (d_layout _ _ I) as (L1 & L2 & _). rewrite (d_len _ _ I) in L2. pose proof (k_count _ _ _ _ _ R).
  unfold odt_index. rewrite E. cbn [bind]. rewrite (N.mod_small (fo l)) by (pose proof (ent_lt_we c W); lia).
  rewrite we_mod by (auto; lia). split; [auto|lia].
Qed.
Lemma lo_alloc_entry : forall d t l o old n d' fo fe, dinv c d -> loosely_by fo fe c d t -> n < 65536 ->
  odt_at t l o = Some old -> daq_alloc_entry c l o n d = Ok (d', 0xFF) ->
  loosely_by fo (fun x y => if (x =? l) && (y =? o) then d_ecnt d else fe x y) c d'
    (put_entries t l o (repeat (0, 0) (N.to_nat n))).
Proof.
  intros d t l o old n d' fo fe I R Hn Ho H. unfold daq_alloc_entry in H. destruct (allowed (d_alloc d) TEntry) eqn:A; cbn [negb] in H.
  2:{ unfold seq_error in H. destruct (c_reset_seq c); [apply bind_Ok in H; destruct H as (? & _ & H)|]; discriminate. }
  pose proof (d_layout _ _ I) as (L1 & L2 & _).
  pose proof (lo_odt_index _ _ _ _ _ _ _ I R Ho) as (_ & Bi).
  destruct R as [r_lists0 r_odts0 r_count0 r_list0 r_odt0 r_entry0 r_odt_in0 r_entry_in0 r_odt_one0 r_entry_one0 r_free0].
  rewrite (d_len _ _ I) in L2. pose proof (d_len _ _ I) as Dl.
  rewrite ent_sum_exact in H by auto. destruct (N.ltb_spec (c_max_ent c) (d_ecnt d + n)) as [|Hf]; [discriminate|].
  destruct (odt_list _ _ _ _ Ho) as (os & Hg & Hgo). pose proof (getN_Some_lt _ _ _ _ Hg) as Hl. pose proof (getN_Some_lt _ _ _ _ Hgo) as Hlo.
  pose proof (r_list0 _ _ Hg) as Hh. pose proof (r_odt_in0 _ _ _ Ho) as Bo.
  set (es1 := on_range (set_kind KEntry) (d_ecnt d) (d_ecnt d + n) (d_ents d)) in *.
  assert (Hb1 : forall i, option_map en_body (getN es1 i) = body_at d i).
  { intro i. unfold es1. rewrite body_kind by lia. reflexivity. }
  assert (Hl1 : lenN es1 = lenN (d_ents d)) by (unfold es1; apply lenN_on_range; lia).
  assert (Hv : hdr_at (set_d_ents es1 (set_d_alloc AEntry d)) l = Ok (lenN os, fo l)).
  { apply hdr_val. eapply header_same; [|exact Hh]. unfold body_at at 1. ss. apply Hb1. }
  rewrite Hv in H. cbn [bind] in H.
  assert (Eo : u16 o = o) by (unfold u16; apply N.mod_small; lia). rewrite Eo in H. rewrite we_mod in H by auto.
  apply bind_Ok in H. destruct H as (e & H1 & H). injection H as <-.
  pose proof (ent_lt_we c W) as Ww.
  rewrite !N.mod_small by lia. assert (Eu : u16 (d_ecnt d) = d_ecnt d) by (unfold u16; apply N.mod_small; lia). rewrite Eu.
  set (d2 := set_d_ecnt _ _).
  assert (Hb : forall i, body_at d2 i = if fo l + o =? i then Some (BHdr n (d_ecnt d)) else body_at d i).
  { intro i. unfold body_at, d2. ss. fold es1. rewrite body_upd by lia. rewrite Hb1. reflexivity. }
  clear H1. clearbody es1.
  unfold put_entries. rewrite Hg. rewrite !put_upd by auto.
  assert (Q1 : lenN (concat (updN t l (updN os o (repeat (0, 0) (N.to_nat n))))) = lenN (concat t)).
  { pose proof (concat_upd_len _ _ _ _ (updN os o (repeat (0, 0) (N.to_nat n))) Hg) as X. rewrite lenN_upd in X. lia. }
  assert (Q4 : forall l' o' es, odt_at (updN t l (updN os o (repeat (0, 0) (N.to_nat n)))) l' o' = Some es ->
     (l' = l /\ o' = o /\ es = repeat (0, 0) (N.to_nat n)) \/ ((l' =? l) && (o' =? o) = false /\ odt_at t l' o' = Some es)).
  { intros l' o' es H. rewrite odt_upd in H by auto. destruct (N.eqb_spec l l') as [->|Nl].
    - destruct (N.eqb_spec o' o) as [->|No].
      + rewrite getN_upd_same in H by auto. injection H as <-. auto.
      + rewrite getN_upd_other in H by congruence. right. split; [apply andb_false_r|]. unfold odt_at. now rewrite Hg.
    - right. split; [|auto]. destruct (N.eqb_spec l' l); [congruence|reflexivity]. }
  assert (Q3 : forall l' o' k y, entry_at (updN t l (updN os o (repeat (0, 0) (N.to_nat n)))) l' o' k = Some y ->
     (l' = l /\ o' = o /\ k < n /\ y = (0, 0)) \/ ((l' =? l) && (o' =? o) = false /\ entry_at t l' o' k = Some y)).
  { intros l' o' k y H. destruct (entry_odt _ _ _ _ _ H) as (es & H1 & H2). destruct (Q4 _ _ _ H1) as [(-> & -> & ->)|(Nl & Hx)].
    - left. rewrite getN_repeat in H2. destruct (N.ltb_spec k (N.of_nat (N.to_nat n))); [|discriminate]. injection H2 as <-.
      repeat split; lia.
    - right. split; [auto|]. unfold entry_at. now rewrite Hx. }
  assert (Q5 : d_lcnt d2 = lenN t /\ d_ocnt d2 = lenN (concat t) /\ d_ecnt d2 = d_ecnt d + n).
  { unfold d2. ss. auto. }
  destruct Q5 as (Q5 & Q6 & Q7). clearbody d2.
  constructor; rewrite ?lenN_upd, ?Q1, ?Q5, ?Q6, ?Q7; auto; try lia.
  - intros l' os' H. destruct (N.eqb_spec l' l) as [->|Nl].
    + rewrite getN_upd_same in H by auto. injection H as <-. rewrite lenN_upd.
      eapply header_same; [|exact Hh]. rewrite Hb. destruct (N.eqb_spec (fo l + o) l); [lia|auto].
    + rewrite getN_upd_other in H by congruence. eapply header_same; [|exact (r_list0 _ _ H)]. rewrite Hb.
      pose proof (getN_Some_lt _ _ _ _ H). destruct (N.eqb_spec (fo l + o) l'); [lia|auto].
  - intros l' o' es H. destruct (Q4 _ _ _ H) as [(-> & -> & ->)|(Nl & Hx)].
    + rewrite !N.eqb_refl. left. rewrite Hb, N.eqb_refl, lenN_repeat. cbn [andb]. f_equal. f_equal. lia.
    + rewrite Nl. eapply header_same; [|exact (r_odt0 _ _ _ Hx)]. rewrite Hb.
      destruct (N.eqb_spec (fo l + o) (fo l' + o')); [|auto]. destruct (r_odt_one0 _ _ _ _ _ _ Ho Hx e0) as (-> & ->).
      rewrite !N.eqb_refl in Nl. discriminate.
  - intros l' o' k y H. destruct (Q3 _ _ _ _ H) as [(-> & -> & Hk & ->)|(Nl & Hx)].
    + rewrite !N.eqb_refl. cbn [andb]. right. rewrite Hb. destruct (N.eqb_spec (fo l + o) (d_ecnt d + k)); [lia|].
      split; [apply r_free0; lia|auto].
    + rewrite Nl. eapply holds_same; [|exact (r_entry0 _ _ _ _ Hx)]. rewrite Hb. pose proof (r_entry_in0 _ _ _ _ Hx).
      destruct (N.eqb_spec (fo l + o) (fe l' o' + k)); [lia|auto].
  - intros l' o' es H. destruct (Q4 _ _ _ H) as [(-> & -> & ->)|(Nl & Hx)]; eauto.
  - intros l' o' k y H. destruct (Q3 _ _ _ _ H) as [(-> & -> & Hk & ->)|(Nl & Hx)].
    + rewrite !N.eqb_refl. cbn [andb]. lia.
    + rewrite Nl. pose proof (r_entry_in0 _ _ _ _ Hx). lia.
  - intros l1 o1 l2 o2 ea eb Ha Hc E. destruct (Q4 _ _ _ Ha) as [(-> & -> & ->)|(Nl & Hx)], (Q4 _ _ _ Hc) as [(-> & -> & ->)|(Nl' & Hx')];
     eauto.
  - intros l1 o1 k1 l2 o2 k2 ya yb Ha Hc.
    destruct (Q3 _ _ _ _ Ha) as [(-> & -> & Hk & ->)|(Nl & Hx)], (Q3 _ _ _ _ Hc) as [(-> & -> & Hk' & ->)|(Nl' & Hx')];
      rewrite ?Nl, ?Nl', ?N.eqb_refl; cbn [andb]; intro E.
    + repeat split; lia.
    + pose proof (r_entry_in0 _ _ _ _ Hx'). lia.
    + pose proof (r_entry_in0 _ _ _ _ Hx). lia.
    + eauto.
  - intros i Hi. rewrite Hb. destruct (N.eqb_spec (fo l + o) i); [lia|]. apply r_free0. lia.
Qed.
Lemma lo_entry_index : forall d t l o k x fo fe, dinv c d -> loosely_by fo fe c d t -> entry_at t l o k = Some x ->
  entry_index c d l o k = Ok (fe l o + k) /\ fe l o + k < c_max_ent c.
Proof.
  intros d t l o k x fo fe I R H. destruct (entry_odt _ _ _ _ _ H) as (es & H1 & H2).
  destruct (lo_odt_index _ _ _ _ _ _ _ I R H1) as (E1 & B1).
  pose proof (k_entry_in _ _ _ _ _ R _ _ _ _ H) as B. pose proof (hdr_val _ _ _ _ (k_odt _ _ _ _ _ R _ _ _ H1)) as E.
  pose proof (d_layout _ _ I) as (L1 & L2 & _). rewrite (d_len _ _ I) in L2.
  unfold entry_index. rewrite E1. cbn [bind]. rewrite E. cbn [bind].
  assert (Eu : u16 k = k) by (unfold u16; apply N.mod_small; lia). rewrite Eu, we_mod by (auto; lia). split; [auto|lia].
Qed.
Lemma lo_write : forall d t sz a x d' fo fe, dinv c d -> loosely_by fo fe c d t ->
  entry_at t (d_plist d) (d_podt d) (d_pent d) = Some x -> write_daq_entry c sz a d = Ok d' ->
  loosely_by fo fe c d' (put_entry t (d_plist d) (d_podt d) (d_pent d) (a, sz)).
Proof.
  intros d t sz a x d' fo fe I R He H.
  pose proof (lo_entry_index _ _ _ _ _ _ _ _ I R He) as (Ei & Bi). pose proof (d_len _ _ I) as Dl.
  unfold write_daq_entry in H. rewrite Ei in H. cbn [bind] in H. apply bind_Ok in H. destruct H as (e & H1 & H).
  injection H as <-. set (l := d_plist d) in *. set (o := d_podt d) in *. set (k := d_pent d) in *.
  set (d2 := set_d_pent _ _).
  assert (Hb : forall i, body_at d2 i = if fe l o + k =? i then Some (BEnt a sz) else body_at d i).
  { intro i. unfold body_at, d2. ss. rewrite body_upd by lia. reflexivity. }
  assert (Q5 : d_lcnt d2 = d_lcnt d /\ d_ocnt d2 = d_ocnt d /\ d_ecnt d2 = d_ecnt d) by (unfold d2; ss; auto).
  destruct Q5 as (Q5 & Q6 & Q7). clear H1. clearbody d2.
  destruct R as [r_lists0 r_odts0 r_count0 r_list0 r_odt0 r_entry0 r_odt_in0 r_entry_in0 r_odt_one0 r_entry_one0 r_free0].
  destruct (entry_odt _ _ _ _ _ He) as (es & Ho & Hk). destruct (odt_list _ _ _ _ Ho) as (os & Hg & Hgo).
  pose proof (getN_Some_lt _ _ _ _ Hg) as Hl. pose proof (getN_Some_lt _ _ _ _ Hgo) as Hlo. pose proof (getN_Some_lt _ _ _ _ Hk) as Hlk.
  pose proof (r_entry_in0 _ _ _ _ He) as Be.
  unfold put_entry. rewrite Ho. unfold put_entries. rewrite Hg. rewrite !put_upd by auto.
  set (os' := updN os o (updN es k (a, sz))).
  assert (Q1 : lenN (concat (updN t l os')) = lenN (concat t)).
  { pose proof (concat_upd_len _ _ _ _ os' Hg) as X. unfold os' in *. rewrite lenN_upd in X. lia. }
  assert (Q2 : lenN (concat (concat (updN t l os'))) = lenN (concat (concat t))).
  { pose proof (concat2_upd_len _ _ _ _ os' Hg) as X.
    pose proof (concat_upd_len _ _ _ _ (updN es k (a, sz)) Hgo) as Y. rewrite lenN_upd in Y. fold os' in Y. lia. }
  assert (Q4 : forall l' o' es', odt_at (updN t l os') l' o' = Some es' -> exists es0, odt_at t l' o' = Some es0 /\ lenN es0 = lenN es' /\
     (l' = l /\ o' = o /\ es0 = es /\ es' = updN es k (a, sz) \/ (l' <> l \/ o' <> o) /\ es0 = es')).
  { intros l' o' es' H. rewrite odt_upd in H by auto. destruct (N.eqb_spec l l') as [<-|Nl].
    - unfold os' in H. destruct (N.eqb_spec o' o) as [->|No].
      + rewrite getN_upd_same in H by auto. injection H as <-. exists es. rewrite lenN_upd. auto 10.
      + rewrite getN_upd_other in H by congruence. exists es'. split; [|auto]. unfold odt_at. now rewrite Hg.
    - exists es'. split; [auto|]. split; [auto|]. right. split; [left; congruence|auto]. }
  assert (Q3 : forall l' o' k' y, entry_at (updN t l os') l' o' k' = Some y -> exists y0, entry_at t l' o' k' = Some y0 /\
     (l' = l /\ o' = o /\ k' = k /\ y = (a, sz) \/ (l' <> l \/ o' <> o \/ k' <> k) /\ y0 = y)).
  { intros l' o' k' y H. destruct (entry_odt _ _ _ _ _ H) as (es' & H1 & H2).
    destruct (Q4 _ _ _ H1) as (es0 & X & _ & [(-> & -> & -> & ->)|(N & ->)]).
    - destruct (N.eqb_spec k' k) as [->|Nk].
      + rewrite getN_upd_same in H2 by auto. injection H2 as <-. exists x. auto 10.
      + rewrite getN_upd_other in H2 by congruence. exists y. unfold entry_at. rewrite X. split; [auto|]. right. auto.
    - exists y. unfold entry_at. rewrite X. split; [auto|]. right. split; [tauto|auto]. }
  constructor; rewrite ?lenN_upd, ?Q1, ?Q2, ?Q5, ?Q6, ?Q7; auto.
  - intros l' os1 H. pose proof (getN_Some_lt _ _ _ _ H) as Hx. rewrite lenN_upd in Hx.
    assert (Hb' : body_at d2 l' = body_at d l') by (rewrite Hb; destruct (N.eqb_spec (fe l o + k) l'); [lia|auto]).
    destruct (N.eqb_spec l' l) as [->|Nl].
    + rewrite getN_upd_same in H by auto. injection H as <-. unfold os'. rewrite lenN_upd. eapply header_same; eauto.
    + rewrite getN_upd_other in H by congruence. eapply header_same; eauto.
  - intros l' o' es' H. destruct (Q4 _ _ _ H) as (es0 & X & E & _). rewrite <- E. eapply header_same; [|eauto].
    rewrite Hb. pose proof (r_odt_in0 _ _ _ X). destruct (N.eqb_spec (fe l o + k) (fo l' + o')); [lia|auto].
  - intros l' o' k' y H. destruct (Q3 _ _ _ _ H) as (y0 & X & [(-> & -> & -> & ->)|(N & ->)]).
    + left. rewrite Hb, N.eqb_refl. reflexivity.
    + eapply holds_same; [|eauto]. rewrite Hb. destruct (N.eqb_spec (fe l o + k) (fe l' o' + k')); [|auto].
      destruct (r_entry_one0 _ _ _ _ _ _ _ _ He X e0) as (-> & -> & ->). tauto.
  - intros l' o' es' H. destruct (Q4 _ _ _ H) as (es0 & X & E & _). eauto.
  - intros l' o' k' y H. destruct (Q3 _ _ _ _ H) as (y0 & X & _). eauto.
  - intros l1 o1 l2 o2 ea eb Ha Hc E. destruct (Q4 _ _ _ Ha) as (? & X1 & _), (Q4 _ _ _ Hc) as (? & X2 & _). eauto.
  - intros l1 o1 k1 l2 o2 k2 ya yb Ha Hc E. destruct (Q3 _ _ _ _ Ha) as (? & X1 & _), (Q3 _ _ _ _ Hc) as (? & X2 & _). eauto.
  - intros i Hi. rewrite Hb. destruct (N.eqb_spec (fe l o + k) i); [lia|]. apply r_free0. lia.
Qed.
End Entries.

Section Cmds.
Variables (c : cfg) (m : mem) (l : list (env * op)) (s : st) (o : list pkt) (e : env).
Variables (R : reachable c m l s o) (RD : ready s) (D : dlc_ok c) (Op : daq_open c s).
Variables (Sm : c_max_ent c < 65536).
Let W := proj1 R.
Let Hd := proj1 Op.
Let I := i_d _ _ (reach_inv _ _ _ _ _ R).
Let open_rx := open_rx c s Op.
Let stopped_rx := stopped_rx c s Op.
Let write_daq_exec := write_daq_exec c m l s o e R RD Op.
Lemma list_call2 : forall a b t x (fo : N -> N) fe, a < 256 -> b < 256 -> loosely_by fo fe c (s_daq s) t -> getN t (field c [a; b]) = Some x ->
  field c [a; b] mod we c = field c [a; b].
Proof.
  intros a b t x fo fe Ha Hb Rp G. apply mod_we_small; [now apply field2|]. intro F. pose proof (getN_Some_lt _ _ _ _ G). pose proof (k_count _ _ _ _ _ Rp).
  pose proof (d_layout _ _ I) as (L1 & L2 & _). rewrite (d_len _ _ I) in L2. lia.
Qed.
Lemma lo_entry_thm : forall t r a b k n tl old, let f := 0xD3 :: r :: a :: b :: k :: n :: tl in let l' := field c [a; b] in
  loosely c s t -> odt_at t l' k = Some old -> bytes f -> lenN f <= c_ctobuf c -> c_opt c 0xD3 = true ->
  (d_alloc (s_daq s) = AOdt \/ d_alloc (s_daq s) = AEntry) -> d_ecnt (s_daq s) + n <= c_max_ent c ->
  exists d, answers c e f s [0xFF] (with_daq d s) /\ loosely c (with_daq d s) (put_entries t l' k (repeat (0, 0) (N.to_nat n))) /\
    only_tables (s_daq s) d /\ d_alloc d = AEntry.
Proof.
  intros t r a b k n tl old f l' (fo & fe & Rp) Go Wf Hl Ho Ha Hn. destruct (odt_list _ _ _ _ Go) as (os & G & Gk).
  inversion Wf as [|? ? _ W1]; subst. inversion W1 as [|? ? _ W2]; subst. inversion W2 as [|? ? Xa W3]; subst. inversion W3 as [|? ? Xb W4]; subst. inversion W4 as [|? ? Xk W5]; subst.
  inversion W5 as [|? ? Xn _]; subst.
  assert (Ec : step c e (ORecv f) s = ('(d, r) <- daq_alloc_entry c l' k n (s_daq s) ;; send_result c r (set_s_daq d (rx c f s)))).
  { unfold f. assert (En : entry c 0xD3 = Some (h_alloc_odt_entry c)) by tbl. rewrite (exec_val c m l s o e 0xD3 _ _ R RD Hl En).
    unfold h_alloc_odt_entry. rewrite open_rx, rx_in, gw_eq. change (gb (rxbuf s _) 4) with k. change (gb (rxbuf s _) 5) with n. change (gb (rxbuf s _) 2) with a. change (gb (rxbuf s _) (2 + 1)) with b.
    now rewrite (list_call2 a b _ _ _ _ Xa Xb Rp G). }
  destruct (d_layout _ _ I) as (L1 & L2 & L3). rewrite (d_len _ _ I) in L2. pose proof (d_len _ _ I) as Dl.
  destruct (lo_odt_index c W Sm _ _ _ _ _ _ _ I Rp Go) as (_ & Bi).
  assert (E : exists d, daq_alloc_entry c l' k n (s_daq s) = Ok (d, 0xFF) /\ only_tables (s_daq s) d /\ d_alloc d = AEntry).
  { unfold daq_alloc_entry. replace (negb (allowed (d_alloc (s_daq s)) TEntry)) with false by (destruct Ha as [->| ->]; reflexivity).
    rewrite ent_sum_exact by (auto; lia). destruct (N.ltb_spec (c_max_ent c) (d_ecnt (s_daq s) + n)); [lia|].
    set (d1 := set_d_ents _ _).
    assert (Sb : forall i, body_at d1 i = body_at (s_daq s) i) by (intro i; unfold body_at, d1; ss; apply body_kind; lia).
    assert (Hh : header d1 l' (lenN os) (fo l')) by (eapply header_same; [apply Sb|exact (k_list _ _ _ _ _ Rp _ _ G)]).
    apply hdr_val in Hh. rewrite Hh. cbn [bind]. replace (u16 k) with k by (unfold u16; symmetry; apply N.mod_small; lia). rewrite we_mod by (auto; lia).
    assert (Ho' : header d1 (fo l' + k) (lenN old) (fe l' k)) by (eapply header_same; [apply Sb|exact (k_odt _ _ _ _ _ Rp _ _ _ Go)]).
    apply hdr_val in Ho'. unfold hdr_at in Ho'. apply bind_Ok in Ho'. destruct Ho' as (x & X1 & X2). rewrite X1. cbn [bind].
    eexists. split; [reflexivity|]. split; [|reflexivity]. repeat split. }
  destruct E as (d & E & O & A). exists d. rewrite E in Ec. cbn [bind] in Ec. split; [|split; [|auto]].
  - unfold answers. rewrite Ec. apply pos_ans; auto; [exact (rx_out c m l s o f R)|apply (ss_daq c s)].
  - unfold loosely, with_daq. ss. do 2 eexists. eapply lo_alloc_entry; eauto. lia.
Qed.
Lemma validate_lo : forall t l' k j, loosely c s t ->
  validate_entry c l' k j (s_daq s) = Ok (match entry_at t l' k j with Some _ => true | None => false end).
Proof.
  intros t l' k j (fo & fe & Rp). unfold validate_entry. rewrite !narrow by exact Sm. rewrite (k_lists _ _ _ _ _ Rp).
  destruct (N.leb_spec (lenN t) l') as [Hl|Hl].
  - unfold entry_at, odt_at. now rewrite get_none by lia.
  - destruct (getN_lt_Some _ _ _ Hl) as (os & G). rewrite (hdr_val _ _ _ _ (k_list _ _ _ _ _ Rp _ _ G)). cbn [bind]. rewrite narrow by exact Sm.
    destruct (N.leb_spec (lenN os) k) as [Hk|Hk].
    + unfold entry_at, odt_at. now rewrite G, get_none by lia.
    + destruct (getN_lt_Some _ _ _ Hk) as (es & Ge). assert (Go : odt_at t l' k = Some es) by (unfold odt_at; now rewrite G).
      destruct (lo_odt_index c W Sm _ _ _ _ _ _ _ I Rp Go) as (E1 & _). rewrite E1. cbn [bind].
      rewrite (hdr_val _ _ _ _ (k_odt _ _ _ _ _ Rp _ _ _ Go)). cbn [bind]. rewrite narrow by exact Sm. unfold entry_at. rewrite Go.
      destruct (N.leb_spec (lenN es) j) as [Hj|Hj]; [now rewrite get_none by lia|]. destruct (getN_lt_Some _ _ _ Hj) as (x & Gx). now rewrite Gx.
Qed.
Lemma lo_ptr_thm : forall t r a b k j tl, let f := 0xE2 :: r :: a :: b :: k :: j :: tl in let l' := field c [a; b] in
  loosely c s t -> ~ measuring s -> bytes f -> lenN f <= c_ctobuf c -> fits c l' ->
  match entry_at t l' k j with
  | Some _ => answers c e f s [0xFF] (with_daq (set_d_pent j (set_d_podt k (set_d_plist l' (s_daq s)))) s)
  | None => refuses c e f s 0x22
  end.
Proof.
  intros t r a b k j tl f l' Rp M Wf Hl Fl.
  inversion Wf as [|? ? _ W1]; subst. inversion W1 as [|? ? _ W2]; subst. inversion W2 as [|? ? Xa W3]; subst. inversion W3 as [|? ? Xb _]; subst.
  assert (Ec : step c e (ORecv f) s = (ok <- validate_entry c l' k j (s_daq s) ;;
     if negb ok then err c 0x22 (rx c f s) else pos c (upd_daq (fun d => set_d_pent j (set_d_podt k (set_d_plist l' d))) (rx c f s)))).
  { unfold f. assert (En : entry c 0xE2 = Some (h_set_daq_ptr c)) by tbl. rewrite (exec_val c m l s o e 0xE2 _ _ R RD Hl En).
    unfold h_set_daq_ptr. rewrite stopped_rx by exact M. rewrite rx_in, gw_eq. change (gb (rxbuf s _) 4) with k. change (gb (rxbuf s _) 5) with j. change (gb (rxbuf s _) 2) with a. change (gb (rxbuf s _) (2 + 1)) with b.
    fold l'. rewrite mod_we_small by (auto; now apply field2). reflexivity. }
  rewrite (validate_lo t l' k j Rp) in Ec. cbn [bind] in Ec. destruct (entry_at t l' k j); cbn [negb] in Ec.
  - unfold answers. rewrite Ec. apply pos_ans; auto; [exact (rx_out c m l s o f R)|apply (ss_daq c s)].
  - unfold refuses, answers. rewrite Ec. apply err_ans; auto; [exact (rx_out c m l s o f R)|lia|apply ss_rx].
Qed.
Lemma lo_write_thm : forall t r n x a0 a1 a2 a3 tl y, let f := 0xE1 :: r :: n :: x :: a0 :: a1 :: a2 :: a3 :: tl in
  let d := s_daq s in
  loosely c s t -> ~ measuring s -> lenN f <= c_ctobuf c -> entry_at t (d_plist d) (d_podt d) (d_pent d) = Some y ->
  exists es, let d' := set_d_pent (d_pent d + 1) (set_d_ents es d) in
    answers c e f s [0xFF] (with_daq d' s) /\
    loosely c (with_daq d' s) (put_entry t (d_plist d) (d_podt d) (d_pent d) (field c [a0; a1; a2; a3], n)).
Proof.
  intros t r n x a0 a1 a2 a3 tl y f d (fo & fe & Rp) M Hl V. pose proof (write_daq_exec r n x a0 a1 a2 a3 tl M Hl) as Ec. fold f in Ec.
  destruct (lo_entry_index c W Sm _ _ _ _ _ _ _ _ I Rp V) as (Ei & Bi). fold d in Ei.
  assert (Bk : d_pent d + 1 < we c) by (pose proof (ent_lt_we c W); destruct (entry_odt _ _ _ _ _ V) as (es & O1 & O2); pose proof (k_entry_in _ _ _ _ _ Rp _ _ _ _ V); destruct (d_layout _ _ I) as (L1 & L2 & _); rewrite (d_len _ _ I) in L2; pose proof (k_count _ _ _ _ _ Rp); destruct (odt_list _ _ _ _ O1) as (os & O3 & _); pose proof (getN_Some_lt _ _ _ _ O3); lia).
  destruct (write_daq_entry c n (field c [a0; a1; a2; a3]) (s_daq s)) as [d'|u] eqn:E.
  - pose proof (lo_write c W Sm _ _ _ _ _ _ _ _ I Rp V E) as R1. cbn [bind] in Ec.
    exists (d_ents d'). assert (Ed : d' = set_d_pent (d_pent d + 1) (set_d_ents (d_ents d') d)).
    { unfold write_daq_entry in E. fold d in E. rewrite Ei in E. cbn [bind] in E. apply bind_Ok in E. destruct E as (z & _ & E). injection E as <-.
      rewrite N.mod_small by exact Bk. reflexivity. }
    cbv zeta. rewrite <- Ed. split; [|unfold loosely, with_daq; ss; eauto].
    unfold answers. rewrite Ec. apply pos_ans; auto; [exact (rx_out c m l s o f R)|apply (ss_daq c s)].
  - exfalso. unfold write_daq_entry in E. fold d in E. rewrite Ei in E. cbn [bind] in E. unfold ent_at in E.
    destruct (getN_lt_Some _ (d_ents d) (fe (d_plist d) (d_podt d) + d_pent d)) as (z & G); [unfold d; rewrite (d_len _ _ I); exact Bi|]. rewrite G in E. discriminate.
Qed.
End Cmds.

(** ** ALLOC_ODT for a list that has ODTs *)
Section Tables.
Variables (c : cfg) (W : wf_cfg c) (Small : c_max_ent c < 65536).
Variables (l E a n k : N).
Variables (Hl : l < E) (Ha : 1 <= a) (Hn : 1 <= n < 256) (Hk : 1 <= k < 256) (Hr : a + E + n + k <= c_max_ent c + a) (Hae : a <= E).

Lemma hdr_body : forall d i x y, body_at d i = Some (BHdr x y) -> hdr_at d i = Ok (x, y).
Proof. intros. apply hdr_val. now left. Qed.
Lemma at_body : forall d i b, body_at d i = Some b -> exists z, ent_at d i = Ok z /\ en_body z = b.
Proof. intros d i b H. unfold body_at, ent_at in *. destruct (getN (d_ents d) i) as [z|]; [|discriminate]. injection H as H. eauto. Qed.
Lemma sml : forall x, x < c_max_ent c -> x mod we c = x /\ u16 x = x.
Proof. intros x H. split; [now apply we_mod|]. unfold u16. apply N.mod_small. change (2 ^ 16) with 65536. lia. Qed.

Lemma twice_odts : forall d f, lenN (d_ents d) = c_max_ent c -> d_ecnt d = E -> d_alloc d = AOdt -> header d l a f ->
  (forall i, E <= i < c_max_ent c -> body_at d i = Some BZero) ->
  exists d1, daq_alloc_odt c l n d = Ok (d1, 0xFF) /\ lenN (d_ents d1) = c_max_ent c /\ d_ecnt d1 = E + n /\ d_alloc d1 = AOdt /\ d_lcnt d1 = d_lcnt d /\ d_run d1 = d_run d /\
    body_at d1 l = Some (BHdr (a + n) E) /\ forall i, E <= i < c_max_ent c -> body_at d1 i = Some BZero.
Proof.
  intros d f L Ec Al H F. unfold daq_alloc_odt. rewrite Al. cbn [allowed negb]. rewrite ent_sum_exact by (auto; lia). rewrite Ec.
  destruct (N.ltb_spec (c_max_ent c) (E + n)); [lia|]. set (d1 := set_d_ents _ _).
  assert (Sb : forall i, body_at d1 i = body_at d i) by (intro i; unfold body_at, d1; ss; apply body_kind; lia).
  assert (L1 : lenN (d_ents d1) = c_max_ent c) by (unfold d1; ss; rewrite lenN_on_range; lia).
  assert (Hh : header d1 l a f) by (eapply header_same; [apply Sb|exact H]). apply hdr_val in Hh. unfold hdr_at in Hh. apply bind_Ok in Hh. destruct Hh as (x & X1 & X2).
  rewrite X1. cbn [bind]. rewrite X2. cbn [bind]. pose proof (ent_lt_we c W). destruct (sml E ltac:(lia)) as (_ & U). rewrite U, (N.mod_small (a + n)) by lia.
  rewrite (N.mod_small (E + n)) by lia. eexists. split; [reflexivity|]. split; [ss; rewrite lenN_upd; exact L1|]. split; [reflexivity|]. do 3 (split; [reflexivity|]).
  split.
  - unfold body_at. ss. rewrite body_upd by lia. now rewrite N.eqb_refl.
  - intros i Hi. unfold body_at. ss. rewrite body_upd by lia. destruct (N.eqb_spec l i); [lia|]. change (body_at d1 i = Some BZero). rewrite Sb. now apply F.
Qed.
Lemma twice_entries : forall d, lenN (d_ents d) = c_max_ent c -> d_ecnt d = E + n -> d_alloc d = AOdt -> body_at d l = Some (BHdr (a + n) E) ->
  (forall i, E <= i < c_max_ent c -> body_at d i = Some BZero) ->
  exists d1, daq_alloc_entry c l 0 k d = Ok (d1, 0xFF) /\ lenN (d_ents d1) = c_max_ent c /\ d_lcnt d1 = d_lcnt d /\ d_run d1 = d_run d /\
    body_at d1 l = Some (BHdr (a + n) E) /\ body_at d1 E = Some (BHdr k (E + n)) /\ body_at d1 (E + n) = Some BZero.
Proof.
  intros d L Ec Al H F. unfold daq_alloc_entry. rewrite Al. cbn [allowed negb]. rewrite ent_sum_exact by (auto; lia). rewrite Ec.
  destruct (N.ltb_spec (c_max_ent c) (E + n + k)); [lia|]. set (d1 := set_d_ents _ _).
  assert (Sb : forall i, body_at d1 i = body_at d i) by (intro i; unfold body_at, d1; ss; apply body_kind; lia).
  assert (L1 : lenN (d_ents d1) = c_max_ent c) by (unfold d1; ss; rewrite lenN_on_range; lia).
  rewrite (hdr_body d1 l (a + n) E) by (rewrite Sb; exact H). cbn [bind]. change (u16 0) with 0. rewrite N.add_0_r. destruct (sml E ltac:(lia)) as (-> & _).
  destruct (at_body d1 E BZero) as (z & Z1 & Z2); [rewrite Sb; apply F; lia|]. rewrite Z1. cbn [bind]. destruct (sml (E + n) ltac:(lia)) as (_ & ->).
  eexists. split; [reflexivity|]. split; [ss; rewrite lenN_upd; exact L1|]. do 2 (split; [reflexivity|]).
  split; [|split]; unfold body_at; ss; rewrite body_upd by lia.
  - destruct (N.eqb_spec E l); [lia|]. change (body_at d1 l = Some (BHdr (a + n) E)). rewrite Sb. exact H.
  - now rewrite N.eqb_refl.
  - destruct (N.eqb_spec E (E + n)); [lia|]. change (body_at d1 (E + n) = Some BZero). rewrite Sb. apply F. lia.
Qed.
Lemma twice_valid : forall d, l < d_lcnt d -> body_at d l = Some (BHdr (a + n) E) -> body_at d E = Some (BHdr k (E + n)) -> validate_entry c l 0 0 d = Ok true.
Proof.
  intros d Ll H1 H2. unfold validate_entry. rewrite narrow by exact Small. destruct (N.leb_spec (d_lcnt d) l); [lia|]. rewrite (hdr_body _ _ _ _ H1). cbn [bind].
  rewrite narrow by exact Small. destruct (N.leb_spec (a + n) 0); [lia|]. unfold odt_index. rewrite (hdr_body _ _ _ _ H1). cbn [bind]. destruct (sml E ltac:(lia)) as (X & _).
  rewrite X, N.add_0_r, X, (hdr_body _ _ _ _ H2). cbn [bind]. rewrite narrow by exact Small. destruct (N.leb_spec k 0); [lia|]. reflexivity.
Qed.
Lemma twice_write : forall d sz x, lenN (d_ents d) = c_max_ent c -> d_plist d = l -> d_podt d = 0 -> d_pent d = 0 ->
  body_at d l = Some (BHdr (a + n) E) -> body_at d E = Some (BHdr k (E + n)) -> body_at d (E + n) = Some BZero ->
  exists d1, write_daq_entry c sz x d = Ok d1 /\ d_lcnt d1 = d_lcnt d /\ d_run d1 = d_run d /\ body_at d1 l = Some (BHdr (a + n) E) /\ body_at d1 (E + n) = Some (BEnt x sz).
Proof.
  intros d sz x L P1 P2 P3 H1 H2 H3. unfold write_daq_entry. rewrite P1, P2, P3. unfold entry_index, odt_index. rewrite (hdr_body _ _ _ _ H1). cbn [bind]. destruct (sml E ltac:(lia)) as (X & _).
  rewrite X, N.add_0_r, X, (hdr_body _ _ _ _ H2). cbn [bind]. change (u16 0) with 0. rewrite N.add_0_r. destruct (sml (E + n) ltac:(lia)) as (-> & _).
  destruct (at_body _ _ _ H3) as (z & Z1 & Z2). rewrite Z1. cbn [bind]. eexists. split; [reflexivity|]. do 2 (split; [reflexivity|]).
  split; unfold body_at; ss; rewrite body_upd by lia; [|now rewrite N.eqb_refl]. destruct (N.eqb_spec (E + n) l); [lia|exact H1].
Qed.
Lemma twice_wrong : forall d x sz, l < d_lcnt d -> body_at d l = Some (BHdr (a + n) E) -> body_at d (E + n) = Some (BEnt x sz) -> validate_entry c l n 0 d = UB KindPun.
Proof.
  intros d x sz Ll H1 H2. unfold validate_entry. rewrite narrow by exact Small. destruct (N.leb_spec (d_lcnt d) l); [lia|]. rewrite (hdr_body _ _ _ _ H1). cbn [bind].
  rewrite narrow by exact Small. destruct (N.leb_spec (a + n) n); [lia|]. unfold odt_index. rewrite (hdr_body _ _ _ _ H1). cbn [bind]. destruct (sml E ltac:(lia)) as (X & _).
  rewrite X. destruct (sml (E + n) ltac:(lia)) as (-> & _). cbn [bind]. unfold hdr_at. destruct (at_body _ _ _ H2) as (z & -> & Z). cbn [bind]. rewrite Z. reflexivity.
Qed.
End Tables.

(** A session in which DAQ commands are executed. *)
Definition live (c : cfg) (m : mem) (s : st) : Prop := (exists l o, reachable c m l s o) /\ ready s /\ daq_open c s /\ ~ measuring s.
Lemma live_step : forall c m s e f d, live c m s -> wf_op c (e, ORecv f) -> answers c e f s [0xFF] (with_daq d s) -> d_run d = d_run (s_daq s) ->
  exists s1 o1, step c e (ORecv f) s = Ok (s1, o1) /\ accepted o1 /\ live c m s1 /\ s_daq s1 = d.
Proof.
  intros c m s e f d ((l & o & R) & (R1 & R2) & (O1 & O2 & O3) & M) Wo (s1 & o1 & E & P & S) Hr. exists s1, o1. split; [exact E|]. split; [eapply accepted_sends; exact P|].
  unfold same_session, with_daq in S. ss_in S. destruct S as (S1 & S2 & S3 & S4 & _ & _ & _ & _ & _ & _ & _ & _ & _ & S5 & _).
  split; [|exact S5]. split; [do 2 eexists; eapply reach_step; eauto|]. split; [split; congruence|].
  split; [|unfold measuring in *; congruence]. split; [exact O1|]. unfold programming, locked in *. rewrite S3, S4. auto.
Qed.

Theorem twice_thm : forall c m l s o e t a b os n k sz x0 x1 x2 x3,
  reachable c m l s o -> ready s -> dlc_ok c -> daq_open c s -> ~ measuring s -> c_max_ent c < 65536 -> wf_env c e ->
  c_opt c 0xD4 = true -> c_opt c 0xD3 = true -> 8 <= c_ctobuf c ->
  represents c s t -> d_alloc (s_daq s) = AOdt -> getN t (field c [a; b]) = Some os -> 1 <= lenN os ->
  1 <= n -> 1 <= k -> bytes [a; b; n; k; sz; x0; x1; x2; x3] -> d_ecnt (s_daq s) + n + k <= c_max_ent c ->
  exists s1 o1 s2 o2 s3 o3 s4 o4,
    step c e (ORecv [0xD4; 0; a; b; n]) s = Ok (s1, o1) /\ accepted o1 /\
    step c e (ORecv [0xD3; 0; a; b; 0; k]) s1 = Ok (s2, o2) /\ accepted o2 /\
    step c e (ORecv [0xE2; 0; a; b; 0; 0]) s2 = Ok (s3, o3) /\ accepted o3 /\
    step c e (ORecv [0xE1; 0xFF; sz; 0; x0; x1; x2; x3]) s3 = Ok (s4, o4) /\ accepted o4 /\
    step c e (ORecv [0xE2; 0; a; b; n; 0]) s4 = UB KindPun.
Proof.
  intros c m l s o e t a b os n k sz x0 x1 x2 x3 R RD D Op M Sm We O4 O3 Cb (fo & fe & Rp) Al G Ho Hn Hk By Hr.
  pose proof (proj1 R) as W. pose proof (i_d _ _ (reach_inv _ _ _ _ _ R)) as I. pose proof (d_len _ _ I) as Dl. pose proof (proj1 Op) as Hd.
  assert (Bs : a < 256 /\ b < 256 /\ n < 256 /\ k < 256 /\ sz < 256 /\ x0 < 256 /\ x1 < 256 /\ x2 < 256 /\ x3 < 256).
  { repeat match goal with H : bytes (_ :: _) |- _ => inversion H; clear H; subst | H : Forall _ (_ :: _) |- _ => inversion H; clear H; subst end. auto 12. }
  destruct Bs as (Ba & Bb & Bn & Bk & Bsz & B0 & B1 & B2 & B3).
  set (l' := field c [a; b]) in *. set (E := d_ecnt (s_daq s)) in *. set (na := lenN os) in *.
  pose proof (getN_Some_lt _ _ _ _ G) as Ll. pose proof (r_count _ _ _ _ _ Rp) as Rc. fold E in Rc.
  assert (Na : na <= lenN (concat t)).
  { destruct (getN_lt_Some _ os (na - 1)) as (es & Ge); [unfold na in *; lia|]. clear - G. unfold na. pose proof (concat_upd_len _ _ _ _ [] G) as X. change (lenN []) with 0 in X. lia. }
  assert (Fit : l' mod we c = l') by (apply mod_we_small; [now apply field2|]; eapply list_fits; eauto).
  assert (L0 : live c m s) by (split; [eauto|auto]).
  assert (Step : forall s0 f k0 h, live c m s0 -> lenN f <= 8 -> f = k0 :: tl f -> entry c k0 = Some h -> step c e (ORecv f) s0 = h e (rx c f s0)).
  { intros s0 f k0 h ((l0 & o0 & R0) & RD0 & _) Hf Ef En. rewrite Ef. eapply exec_val; eauto. rewrite <- Ef. lia. }
  assert (Rxo : forall s0 f, live c m s0 -> lenN (s_out (rx c f s0)) = c_max_cto c) by (intros s0 f ((l0 & o0 & R0) & _); eapply rx_out; eauto).
  assert (Orx : forall s0 f q, live c m s0 -> pgm_idle c (rx c f s0) (unlocked c 4 (rx c f s0) q) = q) by (intros s0 f q (_ & _ & X & _); now apply open_rx).
  assert (Srx : forall s0 f q, live c m s0 -> daq_stopped c (rx c f s0) (pgm_idle c (rx c f s0) (unlocked c 4 (rx c f s0) q)) = q) by (intros s0 f q (_ & _ & X & Y); now apply stopped_rx).
  (* ALLOC_ODT *)
  destruct (twice_odts c W Sm l' E na n k ltac:(lia) ltac:(lia) ltac:(lia) ltac:(lia) ltac:(lia) ltac:(lia) (s_daq s) (fo l') Dl eq_refl Al (r_list _ _ _ _ _ Rp _ _ G) (r_free _ _ _ _ _ Rp))
    as (d1 & A1 & A2 & A3 & A4 & A5 & A6 & A7 & A8).
  destruct (live_step c m s e [0xD4; 0; a; b; n] d1 L0) as (s1 & o1 & E1 & P1 & L1 & D1); [split; [exact We|]; repeat constructor; auto; lia| |exact A6|].
  { unfold answers. assert (En : entry c 0xD4 = Some (h_alloc_odt c)) by tbl. rewrite (Step s [0xD4; 0; a; b; n] 0xD4 _ L0 ltac:(discriminate) eq_refl En).
    unfold h_alloc_odt. rewrite Orx by exact L0. rewrite rx_in, gw_eq. change (gb (rxbuf s _) 4) with n. change (gb (rxbuf s _) 2) with a. change (gb (rxbuf s _) (2 + 1)) with b. fold l'. rewrite Fit.
    change (s_daq (rx c [0xD4; 0; a; b; n] s)) with (s_daq s). rewrite A1. cbn [bind]. apply pos_ans; [exact W|exact D|eapply Rxo; eassumption|apply ss_daq]. }
  (* ALLOC_ODT_ENTRY *)
  rewrite <- D1 in *. clear A1 A6. rename A2 into Z2, A3 into Z3, A4 into Z4, A5 into Z5, A7 into Z7, A8 into Z8.
  destruct (twice_entries c W Sm l' E na n k ltac:(lia) ltac:(lia) ltac:(lia) ltac:(lia) ltac:(lia) ltac:(lia) (s_daq s1) Z2 Z3 Z4 Z7 Z8) as (d2 & A1 & A2 & A3 & A4 & A5 & A6 & A7).
  destruct (live_step c m s1 e [0xD3; 0; a; b; 0; k] d2 L1) as (s2 & o2 & E2 & P2 & L2 & D2); [split; [exact We|]; repeat constructor; auto; lia| |exact A4|].
  { unfold answers. assert (En : entry c 0xD3 = Some (h_alloc_odt_entry c)) by tbl. rewrite (Step s1 [0xD3; 0; a; b; 0; k] 0xD3 _ L1 ltac:(discriminate) eq_refl En).
    unfold h_alloc_odt_entry. rewrite Orx by exact L1. rewrite rx_in, gw_eq. change (gb (rxbuf s1 _) 4) with 0. change (gb (rxbuf s1 _) 5) with k. change (gb (rxbuf s1 _) 2) with a. change (gb (rxbuf s1 _) (2 + 1)) with b. fold l'. rewrite Fit.
    change (s_daq (rx c [0xD3; 0; a; b; 0; k] s1)) with (s_daq s1). rewrite A1. cbn [bind]. apply pos_ans; [exact W|exact D|eapply Rxo; eassumption|apply ss_daq]. }
  rewrite <- D2 in *. clear A1 A4.
  (* SET_DAQ_PTR *)
  assert (Ptr : forall s0 j, live c m s0 -> j < 256 -> step c e (ORecv [0xE2; 0; a; b; j; 0]) s0 = (ok <- validate_entry c l' j 0 (s_daq s0) ;;
     if negb ok then err c 0x22 (rx c [0xE2; 0; a; b; j; 0] s0) else pos c (upd_daq (fun d => set_d_pent 0 (set_d_podt j (set_d_plist l' d))) (rx c [0xE2; 0; a; b; j; 0] s0)))).
  { intros s0 j X Hj. assert (En : entry c 0xE2 = Some (h_set_daq_ptr c)) by tbl. rewrite (Step s0 [0xE2; 0; a; b; j; 0] 0xE2 _ X ltac:(discriminate) eq_refl En).
    unfold h_set_daq_ptr. rewrite Srx by exact X. rewrite rx_in, gw_eq. change (gb (rxbuf s0 _) 4) with j. change (gb (rxbuf s0 _) 5) with 0. change (gb (rxbuf s0 _) 2) with a. change (gb (rxbuf s0 _) (2 + 1)) with b.
    fold l'. rewrite Fit. reflexivity. }
  assert (Lc : d_lcnt (s_daq s2) = lenN t) by (rewrite A3, Z5; apply (r_lists _ _ _ _ _ Rp)).
  destruct (live_step c m s2 e [0xE2; 0; a; b; 0; 0] (set_d_pent 0 (set_d_podt 0 (set_d_plist l' (s_daq s2)))) L2) as (s3 & o3 & E3 & P3 & L3 & D3); [split; [exact We|]; repeat constructor; auto; lia| |reflexivity|].
  { unfold answers. rewrite Ptr by (auto; lia). rewrite (twice_valid c W Sm l' E na n k ltac:(lia) ltac:(lia) ltac:(lia) ltac:(lia) ltac:(lia) ltac:(lia) (s_daq s2) ltac:(lia) A5 A6). cbn [bind negb].
    apply pos_ans; [exact W|exact D|eapply Rxo; eassumption|apply ss_daq]. }
  (* WRITE_DAQ *)
  set (x := field c [x0; x1; x2; x3]).
  destruct (twice_write c W Sm l' E na n k ltac:(lia) ltac:(lia) ltac:(lia) ltac:(lia) ltac:(lia) ltac:(lia) (s_daq s3) sz x) as (d4 & F1 & F2 & F3 & F4 & F5); try (rewrite D3; assumption || reflexivity).
  destruct (live_step c m s3 e [0xE1; 0xFF; sz; 0; x0; x1; x2; x3] d4 L3) as (s4 & o4 & E4 & P4 & L4 & D4); [split; [exact We|]; repeat constructor; auto; lia| |exact F3|].
  { destruct L3 as ((l3 & o3' & R3) & RD3 & Op3 & M3). unfold answers. rewrite (write_daq_exec c m l3 s3 o3' e R3 RD3 Op3) by (auto; cbn; lia). fold x. rewrite F1. cbn [bind].
    apply pos_ans; [exact W|exact D|eapply Rxo; split; eauto|apply ss_daq]. }
  exists s1, o1, s2, o2, s3, o3, s4, o4. do 8 (split; [assumption|]). rewrite Ptr by (auto; lia). rewrite D4.
  rewrite (twice_wrong c W Sm l' E na n k ltac:(lia) ltac:(lia) ltac:(lia) ltac:(lia) ltac:(lia) ltac:(lia) d4 x sz); auto.
  rewrite F2, D3. ss. lia.
Qed.
