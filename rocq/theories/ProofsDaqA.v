(** Proofs about the DAQ commands: answers and table effects. *)
From Coq Require Import NArith ZArith List Bool Lia ZifyBool ZifyNat ZifyN.
From Verif Require Import Base Config Codec Checksum State Queue Daq Core Spec Lists Effects Handlers HTx HInv HInv2
  HFields HResp DaqInv HSpec Steps Demo Ops ProofsSession Exec ProofsFrames SpecProt ProofsProt SpecMem ProofsMem SpecDaq.
Import ListNotations.
Open Scope N_scope.
Ltac Zify.zify_post_hook ::= Z.div_mod_to_equations.

(** ** Bytes *)
Lemma field2 : forall c a b, a < 256 -> b < 256 -> field c [a; b] < 65536.
Proof. intros. unfold field, be_value. destruct (c_motorola c); cbn [rev app le_value]; lia. Qed.
Lemma we_mod : forall c x, wf_cfg c -> x < c_max_ent c -> x mod we c = x.
Proof. intros. apply N.mod_small. pose proof (ent_lt_we c H). lia. Qed.

(** ** Bodies *)
Lemma body_kind : forall k a b l i, a <= b -> b <= lenN l ->
  option_map en_body (getN (on_range (set_kind k) a b l) i) = option_map en_body (getN l i).
Proof.
  intros. rewrite getN_on_range by auto. destruct (_ && _); auto. destruct (getN l i); reflexivity.
Qed.
Lemma body_upd : forall l i x j, i < lenN l ->
  option_map en_body (getN (updN l i x) j) = if i =? j then Some (en_body x) else option_map en_body (getN l j).
Proof.
  intros. destruct (N.eqb_spec i j) as [->|N]; [now rewrite getN_upd_same|now rewrite getN_upd_other].
Qed.
Lemma body_lt : forall d i b, body_at d i = Some b -> i < lenN (d_ents d).
Proof. intros d i b H. unfold body_at in H. destruct (getN (d_ents d) i) eqn:E; [|discriminate]. eapply getN_Some_lt; eauto. Qed.

Lemma hdr_val : forall d i n f, header d i n f -> hdr_at d i = Ok (n, f).
Proof.
  intros d i n f H. unfold hdr_at, ent_at, header, body_at in *. destruct (getN (d_ents d) i) as [x|]; [|destruct H as [H|[H _]]; discriminate].
  cbn [bind option_map] in *. destruct H as [H|(H & -> & ->)]; injection H as H; rewrite H; reflexivity.
Qed.
Lemma entry_val : forall d i x, holds d i x -> exists e, ent_at d i = Ok e /\ entry_of (en_body e) = Ok x.
Proof.
  intros d i x H. unfold ent_at, holds, body_at in *. destruct (getN (d_ents d) i) as [y|]; [|destruct H as [H|[H _]]; discriminate].
  exists y. split; [reflexivity|]. cbn [option_map] in H. destruct x. destruct H as [H|(H & E)]; injection H as H; rewrite H; [reflexivity|now rewrite E].
Qed.
Lemma holds_lt : forall d i x, holds d i x -> i < lenN (d_ents d).
Proof. intros d i x [H|(H & _)]; eapply body_lt; eauto. Qed.
Lemma header_lt : forall d i n f, header d i n f -> i < lenN (d_ents d).
Proof. intros d i n f [H|(H & _)]; eapply body_lt; eauto. Qed.

(** ** Trees *)
Lemma put_upd : forall A (l : list A) i x, i < lenN l -> put i x l = updN l i x.
Proof.
  intros A l i x H. unfold put, updN, lenN in *. assert (N.to_nat i < length l)%nat by lia. clear H. revert l H0.
  induction (N.to_nat i) as [|n IH]; intros [|y l] H; cbn in *; try lia; auto. f_equal. apply IH. lia.
Qed.
Lemma concat_upd : forall A (t : list (list A)) l x, getN t l = Some [] -> lenN (concat (updN t l x)) = lenN (concat t) + lenN x.
Proof.
  intros A t l x H. unfold getN, updN in *. revert t H. induction (N.to_nat l) as [|n IH]; intros [|y t] H; cbn in *; try discriminate.
  - injection H as ->. rewrite lenN_app. cbn [app]. lia.
  - rewrite !lenN_app, IH; auto. lia.
Qed.
Lemma concat_upd_same : forall A (t : list (list A)) l y x, getN t l = Some y -> lenN x = lenN y -> lenN (concat (updN t l x)) = lenN (concat t).
Proof.
  intros A t l y x H E. unfold getN, updN in *. revert t H. induction (N.to_nat l) as [|n IH]; intros [|z t] H; cbn in *; try discriminate.
  - injection H as ->. rewrite !lenN_app. lia.
  - rewrite !lenN_app, IH; auto.
Qed.
Lemma concat_repeat_nil : forall A n, concat (repeat (@nil A) n) = [].
Proof. induction n; cbn; auto. Qed.
Lemma lenN_repeat : forall A (x : A) n, lenN (repeat x n) = N.of_nat n.
Proof. intros. unfold lenN. now rewrite repeat_length. Qed.
Lemma odt_upd : forall t l os l' o, l < lenN t -> odt_at (updN t l os) l' o = if l =? l' then getN os o else odt_at t l' o.
Proof.
  intros. unfold odt_at. destruct (N.eqb_spec l l') as [->|N]; [now rewrite getN_upd_same|now rewrite getN_upd_other].
Qed.
Lemma odt_list : forall t l o es, odt_at t l o = Some es -> exists os, getN t l = Some os /\ getN os o = Some es.
Proof. intros t l o es H. unfold odt_at in H. destruct (getN t l); [eauto|discriminate]. Qed.
Lemma entry_odt : forall t l o k x, entry_at t l o k = Some x -> exists es, odt_at t l o = Some es /\ getN es k = Some x.
Proof. intros t l o k x H. unfold entry_at in H. destruct (odt_at t l o); [eauto|discriminate]. Qed.

Lemma concat_upd_len : forall A (t : list (list A)) l y x, getN t l = Some y ->
  lenN (concat (updN t l x)) + lenN y = lenN (concat t) + lenN x.
Proof.
  intros A t l y x H. unfold getN, updN in *. revert t H. induction (N.to_nat l) as [|n IH]; intros [|z t] H; cbn in *; try discriminate.
  - injection H as ->. rewrite !lenN_app. lia.
  - specialize (IH _ H). rewrite !lenN_app. lia.
Qed.
Lemma concat2_upd_len : forall A (t : list (list (list A))) l y x, getN t l = Some y ->
  lenN (concat (concat (updN t l x))) + lenN (concat y) = lenN (concat (concat t)) + lenN (concat x).
Proof.
  intros A t l y x H. unfold getN, updN in *. revert t H. induction (N.to_nat l) as [|n IH]; intros [|z t] H; cbn in *; try discriminate.
  - injection H as ->. rewrite !concat_app, !lenN_app. lia.
  - specialize (IH _ H). rewrite !concat_app, !lenN_app. lia.
Qed.
Lemma entry_upd : forall t l os l' o k, l < lenN t -> entry_at (updN t l os) l' o k =
  if l =? l' then match getN os o with Some es => getN es k | None => None end else entry_at t l' o k.
Proof. intros. unfold entry_at. rewrite odt_upd by auto. now destruct (l =? l'). Qed.
Lemma no_entries : forall t : tree, lenN (concat (concat t)) = 0 -> forall l o k x, entry_at t l o k = Some x -> False.
Proof.
  intros t E l o k x H. assert (Et : concat (concat t) = []) by (apply length_zero_iff_nil; unfold lenN in E; lia).
  destruct (entry_odt _ _ _ _ _ H) as (es & H1 & H2). destruct (odt_list _ _ _ _ H1) as (os & H3 & H4).
  assert (In x (concat (concat t))).
  { apply in_concat. exists es. split; [|eapply nth_error_In; exact H2]. apply in_concat. exists os.
    split; eapply nth_error_In; [exact H3|exact H4]. }
  rewrite Et in *. contradiction.
Qed.
Lemma header_same : forall d d' i n f, body_at d' i = body_at d i -> header d i n f -> header d' i n f.
Proof. unfold header. intros d d' i n f ->. auto. Qed.
Lemma holds_same : forall d d' i x, body_at d' i = body_at d i -> holds d i x -> holds d' i x.
Proof. unfold holds. intros d d' i x ->. auto. Qed.

Lemma rep_free : forall c d, represents_by (fun _ => 0) (fun _ _ => 0) c (daq_free c d) [].
Proof.
  intros c d. assert (X : forall l o, odt_at [] l o = None) by (intros; unfold odt_at, getN; destruct (N.to_nat l); reflexivity).
  assert (Y : forall l o k, entry_at [] l o k = None) by (intros; unfold entry_at; now rewrite X).
  constructor; unfold daq_free; ss; try reflexivity; intros; try (rewrite X in *; discriminate); try (rewrite Y in *; discriminate).
  - unfold getN in H. destruct (N.to_nat l); discriminate.
  - unfold body_at. ss. rewrite getN_repeat. destruct (N.ltb_spec i (N.of_nat (N.to_nat (c_max_ent c)))); [reflexivity|lia].
Qed.

Section Rep.
Variables (c : cfg) (W : wf_cfg c) (Small : c_max_ent c < 65536).

Lemma rep_alloc : forall d t n d' fo fe, dinv c d -> represents_by fo fe c d t -> n < 65536 ->
  daq_alloc c n d = Ok (d', 0xFF) -> represents_by (fun l => if l <? lenN t then fo l else 0) fe c d' (t ++ repeat [] (N.to_nat n)).
Proof.
  intros d t n d' fo fe I R Hn H. unfold daq_alloc in H. destruct (allowed (d_alloc d) TDaq) eqn:A; cbn [negb] in H.
  2:{ unfold seq_error in H. destruct (c_reset_seq c); [apply bind_Ok in H; destruct H as (? & _ & H)|]; discriminate. }
  pose proof (d_layout _ _ I) as (L1 & L2 & _). pose proof (d_allocok _ _ I) as Ao. unfold alloc_ok in Ao.
  assert (Ee : d_ecnt d = lenN t /\ lenN (concat t) = 0).
  { destruct R as [r_lists0 r_odts0 r_count0 r_list0 r_odt0 r_entry0 r_odt_in0 r_entry_in0 r_odt_one0 r_entry_one0 r_free0]. destruct (d_alloc d); try discriminate; cbn in A; lia. }
  destruct Ee as (Ee & Ec). rewrite (d_len _ _ I) in L2.
  rewrite ent_sum_exact in H by auto. destruct (N.ltb_spec (c_max_ent c) (d_ecnt d + n)) as [|Hf]; [discriminate|].
  destruct (existsb _ _); [discriminate|]. injection H as <-.
  assert (Et : concat t = []) by (apply length_zero_iff_nil; unfold lenN in Ec; lia).
  assert (Hno : forall l o es, odt_at t l o = Some es -> False).
  { intros l o es H. destruct (odt_list _ _ _ _ H) as (os & H1 & H2).
    assert (In es (concat t)) by (apply in_concat; exists os; split; eapply nth_error_In; [exact H1|exact H2]).
    rewrite Et in *. contradiction. }
  assert (Hno' : forall l o es, odt_at (t ++ repeat [] (N.to_nat n)) l o = Some es -> False).
  { intros l o es H. destruct (odt_list _ _ _ _ H) as (os & H1 & H2). destruct (N.ltb_spec l (lenN t)) as [Hl|Hl].
    - rewrite getN_app1 in H1 by auto. apply (Hno l o es). unfold odt_at. now rewrite H1.
    - rewrite getN_app2, getN_repeat in H1 by auto. destruct (_ <? _); [|discriminate]. injection H1 as <-.
      unfold getN in H2. destruct (N.to_nat o); discriminate. }
  assert (Hne' : forall l o k x, entry_at (t ++ repeat [] (N.to_nat n)) l o k = Some x -> False).
  { intros l o k x H. destruct (entry_odt _ _ _ _ _ H) as (es & H1 & _). eauto. }
  assert (Hl : lenN (t ++ repeat [] (N.to_nat n)) = lenN t + n) by (rewrite lenN_app, lenN_repeat; lia).
  assert (Hc : concat (t ++ repeat [] (N.to_nat n)) = []) by (rewrite concat_app, Et, concat_repeat_nil; reflexivity).
  pose proof (ent_lt_we c W) as Ww. destruct R as [r_lists0 r_odts0 r_count0 r_list0 r_odt0 r_entry0 r_odt_in0 r_entry_in0 r_odt_one0 r_entry_one0 r_free0]. pose proof (d_len _ _ I) as Dl.
  constructor; ss; rewrite ?Hl, ?Hc; try (intros; exfalso; eauto; fail).
  - rewrite r_lists0. apply N.mod_small. lia.
  - rewrite r_odts0. now rewrite Et.
  - cbn. change (lenN []) with 0. rewrite N.mod_small by lia. rewrite Ee. lia.
  - intros l os H. unfold header, body_at. ss. rewrite getN_on_range by lia. rewrite Ee. cbn beta.
    destruct (N.ltb_spec l (lenN t)) as [Hl1|Hl1].
    + destruct (N.leb_spec (lenN t) l); [lia|]. cbn [andb]. rewrite getN_app1 in H by auto. exact (r_list0 l os H).
    + destruct (N.leb_spec (lenN t) l); [|lia]. rewrite getN_app2, getN_repeat in H by auto.
      destruct (N.ltb_spec (l - lenN t) (N.of_nat (N.to_nat n))); [|discriminate]. injection H as <-.
      destruct (N.ltb_spec l (lenN t + n)); [|lia]. cbn [andb]. change (lenN []) with 0.
      pose proof (r_free0 l ltac:(lia)) as F. unfold body_at in F. destruct (getN (d_ents d) l) as [x|]; [|discriminate].
      cbn [option_map] in *. injection F as F. unfold clear_num. rewrite F. cbn [en_body]. auto.
  - intros i Hi. rewrite N.mod_small in Hi by lia. unfold body_at. ss. rewrite getN_on_range by lia.
    destruct (N.ltb_spec i (d_ecnt d + n)); [lia|]. rewrite andb_false_r. apply r_free0. lia.
Qed.

Lemma rep_alloc_odt : forall d t l n d' fo fe, dinv c d -> represents_by fo fe c d t -> n < 65536 -> getN t l = Some [] ->
  daq_alloc_odt c l n d = Ok (d', 0xFF) ->
  represents_by (fun x => if x =? l then d_ecnt d else fo x) (fun x y => if x =? l then 0 else fe x y) c d'
    (updN t l (repeat [] (N.to_nat n))).
Proof.
  intros d t l n d' fo fe I R Hn Hg H. unfold daq_alloc_odt in H. destruct (allowed (d_alloc d) TOdt) eqn:A; cbn [negb] in H.
  2:{ unfold seq_error in H. destruct (c_reset_seq c); [apply bind_Ok in H; destruct H as (? & _ & H)|]; discriminate. }
  pose proof (d_layout _ _ I) as (L1 & L2 & _). pose proof (d_allocok _ _ I) as Ao. unfold alloc_ok in Ao.
  destruct R as [r_lists0 r_odts0 r_count0 r_list0 r_odt0 r_entry0 r_odt_in0 r_entry_in0 r_odt_one0 r_entry_one0 r_free0].
  assert (Ee : d_ecnt d = lenN t + lenN (concat t) /\ lenN (concat (concat t)) = 0).
  { destruct (d_alloc d); try discriminate; cbn in A; lia. }
  destruct Ee as (Ee & Ec). rewrite (d_len _ _ I) in L2. pose proof (d_len _ _ I) as Dl.
  rewrite ent_sum_exact in H by auto. destruct (N.ltb_spec (c_max_ent c) (d_ecnt d + n)) as [|Hf]; [discriminate|].
  pose proof (getN_Some_lt _ _ _ _ Hg) as Hl.
  pose proof (r_list0 _ _ Hg) as Hh. change (lenN []) with 0 in Hh.
  set (es1 := on_range (set_kind KOdt) (d_ecnt d) (d_ecnt d + n) (d_ents d)) in *.
  assert (Hb1 : forall i, option_map en_body (getN es1 i) = body_at d i).
  { intro i. unfold es1. rewrite body_kind by lia. reflexivity. }
  assert (Hl1 : lenN es1 = lenN (d_ents d)) by (unfold es1; apply lenN_on_range; lia).
  apply bind_Ok in H. destruct H as (e & H1 & H). apply ent_at_Ok in H1. ss_in H1.
  apply bind_Ok in H. destruct H as ([num f0] & H2 & H). injection H as <-.
  assert (En : num = 0).
  { specialize (Hb1 l). rewrite H1 in Hb1. cbn [option_map] in Hb1. unfold header in Hh. rewrite <- Hb1 in Hh.
    destruct Hh as [Hh|(Hh & _)]; injection Hh as Hh; rewrite Hh in H2; injection H2; congruence. }
  subst num. pose proof (ent_lt_we c W) as Ww.
  rewrite !N.mod_small by lia. assert (Eu : u16 (d_ecnt d) = d_ecnt d) by (unfold u16; apply N.mod_small; lia). rewrite Eu.
  cbn [N.add]. set (x := mkEnt (en_kind e) (BHdr n (d_ecnt d))).
  set (d2 := set_d_ecnt _ _).
  assert (Hb : forall i, body_at d2 i = if l =? i then Some (BHdr n (d_ecnt d)) else body_at d i).
  { intro i. unfold body_at, d2. ss. fold es1. rewrite body_upd by lia. rewrite Hb1. reflexivity. }
  clear H2 H1. clearbody es1.
  assert (Q1 : lenN (concat (updN t l (repeat [] (N.to_nat n)))) = lenN (concat t) + n)
    by (rewrite (concat_upd _ _ _ _ Hg), lenN_repeat; lia).
  assert (Q2 : lenN (concat (concat (updN t l (repeat [] (N.to_nat n))))) = 0).
  { pose proof (concat2_upd_len _ _ _ _ (repeat [] (N.to_nat n)) Hg) as X. rewrite concat_repeat_nil in X. cbn [concat] in X. lia. }
  assert (Q3 : forall l' o k y, entry_at (updN t l (repeat [] (N.to_nat n))) l' o k = Some y -> False) by (apply no_entries; auto).
  assert (Q4 : forall l' o es, odt_at (updN t l (repeat [] (N.to_nat n))) l' o = Some es ->
     (l' = l /\ o < n /\ es = []) \/ (l' <> l /\ odt_at t l' o = Some es)).
  { intros l' o es H. rewrite odt_upd in H by auto. destruct (N.eqb_spec l l') as [->|Nl]; [left|right; split; [congruence|auto]].
    rewrite getN_repeat in H. destruct (N.ltb_spec o (N.of_nat (N.to_nat n))); [|discriminate]. injection H as <-. split; [auto|split; [lia|auto]]. }
  assert (Q5 : d_lcnt d2 = lenN t /\ d_ocnt d2 = lenN (concat t) + n /\ d_ecnt d2 = d_ecnt d + n).
  { unfold d2. ss. rewrite r_lists0, r_odts0. lia. }
  destruct Q5 as (Q5 & Q6 & Q7). clearbody d2.
  constructor; rewrite ?lenN_upd, ?Q1, ?Q2, ?Q5, ?Q6, ?Q7; try (intros; exfalso; eauto; fail); auto; try lia.
  - intros l' os H. destruct (N.eqb_spec l' l) as [->|Nl].
    + rewrite getN_upd_same in H by auto. injection H as <-. left. rewrite Hb, N.eqb_refl, lenN_repeat. f_equal. f_equal. lia.
    + rewrite getN_upd_other in H by congruence. eapply header_same; [|exact (r_list0 _ _ H)]. rewrite Hb.
      destruct (N.eqb_spec l l'); congruence.
  - intros l' o es H. destruct (Q4 _ _ _ H) as [(-> & Ho & ->)|(Nl & Ho)].
    + rewrite N.eqb_refl. right. rewrite Hb. destruct (N.eqb_spec l (d_ecnt d + o)); [lia|].
      split; [apply r_free0; lia|]. split; reflexivity.
    + destruct (N.eqb_spec l' l); [congruence|]. eapply header_same; [|exact (r_odt0 _ _ _ Ho)]. rewrite Hb.
      pose proof (r_odt_in0 _ _ _ Ho). destruct (N.eqb_spec l (fo l' + o)); [lia|auto].
  - intros l' o es H. destruct (Q4 _ _ _ H) as [(-> & Ho & ->)|(Nl & Ho)].
    + rewrite N.eqb_refl. lia.
    + destruct (N.eqb_spec l' l); [congruence|]. pose proof (r_odt_in0 _ _ _ Ho). lia.
  - intros l1 o1 l2 o2 ea eb Ha Hc. destruct (Q4 _ _ _ Ha) as [(-> & Ho & ->)|(Nl & Ho)], (Q4 _ _ _ Hc) as [(-> & Ho' & ->)|(Nl' & Ho')];
      rewrite ?N.eqb_refl; repeat match goal with |- context [?a =? ?b] => destruct (N.eqb_spec a b); [congruence|] end; intro E.
    + split; [auto|lia].
    + pose proof (r_odt_in0 _ _ _ Ho'). lia.
    + pose proof (r_odt_in0 _ _ _ Ho). lia.
    + eauto.
  - intros i Hi. rewrite Hb. destruct (N.eqb_spec l i); [lia|]. apply r_free0. lia.
Qed.

Lemma rep_odt_index : forall d t l o es fo fe, dinv c d -> represents_by fo fe c d t -> odt_at t l o = Some es ->
  odt_index c d l o = Ok (fo l + o) /\ fo l + o < c_max_ent c.
Proof.
  intros d t l o es fo fe I R H. destruct (odt_list _ _ _ _ H) as (os & H1 & H2).
  pose proof (r_odt_in _ _ _ _ _ R _ _ _ H) as B. pose proof (hdr_val _ _ _ _ (r_list _ _ _ _ _ R _ _ H1)) as E.
  pose proof (d_layout _ _ I) as (L1 & L2 & _). rewrite (d_len _ _ I) in L2. pose proof (r_count _ _ _ _ _ R).
  unfold odt_index. rewrite E. cbn [bind]. rewrite (N.mod_small (fo l)) by (pose proof (ent_lt_we c W); lia).
  rewrite we_mod by (auto; lia). split; [auto|lia].
Qed.

Lemma rep_entry_index : forall d t l o k x fo fe, dinv c d -> represents_by fo fe c d t -> entry_at t l o k = Some x ->
  entry_index c d l o k = Ok (fe l o + k) /\ fe l o + k < c_max_ent c.
Proof.
  intros d t l o k x fo fe I R H. destruct (entry_odt _ _ _ _ _ H) as (es & H1 & H2).
  destruct (rep_odt_index _ _ _ _ _ _ _ I R H1) as (E1 & B1).
  pose proof (r_entry_in _ _ _ _ _ R _ _ _ _ H) as B. pose proof (hdr_val _ _ _ _ (r_odt _ _ _ _ _ R _ _ _ H1)) as E.
  pose proof (d_layout _ _ I) as (L1 & L2 & _). rewrite (d_len _ _ I) in L2.
  unfold entry_index. rewrite E1. cbn [bind]. rewrite E. cbn [bind].
  assert (Eu : u16 k = k) by (unfold u16; apply N.mod_small; lia). rewrite Eu, we_mod by (auto; lia). split; [auto|lia].
Qed.

Lemma rep_alloc_entry : forall d t l o n d' fo fe, dinv c d -> represents_by fo fe c d t -> n < 65536 ->
  odt_at t l o = Some [] -> daq_alloc_entry c l o n d = Ok (d', 0xFF) ->
  represents_by fo (fun x y => if (x =? l) && (y =? o) then d_ecnt d else fe x y) c d'
    (put_entries t l o (repeat (0, 0) (N.to_nat n))).
Proof.
  intros d t l o n d' fo fe I R Hn Ho H. unfold daq_alloc_entry in H. destruct (allowed (d_alloc d) TEntry) eqn:A; cbn [negb] in H.
  2:{ unfold seq_error in H. destruct (c_reset_seq c); [apply bind_Ok in H; destruct H as (? & _ & H)|]; discriminate. }
  pose proof (d_layout _ _ I) as (L1 & L2 & _).
  pose proof (rep_odt_index _ _ _ _ _ _ _ I R Ho) as (_ & Bi).
  destruct R as [r_lists0 r_odts0 r_count0 r_list0 r_odt0 r_entry0 r_odt_in0 r_entry_in0 r_odt_one0 r_entry_one0 r_free0].
  rewrite (d_len _ _ I) in L2. pose proof (d_len _ _ I) as Dl.
  rewrite ent_sum_exact in H by auto. destruct (N.ltb_spec (c_max_ent c) (d_ecnt d + n)) as [|Hf]; [discriminate|].
  destruct (odt_list _ _ _ _ Ho) as (os & Hg & Hgo). pose proof (getN_Some_lt _ _ _ _ Hg) as Hl. pose proof (getN_Some_lt _ _ _ _ Hgo) as Hlo.
  pose proof (r_list0 _ _ Hg) as Hh. pose proof (r_odt_in0 _ _ _ Ho) as Bo.
  set (es1 := on_range (set_kind KEntry) (d_ecnt d) (d_ecnt d + n) (d_ents d)) in *.
  assert (Hb1 : forall i, option_map en_body (getN es1 i) = body_at d i).
  { intro i. unfold es1. rewrite body_kind by lia. reflexivity. }
  assert (Hl1 : lenN es1 = lenN (d_ents d)) by (unfold es1; apply lenN_on_range; lia).
  assert (Hv : hdr_at (set_d_ents es1 (set_d_alloc AEntry d)) l = Ok (lenN os, fo l)).
  { apply hdr_val. eapply header_same; [|exact Hh]. unfold body_at at 1. ss. apply Hb1. }
  rewrite Hv in H. cbn [bind] in H.
  assert (Eo : u16 o = o) by (unfold u16; apply N.mod_small; lia). rewrite Eo in H. rewrite we_mod in H by auto.
  apply bind_Ok in H. destruct H as (e & H1 & H). injection H as <-.
  pose proof (ent_lt_we c W) as Ww.
  rewrite !N.mod_small by lia. assert (Eu : u16 (d_ecnt d) = d_ecnt d) by (unfold u16; apply N.mod_small; lia). rewrite Eu.
  set (d2 := set_d_ecnt _ _).
  assert (Hb : forall i, body_at d2 i = if fo l + o =? i then Some (BHdr n (d_ecnt d)) else body_at d i).
  { intro i. unfold body_at, d2. ss. fold es1. rewrite body_upd by lia. rewrite Hb1. reflexivity. }
  clear H1. clearbody es1.
  unfold put_entries. rewrite Hg. rewrite !put_upd by auto.
  assert (Q1 : lenN (concat (updN t l (updN os o (repeat (0, 0) (N.to_nat n))))) = lenN (concat t)).
  { pose proof (concat_upd_len _ _ _ _ (updN os o (repeat (0, 0) (N.to_nat n))) Hg) as X. rewrite lenN_upd in X. lia. }
  assert (Q2 : lenN (concat (concat (updN t l (updN os o (repeat (0, 0) (N.to_nat n)))))) = lenN (concat (concat t)) + n).
  { pose proof (concat2_upd_len _ _ _ _ (updN os o (repeat (0, 0) (N.to_nat n))) Hg) as X.
    pose proof (concat_upd _ _ _ (repeat (0, 0) (N.to_nat n)) Hgo) as Y. rewrite lenN_repeat in Y. lia. }
  assert (Q4 : forall l' o' es, odt_at (updN t l (updN os o (repeat (0, 0) (N.to_nat n)))) l' o' = Some es ->
     (l' = l /\ o' = o /\ es = repeat (0, 0) (N.to_nat n)) \/ ((l' =? l) && (o' =? o) = false /\ odt_at t l' o' = Some es)).
  { intros l' o' es H. rewrite odt_upd in H by auto. destruct (N.eqb_spec l l') as [->|Nl].
    - destruct (N.eqb_spec o' o) as [->|No].
      + rewrite getN_upd_same in H by auto. injection H as <-. auto.
      + rewrite getN_upd_other in H by congruence. right. split; [apply andb_false_r|]. unfold odt_at. now rewrite Hg.
    - right. split; [|auto]. destruct (N.eqb_spec l' l); [congruence|reflexivity]. }
  assert (Q3 : forall l' o' k y, entry_at (updN t l (updN os o (repeat (0, 0) (N.to_nat n)))) l' o' k = Some y ->
     (l' = l /\ o' = o /\ k < n /\ y = (0, 0)) \/ ((l' =? l) && (o' =? o) = false /\ entry_at t l' o' k = Some y)).
  { intros l' o' k y H. destruct (entry_odt _ _ _ _ _ H) as (es & H1 & H2). destruct (Q4 _ _ _ H1) as [(-> & -> & ->)|(Nl & Hx)].
    - left. rewrite getN_repeat in H2. destruct (N.ltb_spec k (N.of_nat (N.to_nat n))); [|discriminate]. injection H2 as <-.
      repeat split; lia.
    - right. split; [auto|]. unfold entry_at. now rewrite Hx. }
  assert (Q5 : d_lcnt d2 = lenN t /\ d_ocnt d2 = lenN (concat t) /\ d_ecnt d2 = d_ecnt d + n).
  { unfold d2. ss. auto. }
  destruct Q5 as (Q5 & Q6 & Q7). clearbody d2.
  constructor; rewrite ?lenN_upd, ?Q1, ?Q2, ?Q5, ?Q6, ?Q7; auto; try lia.
  - intros l' os' H. destruct (N.eqb_spec l' l) as [->|Nl].
    + rewrite getN_upd_same in H by auto. injection H as <-. rewrite lenN_upd.
      eapply header_same; [|exact Hh]. rewrite Hb. destruct (N.eqb_spec (fo l + o) l); [lia|auto].
    + rewrite getN_upd_other in H by congruence. eapply header_same; [|exact (r_list0 _ _ H)]. rewrite Hb.
      pose proof (getN_Some_lt _ _ _ _ H). destruct (N.eqb_spec (fo l + o) l'); [lia|auto].
  - intros l' o' es H. destruct (Q4 _ _ _ H) as [(-> & -> & ->)|(Nl & Hx)].
    + rewrite !N.eqb_refl. left. rewrite Hb, N.eqb_refl, lenN_repeat. cbn [andb]. f_equal. f_equal. lia.
    + rewrite Nl. eapply header_same; [|exact (r_odt0 _ _ _ Hx)]. rewrite Hb.
      destruct (N.eqb_spec (fo l + o) (fo l' + o')); [|auto]. destruct (r_odt_one0 _ _ _ _ _ _ Ho Hx e0) as (-> & ->).
      rewrite !N.eqb_refl in Nl. discriminate.
  - intros l' o' k y H. destruct (Q3 _ _ _ _ H) as [(-> & -> & Hk & ->)|(Nl & Hx)].
    + rewrite !N.eqb_refl. cbn [andb]. right. rewrite Hb. destruct (N.eqb_spec (fo l + o) (d_ecnt d + k)); [lia|].
      split; [apply r_free0; lia|auto].
    + rewrite Nl. eapply holds_same; [|exact (r_entry0 _ _ _ _ Hx)]. rewrite Hb. pose proof (r_entry_in0 _ _ _ _ Hx).
      destruct (N.eqb_spec (fo l + o) (fe l' o' + k)); [lia|auto].
  - intros l' o' es H. destruct (Q4 _ _ _ H) as [(-> & -> & ->)|(Nl & Hx)]; eauto.
  - intros l' o' k y H. destruct (Q3 _ _ _ _ H) as [(-> & -> & Hk & ->)|(Nl & Hx)].
    + rewrite !N.eqb_refl. cbn [andb]. lia.
    + rewrite Nl. pose proof (r_entry_in0 _ _ _ _ Hx). lia.
  - intros l1 o1 l2 o2 ea eb Ha Hc E. destruct (Q4 _ _ _ Ha) as [(-> & -> & ->)|(Nl & Hx)], (Q4 _ _ _ Hc) as [(-> & -> & ->)|(Nl' & Hx')];
     eauto.
  - intros l1 o1 k1 l2 o2 k2 ya yb Ha Hc.
    destruct (Q3 _ _ _ _ Ha) as [(-> & -> & Hk & ->)|(Nl & Hx)], (Q3 _ _ _ _ Hc) as [(-> & -> & Hk' & ->)|(Nl' & Hx')];
      rewrite ?Nl, ?Nl', ?N.eqb_refl; cbn [andb]; intro E.
    + repeat split; lia.
    + pose proof (r_entry_in0 _ _ _ _ Hx'). lia.
    + pose proof (r_entry_in0 _ _ _ _ Hx). lia.
    + eauto.
  - intros i Hi. rewrite Hb. destruct (N.eqb_spec (fo l + o) i); [lia|]. apply r_free0. lia.
Qed.

Lemma rep_write : forall d t sz a x d' fo fe, dinv c d -> represents_by fo fe c d t ->
  entry_at t (d_plist d) (d_podt d) (d_pent d) = Some x -> write_daq_entry c sz a d = Ok d' ->
  represents_by fo fe c d' (put_entry t (d_plist d) (d_podt d) (d_pent d) (a, sz)).
Proof.
  intros d t sz a x d' fo fe I R He H.
  pose proof (rep_entry_index _ _ _ _ _ _ _ _ I R He) as (Ei & Bi). pose proof (d_len _ _ I) as Dl.
  unfold write_daq_entry in H. rewrite Ei in H. cbn [bind] in H. apply bind_Ok in H. destruct H as (e & H1 & H).
  injection H as <-. set (l := d_plist d) in *. set (o := d_podt d) in *. set (k := d_pent d) in *.
  set (d2 := set_d_pent _ _).
  assert (Hb : forall i, body_at d2 i = if fe l o + k =? i then Some (BEnt a sz) else body_at d i).
  { intro i. unfold body_at, d2. ss. rewrite body_upd by lia. reflexivity. }
  assert (Q5 : d_lcnt d2 = d_lcnt d /\ d_ocnt d2 = d_ocnt d /\ d_ecnt d2 = d_ecnt d) by (unfold d2; ss; auto).
  destruct Q5 as (Q5 & Q6 & Q7). clear H1. clearbody d2.
  destruct R as [r_lists0 r_odts0 r_count0 r_list0 r_odt0 r_entry0 r_odt_in0 r_entry_in0 r_odt_one0 r_entry_one0 r_free0].
  destruct (entry_odt _ _ _ _ _ He) as (es & Ho & Hk). destruct (odt_list _ _ _ _ Ho) as (os & Hg & Hgo).
  pose proof (getN_Some_lt _ _ _ _ Hg) as Hl. pose proof (getN_Some_lt _ _ _ _ Hgo) as Hlo. pose proof (getN_Some_lt _ _ _ _ Hk) as Hlk.
  pose proof (r_entry_in0 _ _ _ _ He) as Be.
  unfold put_entry. rewrite Ho. unfold put_entries. rewrite Hg. rewrite !put_upd by auto.
  set (os' := updN os o (updN es k (a, sz))).
  assert (Q1 : lenN (concat (updN t l os')) = lenN (concat t)).
  { pose proof (concat_upd_len _ _ _ _ os' Hg) as X. unfold os' in *. rewrite lenN_upd in X. lia. }
  assert (Q2 : lenN (concat (concat (updN t l os'))) = lenN (concat (concat t))).
  { pose proof (concat2_upd_len _ _ _ _ os' Hg) as X.
    pose proof (concat_upd_len _ _ _ _ (updN es k (a, sz)) Hgo) as Y. rewrite lenN_upd in Y. fold os' in Y. lia. }
  assert (Q4 : forall l' o' es', odt_at (updN t l os') l' o' = Some es' -> exists es0, odt_at t l' o' = Some es0 /\ lenN es0 = lenN es' /\
     (l' = l /\ o' = o /\ es0 = es /\ es' = updN es k (a, sz) \/ (l' <> l \/ o' <> o) /\ es0 = es')).
  { intros l' o' es' H. rewrite odt_upd in H by auto. destruct (N.eqb_spec l l') as [<-|Nl].
    - unfold os' in H. destruct (N.eqb_spec o' o) as [->|No].
      + rewrite getN_upd_same in H by auto. injection H as <-. exists es. rewrite lenN_upd. auto 10.
      + rewrite getN_upd_other in H by congruence. exists es'. split; [|auto]. unfold odt_at. now rewrite Hg.
    - exists es'. split; [auto|]. split; [auto|]. right. split; [left; congruence|auto]. }
  assert (Q3 : forall l' o' k' y, entry_at (updN t l os') l' o' k' = Some y -> exists y0, entry_at t l' o' k' = Some y0 /\
     (l' = l /\ o' = o /\ k' = k /\ y = (a, sz) \/ (l' <> l \/ o' <> o \/ k' <> k) /\ y0 = y)).
  { intros l' o' k' y H. destruct (entry_odt _ _ _ _ _ H) as (es' & H1 & H2).
    destruct (Q4 _ _ _ H1) as (es0 & X & _ & [(-> & -> & -> & ->)|(N & ->)]).
    - destruct (N.eqb_spec k' k) as [->|Nk].
      + rewrite getN_upd_same in H2 by auto. injection H2 as <-. exists x. auto 10.
      + rewrite getN_upd_other in H2 by congruence. exists y. unfold entry_at. rewrite X. split; [auto|]. right. auto.
    - exists y. unfold entry_at. rewrite X. split; [auto|]. right. split; [tauto|auto]. }
  constructor; rewrite ?lenN_upd, ?Q1, ?Q2, ?Q5, ?Q6, ?Q7; auto.
  - intros l' os1 H. pose proof (getN_Some_lt _ _ _ _ H) as Hx. rewrite lenN_upd in Hx.
    assert (Hb' : body_at d2 l' = body_at d l') by (rewrite Hb; destruct (N.eqb_spec (fe l o + k) l'); [lia|auto]).
    destruct (N.eqb_spec l' l) as [->|Nl].
    + rewrite getN_upd_same in H by auto. injection H as <-. unfold os'. rewrite lenN_upd. eapply header_same; eauto.
    + rewrite getN_upd_other in H by congruence. eapply header_same; eauto.
  - intros l' o' es' H. destruct (Q4 _ _ _ H) as (es0 & X & E & _). rewrite <- E. eapply header_same; [|eauto].
    rewrite Hb. pose proof (r_odt_in0 _ _ _ X). destruct (N.eqb_spec (fe l o + k) (fo l' + o')); [lia|auto].
  - intros l' o' k' y H. destruct (Q3 _ _ _ _ H) as (y0 & X & [(-> & -> & -> & ->)|(N & ->)]).
    + left. rewrite Hb, N.eqb_refl. reflexivity.
    + eapply holds_same; [|eauto]. rewrite Hb. destruct (N.eqb_spec (fe l o + k) (fe l' o' + k')); [|auto].
      destruct (r_entry_one0 _ _ _ _ _ _ _ _ He X e0) as (-> & -> & ->). tauto.
  - intros l' o' es' H. destruct (Q4 _ _ _ H) as (es0 & X & E & _). eauto.
  - intros l' o' k' y H. destruct (Q3 _ _ _ _ H) as (y0 & X & _). eauto.
  - intros l1 o1 l2 o2 ea eb Ha Hc E. destruct (Q4 _ _ _ Ha) as (? & X1 & _), (Q4 _ _ _ Hc) as (? & X2 & _). eauto.
  - intros l1 o1 k1 l2 o2 k2 ya yb Ha Hc E. destruct (Q3 _ _ _ _ Ha) as (? & X1 & _), (Q3 _ _ _ _ Hc) as (? & X2 & _). eauto.
  - intros i Hi. rewrite Hb. destruct (N.eqb_spec (fe l o + k) i); [lia|]. apply r_free0. lia.
Qed.
End Rep.
