(** Predefined DAQ lists: more frames than the queue has room for, and series of events. *)
From Coq Require Import NArith ZArith List Bool Lia ZifyBool ZifyNat ZifyN.
From Verif Require Import Base Config Codec Checksum State Queue Daq Core Spec Lists Effects Handlers HTx HInv HInv2
  HFields HResp DaqInv HSpec Steps Demo Ops ProofsSession Exec ProofsFrames SpecMem SpecDaq ProofsDaqA ProofsDaqB ProofsDaqC ProofsDaqD ProofsDaqE ProofsDaqF ProofsDaqG
  Predef SpecPre ProofsPre ProofsPre2 ProofsPre3.
Import ListNotations.
Open Scope N_scope.
Ltac Zify.zify_post_hook ::= Z.div_mod_to_equations.

Lemma sodts_stop : forall c p es t m, wf_cfg c -> describes c p es t -> forall ts l os, getN t l = Some os ->
  forall b i q fs, i + N.of_nat b = lenN os -> (0 < b)%nat ->
  (forall j xs, i <= j -> getN os j = Some xs -> sampled_ok c (stamp_of c ts j) xs) ->
  queued c q fs -> q_head q = 4 ->
  sodts c p es m ts l b i (odts_before t l + i) q = if q_tail q =? 0 then Ok (set_q_ovl true q) else UB OobQueue.
Proof.
  intros c p es t m W Ds ts l os G. induction b; intros i q fs Hi Hb S Q Hq; [lia|].
  cbn [sodts]. destruct (getN_lt_Some _ os i) as (xs & Ge); [lia|]. assert (Go : odt_at t l i = Some xs) by (unfold odt_at; now rewrite G).
  destruct (pre_odt c p es t Ds _ _ _ _ G Ge) as (g & E1 & _). rewrite E1. cbn [bind].
  destruct (S i xs) as (S1 & S2); [lia|exact Ge|]. fold (stamp_of c ts i).
  rewrite <- (bytes_of_len m) in S2.
  rewrite (sentries_val c p es t m Ds l os i xs G Ge S1); [|lia|].
  2: { unfold dropN. cbn [N.to_nat skipn]. rewrite lenN_cons. lia. }
  unfold dropN at 1. cbn [N.to_nat skipn bind]. rewrite (enqueue_full c _ _ _ W Q Hq).
  destruct (q_tail q =? 0) eqn:Z; [|reflexivity]. cbn [bind].
  assert (P : (odts_before t l + i + 1) mod we c = odts_before t l + (i + 1)).
  { rewrite N.mod_small; [lia|]. pose proof (pid_bound _ _ _ _ Go). destruct Ds as (_ & Q1 & _). lia. }
  rewrite P. destruct b as [|b']; [reflexivity|].
  rewrite (IHb (i + 1) (set_q_ovl true q) fs); [|lia|lia|intros j es' Hj; apply S; lia|exact Q|exact Hq].
  cbn [q_tail set_q_ovl]. rewrite Z. destruct q. reflexivity.
Qed.

Section Event.
Variables (c : cfg) (p : predef) (es : list (N * N)) (m : mem) (l : list (env * op)) (z : sst) (o : list pkt) (e : env) (t : tree) (ev l' : N)
  (os : list (list (N * N))).
Variables (R : sreachable c p es m l z o) (We : wf_env c e) (So : stamp_ok c) (Ds : describes c p es t) (M : measuring (z_st z))
  (As : assigned (z_st z) ev l') (G : getN t l' = Some os) (Sa : sampleable c (list_stamp c e z l') os).

Lemma strigger_val : exists ts, (forall i, stamp_of c ts i = if i =? 0 then list_stamp c e z l' else []) /\
  sstep c p e (OTrigger ev) z =
    (q <- sodts c p es (s_mem (z_st z)) ts l' (length os) 0 (odts_before t l') (d_q (s_daq (z_st z))) ;;
     lift (transmit c (N.to_nat (pending c q)) (upd_daq (set_d_q q) (z_st z))) z).
Proof.
  pose proof (sreach_inv _ _ _ _ _ _ _ R) as (I & B & _ & C & _ & E).
  pose proof R as (W & (Hd & _) & Wp & _). cbn [sstep]. rewrite Hd. unfold strigger. unfold measuring in M. rewrite M. cbn [negb].
  pose proof (getN_Some_lt _ _ _ _ As) as Lev. rewrite (d_lfelen _ _ (i_d _ _ I)) in Lev. pose proof (wf_ev c W Hd) as Wev. fold (c_nevents c) in Wev.
  unfold u8 at 1. rewrite N.mod_small by (change (2 ^ 8) with 256; lia). destruct (N.leb_spec (c_nevents c) ev); [lia|]. unfold assigned in As. rewrite As.
  rewrite (pre_first c p es t Wp Ds l' os G). cbn [bind]. destruct (pre_list c p es t Wp Ds l' os G) as (f & E1 & _). rewrite E1. cbn [bind].
  assert (Q1 : count_of p = lenN t) by apply Ds. pose proof (getN_Some_lt _ _ _ _ G) as Ll.
  destruct (getN_lt_Some _ (z_modes z) l') as (md & Gm); [lia|]. unfold mode_get. rewrite Gm. cbn [bind]. rewrite C.
  exists (if c_ts c && (N.land md 16 =? 16) then Some (e_timer e) else None). split.
  - intro i. unfold stamp_of, list_stamp, mode_of. rewrite Gm. unfold stamped. rewrite bit4. destruct (c_ts c && N.testbit md 4); [|now destruct (i =? 0)].
    destruct (i =? 0); [|reflexivity]. apply ts_stamp; auto. apply We.
  - unfold lenN. rewrite Nat2N.id. reflexivity.
Qed.
Lemma queued0 : queued c (d_q (s_daq (z_st z))) [].
Proof. pose proof (sreach_inv _ _ _ _ _ _ _ R) as (I & B & _ & C & _ & E). apply queued_nil; [exact (d_qinv _ _ (i_d _ _ I))|exact E]. Qed.
Lemma tail_used : q_tail (d_q (s_daq (z_st z))) = used (z_st z) /\ used (z_st z) <= 4.
Proof.
  pose proof (sreach_inv _ _ _ _ _ _ _ R) as (I & B & _ & C & _ & E). split; [now rewrite <- E|]. destruct (d_qinv _ _ (i_d _ _ I)) as (A & _). unfold used. lia.
Qed.

Lemma pre_overflow : 0 < used (z_st z) -> 4 < used (z_st z) + lenN os -> sstep c p e (OTrigger ev) z = UB OobQueue.
Proof.
  intros H0 Hq. destruct strigger_val as (ts & Te & ->). pose proof tail_used as (Tu & U4). pose proof (proj1 R) as W. unfold used in *.
  set (a := N.to_nat (4 - q_head (d_q (s_daq (z_st z))))).
  assert (S : forall j xs, getN os j = Some xs -> sampled_ok c (stamp_of c ts j) xs) by (intros j xs Gj; rewrite Te; now apply Sa).
  destruct (sodts_fill c p es t (s_mem (z_st z)) W Ds ts l' os G a (length os - a) 0 (d_q (s_daq (z_st z))) []) as (q & E & Q & H1 & H2 & _).
  - unfold lenN in *. lia.
  - intros j xs _. apply S.
  - apply queued0.
  - unfold a. lia.
  - rewrite N.add_0_r, N.add_0_l in E. replace (a + (length os - a))%nat with (length os) in E by (unfold lenN in *; lia). rewrite E. clear E.
    erewrite (sodts_stop c p es t (s_mem (z_st z)) W Ds ts l' os G); [|unfold lenN in *; lia|unfold lenN in *; lia|intros j xs _; apply S|exact Q|unfold a in *; lia].
    rewrite H2. destruct (N.eqb_spec (q_tail (d_q (s_daq (z_st z)))) 0); [lia|]. reflexivity.
Qed.
Lemma pre_drop : used (z_st z) = 0 -> 4 < lenN os ->
  exists z' o', sstep c p e (OTrigger ev) z = Ok (z', o') /\ emits o' (dtos (s_mem (z_st z)) (list_stamp c e z l') (odts_before t l') (firstn 4 os)) /\
    same_but_queue (z_st z) (z_st z') /\ z_entries z' = z_entries z /\ z_modes z' = z_modes z /\ used (z_st z') = 4.
Proof.
  intros H0 Hq. destruct strigger_val as (ts & Te & ->). pose proof tail_used as (Tu & U4). pose proof (proj1 R) as W. unfold used in *.
  assert (S : forall j xs, getN os j = Some xs -> sampled_ok c (stamp_of c ts j) xs) by (intros j xs Gj; rewrite Te; now apply Sa).
  destruct (sodts_fill c p es t (s_mem (z_st z)) W Ds ts l' os G 4 (length os - 4) 0 (d_q (s_daq (z_st z))) []) as (q & E & Q & H1 & H2 & _).
  - unfold lenN in *. lia.
  - intros j xs _. apply S.
  - apply queued0.
  - lia.
  - rewrite N.add_0_r, N.add_0_l in E. replace (4 + (length os - 4))%nat with (length os) in E by (unfold lenN in *; lia). rewrite E. clear E.
    erewrite (sodts_stop c p es t (s_mem (z_st z)) W Ds ts l' os G); [|unfold lenN in *; lia|unfold lenN in *; lia|intros j xs _; apply S|exact Q|lia].
    rewrite H2. destruct (N.eqb_spec (q_tail (d_q (s_daq (z_st z)))) 0); [|lia]. cbn [bind].
    rewrite Te in Q. unfold dropN in Q. change (skipn (N.to_nat 0) os) with os in Q. change (0 =? 0) with true in Q. cbv beta iota in Q. rewrite N.add_0_r in Q. change ([] ++ ?x) with x in Q.
    set (fs := dtos _ _ _ (firstn 4 os)) in *.
    assert (Lf : length fs = 4%nat).
    { unfold lenN in Hq. unfold fs. destruct os as [|? [|? [|? [|? ?]]]]; cbn [length] in Hq; try lia. reflexivity. }
    assert (P : N.to_nat (pending c (set_q_ovl true q)) = length fs).
    { unfold pending, qmod. rewrite (wf_qs c W). destruct Q as (_ & Q1 & Q2 & _). cbn [q_head q_tail set_q_ovl]. unfold lenN in *. lia. }
    rewrite P. destruct (transmit_queued c fs (upd_daq (set_d_q (set_q_ovl true q)) (z_st z)) W Q) as (s' & o' & X1 & X2 & X3 & X4 & X5 & X6).
    unfold lift. rewrite X1. cbn [bind]. exists (with_st s' z), o'. split; [reflexivity|]. split; [split; auto|]. cbn [z_st with_st z_entries z_modes].
    split; [destruct X4 as (q' & X4); exists q'; exact X4|]. split; [reflexivity|]. split; [reflexivity|]. rewrite X5. ss. cbn [q_head set_q_ovl]. lia.
Qed.
End Event.
