(** Proofs of the theorems added after trials with wrong programs: assignment of events, start and stop. *)
From Coq Require Import NArith ZArith List Bool Lia ZifyBool ZifyNat ZifyN.
From Verif Require Import Base Config Codec Checksum State Queue Daq Core Spec Lists Effects Handlers HTx HInv HInv2
  HFields HResp DaqInv HSpec Steps Demo Ops ProofsSession Exec ProofsFrames SpecProt ProofsProt SpecMem ProofsMem ProofsWrite SpecDaq ProofsDaqA ProofsDaqB ProofsDaqC ProofsDaqD ProofsDaqE ProofsDaqF ProofsDaqG ProofsDaqI.
Import ListNotations.
Open Scope N_scope.
Ltac Zify.zify_post_hook ::= Z.div_mod_to_equations.

Lemma ss_bit4 : forall b d, N.testbit (d_mode (start_stop b d)) 4 = N.testbit (d_mode d) 4.
Proof.
  intros b d. unfold start_stop, iterN. induction (N.to_nat (d_lcnt d)) as [|n IH]; [reflexivity|].
  cbn [Nat.iter nat_rect]. change (nat_rect _ d (fun _ => ss_once b) n) with (Nat.iter n (ss_once b) d). rewrite <- IH. set (x := Nat.iter n (ss_once b) d).
  unfold ss_once. destruct (_ =? _); [|reflexivity]. destruct b; ss; rewrite ?N.land_spec, ?N.lor_spec, ?N.land_spec; cbn; now rewrite ?andb_true_r, ?orb_false_r.
Qed.

Section Cmd.
Variables (c : cfg) (m : mem) (l : list (env * op)) (s : st) (o : list pkt) (e : env).
Variables (R : reachable c m l s o) (RD : ready s) (D : dlc_ok c) (Op : daq_open c s).
Let W := proj1 R.
Let Hd := proj1 Op.

Lemma assign_thm : forall t mode a b v w pre tl os, let f := 0xE0 :: mode :: a :: b :: v :: w :: pre :: tl in let l' := field c [a; b] in let ev := field c [v; w] in
  bytes f -> lenN f <= c_ctobuf c -> ~ measuring s -> represents c s t -> getN t l' = Some os -> l' < 256 ->
  N.land mode 3 = 0 -> pre <= 1 -> ev < c_nevents c ->
  exists d, answers c e f s [0xFF] (with_daq d s) /\ represents c (with_daq d s) t /\
    (forall x k, assigned (with_daq d s) x k <-> if x =? ev then k = l' else assigned s x k) /\
    (forall e', time_stamp c e' (with_daq d s) = if c_ts c && N.testbit mode 4 then stamp c (e_timer e') else []) /\
    used (with_daq d s) = used s /\ ~ measuring (with_daq d s).
Proof.
  intros t mode a b v w pre tl os f l' ev Wf Hl M Rp G L Hm Hp Hv.
  destruct (set_mode_thm c m l s o e R RD D Op mode a b v w pre tl Wf Hl M (fun _ => L) Hm Hp Hv) as (d & A & E & B).
  exists d. split; [exact A|]. fold l' ev in E. rewrite N.mod_small in E by exact L.
  assert (I : lenN (d_lfe (s_daq s)) = c_nevents c) by (apply (d_lfelen _ _ (i_d _ _ (reach_inv _ _ _ _ _ R)))).
  rewrite put_upd in E by (rewrite I; exact Hv). unfold with_daq. split; [|split; [|split; [|split]]].
  - destruct Rp as (fo & fe & Rp). exists fo, fe. eapply rep_tables; [|exact Rp]. rewrite E. destruct s. repeat split.
  - intros x k. unfold assigned. rewrite E. ss. destruct (N.eqb_spec x ev) as [->|X].
    + rewrite getN_upd_same by (rewrite I; exact Hv). split; [now intros [= ->]|now intros ->].
    + rewrite getN_upd_other by auto. reflexivity.
  - intros e'. unfold time_stamp. ss. now rewrite B.
  - unfold used. rewrite E. ss. reflexivity.
  - unfold measuring. rewrite E. ss. exact M.
Qed.

Lemma synch_full : forall t mode tl, let f := 0xDD :: mode :: tl in lenN f <= c_ctobuf c -> represents c s t -> mode <= 2 ->
  exists d, answers c e f s [0xFF] (with_daq d s) /\ represents c (with_daq d s) t /\
    (forall x k, assigned (with_daq d s) x k <-> assigned s x k) /\ (forall e', time_stamp c e' (with_daq d s) = time_stamp c e' s) /\
    used (with_daq d s) = used s /\ (measuring (with_daq d s) <-> mode = 1 \/ mode = 2 /\ measuring s).
Proof.
  intros t mode tl f Hl Rp Hm. unfold answers, f. assert (En : entry c 0xDD = Some (h_start_stop_synch c)) by tbl.
  rewrite (exec_val c m l s o e 0xDD _ _ R RD Hl En). unfold h_start_stop_synch. rewrite (open_rx c s Op), rx_in. change (gb (rxbuf s _) 1) with mode.
  fold f. assert (P : forall d, exists s' o', pos c (upd_daq (fun _ => d) (rx c f s)) = Ok (s', o') /\ sends o' (padded c [0xFF]) /\ same_session (with_daq d s) s').
  { intro d. apply pos_ans; auto; [exact (rx_out c m l s o f R)|apply ss_daq]. }
  assert (Q : forall b r, let d := set_d_run r (start_stop b (s_daq s)) in represents c (with_daq d s) t /\
    (forall x k, assigned (with_daq d s) x k <-> assigned s x k) /\ (forall e', time_stamp c e' (with_daq d s) = time_stamp c e' s) /\
    used (with_daq d s) = used s /\ (measuring (with_daq d s) <-> r = true)).
  { intros b r d. destruct (start_stop_same b (s_daq s)) as (A & B & C & _). split; [|split; [|split; [|split]]].
    - destruct Rp as (fo & fe & Rp). exists fo, fe. eapply rep_tables; [|exact Rp]. exact A.
    - intros x k. unfold assigned. change (d_lfe (s_daq (with_daq d s))) with (d_lfe (start_stop b (s_daq s))). rewrite B. reflexivity.
    - intros e'. unfold time_stamp. change (d_mode (s_daq (with_daq d s))) with (d_mode (start_stop b (s_daq s))). now rewrite ss_bit4.
    - unfold used. change (d_q (s_daq (with_daq d s))) with (d_q (start_stop b (s_daq s))). now rewrite C.
    - unfold measuring. reflexivity. }
  assert (X : mode = 0 \/ mode = 1 \/ mode = 2) by lia.
  destruct X as [->|[->| ->]]; cbn [N.eqb Pos.eqb].
  - exists (set_d_run false (start_stop false (s_daq s))). split; [apply P|]. destruct (Q false false) as (Q1 & Q2 & Q3 & Q4 & Q5). do 4 (split; [assumption|]).
    rewrite Q5. split; [discriminate|]. intros [[=]|([=] & _)].
  - exists (set_d_run true (start_stop true (s_daq s))). split; [apply P|]. destruct (Q true true) as (Q1 & Q2 & Q3 & Q4 & Q5). do 4 (split; [assumption|]).
    rewrite Q5. split; auto.
  - exists (start_stop false (s_daq s)). split; [apply P|]. destruct (start_stop_same false (s_daq s)) as (_ & _ & _ & X & _).
    assert (Y : set_d_run (d_run (s_daq s)) (start_stop false (s_daq s)) = start_stop false (s_daq s)) by (rewrite <- X; destruct (start_stop false (s_daq s)); reflexivity).
    specialize (Q false (d_run (s_daq s))). cbv zeta in Q. rewrite Y in Q. destruct Q as (Q1 & Q2 & Q3 & Q4 & Q5). do 4 (split; [assumption|]).
    rewrite Q5. unfold measuring. split; [auto|]. intros [[=]|(_ & H)]. exact H.
Qed.
Lemma synch_refuse : forall mode tl, lenN (0xDD :: mode :: tl) <= c_ctobuf c -> 2 < mode -> refuses c e (0xDD :: mode :: tl) s 0x22.
Proof.
  intros mode tl Hl Hm. unfold refuses, answers. assert (En : entry c 0xDD = Some (h_start_stop_synch c)) by tbl.
  rewrite (exec_val c m l s o e 0xDD _ _ R RD Hl En). unfold h_start_stop_synch. rewrite (open_rx c s Op), rx_in. change (gb (rxbuf s _) 1) with mode.
  replace (mode =? 1) with false by lia. replace (mode =? 0) with false by lia. replace (mode =? 2) with false by lia.
  apply err_ans; auto; [exact (rx_out c m l s o _ R)|lia|apply ss_rx].
Qed.

(** START_STOP_DAQ_LIST: lists that do not exist, unknown modes. *)
Lemma list_two : forall t mode a b tl, let f := 0xDE :: mode :: a :: b :: tl in let l' := field c [a; b] in
  c_max_ent c < 65536 -> represents c s t -> bytes f -> lenN f <= c_ctobuf c -> fits c l' -> lenN t <= l' -> mode <= 2 ->
  exists d s' o1 o2, step c e (ORecv f) s = Ok (s', o1 ++ o2) /\ sends o1 (padded c [0xFE; 0x22]) /\ sends o2 (padded c [0xFF; 0; 0; 0; 0; 0; 0; 0]) /\
    same_session (with_daq d s) s' /\ represents c (with_daq d s) t.
Proof.
  intros t mode a b tl f l' Sm Rp Wf Hl Fl Hg Hm. pose proof Rp as Rp'. destruct Rp as (fo & fe & Rp).
  destruct (start_list_two c m l s o e R RD D Op mode a b tl Sm Wf Hl Fl) as (s' & o1 & o2 & X1 & X2 & X3 & X4); [rewrite (r_lists _ _ _ _ _ Rp); exact Hg|exact Hm|].
  eexists _, s', o1, o2. split; [exact X1|]. split; [exact X2|]. split; [exact X3|]. split; [exact X4|].
  exists fo, fe. eapply rep_tables; [|exact Rp]. destruct (mode =? 2); destruct (s_daq s); repeat split.
Qed.
Lemma list_refuse : forall t mode a b tl os, let f := 0xDE :: mode :: a :: b :: tl in let l' := field c [a; b] in
  represents c s t -> getN t l' = Some os -> bytes f -> lenN f <= c_ctobuf c -> 2 < mode -> refuses c e f s 0x22.
Proof.
  intros t mode a b tl os f l' (fo & fe & Rp) G Wf Hl Hm.
  unfold refuses, answers. assert (En : entry c 0xDE = Some (h_start_stop_list c)) by tbl.
  pose proof (i_d _ _ (reach_inv _ _ _ _ _ R)) as I.
  inversion Wf as [|? ? _ W1]; subst. inversion W1 as [|? ? _ W2]; subst. inversion W2 as [|? ? Xa W3]; subst. inversion W3 as [|? ? Xb _]; subst.
  unfold f. rewrite (exec_val c m l s o e 0xDE _ _ R RD Hl En).
  unfold h_start_stop_list. rewrite (open_rx c s Op), rx_in, gw_eq. change (gb (rxbuf s _) 1) with mode. change (gb (rxbuf s _) 2) with a. change (gb (rxbuf s _) (2 + 1)) with b.
  fold l'. fold f. pose proof (getN_Some_lt _ _ _ _ G) as Ll.
  assert (Ml : l' mod we c = l').
  { apply we_mod; [exact W|]. pose proof (r_count _ _ _ _ _ Rp). destruct (d_layout _ _ I) as (L1 & L2 & _). rewrite (d_len _ _ I) in L2. lia. }
  rewrite Ml. change (s_daq (rx c f s)) with (s_daq s). rewrite (r_lists _ _ _ _ _ Rp). destruct (N.leb_spec (lenN t) l'); [lia|].
  unfold andthen. cbn [bind]. destruct (N.ltb_spec 2 mode); [|lia].
  destruct (err_ans c 0x22 (rx c f s) s W D (rx_out c m l s o _ R)) as (s1 & o1 & Y1 & Y2 & Y3); [lia|apply ss_rx|].
  exists s1, o1. rewrite Y1. cbn [bind app]. rewrite ?app_nil_r. auto.
Qed.
End Cmd.

(** SET_DAQ_LIST_MODE, START_STOP_SYNCH and the event. *)
Lemma same_keeps : forall c d s s1 t, same_session (with_daq d s) s1 -> represents c (with_daq d s) t ->
  represents c s1 t /\ (forall x k, assigned s1 x k <-> assigned (with_daq d s) x k) /\ (forall e', time_stamp c e' s1 = time_stamp c e' (with_daq d s)) /\
  used s1 = used (with_daq d s) /\ (measuring s1 <-> measuring (with_daq d s)) /\ s_mem s1 = s_mem s /\
  (ready s -> ready s1) /\ (daq_open c s -> daq_open c s1).
Proof.
  intros c d s s1 t S Rp. assert (E : s_daq s1 = s_daq (with_daq d s)) by apply S. unfold represents, assigned, time_stamp, used, measuring in *. rewrite E.
  split; [exact Rp|]. do 4 (split; [reflexivity|]).
  destruct S as (S1 & S2 & S3 & S4 & S5 & S6 & S7 & S8 & S9 & S10 & S11 & S12 & S13 & S14 & S15).
  change (s_conn (with_daq d s)) with (s_conn s) in S1. change (s_busy (with_daq d s)) with (s_busy s) in S2. change (s_pgm (with_daq d s)) with (s_pgm s) in S3.
  change (s_prot (with_daq d s)) with (s_prot s) in S4. change (s_mem (with_daq d s)) with (s_mem s) in S13.
  split; [exact S13|]. unfold ready, daq_open, locked, programming. rewrite S1, S2, S3, S4. auto.
Qed.
Lemma session_thm : forall c m l s o e1 e2 e3 t mode a b v w pre tl tl2 os, let f := 0xE0 :: mode :: a :: b :: v :: w :: pre :: tl in let l' := field c [a; b] in let ev := field c [v; w] in
  let ts := if c_ts c && N.testbit mode 4 then stamp c (e_timer e3) else [] in
  reachable c m l s o -> ready s -> dlc_ok c -> daq_open c s -> c_max_ent c < 65536 -> stamp_ok c -> wf_env c e1 -> wf_env c e2 -> wf_env c e3 ->
  bytes f -> bytes tl2 -> lenN f <= c_ctobuf c -> lenN (0xDD :: 1 :: tl2) <= c_ctobuf c -> ~ measuring s -> represents c s t -> getN t l' = Some os -> l' < 256 ->
  N.land mode 3 = 0 -> pre <= 1 -> ev < c_nevents c -> sampleable c ts os -> used s + lenN os <= 4 ->
  exists s' p1 p2 o', run c [(e1, ORecv f); (e2, ORecv (0xDD :: 1 :: tl2)); (e3, OTrigger ev)] s = Ok (s', p1 ++ p2 ++ o') /\
    accepted p1 /\ accepted p2 /\ emits o' (dtos (s_mem s) ts (odts_before t l') os).
Proof.
  intros c m l s o e1 e2 e3 t mode a b v w pre tl tl2 os f l' ev ts R RD D Op Sm So We1 We2 We3 Bf B2 Lf L2 M Rp G L Hm Hp Hv Sa Hu.
  destruct (assign_thm c m l s o e1 R RD D Op t mode a b v w pre tl os Bf Lf M Rp G L Hm Hp Hv) as (d1 & (s1 & p1 & E1 & A1 & S1) & Rp1 & As1 & Ts1 & U1 & M1).
  fold f in E1. fold ev in As1.
  destruct (same_keeps c d1 s s1 t S1 Rp1) as (Rp1' & As1' & Ts1' & U1' & M1' & Mm1 & K1 & K1o).
  assert (R1 : reachable c m (l ++ [(e1, ORecv f)]) s1 (o ++ p1)) by (eapply reach_step; eauto; split; auto).
  destruct (synch_full c m _ s1 _ e2 R1 (K1 RD) D (K1o Op) t 1 tl2 L2 Rp1' ltac:(lia)) as (d2 & (s2 & p2 & E2 & A2 & S2) & Rp2 & As2 & Ts2 & U2 & M2).
  destruct (same_keeps c d2 s1 s2 t S2 Rp2) as (Rp2' & As2' & Ts2' & U2' & M2' & Mm2 & K2 & K2o).
  assert (R2 : reachable c m ((l ++ [(e1, ORecv f)]) ++ [(e2, ORecv (0xDD :: 1 :: tl2))]) s2 ((o ++ p1) ++ p2)).
  { eapply reach_step; eauto. split; auto. constructor; [lia|]. constructor; [lia|exact B2]. }
  assert (T : time_stamp c e3 s2 = ts) by (rewrite Ts2', Ts2, Ts1', Ts1; reflexivity).
  destruct (event_thm c m _ s2 _ e3 t ev l' os R2 We3 Sm So Rp2') as (s3 & o3 & E3 & Em & _).
  - apply M2', M2. now left.
  - apply As2', As2, As1', As1. now rewrite N.eqb_refl.
  - exact G.
  - rewrite T. exact Sa.
  - rewrite U2', U2, U1', U1. exact Hu.
  - exists s3, p1, p2, o3. split; [|split; [|split]].
    + cbn [run]. unfold andthen. rewrite E1. cbn [bind]. rewrite E2. cbn [bind]. rewrite E3. cbn [bind]. now rewrite app_nil_r.
    + eapply accepted_sends; eauto.
    + eapply accepted_sends; eauto.
    + rewrite T, Mm2, Mm1 in Em. exact Em.
Qed.
