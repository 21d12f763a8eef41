(** Packet identifiers, sampling, queue (C39 - C43). *)
From Coq Require Import NArith ZArith List Bool Lia ZifyBool ZifyNat ZifyN.
From Verif Require Import Base Config Codec Checksum State Queue Daq Core Spec Lists Effects Handlers HTx HInv HInv2
  HFields HResp DaqInv HSpec Steps Demo Ops ProofsSession Exec ProofsFrames SpecProt ProofsProt SpecMem ProofsMem ProofsWrite SpecDaq ProofsDaqA ProofsDaqB ProofsDaqC ProofsDaqD.
Import ListNotations.
Open Scope N_scope.
Ltac Zify.zify_post_hook ::= Z.div_mod_to_equations.

(** ** C39: identifiers *)
Lemma before_0 : forall t, odts_before t 0 = 0. Proof. reflexivity. Qed.
Lemma firstn_get : forall A (l : list A) i x, getN l i = Some x -> firstn (N.to_nat (i + 1)) l = firstn (N.to_nat i) l ++ [x].
Proof.
  intros A l i x H. unfold getN in H. replace (N.to_nat (i + 1)) with (S (N.to_nat i)) by lia. revert l H. generalize (N.to_nat i). intro n.
  induction n; intros [|y l] H; try discriminate; cbn in *.
  - injection H as ->. reflexivity.
  - f_equal. now apply IHn.
Qed.
Lemma before_S : forall t i os, getN t i = Some os -> odts_before t (i + 1) = odts_before t i + lenN os.
Proof.
  intros t i os H. unfold odts_before. rewrite (firstn_get _ _ _ _ H), concat_app, lenN_app. cbn [concat]. now rewrite app_nil_r.
Qed.
Lemma before_le : forall t i, odts_before t i <= lenN (concat t).
Proof.
  intros t i. unfold odts_before. rewrite <- (firstn_skipn (N.to_nat i) t) at 2. rewrite concat_app, lenN_app. lia.
Qed.
Lemma before_mono : forall t i j, i <= j -> odts_before t i <= odts_before t j.
Proof.
  intros t i j H. unfold odts_before. rewrite <- (firstn_skipn (N.to_nat i) (firstn (N.to_nat j) t)).
  rewrite firstn_firstn. replace (Nat.min (N.to_nat i) (N.to_nat j)) with (N.to_nat i) by lia. rewrite concat_app, lenN_app. lia.
Qed.
(** The identifiers of the ODTs are pairwise different and below the number of ODTs. *)
Lemma pid_bound : forall t l o es, odt_at t l o = Some es -> odts_before t l + o < lenN (concat t).
Proof.
  intros t l o es H. destruct (odt_list _ _ _ _ H) as (os & G & Go). pose proof (before_S _ _ _ G). pose proof (before_le t (l + 1)). pose proof (getN_Some_lt _ _ _ _ Go). lia.
Qed.
Lemma pid_lt : forall t l o l' o' es es', odt_at t l o = Some es -> odt_at t l' o' = Some es' -> l < l' -> odts_before t l + o < odts_before t l' + o'.
Proof.
  intros t l o l' o' es es' H H' L. destruct (odt_list _ _ _ _ H) as (os & G & Go). pose proof (before_S _ _ _ G). pose proof (before_mono t (l + 1) l').
  pose proof (getN_Some_lt _ _ _ _ Go). lia.
Qed.
Lemma pid_one : forall t l o l' o' es es', odt_at t l o = Some es -> odt_at t l' o' = Some es' ->
  odts_before t l + o = odts_before t l' + o' -> l = l' /\ o = o'.
Proof.
  intros t l o l' o' es es' H H' E. destruct (N.lt_trichotomy l l') as [L|[->|L]].
  - pose proof (pid_lt _ _ _ _ _ _ _ H H' L). lia.
  - split; [reflexivity|lia].
  - pose proof (pid_lt _ _ _ _ _ _ _ H' H L). lia.
Qed.
Lemma pid_mod : forall t l o l' o' es es', lenN (concat t) <= 252 -> odt_at t l o = Some es -> odt_at t l' o' = Some es' ->
  (odts_before t l + o) mod 256 < 0xFC /\ ((odts_before t l + o) mod 256 = (odts_before t l' + o') mod 256 -> l = l' /\ o = o').
Proof.
  intros t l o l' o' es es' B H H'. pose proof (pid_bound _ _ _ _ H). pose proof (pid_bound _ _ _ _ H').
  rewrite !N.mod_small by lia. split; [lia|]. eapply pid_one; eauto.
Qed.

Lemma sum_rep : forall c fo fe d t, wf_cfg c -> dinv c d -> represents_by fo fe c d t -> forall n i, i + N.of_nat n <= lenN t ->
  sum_odts c d n i (odts_before t i) = Ok (odts_before t (i + N.of_nat n)).
Proof.
  intros c fo fe d t W I Rp. pose proof (ent_lt_we c W). destruct (d_layout _ _ I) as (L1 & L2 & _). rewrite (d_len _ _ I) in L2.
  pose proof (r_count _ _ _ _ _ Rp).
  induction n; intros i B; cbn [sum_odts]; [now rewrite N.add_0_r|].
  destruct (getN_lt_Some _ t i) as (os & G); [lia|]. rewrite (hdr_val _ _ _ _ (r_list _ _ _ _ _ Rp _ _ G)). cbn [bind].
  rewrite <- (before_S _ _ _ G). rewrite N.mod_small by (pose proof (before_le t (i + 1)); lia). rewrite IHn by lia. f_equal. f_equal. lia.
Qed.
Lemma first_pid_rep : forall c fo fe d t l, wf_cfg c -> c_max_ent c < 65536 -> dinv c d -> represents_by fo fe c d t ->
  first_pid c d l = Ok (if l <? lenN t then Some (odts_before t l) else None).
Proof.
  intros c fo fe d t l W Sm I Rp. unfold first_pid. rewrite narrow by exact Sm. rewrite (r_lists _ _ _ _ _ Rp).
  destruct (N.leb_spec (lenN t) l); destruct (N.ltb_spec l (lenN t)); try lia; [reflexivity|].
  rewrite <- (before_0 t). rewrite (sum_rep c fo fe d t W I Rp) by lia. rewrite N.add_0_l, N2Nat.id. reflexivity.
Qed.

(** ** The queue *)
(** The queue holds the frames [fs]. *)
Definition queued (c : cfg) (q : queue) (fs : list (list N)) : Prop :=
  lenN (q_slots q) = 4 /\ q_tail q + lenN fs = q_head q /\ q_head q <= 4 /\
  forall i f, getN fs i = Some f -> getN (q_slots q) (q_tail q + i) = Some (lenN f, f) /\ 1 <= lenN f <= N.min (c_max_dto c) 255.

Lemma queued_nil : forall c q, qinv c q -> q_head q = q_tail q -> queued c q [].
Proof.
  intros c q (A & B & C & _) E. split; [exact C|]. split; [cbn; lia|]. split; [lia|]. intros i f H. unfold getN in H. now destruct (N.to_nat i).
Qed.
Lemma enqueue_queued : forall c bs q fs, wf_cfg c -> queued c q fs -> q_head q < 4 -> 1 <= lenN bs <= N.min (c_max_dto c) 255 ->
  exists q', enqueue c bs q = Ok q' /\ queued c q' (fs ++ [bs]) /\ q_head q' = q_head q + 1 /\ q_tail q' = q_tail q /\ q_ovl q' = q_ovl q.
Proof.
  intros c bs q fs W (A & B & C & D) Hh Hb. unfold enqueue, queue_full, qmod. rewrite (wf_qs c W).
  destruct (N.eqb_spec ((q_head q + 1) mod (4 + 1)) (q_tail q)); [lia|]. destruct (N.leb_spec 4 (q_head q)); [lia|].
  destruct (N.ltb_spec (c_max_dto c) (lenN bs)); [lia|]. destruct (N.eqb_spec (lenN bs) 0); [lia|].
  replace ((q_head q + 1) mod (4 + 1)) with (q_head q + 1) by lia.
  eexists. split; [reflexivity|]. split; [|repeat split]. unfold queued. cbn [q_head q_tail q_slots q_ovl set_q_head set_q_slots].
  split; [now rewrite lenN_upd|]. split; [rewrite lenN_app; cbn [lenN length N.of_nat]; lia|]. split; [lia|].
  clear H. intros i f H. destruct (N.lt_ge_cases i (lenN fs)) as [L|L].
  - rewrite getN_app1 in H by exact L. apply D in H. destruct H as (H & H'). split; [|exact H']. rewrite getN_upd_other; [exact H|]. lia.
  - rewrite getN_app2 in H by exact L. pose proof (getN_Some_lt _ _ _ _ H) as X. cbn in X. replace (i - lenN fs) with 0 in H by lia. cbn in H. injection H as <-.
    split; [|lia]. replace (q_tail q + i) with (q_head q) by lia. rewrite getN_upd_same by lia. unfold u8. now rewrite N.mod_small by lia.
Qed.
Lemma enqueue_full : forall c bs q fs, wf_cfg c -> queued c q fs -> q_head q = 4 ->
  enqueue c bs q = if q_tail q =? 0 then Ok (set_q_ovl true q) else UB OobQueue.
Proof.
  intros c bs q fs W (A & B & C & D) Hh. unfold enqueue, queue_full, qmod. rewrite (wf_qs c W), Hh. change ((4 + 1) mod (4 + 1)) with 0.
  rewrite N.eqb_sym. destruct (q_tail q =? 0); reflexivity.
Qed.
Lemma transmit_queued : forall c fs s, wf_cfg c -> queued c (d_q (s_daq s)) fs ->
  exists s' o, transmit c (length fs) s = Ok (s', o) /\ map p_data o = fs /\ Forall (fun p => p_dto p = true) o /\
    same_but_queue s s' /\ q_head (d_q (s_daq s')) = q_head (d_q (s_daq s)) /\ q_tail (d_q (s_daq s')) = q_head (d_q (s_daq s)).
Proof.
  intros c fs. induction fs as [|f fs IH]; intros s W Q.
  - exists s, []. destruct Q as (_ & E & _). cbn in E. repeat split; auto; try lia. exists (d_q (s_daq s)). destruct s as [? ? ? ? ? ? ? ? ? ? ? ? ? ? ? ? ? ? ? dd ?]. cbn. destruct dd. repeat split.
  - destruct Q as (A & B & C & D). cbn [length transmit]. destruct (D 0 f eq_refl) as (G & L). rewrite N.add_0_r in G.
    unfold lenN in B. cbn [length] in B. unfold dequeue, qmod. rewrite (wf_qs c W). destruct (N.leb_spec 4 (q_tail (d_q (s_daq s)))); [lia|]. rewrite G.
    destruct (N.ltb_spec (c_max_dto c) (lenN f)); [lia|]. destruct (N.eqb_spec (lenN f) 0); [lia|]. cbn [bind].
    replace ((q_tail (d_q (s_daq s)) + 1) mod (4 + 1)) with (q_tail (d_q (s_daq s)) + 1) by lia.
    assert (T : takeN (lenN f) f = f) by (unfold takeN, lenN; rewrite Nat2N.id; apply firstn_all). rewrite T.
    set (q1 := set_q_tail _ _). unfold send_dto. set (s1 := bump c _).
    assert (Q1 : queued c (d_q (s_daq s1)) fs).
    { unfold queued, s1. ss. unfold q1. cbn. split; [exact A|]. split; [unfold lenN; lia|]. split; [lia|]. intros i f0 Hi.
      specialize (D (i + 1) f0). unfold getN in D. replace (N.to_nat (i + 1)) with (S (N.to_nat i)) in D by lia. specialize (D Hi). destruct D as (D & D').
      split; [|exact D']. rewrite <- D. unfold getN. f_equal. lia. }
    destruct (IH s1 W Q1) as (s' & o & X1 & X2 & X3 & X4 & X5 & X6).
    rewrite X1. cbn [bind]. do 2 eexists. split; [reflexivity|]. cbn [map app p_data]. rewrite X2. split; [reflexivity|]. split; [constructor; auto|].
    split; [|split; [rewrite X5|rewrite X6]; unfold s1; ss; reflexivity].
    destruct X4 as (q & X4). exists q. eapply ss_trans; [|exact X4]. unfold s1, same_session. ss. repeat split.
Qed.

(** ** Sampling *)
Lemma mread_at : forall m a n, mread m a n = mem_at m a n.
Proof.
  intros m a n. unfold mread, mem_at. generalize (N.to_nat n). intro k. revert a. induction k; intro a; [reflexivity|]. cbn [mread_nat seq map].
  rewrite N.add_0_r, IHk. f_equal. rewrite <- seq_shift, map_map. apply map_ext. intro. f_equal. lia.
Qed.
Lemma mem_at_len : forall m a n, lenN (mem_at m a n) = n.
Proof. intros. unfold mem_at, lenN. rewrite map_length, seq_length. lia. Qed.
Lemma drop_get : forall A (l : list A) i x, getN l i = Some x -> dropN i l = x :: dropN (i + 1) l.
Proof.
  intros A l i x H. unfold getN, dropN in *. replace (N.to_nat (i + 1)) with (S (N.to_nat i)) by lia. revert l H. generalize (N.to_nat i). intro n.
  induction n; intros [|y l] H; try discriminate.
  - cbn in H. injection H as ->. reflexivity.
  - apply (IHn l H).
Qed.
Definition bytes_of (m : mem) (es : list (N * N)) : list N := concat (map (fun x => mem_at m (fst x) (snd x)) es).
Lemma bytes_of_len : forall m es, lenN (bytes_of m es) = lenN (concat (map (fun x : N * N => repeat 0 (N.to_nat (snd x))) es)).
Proof.
  unfold bytes_of. induction es as [|x es IH]; [reflexivity|]. cbn [map concat]. rewrite !lenN_app, IH, mem_at_len. unfold lenN at 2. rewrite repeat_length. lia.
Qed.

Section Sample.
Variables (c : cfg) (m : mem) (d : daqst) (t : tree) (fo : N -> N) (fe : N -> N -> N).
Variables (W : wf_cfg c) (Sm : c_max_ent c < 65536) (I : dinv c d) (Rp : represents_by fo fe c d t).

Lemma sample_entries_rep : forall l o es, odt_at t l o = Some es -> Forall (fun x => 1 <= snd x /\ in_space c (fst x) (snd x)) es ->
  forall n k data, k + N.of_nat n = lenN es -> lenN data + lenN (bytes_of m (dropN k es)) <= c_max_dto c ->
  sample_entries c m d l o n k data = Ok (data ++ bytes_of m (dropN k es)).
Proof.
  intros l o es Ho F. induction n; intros k data Hk Hl; cbn [sample_entries].
  - replace (dropN k es) with (@nil (N * N)) by (unfold dropN; symmetry; apply skipn_all2; unfold lenN in Hk; lia). cbn. now rewrite app_nil_r.
  - destruct (getN_lt_Some _ es k) as ((a & len) & G); [lia|].
    assert (V : entry_at t l o k = Some (a, len)) by (unfold entry_at; now rewrite Ho).
    destruct (rep_entry_index c W Sm _ _ _ _ _ _ _ _ I Rp V) as (E & _). rewrite E. cbn [bind].
    destruct (entry_val _ _ _ (r_entry _ _ _ _ _ Rp _ _ _ _ V)) as (x & E1 & E2). rewrite E1. cbn [bind]. rewrite E2. cbn [bind].
    pose proof (proj1 (Forall_forall _ _) F _ (getN_In _ _ _ _ G)) as (B1 & B2). cbn [fst snd] in B1, B2. unfold in_space in B2.
    rewrite (drop_get _ _ _ _ G) in *. unfold bytes_of in *. cbn [map concat fst snd] in *. rewrite lenN_app, mem_at_len in Hl.
    destruct (N.ltb_spec (c_max_dto c - lenN data) len); [lia|]. destruct (N.eqb_spec len 0); [lia|]. destruct (N.ltb_spec (aspace c) (a + len)); [lia|].
    rewrite IHn; [|lia|rewrite lenN_app, mread_at, mem_at_len; lia]. rewrite mread_at, <- app_assoc. reflexivity.
Qed.

Definition stamp_of (ts : option N) (i : N) : list N := match ts with Some v => if i =? 0 then ts_bytes c v else [] | None => [] end.
Lemma stamp_S : forall ts i, stamp_of ts (i + 1) = [].
Proof. intros [v|] i; cbn; auto. now destruct (N.eqb_spec (i + 1) 0); [lia|]. Qed.

(** The first ODTs, until the queue has no further place. *)
Lemma odts_fill : forall ts l os, getN t l = Some os ->
  forall a b i q fs, i + N.of_nat a + N.of_nat b = lenN os ->
  (forall j es, i <= j < i + N.of_nat a -> getN os j = Some es -> sampled_ok c (stamp_of ts j) es) ->
  queued c q fs -> q_head q + N.of_nat a <= 4 ->
  exists q', sample_odts c m ts d l (a + b) i (odts_before t l + i) q =
      sample_odts c m ts d l b (i + N.of_nat a) (odts_before t l + (i + N.of_nat a)) q' /\
    queued c q' (fs ++ dtos m (stamp_of ts i) (odts_before t l + i) (firstn a (dropN i os))) /\
    q_head q' = q_head q + N.of_nat a /\ q_tail q' = q_tail q /\ q_ovl q' = q_ovl q.
Proof.
  intros ts l os G. induction a; intros b i q fs Hi S Q Hq.
  - exists q. change (N.of_nat 0) with 0. rewrite !N.add_0_r. cbn [plus firstn dtos]. rewrite app_nil_r. auto.
  - cbn [plus sample_odts]. destruct (getN_lt_Some _ os i) as (es & Ge); [lia|]. assert (Go : odt_at t l i = Some es) by (unfold odt_at; now rewrite G).
    destruct (rep_odt_index c W Sm _ _ _ _ _ _ _ I Rp Go) as (E1 & _). rewrite E1. cbn [bind].
    rewrite (hdr_val _ _ _ _ (r_odt _ _ _ _ _ Rp _ _ _ Go)). cbn [bind].
    destruct (S i es) as (S1 & S2); [lia|exact Ge|]. fold (stamp_of ts i).
    rewrite <- (bytes_of_len m) in S2.
    rewrite (sample_entries_rep l i es Go S1); [|lia|].
    2: { unfold dropN. cbn [N.to_nat skipn]. rewrite lenN_cons. lia. }
    unfold dropN at 1. cbn [N.to_nat skipn bind].
    set (f := _ ++ bytes_of m es).
    assert (Lf : lenN f = 1 + lenN (stamp_of ts i) + lenN (bytes_of m es)) by (unfold f; rewrite lenN_app, lenN_cons; lia).
    destruct (enqueue_queued c f q fs W Q) as (q1 & X1 & X2 & X3 & X4 & X5); [lia|lia|]. rewrite X1. cbn [bind].
    assert (P : (odts_before t l + i + 1) mod we c = odts_before t l + (i + 1)).
    { rewrite N.mod_small; [lia|]. pose proof (pid_bound _ _ _ _ Go). pose proof (ent_lt_we c W). destruct (d_layout _ _ I) as (L1 & L2 & _). rewrite (d_len _ _ I) in L2.
      pose proof (r_count _ _ _ _ _ Rp). pose proof (getN_Some_lt _ _ _ _ G). lia. }
    rewrite P. destruct (IHa b (i + 1) q1 (fs ++ [f])) as (q2 & Y1 & Y2 & Y3 & Y4 & Y5); [lia| |exact X2|lia|].
    { intros j es' Hj. apply S. lia. }
    exists q2. replace (i + N.of_nat (Datatypes.S a)) with (i + 1 + N.of_nat a) by lia. split; [exact Y1|]. split; [|split; [lia|split; congruence]].
    rewrite (drop_get _ _ _ _ Ge). cbn [firstn dtos]. rewrite <- app_assoc in Y2. cbn [app] in Y2. rewrite stamp_S in Y2.
    replace (odts_before t l + i + 1) with (odts_before t l + (i + 1)) by lia. exact Y2.
Qed.
(** An ODT for which there is no place. *)
Lemma odts_stop : forall ts l os, getN t l = Some os ->
  forall b i q fs, i + N.of_nat b = lenN os -> (0 < b)%nat ->
  (forall j es, i <= j -> getN os j = Some es -> sampled_ok c (stamp_of ts j) es) ->
  queued c q fs -> q_head q = 4 ->
  sample_odts c m ts d l b i (odts_before t l + i) q = if q_tail q =? 0 then Ok (set_q_ovl true q) else UB OobQueue.
Proof.
  intros ts l os G. induction b; intros i q fs Hi Hb S Q Hq; [lia|].
  cbn [sample_odts]. destruct (getN_lt_Some _ os i) as (es & Ge); [lia|]. assert (Go : odt_at t l i = Some es) by (unfold odt_at; now rewrite G).
  destruct (rep_odt_index c W Sm _ _ _ _ _ _ _ I Rp Go) as (E1 & _). rewrite E1. cbn [bind].
  rewrite (hdr_val _ _ _ _ (r_odt _ _ _ _ _ Rp _ _ _ Go)). cbn [bind].
  destruct (S i es) as (S1 & S2); [lia|exact Ge|]. fold (stamp_of ts i).
  rewrite <- (bytes_of_len m) in S2.
  rewrite (sample_entries_rep l i es Go S1); [|lia|].
  2: { unfold dropN. cbn [N.to_nat skipn]. rewrite lenN_cons. lia. }
  unfold dropN at 1. cbn [N.to_nat skipn bind]. rewrite (enqueue_full c _ _ _ W Q Hq).
  destruct (q_tail q =? 0) eqn:Z; [|reflexivity]. cbn [bind].
  assert (P : (odts_before t l + i + 1) mod we c = odts_before t l + (i + 1)).
  { rewrite N.mod_small; [lia|]. pose proof (pid_bound _ _ _ _ Go). pose proof (ent_lt_we c W). destruct (d_layout _ _ I) as (L1 & L2 & _). rewrite (d_len _ _ I) in L2.
    pose proof (r_count _ _ _ _ _ Rp). pose proof (getN_Some_lt _ _ _ _ G). lia. }
  rewrite P. destruct b as [|b']; [reflexivity|].
  rewrite (IHb (i + 1) (set_q_ovl true q) fs); [|lia|lia|intros j es' Hj; apply S; lia|exact Q|exact Hq].
  cbn [q_tail set_q_ovl]. rewrite Z. destruct q. reflexivity.
Qed.
End Sample.
