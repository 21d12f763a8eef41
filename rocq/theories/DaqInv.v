(** Structural invariant of the DAQ tables and the DTO queue. *)
From Coq Require Import NArith ZArith List Bool Lia ZifyBool ZifyNat ZifyN.
From Verif Require Import Base Config Codec Checksum State Queue Daq Core Spec Lists Effects HTx.
Import ListNotations.
Open Scope N_scope.

Ltac Zify.zify_post_hook ::= Z.div_mod_to_equations.

(** Kind of the entity at index [i] in a pool holding [l] lists, then [o] ODTs,
    then entries up to [n], then unused entities. *)
Definition kind_at (l o n i : N) : ekind :=
  if i <? l then KList else if i <? l + o then KOdt else if i <? n then KEntry else KUnused.

Definition layout (d : daqst) : Prop :=
  d_lcnt d + d_ocnt d <= d_ecnt d /\ d_ecnt d <= lenN (d_ents d) /\
  forall i x, getN (d_ents d) i = Some x -> en_kind x = kind_at (d_lcnt d) (d_ocnt d) (d_ecnt d) i.

Definition alloc_ok (d : daqst) : Prop :=
  match d_alloc d with
  | AIdle | AFree => d_ecnt d = 0
  | ADaq => d_ocnt d = 0 /\ d_ecnt d = d_lcnt d
  | AOdt => d_ecnt d = d_lcnt d + d_ocnt d
  | AEntry => True
  end.

Definition slot_ok (sl : N * list N) : Prop := fst sl <= lenN (snd sl) /\ fst sl < 256 /\ bytes (snd sl).

Definition qinv (c : cfg) (q : queue) : Prop :=
  q_head q < 5 /\ q_tail q < 5 /\ lenN (q_slots q) = 4 /\ Forall slot_ok (q_slots q).

Record dinv (c : cfg) (d : daqst) : Prop := mkD {
  d_len : lenN (d_ents d) = c_max_ent c;
  d_layout : layout d;
  d_allocok : alloc_ok d;
  d_lfelen : lenN (d_lfe d) = c_nevents c;
  d_lfeb : bytes (d_lfe d);
  d_modeb : d_mode d < 256;
  d_qinv : qinv c (d_q d)
}.

(** Functions that change only the mode, the pointer or the running flag. *)
Definition same_tables (d d' : daqst) : Prop :=
  d_alloc d' = d_alloc d /\ d_ents d' = d_ents d /\ d_ecnt d' = d_ecnt d /\ d_lcnt d' = d_lcnt d /\
  d_ocnt d' = d_ocnt d.

Lemma dinv_same : forall c d d', dinv c d -> same_tables d d' -> d_lfe d' = d_lfe d -> d_q d' = d_q d ->
  d_mode d' < 256 -> dinv c d'.
Proof.
  intros c d d' [] (A & B & C & D & E) F G H.
  constructor; unfold layout, alloc_ok in *; rewrite ?A, ?B, ?C, ?D, ?E, ?F, ?G; auto.
Qed.

Lemma land_lt8 : forall a b, a < 256 -> N.land a b < 256.
Proof.
  intros. apply (N.le_lt_trans _ a); auto.
  apply N.ldiff_le. apply N.bits_inj_0. intro n. rewrite N.ldiff_spec, N.land_spec.
  destruct (N.testbit a n), (N.testbit b n); reflexivity.
Qed.

Lemma ss_once_same : forall b d, same_tables d (ss_once b d) /\ d_lfe (ss_once b d) = d_lfe d /\ d_q (ss_once b d) = d_q d /\
  d_run (ss_once b d) = d_run d /\ d_plist (ss_once b d) = d_plist d /\ d_podt (ss_once b d) = d_podt d /\
  d_pent (ss_once b d) = d_pent d /\ (d_mode d < 256 -> d_mode (ss_once b d) < 256).
Proof.
  intros. unfold ss_once, same_tables. destruct (_ =? _); cbn; repeat split; auto.
  intro. apply land_lt8. destruct b; [apply lor_lt8|apply land_lt8]; auto. exact eq_refl.
Qed.

Lemma start_stop_same : forall b d, same_tables d (start_stop b d) /\ d_lfe (start_stop b d) = d_lfe d /\
  d_q (start_stop b d) = d_q d /\ d_run (start_stop b d) = d_run d /\ d_plist (start_stop b d) = d_plist d /\
  d_podt (start_stop b d) = d_podt d /\ d_pent (start_stop b d) = d_pent d /\
  (d_mode d < 256 -> d_mode (start_stop b d) < 256).
Proof.
  intros b d. unfold start_stop, iterN. induction (N.to_nat (d_lcnt d)) as [|n IH].
  - cbn. unfold same_tables. repeat split; auto.
  - cbn [Nat.iter nat_rect]. change (nat_rect _ d (fun _ => ss_once b) n) with (Nat.iter n (ss_once b) d). set (x := Nat.iter n (ss_once b) d) in *.
    destruct (ss_once_same b x) as (S & A & B & C & D & E & F & G).
    destruct IH as (S' & A' & B' & C' & D' & E' & F' & G').
    unfold same_tables in *.
    destruct S as (? & ? & ? & ? & ?). destruct S' as (? & ? & ? & ? & ?).
    repeat split; congruence || auto.
Qed.

Lemma qinv_init : forall c q q', qinv c q -> queue_init c q = Ok q' -> qinv c q'.
Proof.
  intros c q q' (A & B & C & D) H. unfold queue_init in H. destruct (_ <=? _); [|discriminate].
  injection H as <-. unfold qinv. cbn. repeat split; auto; lia.
Qed.

Lemma repeat_bytes : forall n, bytes (repeat 0 n).
Proof. induction n; cbn; constructor; auto. lia. Qed.

(** An emptied configuration. *)
Lemma dinv_free : forall c d, dinv c d -> dinv c (daq_free c d).
Proof.
  intros c d []. constructor; cbn; auto.
  - rewrite lenN_repeat. lia.
  - unfold layout. cbn. rewrite lenN_repeat. repeat split; try lia.
    intros i x H. rewrite getN_repeat in H. destruct (_ <? _); [|discriminate]. injection H as <-.
    unfold kind_at. destruct (N.ltb_spec i 0); [lia|]. destruct (N.ltb_spec i (0 + 0)); [lia|]. reflexivity.
  - rewrite lenN_repeat. reflexivity.
  - apply repeat_bytes.
Qed.

Lemma dinv_init : forall c d d', dinv c d -> daq_init c d = Ok d' -> dinv c d'.
Proof.
  intros c d d' I H. unfold daq_init in H. apply bind_Ok in H. destruct H as (q & Hq & H). apply Ok_inj in H. subst d'.
  destruct (start_stop_same false d) as (S & A & B & C & D & E & F & G).
  set (d1 := start_stop false d) in *. destruct I.
  assert (I1 : dinv c d1).
  { apply (dinv_same c d); auto. constructor; auto. }
  set (d2 := set_d_alloc AIdle _) in *.
  assert (Iq : qinv c (d_q (daq_free c d2))) by (cbn; fold d1; rewrite B; auto).
  pose proof (qinv_init _ _ _ Iq Hq) as Q.
  constructor; cbn; auto.
  - rewrite lenN_repeat. lia.
  - unfold layout. cbn. rewrite lenN_repeat. repeat split; try lia.
    intros i x H. rewrite getN_repeat in H. destruct (_ <? _); [|discriminate]. injection H as <-.
    unfold kind_at. destruct (N.ltb_spec i 0); [lia|]. destruct (N.ltb_spec i (0 + 0)); [lia|]. reflexivity.
  - rewrite lenN_repeat. reflexivity.
  - apply repeat_bytes.
Qed.

(** ** Pool updates *)

Lemma lenN_on_range : forall f a b l, a <= b -> b <= lenN l -> lenN (on_range f a b l) = lenN l.
Proof. intros. unfold on_range. rewrite !lenN_app, lenN_map, !lenN_take, !lenN_drop. lia. Qed.

Lemma getN_on_range : forall f a b l i, a <= b -> b <= lenN l ->
  getN (on_range f a b l) i = if (a <=? i) && (i <? b) then option_map f (getN l i) else getN l i.
Proof.
  intros f a b l i H1 H2. unfold on_range.
  destruct (N.ltb_spec i a).
  - rewrite getN_app1 by (rewrite lenN_take; lia). rewrite getN_take by lia.
    destruct (N.leb_spec a i); [lia|]. reflexivity.
  - rewrite getN_app2 by (rewrite lenN_take; lia). rewrite lenN_take, N.min_l by lia.
    destruct (N.leb_spec a i); [|lia]. destruct (N.ltb_spec i b); cbn [andb].
    + rewrite getN_app1 by (rewrite lenN_map, lenN_take, lenN_drop; lia).
      rewrite getN_map, getN_take, getN_drop by lia. f_equal. f_equal. lia.
    + rewrite getN_app2 by (rewrite lenN_map, lenN_take, lenN_drop; lia).
      rewrite lenN_map, lenN_take, lenN_drop, getN_drop. f_equal. lia.
Qed.

Lemma we_cases : forall c, (c_max_ent c < 256 /\ we c = 256) \/
  (256 <= c_max_ent c < 65536 /\ we c = 65536) \/ (65536 <= c_max_ent c /\ we c = 4294967296).
Proof.
  intros. unfold we. destruct (N.ltb_spec (c_max_ent c) 256); [left; auto|].
  destruct (N.ltb_spec (c_max_ent c) 65536); [right; left; auto|right; right; auto].
Qed.
Lemma we_pos : forall c, 0 < we c.
Proof. intros. destruct (we_cases c) as [[_ ->]|[[_ ->]|[_ ->]]]; lia. Qed.
Lemma ent_lt_we : forall c, wf_cfg c -> c_max_ent c < we c.
Proof.
  intros c W. pose proof (wf_ent c W) as E. change (2 ^ 31) with 2147483648 in E.
  destruct (we_cases c) as [[? ->]|[[? ->]|[? ->]]]; lia.
Qed.
Lemma ent_sum_exact : forall c a n, wf_cfg c -> a <= c_max_ent c -> n < 65536 -> ent_sum c a n = a + n.
Proof.
  intros c a n W Ha Hn. unfold ent_sum. pose proof (wf_ent c W) as E. change (2 ^ 31) with 2147483648 in E.
  change (2 ^ 32) with 4294967296. destruct (we c =? 4294967296); auto. apply N.mod_small. lia.
Qed.

Definition qsame (d d' : daqst) : Prop :=
  d_lfe d' = d_lfe d /\ d_mode d' = d_mode d /\ d_q d' = d_q d /\ d_run d' = d_run d /\
  d_plist d' = d_plist d /\ d_podt d' = d_podt d /\ d_pent d' = d_pent d.

Lemma dinv_seq : forall c d d' r, dinv c d -> seq_error c d = Ok (d', r) -> dinv c d' /\ r = 0x29.
Proof.
  intros c d d' r I H. unfold seq_error in H. destruct (c_reset_seq c); invs; split; auto.
  eapply dinv_init; eauto.
Qed.

Lemma dinv_alloc : forall c n d d' r, wf_cfg c -> n < 65536 -> dinv c d -> daq_alloc c n d = Ok (d', r) -> dinv c d'.
Proof.
  intros c n d d' r W Hn I H. unfold daq_alloc in H.
  destruct (allowed (d_alloc d) TDaq) eqn:A; cbn [negb] in H; [|eapply dinv_seq; eauto].
  pose proof I as I0. destruct I as [L (Y1 & Y2 & Y3) AO LF LB MB Q].
  rewrite ent_sum_exact in H by (auto; lia).
  destruct (N.ltb_spec (c_max_ent c) (d_ecnt d + n)); [invs; auto|].
  destruct (existsb _ _); [discriminate|]. apply Ok_inj in H. injection H as <- <-.
  pose proof (ent_lt_we c W) as WE.
  assert (E0 : d_ocnt d = 0 /\ d_ecnt d = d_lcnt d).
  { unfold alloc_ok in AO. destruct (d_alloc d); try discriminate; lia. }
  destruct E0 as [E1 E2].
  constructor; cbn; auto.
  - rewrite lenN_on_range; lia.
  - unfold layout. cbn. rewrite lenN_on_range by lia. rewrite !N.mod_small by lia. repeat split; try lia.
    intros i x G. rewrite getN_on_range in G by lia.
    destruct (N.leb_spec (d_ecnt d) i), (N.ltb_spec i (d_ecnt d + n)); cbn [andb] in G.
    + destruct (getN (d_ents d) i); [|discriminate]. injection G as <-. cbn. unfold kind_at.
      destruct (N.ltb_spec i (d_lcnt d + n)); [reflexivity|lia].
    + rewrite (Y3 _ _ G). unfold kind_at.
      repeat match goal with |- context [?a <? ?b] => destruct (N.ltb_spec a b); try lia end; auto.
    + rewrite (Y3 _ _ G). unfold kind_at.
      repeat match goal with |- context [?a <? ?b] => destruct (N.ltb_spec a b); try lia end; auto.
    + lia.
  - unfold alloc_ok. cbn. rewrite !N.mod_small by lia. lia.
Qed.

Lemma layout_upd : forall (d : daqst) l (x : entity) (b : ebody),
  getN (d_ents d) l = Some x -> layout d -> layout (set_d_ents (updN (d_ents d) l (mkEnt (en_kind x) b)) d).
Proof.
  intros d l x b G (Y1 & Y2 & Y3). unfold layout. cbn. rewrite lenN_upd. repeat split; auto.
  intros i y H. destruct (N.eq_dec l i) as [<-|Ne].
  - rewrite getN_upd_same in H by (eapply getN_Some_lt; eauto). injection H as <-. cbn. eauto.
  - rewrite getN_upd_other in H by auto. eauto.
Qed.

Lemma ent_at_Ok : forall d i x, ent_at d i = Ok x -> getN (d_ents d) i = Some x.
Proof. unfold ent_at. intros. destruct (getN (d_ents d) i); invs; auto. Qed.

Lemma dinv_alloc_odt : forall c l n d d' r, wf_cfg c -> n < 65536 -> dinv c d ->
  daq_alloc_odt c l n d = Ok (d', r) -> dinv c d'.
Proof.
  intros c l n d d' r W Hn I H. unfold daq_alloc_odt in H.
  destruct (allowed (d_alloc d) TOdt) eqn:A; cbn [negb] in H; [|eapply dinv_seq; eauto].
  pose proof I as I0. destruct I as [L (Y1 & Y2 & Y3) AO LF LB MB Q].
  rewrite ent_sum_exact in H by (auto; lia).
  destruct (N.ltb_spec (c_max_ent c) (d_ecnt d + n)); [invs; auto|].
  pose proof (ent_lt_we c W) as WE.
  set (d1 := set_d_ents _ _) in H. apply bind_Ok in H. destruct H as (x & Hx & H).
  apply bind_Ok in H. destruct H as ((num & f) & Hh & H). apply Ok_inj in H. injection H as <- <-.
  apply ent_at_Ok in Hx.
  assert (E2 : d_ecnt d = d_lcnt d + d_ocnt d).
  { unfold alloc_ok in AO. destruct (d_alloc d); try discriminate; lia. }
  assert (Yd : layout (set_d_ecnt (d_ecnt d + n) (set_d_ocnt (d_ocnt d + n) d1))).
  { unfold layout. cbn. rewrite lenN_on_range by lia. repeat split; try lia.
    intros i y G. rewrite getN_on_range in G by lia.
    destruct (N.leb_spec (d_ecnt d) i), (N.ltb_spec i (d_ecnt d + n)); cbn [andb] in G.
    + destruct (getN (d_ents d) i); [|discriminate]. injection G as <-. cbn. unfold kind_at.
      repeat match goal with |- context [?a <? ?b] => destruct (N.ltb_spec a b); try lia end; auto.
    + rewrite (Y3 _ _ G). unfold kind_at.
      repeat match goal with |- context [?a <? ?b] => destruct (N.ltb_spec a b); try lia end; auto.
    + rewrite (Y3 _ _ G). unfold kind_at.
      repeat match goal with |- context [?a <? ?b] => destruct (N.ltb_spec a b); try lia end; auto.
    + lia. }
  pose proof (layout_upd (set_d_ecnt (d_ecnt d + n) (set_d_ocnt (d_ocnt d + n) d1)) l x (BHdr ((num + n) mod we c) (u16 (d_ecnt d))) Hx Yd) as Yu.
  rewrite (N.mod_small (d_ecnt d + n)), (N.mod_small (d_ocnt d + n)) by lia.
  constructor; cbn; auto.
  - rewrite lenN_upd, lenN_on_range; lia.
  - unfold alloc_ok. cbn. lia.
Qed.

Lemma dinv_alloc_entry : forall c l o n d d' r, wf_cfg c -> n < 65536 -> dinv c d ->
  daq_alloc_entry c l o n d = Ok (d', r) -> dinv c d'.
Proof.
  intros c l o n d d' r W Hn I H. unfold daq_alloc_entry in H.
  destruct (allowed (d_alloc d) TEntry) eqn:A; cbn [negb] in H; [|eapply dinv_seq; eauto].
  pose proof I as I0. destruct I as [L (Y1 & Y2 & Y3) AO LF LB MB Q].
  rewrite ent_sum_exact in H by (auto; lia).
  destruct (N.ltb_spec (c_max_ent c) (d_ecnt d + n)); [invs; auto|].
  pose proof (ent_lt_we c W) as WE.
  set (d1 := set_d_ents _ _) in H. apply bind_Ok in H. destruct H as ((num & f) & Hh & H).
  apply bind_Ok in H. destruct H as (x & Hx & H). apply Ok_inj in H. injection H as <- <-.
  apply ent_at_Ok in Hx.
  assert (Yd : layout (set_d_ecnt (d_ecnt d + n) d1)).
  { unfold layout. cbn. rewrite lenN_on_range by lia. repeat split; try lia.
    intros i y G. rewrite getN_on_range in G by lia.
    destruct (N.leb_spec (d_ecnt d) i), (N.ltb_spec i (d_ecnt d + n)); cbn [andb] in G.
    + destruct (getN (d_ents d) i); [|discriminate]. injection G as <-. cbn. unfold kind_at.
      repeat match goal with |- context [?a <? ?b] => destruct (N.ltb_spec a b); try lia end; auto.
    + rewrite (Y3 _ _ G). unfold kind_at.
      repeat match goal with |- context [?a <? ?b] => destruct (N.ltb_spec a b); try lia end; auto.
    + rewrite (Y3 _ _ G). unfold kind_at.
      repeat match goal with |- context [?a <? ?b] => destruct (N.ltb_spec a b); try lia end; auto.
    + lia. }
  pose proof (layout_upd (set_d_ecnt (d_ecnt d + n) d1) ((f + u16 o) mod we c) x (BHdr n (u16 (d_ecnt d))) Hx Yd) as Yu.
  rewrite (N.mod_small (d_ecnt d + n)) by lia.
  constructor; cbn; auto.
  - rewrite lenN_upd, lenN_on_range; lia.
Qed.

Lemma dinv_write : forall c sz a d d', dinv c d -> write_daq_entry c sz a d = Ok d' -> dinv c d'.
Proof.
  intros c sz a d d' I H. unfold write_daq_entry in H. apply bind_Ok in H. destruct H as (i & Hi & H).
  apply bind_Ok in H. destruct H as (x & Hx & H). apply Ok_inj in H. subst d'. apply ent_at_Ok in Hx.
  destruct I as [L Y AO LF LB MB Q].
  pose proof (layout_upd d i x (BEnt a sz) Hx Y) as Yu.
  constructor; cbn; auto. now rewrite lenN_upd.
Qed.

Lemma dinv_multiple : forall c buf n i d d', dinv c d -> write_multiple c buf n i d = Ok d' -> dinv c d'.
Proof.
  induction n; intros i d d' I H; cbn in H; [invs; auto|].
  apply bind_Ok in H. destruct H as (d1 & H1 & H). apply dinv_write in H1; eauto.
Qed.

Lemma Forall_upd : forall A (P : A -> Prop) l i x, Forall P l -> P x -> Forall P (upd l i x).
Proof. induction l; intros; cbn; auto. inversion H; subst. destruct i; constructor; auto. Qed.

Lemma dinv_event : forall c l ev d d', dinv c d -> add_event l ev d = Ok d' -> dinv c d'.
Proof.
  intros c l ev d d' [L Y AO LF LB MB Q] H. unfold add_event in H. invs. constructor; cbn; auto.
  - now rewrite lenN_upd.
  - apply Forall_upd; auto. apply u8_lt.
Qed.

Lemma set_reset_lt : forall r v f, r < 256 -> f < 256 -> set_reset r v f < 256.
Proof. intros. unfold set_reset. destruct (_ =? _); auto using lor_lt8, land_lt8. Qed.
Lemma apply_mode_lt : forall o m, o < 256 -> apply_mode o m < 256.
Proof. intros. unfold apply_mode. cbn [fold_left]. repeat (apply set_reset_lt; [|exact eq_refl]). auto. Qed.

(** ** Queue *)

Lemma qinv_enqueue : forall c bs q q', wf_cfg c -> bytes bs -> qinv c q -> enqueue c bs q = Ok q' -> qinv c q'.
Proof.
  intros c bs q q' W Hb (A & B & C & D) H. unfold enqueue, qmod in H. rewrite (wf_qs c W) in H.
  invs; unfold qinv; cbn; auto. repeat split; auto.
  - lia.
  - now rewrite lenN_upd.
  - apply Forall_upd; auto. unfold slot_ok. cbn. split; [|split; auto using u8_lt].
    unfold u8. change (2 ^ 8) with 256. pose proof (N.mod_le (lenN bs) 256). lia.
Qed.

Lemma dequeue_Ok : forall c q data q', wf_cfg c -> qinv c q -> dequeue c q = Ok (data, q') ->
  qinv c q' /\ bytes data /\ 1 <= lenN data <= N.min (c_max_dto c) 255.
Proof.
  intros c q data q' W (A & B & C & D) H. unfold dequeue, qmod in H. rewrite (wf_qs c W) in H.
  destruct (N.leb_spec 4 (q_tail q)); [discriminate|].
  destruct (getN (q_slots q) (q_tail q)) as [[len bs]|] eqn:G; [|discriminate].
  pose proof (proj1 (Forall_forall _ _) D _ (getN_In _ _ _ _ G)) as (S1 & S2 & S3). cbn in S1, S2, S3.
  destruct (N.ltb_spec (c_max_dto c) len); [discriminate|].
  destruct (N.eqb_spec len 0); [discriminate|]. apply Ok_inj in H. injection H as <- <-.
  split; [|split].
  - unfold qinv. cbn. repeat split; auto. lia.
  - apply bytes_take. auto.
  - rewrite lenN_take. lia.
Qed.

Lemma sample_entries_bytes : forall c m d l o n k data r, (forall x, m x < 256) -> bytes data ->
  sample_entries c m d l o n k data = Ok r -> bytes r.
Proof.
  induction n; intros k data r Hm Hd H; cbn [sample_entries] in H; [invs; auto|].
  apply bind_Ok in H. destruct H as (i & _ & H). apply bind_Ok in H. destruct H as (x & _ & H).
  apply bind_Ok in H. destruct H as ((a & len) & _ & H).
  destruct (_ <? _); [discriminate|]. destruct (_ =? _); [discriminate|]. destruct (_ <? _); [discriminate|].
  eapply IHn; [auto| |exact H]. apply bytes_app; auto. apply bytes_mread. auto.
Qed.

Lemma ts_bytes_b : forall c t, bytes (ts_bytes c t).
Proof. intros. unfold ts_bytes. apply bytes_take. destruct (c_host_be c); [apply Forall_rev|]; apply bytes_le32. Qed.

Lemma sample_odts_qinv : forall c m ts d l n i pid q q', wf_cfg c -> (forall x, m x < 256) -> qinv c q ->
  sample_odts c m ts d l n i pid q = Ok q' -> qinv c q'.
Proof.
  induction n; intros i pid q q' W Hm Q H; cbn [sample_odts] in H; [invs; auto|].
  apply bind_Ok in H. destruct H as (oi & _ & H). apply bind_Ok in H. destruct H as ((ne & f) & _ & H).
  apply bind_Ok in H. destruct H as (data & Hs & H). apply bind_Ok in H. destruct H as (q1 & Hq & H).
  eapply IHn; [auto|auto| |exact H]. eapply qinv_enqueue; [auto| |exact Q|exact Hq].
  eapply sample_entries_bytes; [exact Hm| |exact Hs]. constructor; [apply u8_lt|].
  destruct ts; [destruct (_ =? _)|]; try constructor. apply ts_bytes_b.
Qed.

Lemma sample_event_qinv : forall c m t ev d q, wf_cfg c -> (forall x, m x < 256) -> qinv c (d_q d) ->
  sample_event c m t ev d = Ok (Some q) -> qinv c q.
Proof.
  intros c m t ev d q W Hm Q H. unfold sample_event in H.
  destruct (negb _); [discriminate|]. destruct (_ <=? _); [discriminate|].
  destruct (getN (d_lfe d) ev); [|discriminate]. apply bind_Ok in H. destruct H as (p & _ & H).
  destruct p; [|discriminate]. apply bind_Ok in H. destruct H as ((no & f) & _ & H).
  apply bind_Ok in H. destruct H as (q1 & Hq & H). apply Ok_inj in H. injection H as <-.
  eapply sample_odts_qinv; eauto.
Qed.

(** ** Handlers *)

Lemma dinv_mode : forall c d m, dinv c d -> m < 256 -> dinv c (set_d_mode m d).
Proof. intros c d m I H. apply (dinv_same c d); auto. repeat split. Qed.
