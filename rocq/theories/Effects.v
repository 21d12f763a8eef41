(** Inversion lemmas for the building blocks of the command handlers: what a
    successful call did. *)
From Coq Require Import NArith ZArith List Bool Lia ZifyBool ZifyNat ZifyN.
From Verif Require Import Base Config Codec Checksum State Queue Daq Core Lists.
Import ListNotations.
Open Scope N_scope.

(** What a transmission of [n] payload bytes did. *)
Definition sent (c : cfg) (n : N) (payload : list N) (s s' : st) (o : list pkt) : Prop :=
  exists ob, lenN ob = lenN (s_out s) /\ 1 <= n /\ n <= lenN ob /\
    s' = bump c (set_s_out ob s) /\ payload = takeN n ob /\
    o = [mkPkt false (mk_hdr c n (s_ctr s)) (takeN n ob)].

Lemma poke_Ok : forall off bs s s', poke off bs s = Ok s' ->
  off + lenN bs <= lenN (s_out s) /\ s' = set_s_out (splice (s_out s) off bs) s.
Proof. unfold poke. intros. invs. split; auto. lia. Qed.

Lemma send_cto_Ok : forall c len s s' o, send_cto c len s = Ok (s', o) ->
  len <= lenN (s_out s) /\ s' = bump c s /\
  o = [mkPkt false (mk_hdr c len (s_ctr s)) (takeN len (s_out s))].
Proof. unfold send_cto. intros. invs. repeat split; auto. lia. Qed.

Definition len8 (c : cfg) (len : N) : N := if c_max_dlc c then c_max_cto c else len.

Lemma send8_Ok : forall c len bs s s' o, send8 c len bs s = Ok (s', o) ->
  exists ob, lenN ob = lenN (s_out s) /\ len8 c len <= lenN ob /\
    s' = bump c (set_s_out ob s) /\
    o = [mkPkt false (mk_hdr c (len8 c len) (s_ctr s)) (takeN (len8 c len) ob)] /\
    (len8 c len <= 8 -> ob = splice (s_out s) 0 (takeN (len8 c len) bs)) /\
    (8 < len8 c len -> ob = s_out s).
Proof.
  unfold send8, len8. intros c len bs s s' o H.
  set (n := if c_max_dlc c then c_max_cto c else len) in *.
  apply bind_Ok in H. destruct H as (s1 & H1 & H2).
  destruct (N.leb_spec n 8) as [L|L].
  - apply poke_Ok in H1. destruct H1 as (B & ->).
    apply send_cto_Ok in H2. destruct H2 as (L2 & -> & ->). cbn [s_out set_s_out s_ctr] in *.
    eexists. split; [|repeat split; try reflexivity; auto; lia].
    apply lenN_splice; lia.
  - inv. apply send_cto_Ok in H2. destruct H2 as (L2 & -> & ->).
    exists (s_out s1). split; [reflexivity|]. split; [lia|].
    split; [destruct s1; reflexivity|]. repeat split; auto. lia.
Qed.

(** The same computed forwards. *)
Lemma send8_val : forall c len bs s,
  lenN (s_out s) = c_max_cto c -> len <= 8 <= c_max_cto c -> lenN bs = 8 ->
  (c_max_dlc c = true -> c_max_cto c = 8) ->
  exists ob, lenN ob = c_max_cto c /\
   send8 c len bs s = Ok (bump c (set_s_out ob s), [mkPkt false (mk_hdr c (len8 c len) (s_ctr s)) (takeN (len8 c len) bs)]).
Proof.
  intros c len bs s Ho [L1 L2] Hb Hd. unfold send8, len8.
  set (n := if c_max_dlc c then c_max_cto c else len).
  assert (Hn : n <= 8) by (unfold n; destruct (c_max_dlc c); [rewrite (Hd eq_refl); lia|lia]).
  assert (Ht : lenN (takeN n bs) = n) by (rewrite lenN_take; lia).
  exists (splice (s_out s) 0 (takeN n bs)). split; [rewrite lenN_splice; lia|].
  destruct (N.leb_spec n 8); [|lia].
  unfold poke. destruct (N.ltb_spec (lenN (s_out s)) (0 + lenN (takeN n bs))); [lia|].
  cbn [bind]. unfold send_cto. cbn [s_out set_s_out s_ctr].
  rewrite lenN_splice by lia. destruct (N.ltb_spec (lenN (s_out s)) n); [lia|].
  pose proof (take_splice0 _ (s_out s) (takeN n bs)) as T. rewrite Ht in T. rewrite T. reflexivity.
Qed.

Lemma set_busy_Ok : forall c b s s', set_busy c b s = Ok s' -> s' = set_s_busy b s.
Proof. unfold set_busy, enter, leave. intros. destruct (c_lock c); invs; cbn in *; inv; reflexivity. Qed.

Lemma sbm_set_active_Ok : forall c b s s', sbm_set_active c b s = Ok s' -> s' = set_s_sact b (set_s_busy b s).
Proof.
  unfold sbm_set_active, enter, leave. intros. destruct (c_lock c); invs;
    match goal with H : set_busy _ _ _ = Ok _ |- _ => apply set_busy_Ok in H end; subst; reflexivity.
Qed.

Lemma start_checksum_Ok : forall c a n s s', start_checksum c a n s = Ok s' ->
  (s' = set_s_held (s_held s) s /\ (j_state (s_job s) <> JIdle \/ s_busy s = true)) \/
  (s' = set_s_busy true (set_s_job (mkJob JInit a n (j_sum (s_job s))) s) /\ j_state (s_job s) = JIdle /\ s_busy s = false).
Proof.
  unfold start_checksum, enter, leave. intros. destruct (c_lock c); invs; cbn in *;
    first [apply orb_false_iff in Heqb0; destruct Heqb0 as [? ?] | apply orb_false_iff in Heqb; destruct Heqb as [? ?] | idtac];
    repeat match goal with H : set_busy _ _ _ = Ok _ |- _ => apply set_busy_Ok in H end; subst.
  all: try (left; split; [reflexivity|];
    match goal with H : _ || _ = true |- _ => apply orb_true_iff in H; destruct H as [H|H]; [left|right; exact H]; destruct (j_state (s_job s)); congruence end).
  all: right; split; [reflexivity|split; auto]; destruct (j_state (s_job s)); congruence.
Qed.

Lemma copy_out_Ok : forall c e x a n off s s', copy_out c e x a n off s = Ok s' ->
  0 < n /\ map_addr c e x a + n <= aspace c /\ off + n <= lenN (s_out s) /\
  s' = set_s_out (splice (s_out s) off (mread (s_mem s) (map_addr c e x a) n)) s.
Proof.
  unfold copy_out. intros. invs. apply poke_Ok in H. rewrite lenN_mread in H.
  destruct H as (? & ->). repeat split; auto; lia.
Qed.

Lemma copy_in_Ok : forall c e x a bs s s', copy_in c e x a bs s = Ok s' ->
  0 < lenN bs /\ map_addr c e x a <> 0 /\ map_addr c e x a + lenN bs <= aspace c /\
  s' = set_s_mem (mwrite (s_mem s) (map_addr c e x a) bs) s.
Proof. unfold copy_in. intros. invs. repeat split; auto; lia. Qed.

Lemma slice_in_Ok : forall off n s bs, slice_in off n s = Ok bs ->
  off + n <= lenN (s_in s) /\ bs = takeN n (dropN off (s_in s)) /\ lenN bs = n.
Proof. unfold slice_in. intros. invs. repeat split; auto; rewrite ?lenN_take, ?lenN_drop; lia. Qed.

Lemma download_copy_Ok : forall c e off n s s', download_copy c e off n s = Ok s' ->
  0 < n /\ map_addr c e (s_mext s) (s_maddr s) <> 0 /\
  map_addr c e (s_mext s) (s_maddr s) + n <= aspace c /\ off + n <= lenN (s_in s) /\
  s' = inc_mta c n (set_s_mem (mwrite (s_mem s) (map_addr c e (s_mext s) (s_maddr s)) (takeN n (dropN off (s_in s)))) s).
Proof.
  unfold download_copy. intros. invs.
  match goal with H : slice_in _ _ _ = _ |- _ => apply slice_in_Ok in H; destruct H as (? & -> & L) end.
  match goal with H : copy_in _ _ _ _ _ _ = _ |- _ => apply copy_in_Ok in H; destruct H as (? & ? & ? & ->) end.
  rewrite L in *. repeat split; auto.
Qed.

Lemma daq_init_st_Ok : forall c s s', daq_init_st c s = Ok s' ->
  (c_daq c = false /\ s' = s) \/ (c_daq c = true /\ exists d, daq_init c (s_daq s) = Ok d /\ s' = set_s_daq d s).
Proof. unfold daq_init_st. intros. invs; eauto 6. Qed.

Lemma calc_mem_Ok : forall c s a n st f v, calc_mem c s a n st f = Ok v ->
  a + n <= aspace c /\ v = calc (c_cks c) (c_host_be c) (mread (s_mem s) a n) st f.
Proof. unfold calc_mem. intros. invs. split; auto; lia. Qed.

(** Elimination of table lookups: a property of every entry. *)
Definition entries (c : cfg) (P : N -> handler -> Prop) : Prop :=
  forall i h, getN (table c) i = Some h -> P (255 - i) h.

Lemma table_length : forall c, lenN (table c) = 57. Proof. reflexivity. Qed.

Lemma table_each : forall c (P : N -> handler -> Prop),
  (forall k, P k (h_unknown c)) ->
  P 0xFF (h_connect c) -> P 0xFE (h_disconnect c) -> P 0xFD (h_status c) -> P 0xFC (h_synch c) ->
  (c_opt c 0xFB = true -> P 0xFB (h_comm_mode c)) -> (c_opt c 0xFA = true -> P 0xFA (h_get_id c)) ->
  (c_opt c 0xF8 = true -> P 0xF8 (h_get_seed c)) -> (c_opt c 0xF7 = true -> P 0xF7 (h_unlock c)) ->
  (c_opt c 0xF6 = true -> P 0xF6 (h_set_mta c)) -> (c_opt c 0xF5 = true -> P 0xF5 (h_upload c)) ->
  (c_opt c 0xF4 = true -> P 0xF4 (h_short_upload c)) -> (c_opt c 0xF3 = true -> P 0xF3 (h_checksum c)) ->
  (c_opt c 0xF2 = true -> P 0xF2 (h_tl_cmd c)) -> (c_opt c 0xF1 = true -> P 0xF1 (h_user c)) ->
  (c_cal c = true -> P 0xF0 (h_download c)) ->
  (c_cal c = true -> c_opt c 0xEF = true -> P 0xEF (h_download_next c)) ->
  (c_cal c = true -> c_opt c 0xEE = true -> P 0xEE (h_download_max c)) ->
  (c_cal c = true -> c_opt c 0xED = true -> P 0xED (h_short_download c)) ->
  (c_cal c = true -> c_opt c 0xEC = true -> P 0xEC (h_modify_bits c)) ->
  (c_daq c = true -> P 0xE3 (h_clear_daq_list c)) -> (c_daq c = true -> P 0xE2 (h_set_daq_ptr c)) ->
  (c_daq c = true -> P 0xE1 (h_write_daq c)) -> (c_daq c = true -> P 0xE0 (h_set_daq_list_mode c)) ->
  (c_daq c = true -> P 0xDF (h_get_daq_list_mode c)) -> (c_daq c = true -> P 0xDE (h_start_stop_list c)) ->
  (c_daq c = true -> P 0xDD (h_start_stop_synch c)) ->
  (c_daq c = true -> c_opt c 0xDC = true -> P 0xDC (h_daq_clock c)) ->
  (c_daq c = true -> c_opt c 0xDA = true -> P 0xDA (h_daq_processor_info c)) ->
  (c_daq c = true -> c_opt c 0xD9 = true -> P 0xD9 (h_daq_resolution c)) ->
  (c_daq c = true -> c_opt c 0xD8 = true -> P 0xD8 (h_daq_list_info c)) ->
  (c_daq c = true -> c_opt c 0xD7 = true -> P 0xD7 (h_daq_event_info c)) ->
  (c_daq c = true -> c_opt c 0xD6 = true -> P 0xD6 (h_free_daq c)) ->
  (c_daq c = true -> c_opt c 0xD5 = true -> P 0xD5 (h_alloc_daq c)) ->
  (c_daq c = true -> c_opt c 0xD4 = true -> P 0xD4 (h_alloc_odt c)) ->
  (c_daq c = true -> c_opt c 0xD3 = true -> P 0xD3 (h_alloc_odt_entry c)) ->
  (c_pgm c = true -> P 0xD2 (h_program_start c)) ->
  (c_pgm c = true -> P 0xD0 (h_program c)) -> (c_pgm c = true -> P 0xCF (h_program_reset c)) ->
  (c_pgm c = true -> c_opt c 0xCE = true -> P 0xCE (h_pgm_info c)) ->
  (c_pgm c = true -> c_opt c 0xCD = true -> P 0xCD (h_sector_info c)) ->
  (forall k, c_pgm c = true -> In k [0xD1; 0xCC; 0xCB; 0xCA; 0xC9; 0xC8] -> P k (h_program_only_check c)) ->
  (c_daq c = true -> c_opt c 0xC7 = true -> P 0xC7 (h_write_daq_multiple c)) ->
  entries c P.
Proof.
  intros. intros i h G.
  assert (Hi : i < 57) by (rewrite <- (table_length c); eapply getN_Some_lt; eauto).
  assert (Hin : exists n, (n < 57)%nat /\ i = N.of_nat n) by (exists (N.to_nat i); lia).
  destruct Hin as (n & Hn & ->). unfold getN in G. rewrite Nnat.Nat2N.id in G.
  do 57 (destruct n as [|n];
    [cbn [table nth_error] in G; injection G as <-;
     match goal with |- P ?k _ => let v := eval vm_compute in k in change k with v end;
     repeat match goal with |- P _ (if ?b then _ else _) => destruct b eqn:?B end;
     try (apply andb_true_iff in B; destruct B);
     first [now auto | solve [match goal with HH : context [h_program_only_check] |- _ => apply HH; cbn; auto 10 end]
           ]|]).
  lia.
Qed.

(** Simplification of state projections. *)
Ltac sc := cbn [q_head q_tail q_ovl q_slots d_run d_plist d_podt d_pent d_alloc d_ents d_ecnt d_lcnt d_ocnt d_mode d_lfe d_q j_state j_addr j_size j_sum s_conn s_busy s_pgm s_ctr s_prot s_seed s_mext s_maddr s_sact s_srem s_mact s_mrem s_ctos s_cros s_crosb s_in s_out s_held s_mem s_daq s_job set_q_head set_q_tail set_q_ovl set_q_slots set_d_run set_d_plist set_d_podt set_d_pent set_d_alloc set_d_ents set_d_ecnt set_d_lcnt set_d_ocnt set_d_mode set_d_lfe set_d_q set_j_state set_j_addr set_j_size set_j_sum set_s_conn set_s_busy set_s_pgm set_s_ctr set_s_prot set_s_seed set_s_mext set_s_maddr set_s_sact set_s_srem set_s_mact set_s_mrem set_s_ctos set_s_cros set_s_crosb set_s_in set_s_out set_s_held set_s_mem set_s_daq set_s_job upd_daq upd_job set_mta inc_mta bump count_ctos default_prot].
Ltac sc_in H := cbn [q_head q_tail q_ovl q_slots d_run d_plist d_podt d_pent d_alloc d_ents d_ecnt d_lcnt d_ocnt d_mode d_lfe d_q j_state j_addr j_size j_sum s_conn s_busy s_pgm s_ctr s_prot s_seed s_mext s_maddr s_sact s_srem s_mact s_mrem s_ctos s_cros s_crosb s_in s_out s_held s_mem s_daq s_job set_q_head set_q_tail set_q_ovl set_q_slots set_d_run set_d_plist set_d_podt set_d_pent set_d_alloc set_d_ents set_d_ecnt set_d_lcnt set_d_ocnt set_d_mode set_d_lfe set_d_q set_j_state set_j_addr set_j_size set_j_sum set_s_conn set_s_busy set_s_pgm set_s_ctr set_s_prot set_s_seed set_s_mext set_s_maddr set_s_sact set_s_srem set_s_mact set_s_mrem set_s_ctos set_s_cros set_s_crosb set_s_in set_s_out set_s_held set_s_mem set_s_daq set_s_job upd_daq upd_job set_mta inc_mta bump count_ctos default_prot] in H.
Ltac ss := sc.
Ltac ss_in H := sc_in H.
