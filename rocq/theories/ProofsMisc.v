(** Proofs of C50 and C53. *)
From Coq Require Import NArith List Bool Lia ZifyBool ZifyNat ZifyN.
From Verif Require Import Base Config Cfgs Codec Checksum State Queue Daq Core Spec Lists Effects Handlers HTx HInv HInv2 Steps Ops Demo
  ProofsSession Exec SpecProt SpecMem SpecCks ProofsMem ProofsBlock ProofsCks2 SpecMisc.
Import ListNotations.
Open Scope N_scope.

Definition nd {A} (r : out A) : Prop := r <> UB Deadlock.

Lemma nd_bind : forall A B (r : out A) (f : A -> out B), nd r -> (forall a, r = Ok a -> nd (f a)) -> nd (bind r f).
Proof. intros A B r f H G. unfold nd, bind in *. destruct r; [apply G; reflexivity|congruence]. Qed.
Lemma nd_andthen : forall (r : res) f, nd r -> (forall s o, r = Ok (s, o) -> nd (f s)) -> nd (andthen r f).
Proof. intros r f H G. unfold andthen. apply nd_bind; [exact H|]. intros (s, o) E. apply nd_bind; [eapply G; eauto|]. intros (s', o') _. unfold nd. congruence. Qed.

Ltac nd_leaf := first [discriminate | assumption | solve [auto] | now auto with nd].
Ltac ndt :=
  repeat first
    [ progress (intros; cbv beta zeta)
    | nd_leaf
    | match goal with |- nd (andthen _ _) => apply nd_andthen | |- nd (bind _ _) => apply nd_bind end
    | match goal with |- nd (let '(_, _) := ?x in _) => destruct x end
    | match goal with |- nd (match ?x with _ => _ end) => destruct x eqn:? end
    | match goal with |- nd (if ?x then _ else _) => destruct x eqn:? end ].

Create HintDb nd.
Lemma nd_Ok : forall A (a : A), nd (Ok a). Proof. discriminate. Qed.
Lemma nd_poke : forall n b s, nd (poke n b s). Proof. intros. unfold poke. ndt. Qed.
Lemma nd_cto : forall c n s, nd (send_cto c n s). Proof. intros. unfold send_cto. ndt. Qed.
#[local] Hint Resolve nd_Ok nd_poke nd_cto : nd.
Lemma nd_send8 : forall c n b s, nd (send8 c n b s). Proof. intros. unfold send8. ndt. Qed.
#[local] Hint Resolve nd_send8 : nd.
Lemma nd_copy_out : forall c e x a n o s, nd (copy_out c e x a n o s). Proof. intros. unfold copy_out. ndt. Qed.
Lemma nd_copy_in : forall c e x a n s, nd (copy_in c e x a n s). Proof. intros. unfold copy_in. ndt. Qed.
Lemma nd_slice : forall n m s, nd (slice_in n m s). Proof. intros. unfold slice_in. ndt. Qed.
#[local] Hint Resolve nd_copy_out nd_copy_in nd_slice : nd.
Lemma nd_down : forall c e a n s, nd (download_copy c e a n s). Proof. intros. unfold download_copy. ndt. Qed.
Lemma nd_qinit : forall c q, nd (queue_init c q). Proof. intros. unfold queue_init. ndt. Qed.
#[local] Hint Resolve nd_down nd_qinit : nd.
Lemma nd_dinit : forall c q, nd (daq_init c q). Proof. intros. unfold daq_init. ndt. Qed.
#[local] Hint Resolve nd_dinit : nd.
Lemma nd_dinits : forall c q, nd (daq_init_st c q). Proof. intros. unfold daq_init_st. ndt. Qed.
#[local] Hint Resolve nd_dinits : nd.
Lemma nd_calc : forall c s a n b f, nd (calc_mem c s a n b f). Proof. intros. unfold calc_mem. ndt. Qed.
Lemma nd_ent : forall d i, nd (ent_at d i). Proof. intros. unfold ent_at. ndt. Qed.
Lemma nd_hdr : forall b, nd (hdr_of b). Proof. intros. unfold hdr_of. ndt. Qed.
Lemma nd_entry : forall b, nd (entry_of b). Proof. intros. unfold entry_of. ndt. Qed.
#[local] Hint Resolve nd_calc nd_ent nd_hdr nd_entry : nd.
Lemma nd_hdr_at : forall d i, nd (hdr_at d i). Proof. intros. unfold hdr_at. ndt. Qed.
#[local] Hint Resolve nd_hdr_at : nd.
Lemma nd_oidx : forall c d l o, nd (odt_index c d l o). Proof. intros. unfold odt_index. ndt. Qed.
#[local] Hint Resolve nd_oidx : nd.
Lemma nd_eidx : forall c d l o k, nd (entry_index c d l o k). Proof. intros. unfold entry_index. ndt. Qed.
#[local] Hint Resolve nd_eidx : nd.
Lemma nd_valid : forall c l o k d, nd (validate_entry c l o k d). Proof. intros. unfold validate_entry. ndt. Qed.
Lemma nd_sum : forall c d n i a, nd (sum_odts c d n i a).
Proof. intros c d n. induction n; intros; cbn [sum_odts]; ndt. Qed.
#[local] Hint Resolve nd_valid nd_sum : nd.
Lemma nd_pid : forall c d l, nd (first_pid c d l). Proof. intros. unfold first_pid. ndt. Qed.
Lemma nd_wde : forall c n a d, nd (write_daq_entry c n a d). Proof. intros. unfold write_daq_entry. ndt. Qed.
Lemma nd_add : forall l e d, nd (add_event l e d). Proof. intros. unfold add_event. ndt. Qed.
#[local] Hint Resolve nd_pid nd_wde nd_add : nd.
Lemma nd_wm : forall c b n i d, nd (write_multiple c b n i d).
Proof. intros c b n. induction n; intros; cbn [write_multiple]; ndt. Qed.
Lemma nd_shl : forall v n, nd (shl_int v n). Proof. intros. unfold shl_int. ndt. Qed.
#[local] Hint Resolve nd_wm nd_shl : nd.
Lemma nd_mod : forall v n a x, nd (modify_value v n a x). Proof. intros. unfold modify_value. ndt. Qed.
#[local] Hint Resolve nd_mod : nd.
Lemma nd_enq : forall c b q, nd (enqueue c b q). Proof. intros. unfold enqueue. ndt. Qed.
Lemma nd_deq : forall c q, nd (dequeue c q). Proof. intros. unfold dequeue. ndt. Qed.
#[local] Hint Resolve nd_enq nd_deq : nd.
Lemma nd_ents : forall c m d l o n k x, nd (sample_entries c m d l o n k x).
Proof. intros c m d l o n. induction n; intros; cbn [sample_entries]; ndt. Qed.
#[local] Hint Resolve nd_ents : nd.
Lemma nd_odts : forall c m t d l n i p q, nd (sample_odts c m t d l n i p q).
Proof. intros c m t d l n. induction n; intros; cbn [sample_odts]; ndt. Qed.
#[local] Hint Resolve nd_odts : nd.
Lemma nd_sev : forall c m t e d, nd (sample_event c m t e d). Proof. intros. unfold sample_event. ndt. Qed.
Lemma nd_trans : forall c n s, nd (transmit c n s).
Proof. intros c n. induction n; intros; cbn [transmit]; ndt. Qed.
#[local] Hint Resolve nd_sev nd_trans : nd.

Lemma nd_seq : forall c d, nd (seq_error c d). Proof. intros. unfold seq_error. ndt. Qed.
#[local] Hint Resolve nd_seq : nd.
Lemma nd_al1 : forall c n d, nd (daq_alloc c n d). Proof. intros. unfold daq_alloc. ndt. Qed.
Lemma nd_al2 : forall c l n d, nd (daq_alloc_odt c l n d). Proof. intros. unfold daq_alloc_odt. ndt. Qed.
Lemma nd_al3 : forall c l o n d, nd (daq_alloc_entry c l o n d). Proof. intros. unfold daq_alloc_entry. ndt. Qed.
#[local] Hint Resolve nd_al1 nd_al2 nd_al3 : nd.

(** Entering is safe. *)
Definition safe (c : cfg) (s : st) : Prop := c_lock c = LockRecursive \/ s_held s = [].

Lemma nd_enter : forall c k s, safe c s -> nd (enter c k s).
Proof. intros c k s [H|H]; unfold enter; [rewrite H|rewrite H; destruct (c_lock c)]; discriminate. Qed.
Lemma nd_busy : forall c b s, safe c s -> nd (set_busy c b s).
Proof. intros. unfold set_busy. apply nd_bind; [now apply nd_enter|discriminate]. Qed.
Lemma nd_active : forall c b s, c_lock c = LockRecursive -> nd (sbm_set_active c b s).
Proof. intros. unfold sbm_set_active. apply nd_bind; [apply nd_enter; now left|]. intros. apply nd_bind; [apply nd_busy; now left|discriminate]. Qed.
Lemma nd_start : forall c a n s, c_lock c = LockRecursive -> nd (start_checksum c a n s).
Proof.
  intros. unfold start_checksum. apply nd_bind; [apply nd_enter; now left|]. intros. destruct (_ || _); [discriminate|].
  apply nd_bind; [apply nd_busy; now left|discriminate].
Qed.

Section Nd.
Context (c : cfg) (Hl : c_lock c = LockRecursive \/ no_nesting c).

Lemma nd_ublock : forall e s, c_sbm c = true -> nd (upload_block c e s).
Proof.
  intros e s S. unfold upload_block. destruct Hl as [R|[N1 N2]]; [|congruence].
  pose proof (nd_active c false) as A. ndt.
Qed.
Lemma nd_upload : forall e n s, nd (upload c e n s).
Proof.
  intros e n s. unfold upload. destruct (c_sbm c) eqn:S; [|ndt].
  destruct Hl as [R|[N1 N2]]; [|congruence].
  apply nd_bind; [now apply nd_active|]. intros. now apply nd_ublock.
Qed.

Lemma nd_checksum : forall e s, nd (h_checksum c e s).
Proof.
  intros. unfold h_checksum, pgm_idle, check_mem, send_checksum, send_checksum_oor, send_result, pos, err.
  ndt. destruct Hl as [R|[N1 N2]]; [now apply nd_start|]. rewrite N2 in *. discriminate.
Qed.

Lemma nd_table : entries c (fun _ h => forall e s, nd (h e s)).
Proof.
  apply table_each; intros; try apply nd_checksum;
    try (unfold h_upload, h_short_upload, pgm_idle, check_mem, send_result, pos, err;
         match goal with |- context [upload c ?e ?n ?x] => pose proof (nd_upload e n x) end; ndt; fail);
    unfold_h; ndt.
Qed.

Lemma nd_dispatch : forall e s, nd (dispatch c e s).
Proof.
  intros e s. unfold dispatch, busy_response, h_connect, err, send_result.
  destruct (_ <? _); [discriminate|]. cbv zeta. destruct (s_conn s); [|ndt].
  destruct (s_busy s); [ndt|]. destruct (getN (table c) (255 - gb (s_in s) 0)) eqn:G; [|discriminate].
  exact (nd_table _ _ G e _).
Qed.

Lemma nd_step : forall e x s, s_held s = [] -> nd (step c e x s).
Proof.
  intros e x s H. destruct x; cbn [step].
  - unfold receive. pose proof nd_dispatch as D. ndt.
  - unfold main_function. apply nd_andthen.
    + destruct (c_sbm c) eqn:S; [now apply nd_ublock|discriminate].
    + intros s1 o1 E. destruct (job_on c) eqn:J; [|discriminate].
      destruct Hl as [R|[N1 N2]]; [|unfold job_on in J; rewrite N2, andb_false_r in J; discriminate].
      unfold checksum_main, send_checksum. cbv zeta. pose proof (fun b s => nd_busy c b s (or_introl R)) as B. ndt.
  - unfold trigger. ndt.
  - unfold special. ndt.
  - unfold special. ndt.
  - discriminate.
  - unfold xcp_disconnect. ndt.
  - discriminate.
  - apply nd_bind; [apply nd_busy; now right|discriminate].
  - unfold xcp_init. ndt.
Qed.
End Nd.

(** C50 *)
Lemma released_thm : forall c m l s o, reachable c m l s o -> s_held s = [].
Proof. intros c m l s o R. apply (b_held c s). apply (reach_inv _ _ _ _ _ R). Qed.
Lemma recursive_thm : forall c m l s o e x, reachable c m l s o -> c_lock c = LockRecursive -> step c e x s <> UB Deadlock.
Proof. intros c m l s o e x R K. apply (nd_step c (or_introl K)). eapply released_thm; eauto. Qed.
Lemma normal_thm : forall c m l s o e x, reachable c m l s o -> no_nesting c -> step c e x s <> UB Deadlock.
Proof. intros c m l s o e x R K. apply (nd_step c (or_intror K)). eapply released_thm; eauto. Qed.

Lemma dead_active : forall c b s, c_lock c = LockNormal -> sbm_set_active c b s = UB Deadlock.
Proof.
  intros c b s K. unfold sbm_set_active, set_busy, enter. rewrite K. destruct (existsb _ _); [reflexivity|]. reflexivity.
Qed.

Lemma dead_upload : forall c m l s o e n t, reachable c m l s o -> ready s -> c_sbm c = true -> c_lock c = LockNormal -> ~ programming s ->
  c_opt c 0xF5 = true -> lenN (0xF5 :: n :: t) <= c_ctobuf c -> granted c e (s_mext s) (s_maddr s) n false false ->
  step c e (ORecv (0xF5 :: n :: t)) s = UB Deadlock.
Proof.
  intros c m l s o e n t R RD B K P O L G.
  assert (E : step c e (ORecv (0xF5 :: n :: t)) s = h_upload c e (rx c (0xF5 :: n :: t) s)).
  { apply (exec_val c m l s o); auto. tbl. }
  rewrite E. unfold h_upload. rewrite rx_in. assert (En : gb (rxbuf s (0xF5 :: n :: t)) 1 = n) by reflexivity. rewrite En.
  rewrite pgm_idle_no by exact P. rewrite check_mem_yes by exact G. rewrite B. cbn [negb andb].
  unfold upload. rewrite B. rewrite dead_active by auto. reflexivity.
Qed.

Lemma dead_checksum : forall c m l s o e r1 r2 r3 n0 n1 n2 n3 t,
  let f := checksum_cmd r1 r2 r3 n0 n1 n2 n3 t in let n := field c [n0; n1; n2; n3] in
  reachable c m l s o -> may_sum c e s n -> lenN f <= c_ctobuf c -> within_limit c n -> no_job s ->
  c_chunked c = true -> c_chunk c < n -> c_lock c = LockNormal -> step c e (ORecv f) s = UB Deadlock.
Proof.
  intros c m l s o e r1 r2 r3 n0 n1 n2 n3 t f n R M L Wl J Ck Big K.
  unfold f. rewrite (cks_cmd c m l s o e r1 r2 r3 n0 n1 n2 n3 t R M L). cbv zeta. fold n.
  assert (Lb : (0 <? c_max_blk c) && (c_max_blk c <? n) = false) by (unfold within_limit in Wl; destruct (N.ltb_spec 0 (c_max_blk c)), (N.ltb_spec (c_max_blk c) n); try reflexivity; lia).
  rewrite Lb, Ck. cbn [negb orb].
  rewrite (proj2 (N.leb_gt n (c_chunk c)) Big). unfold start_checksum, enter. rewrite K.
  assert (Hh : s_held (rx c f s) = []) by (change (s_held (rx c f s)) with (s_held s); eapply released_thm; eauto).
  fold f. rewrite Hh. cbn [existsb bind]. ss.
  assert (Ej : j_state (s_job (rx c f s)) = JIdle) by exact J.
  assert (Eb : s_busy (rx c f s) = false) by apply (ms_ready _ _ _ _ M).
  rewrite Ej, Eb. cbn [orb]. unfold set_busy, enter. rewrite K. ss. reflexivity.
Qed.

(** C53 *)
Lemma special_thm : forall c ty code info s, wf_cfg c -> lenN (s_out s) = c_max_cto c -> code < 256 -> lenN info < 256 ->
  exists s' o, special c ty code info s = Ok (s', o) /\ sends_data c o (packet c ty code info) /\ same_session s s' /\ s_in s' = s_in s.
Proof.
  intros c ty code info s W Lo Hc Hi. pose proof (wf_cto _ W).
  assert (Ep : [ty; u8 code] ++ takeN (N.min (c_max_cto c - 2) (u8 (lenN info))) info = packet c ty code info).
  { unfold packet, u8. rewrite !N.mod_small by lia. f_equal. destruct (N.le_gt_cases (lenN info) (c_max_cto c - 2)).
    - rewrite N.min_r by lia. rewrite !take_all by lia. reflexivity.
    - rewrite N.min_l by lia. reflexivity. }
  assert (Lp : lenN (packet c ty code info) = N.min (c_max_cto c - 2) (u8 (lenN info)) + 2).
  { unfold packet, u8. rewrite !N.mod_small by lia. rewrite lenN_app, lenN_take. change (lenN [ty; code]) with 2. lia. }
  assert (E : exists s' o, special c ty code info s = Ok (s', o)).
  { unfold special. rewrite Ep. unfold poke. rewrite Lp, Lo. destruct (N.ltb_spec (c_max_cto c) (0 + (N.min (c_max_cto c - 2) (u8 (lenN info)) + 2))); [lia|].
    cbn [bind]. unfold send_cto. ss. rewrite lenN_splice by lia. rewrite Lo.
    destruct (N.ltb_spec (c_max_cto c) (if c_max_dlc c then c_max_cto c else N.min (c_max_cto c - 2) (u8 (lenN info)) + 2)); [destruct (c_max_dlc c); lia|]. eauto. }
  destruct E as (s' & o & E). exists s', o. split; [exact E|]. split; [|eapply special_kept; eauto].
  unfold special in E. rewrite Ep in E. apply bind_Ok in E. destruct E as (s1 & H1 & E). apply poke_Ok in H1. destruct H1 as (L & ->).
  apply send_cto_Ok in E. destruct E as (L2 & _ & ->). ss.
  unfold sends_data. eexists. exists (takeN (if c_max_dlc c then c_max_cto c - lenN (packet c ty code info) else 0) (dropN (lenN (packet c ty code info)) (s_out s))).
  split; [reflexivity|]. split; [reflexivity|]. cbn [p_data]. split.
  - unfold splice. rewrite take_0. cbn [app]. rewrite N.add_0_l. destruct (c_max_dlc c).
    + rewrite take_app_ge by lia. reflexivity.
    + rewrite <- Lp. rewrite take_app, take_0. now rewrite app_nil_r.
  - rewrite lenN_take, lenN_drop. destruct (c_max_dlc c); lia.
Qed.

Lemma event_thm : forall c m l s o e code info, reachable c m l s o -> c_ev_api c = true -> code < 256 -> lenN info < 256 ->
  exists s' o', step c e (OEvent code info) s = Ok (s', o') /\ sends_data c o' (packet c 0xFD code info) /\ same_session s s' /\ s_in s' = s_in s.
Proof.
  intros c m l s o e code info R A Hc Hi. cbn [step]. rewrite A. apply special_thm; auto. apply R. apply (rx_out c m l s o [] R).
Qed.
Lemma service_thm : forall c m l s o e code info, reachable c m l s o -> c_srv_api c = true -> code < 256 -> lenN info < 256 ->
  exists s' o', step c e (OService code info) s = Ok (s', o') /\ sends_data c o' (packet c 0xFC code info) /\ same_session s s' /\ s_in s' = s_in s.
Proof.
  intros c m l s o e code info R A Hc Hi. cbn [step]. rewrite A. apply special_thm; auto. apply R. apply (rx_out c m l s o [] R).
Qed.
