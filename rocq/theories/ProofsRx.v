(** A complete command frame does not depend on left-over bytes. *)
From Coq Require Import NArith ZArith List Bool Lia ZifyBool ZifyNat ZifyN.
From Verif Require Import Base Config Codec Checksum State Queue Daq Core Spec Lists Effects Handlers HTx HInv HInv2
  HFields HResp DaqInv HSpec Steps Demo Ops ProofsSession Exec ProofsFrames SpecProt ProofsProt SpecMem.
Import ListNotations.
Open Scope N_scope.
Ltac Zify.zify_post_hook ::= Z.div_mod_to_equations.

Definition lift (b : list N) (r : res) : res := match r with Ok (s, o) => Ok (set_s_in b s, o) | UB w => UB w end.

Lemma lift_sbr : forall b r, same_but_rx r (lift b r).
Proof. intros b [[s o]|w]; cbn; auto. Qed.

Lemma gb_take : forall n b b' i, takeN n b = takeN n b' -> i < n -> gb b i = gb b' i.
Proof.
  intros n b b' i E H. unfold gb. rewrite <- (take_nth n b (N.to_nat i) 0), <- (take_nth n b' (N.to_nat i) 0) by lia. now rewrite E.
Qed.
Lemma gw_take : forall c n b b' i, takeN n b = takeN n b' -> i + 1 < n -> gw c b i = gw c b' i.
Proof. intros. unfold gw. now rewrite (gb_take n b b' i), (gb_take n b b' (i + 1)) by (auto; lia). Qed.
Lemma gd_take : forall c n b b' i, takeN n b = takeN n b' -> i + 3 < n -> gd c b i = gd c b' i.
Proof. intros. unfold gd. now rewrite (gw_take c n b b' i), (gw_take c n b b' (i + 2)) by (auto; lia). Qed.
Lemma slice_take : forall n (b b' : list N) off k, takeN n b = takeN n b' -> off + k <= n -> takeN k (dropN off b) = takeN k (dropN off b').
Proof.
  intros n b b' off k E H. assert (X : takeN (off + k) b = takeN (off + k) b').
  { replace (takeN (off + k) b) with (takeN (off + k) (takeN n b)) by (rewrite take_take; f_equal; lia).
    rewrite E, take_take. f_equal. lia. }
  rewrite !take_split in X. apply app_inv_head_iff with (l := takeN off b). rewrite X. f_equal.
  assert (Y : takeN off (takeN n b) = takeN off (takeN n b')) by now rewrite E. rewrite !take_take in Y. replace (N.min off n) with off in Y by lia. auto.
Qed.

(** ** Building blocks commute with a change of the receive buffer *)
Section Commute.
Variables (c : cfg) (e : env) (b : list N).

Lemma cm_poke : forall off bs s, poke off bs (set_s_in b s) = match poke off bs s with Ok s' => Ok (set_s_in b s') | UB w => UB w end.
Proof. intros. unfold poke. ss. destruct (_ <? _); reflexivity. Qed.
Lemma cm_cto : forall n s, send_cto c n (set_s_in b s) = lift b (send_cto c n s).
Proof. intros. unfold send_cto. ss. destruct (_ <? _); reflexivity. Qed.
Lemma cm_send8 : forall n bs s, send8 c n bs (set_s_in b s) = lift b (send8 c n bs s).
Proof.
  intros. unfold send8. set (k := if c_max_dlc c then _ else _). clearbody k. destruct (k <=? 8).
  - rewrite cm_poke. destruct (poke 0 (takeN k bs) s); cbn [bind]; [apply cm_cto|reflexivity].
  - cbn [bind]. apply cm_cto.
Qed.
Lemma cm_result : forall k s, send_result c k (set_s_in b s) = lift b (send_result c k s).
Proof. intros. unfold send_result, pos, err. destruct (_ =? _); apply cm_send8. Qed.
Lemma cm_bind : forall (r : res) f g, (forall s o, f (set_s_in b s, o) = lift b (g (s, o))) -> bind (lift b r) f = lift b (bind r g).
Proof. intros [[s o]|w] f g H; cbn; [apply H|reflexivity]. Qed.
Lemma cm_andthen : forall r f g, (forall s, f (set_s_in b s) = lift b (g s)) -> andthen (lift b r) f = lift b (andthen r g).
Proof.
  intros [[s o]|w] f g H; cbn; [|reflexivity]. rewrite H. destruct (g s) as [[s2 o2]|w]; reflexivity.
Qed.
Lemma cm_bindst : forall (r r' : out st) f g, r' = match r with Ok s => Ok (set_s_in b s) | UB w => UB w end ->
  (forall s, f (set_s_in b s) = lift b (g s)) -> bind r' f = lift b (bind r g).
Proof. intros [s|w] r' f g -> H; cbn; [apply H|reflexivity]. Qed.
Lemma cm_bindsame : forall A (r : out A) f g, (forall a, f a = lift b (g a)) -> bind r f = lift b (bind r g).
Proof. intros A [s|w] f g H; cbn; [apply H|reflexivity]. Qed.
Lemma cm_copy_out : forall x a n off s, copy_out c e x a n off (set_s_in b s) = match copy_out c e x a n off s with Ok s' => Ok (set_s_in b s') | UB w => UB w end.
Proof. intros. unfold copy_out. destruct (_ =? _); [reflexivity|]. destruct (_ <? _); [reflexivity|]. apply cm_poke. Qed.
Lemma cm_copy_in : forall x a bs s, copy_in c e x a bs (set_s_in b s) = match copy_in c e x a bs s with Ok s' => Ok (set_s_in b s') | UB w => UB w end.
Proof. intros. unfold copy_in. destruct (_ =? _); [reflexivity|]. destruct (_ =? _); [reflexivity|]. destruct (_ <? _); reflexivity. Qed.
Lemma cm_down : forall off n s k, takeN k b = takeN k (s_in s) -> k <= lenN b /\ k <= lenN (s_in s) -> off + n <= k ->
  download_copy c e off n (set_s_in b s) = match download_copy c e off n s with Ok s' => Ok (set_s_in b s') | UB w => UB w end.
Proof.
  intros off n s k E L H. unfold download_copy. destruct (_ <=? _); [reflexivity|]. unfold slice_in. ss.
  destruct (N.ltb_spec (lenN b) (off + n)); [lia|]. destruct (N.ltb_spec (lenN (s_in s)) (off + n)); [lia|]. cbn [bind]. rewrite (slice_take k b (s_in s) off n E H). rewrite cm_copy_in.
  destruct (copy_in _ _ _ _ _ _); reflexivity.
Qed.
Lemma cm_active : forall v s, sbm_set_active c v (set_s_in b s) = match sbm_set_active c v s with Ok s' => Ok (set_s_in b s') | UB w => UB w end.
Proof.
  intros. unfold sbm_set_active, set_busy, enter, leave. destruct (c_lock c); ss.
  - destruct (existsb _ _); [reflexivity|]. cbn [bind]. ss. destruct (existsb _ _); reflexivity.
  - reflexivity.
Qed.
Lemma cm_block : forall s, upload_block c e (set_s_in b s) = lift b (upload_block c e s).
Proof.
  intros. unfold upload_block. ss. destruct (negb (s_sact s)); [reflexivity|].
  apply cm_bindst with (r := poke 0 [0xFF] s); [apply cm_poke|]. intro s1.
  apply cm_bindst with (r := copy_out c e (s_mext s) (s_maddr s) (if s_srem s <=? c_max_cto c - 1 then s_srem s else c_max_cto c - 1) 1 s1); [apply cm_copy_out|]. intro s2.
  match goal with |- andthen (send_cto c ?n ?x) _ = lift b (andthen (send_cto c ?n ?y) _) =>
    replace x with (set_s_in b y) by reflexivity end.
  rewrite cm_cto. apply cm_andthen. intro s3. ss. destruct (_ =? _); [|reflexivity].
  apply cm_bindst with (r := sbm_set_active c false s3); [apply cm_active|reflexivity].
Qed.
Lemma cm_upload : forall n s, upload c e n (set_s_in b s) = lift b (upload c e n s).
Proof.
  intros. unfold upload. destruct (c_sbm c).
  - apply cm_bindst with (r := sbm_set_active c true (set_s_srem n s)); [|apply cm_block].
    change (set_s_srem n (set_s_in b s)) with (set_s_in b (set_s_srem n s)). apply cm_active.
  - apply cm_bindst with (r := poke 0 [0xFF] s); [apply cm_poke|]. intro s1.
    apply cm_bindst with (r := copy_out c e (s_mext s) (s_maddr s) n 1 s1); [apply cm_copy_out|]. intro s2.
    change (inc_mta c n (set_s_in b s2)) with (set_s_in b (inc_mta c n s2)). apply cm_cto.
Qed.
Lemma cm_disc : forall s, xcp_disconnect c (set_s_in b s) = match xcp_disconnect c s with Ok s' => Ok (set_s_in b s') | UB w => UB w end.
Proof.
  intros. unfold xcp_disconnect, daq_init_st. destruct (c_daq c); [|reflexivity]. unfold default_prot. ss.
  destruct (daq_init c (s_daq s)); reflexivity.
Qed.
Lemma cm_start : forall a n s, start_checksum c a n (set_s_in b s) = match start_checksum c a n s with Ok s' => Ok (set_s_in b s') | UB w => UB w end.
Proof.
  intros. unfold start_checksum, set_busy, enter, leave. destruct (c_lock c); ss.
  - destruct (existsb _ _); [reflexivity|]. cbn [bind]. ss. destruct (j_state (s_job s)), (s_busy s); ss; try reflexivity; destruct (existsb _ _); reflexivity.
  - cbn [bind]. ss. destruct (j_state (s_job s)), (s_busy s); ss; reflexivity.
Qed.
Lemma cm_pgm_idle : forall s k k', k' = lift b k -> pgm_idle c (set_s_in b s) k' = lift b (pgm_idle c s k).
Proof. intros s k k' ->. unfold pgm_idle. ss. destruct (_ && _); [apply cm_result|reflexivity]. Qed.
Lemma cm_pgm_active : forall s k k', k' = lift b k -> pgm_active c (set_s_in b s) k' = lift b (pgm_active c s k).
Proof. intros s k k' ->. unfold pgm_active. ss. destruct (s_pgm s); try reflexivity; apply cm_result. Qed.
Lemma cm_daq_stopped : forall s k k', k' = lift b k -> daq_stopped c (set_s_in b s) k' = lift b (daq_stopped c s k).
Proof. intros s k k' ->. unfold daq_stopped. ss. destruct (_ && _); [apply cm_result|reflexivity]. Qed.
Lemma cm_unlocked : forall r s k k', k' = lift b k -> unlocked c r (set_s_in b s) k' = lift b (unlocked c r s k).
Proof. intros r s k k' ->. unfold unlocked, is_protected. ss. destruct (_ && _); [apply cm_result|reflexivity]. Qed.
Lemma cm_check : forall x a n w p s k k', k' = lift b k -> check_mem c e x a n w p (set_s_in b s) k' = lift b (check_mem c e x a n w p s k).
Proof. intros x a n w p s k k' ->. unfold check_mem. destruct (_ && _); [apply cm_result|reflexivity]. Qed.
Lemma cm_calc : forall s a n v f, calc_mem c (set_s_in b s) a n v f = calc_mem c s a n v f.
Proof. reflexivity. Qed.
Lemma cm_if : forall (q : bool) x y x' y', (q = true -> x' = lift b x) -> (q = false -> y' = lift b y) -> (if q then x' else y') = lift b (if q then x else y).
Proof. intros [] ? ? ? ? H1 H2; auto. Qed.

Lemma cm_multi : forall k s n i d, takeN k b = takeN k (s_in s) -> (i + N.of_nat n) * 8 + 2 <= k ->
  write_multiple c b n i d = write_multiple c (s_in s) n i d.
Proof.
  intros k s n. induction n; intros i d E H; cbn [write_multiple]; [reflexivity|].
  rewrite (gb_take k b (s_in s) (i * 8 + 2 + 1)) by (auto; lia). rewrite (gd_take c k b (s_in s) (i * 8 + 2 + 2)) by (auto; lia).
  destruct (write_daq_entry _ _ _ _); cbn [bind]; [|reflexivity]. apply IHn; auto. lia.
Qed.
End Commute.

Ltac cm1 :=
  match goal with
  | |- pgm_idle _ (set_s_in _ _) _ = lift _ _ => apply cm_pgm_idle
  | |- pgm_active _ (set_s_in _ _) _ = lift _ _ => apply cm_pgm_active
  | |- daq_stopped _ (set_s_in _ _) _ = lift _ _ => apply cm_daq_stopped
  | |- unlocked _ _ (set_s_in _ _) _ = lift _ _ => apply cm_unlocked
  | |- check_mem _ _ _ _ _ _ _ (set_s_in _ _) _ = lift _ _ => apply cm_check
  | |- (if _ then _ else _) = lift _ (if _ then _ else _) => apply cm_if; intro
  | |- send_result ?c ?n ?x = lift ?b (send_result _ _ ?y) => change x with (set_s_in b y); apply cm_result
  | |- send8 ?c ?n ?l ?x = lift ?b (send8 _ _ _ ?y) => change x with (set_s_in b y); apply cm_send8
  | |- pos ?c ?x = lift ?b (pos _ ?y) => change (pos c (set_s_in b y) = lift b (pos c y)); apply cm_send8
  | |- err ?c ?k ?x = lift ?b (err _ _ ?y) => change (err c k (set_s_in b y) = lift b (err c k y)); apply cm_send8
  | |- upload _ _ _ ?x = lift ?b (upload _ _ _ ?y) => change x with (set_s_in b y); apply cm_upload
  end.

Lemma cm_download : forall c e b off n s s' k, takeN k b = takeN k (s_in s) -> k <= lenN b /\ k <= lenN (s_in s) -> off + n <= k -> s' = set_s_in b s ->
  download_copy c e off n s' = match download_copy c e off n s with Ok s2 => Ok (set_s_in b s2) | UB w => UB w end.
Proof. intros; subst; eapply cm_down; eauto. Qed.

Ltac cmx := match goal with
  | |- xcp_disconnect _ _ = match xcp_disconnect _ _ with _ => _ end => apply cm_disc
  | |- start_checksum _ _ _ _ = _ => apply cm_start
  | |- copy_in _ _ _ _ _ _ = _ => apply cm_copy_in
  | |- poke _ _ ?x = match poke _ _ ?y with _ => _ end => exact (cm_poke _ _ _ y)
  | E : takeN _ ?b = takeN _ (s_in ?s) |- download_copy _ _ _ _ _ = _ => eapply cm_download; [exact E|assumption|try (unfold c_dl in *; lia)|reflexivity]
  end.
Ltac cm2 := match goal with
  | |- andthen ?r' _ = lift ?b (andthen ?r _) => replace r' with (lift b r) by (symmetry; cm1); apply cm_andthen; intro
  | |- bind ?r _ = lift _ (bind ?r _) => apply cm_bindsame; intro
  | |- bind _ _ = lift _ (bind _ _) => eapply cm_bindst; [cmx|intro]
  | |- match ?x with _ => _ end = lift _ (match ?x with _ => _ end) => destruct x
  | |- Ok _ = lift _ (Ok _) => reflexivity
  end.

(** Replaces what is read from the buffer. *)
Ltac rd E := match type of E with takeN ?k ?b = takeN ?k ?b' =>
  repeat match goal with
  | |- context [gb b ?i] => rewrite (gb_take k b b' i E) by lia
  | |- context [gw ?c b ?i] => rewrite (gw_take c k b b' i E) by lia
  | |- context [gd ?c b ?i] => rewrite (gd_take c k b b' i E) by lia
  end end.

Lemma rx_entries : forall c e, wf_cfg c -> key_local e -> entries c (fun k h => forall s b n, n <= lenN b /\ n <= lenN (s_in s) -> takeN n b = takeN n (s_in s) ->
   8 <= lenN b -> need c k (gb (s_in s) 1) <= n -> h e (set_s_in b s) = lift b (h e s)).
Proof.
  intros c e W K. pose proof (wf_cto _ W) as Wc.
  apply table_each.
  all: try match goal with |- forall _ : N, _ => intro end.
  all: repeat match goal with |- _ = true -> _ => intro | |- In _ _ -> _ => intro end; intros s b n L E L8 Hn; cbn [need] in Hn;
    unfold h_unknown, h_connect, h_disconnect, h_status, h_synch, h_comm_mode, h_get_id, h_get_seed, h_unlock,
    h_set_mta, h_upload, h_short_upload, h_checksum, h_tl_cmd, h_user, h_download, h_download_next, h_download_max,
    h_short_download, h_modify_bits, h_clear_daq_list, h_set_daq_ptr, h_write_daq, h_set_daq_list_mode,
    h_get_daq_list_mode, h_start_stop_list, h_start_stop_synch, h_daq_clock, h_daq_processor_info, h_daq_resolution,
    h_daq_list_info, h_daq_event_info, h_free_daq, h_alloc_daq, h_alloc_odt, h_alloc_odt_entry, h_program_start,
    h_program, h_program_reset, h_pgm_info, h_sector_info, h_program_only_check, h_write_daq_multiple; cbv zeta; ss; rd E; repeat cm1; try reflexivity.
  all: repeat (ss; first [cm1 | cm2]); try reflexivity.
  - (* GET_SEED *)
    change (is_protected c (gb (s_in s) 2) (set_s_in b s)) with (is_protected c (gb (s_in s) 2) s).
    destruct (is_protected c (gb (s_in s) 2) s).
    + destruct (_ =? _); [reflexivity|]. eapply cm_bindst; [apply cm_poke|]. intro s1. ss.
      eapply cm_bindst; [exact (cm_poke b _ _ (set_s_seed _ s1))|]. intro. apply cm_cto.
    + cbn [bind]. ss. eapply cm_bindst; [exact (cm_poke b _ _ (set_s_seed _ s))|]. intro. apply cm_cto.
  - (* UNLOCK *)
    rewrite (K (s_seed s) (gb (s_in s) 1) (dropN 2 b) (dropN 2 (s_in s))) by exact (slice_take n b (s_in s) 2 (gb (s_in s) 1) E Hn).
    match goal with |- bind ?r' _ = lift b (bind ?r _) => replace r' with (lift b r) by (symmetry; repeat (ss; first [cm1|cm2]); reflexivity) end.
    apply cm_bind. reflexivity.
  - unfold send_checksum_oor. repeat cm1.
  - rewrite cm_calc. repeat (first [cm1|cm2]). unfold send_checksum. ss. repeat cm1.
  - unfold slice_in. ss. destruct (N.ltb_spec (lenN b) (8 + gb (s_in s) 1)); [lia|]. destruct (N.ltb_spec (lenN (s_in s)) (8 + gb (s_in s) 1)); [lia|]. cbn [bind].
    rewrite (slice_take n b (s_in s) 8 (gb (s_in s) 1) E) by lia.
    repeat (ss; first [cm1 | cm2]).
  - match goal with |- andthen ?r' _ = lift b (andthen ?r _) => replace r' with (lift b r) by (destruct (_ <=? _); [symmetry; cm1|reflexivity]) end.
    apply cm_andthen. intro s0. ss. repeat (ss; first [cm1|cm2]). destruct (_ =? _); repeat (ss; first [cm1|cm2]).
  - match goal with |- andthen ?r' _ = lift b (andthen ?r _) => replace r' with (lift b r) by (destruct (_ <=? _); [symmetry; cm1|reflexivity]) end.
    apply cm_andthen. intro s0. ss. repeat (ss; first [cm1|cm2]).
  - destruct (negb _); ss; repeat (ss; first [cm1|cm2]).
  - match goal with |- (if ?x <? ?y then _ else _) = lift _ (if ?z <? _ then _ else _) => destruct (N.ltb_spec x y); [lia|]; destruct (N.ltb_spec z y); [lia|] end. rewrite (cm_multi c b n s) by (auto; lia). repeat (ss; first [cm1|cm2]).
Qed.

Lemma need_one : forall c k n, 8 <= c_max_cto c -> need c k 0 <= 1 -> need c k n = 1.
Proof.
  intros c k n W H. destruct k as [|p]; [reflexivity|]. unfold need in *.
  repeat (try reflexivity; try lia; destruct p as [p|p|]).
Qed.

Lemma complete_thm : forall c m l s o e f b, reachable c m l s o -> key_local e -> complete c f -> nth 0 f 0 < 256 ->
  lenN f <= c_ctobuf c -> lenN b = lenN (s_in s) ->
  same_but_rx (step c e (ORecv f) s) (step c e (ORecv f) (set_s_in b s)).
Proof.
  intros c m l s o e f b R K (L1 & Hn) H0 L Lb.
  pose proof (proj1 R) as W. pose proof (wf_cto _ W) as Wc. pose proof (reach_inv _ _ _ _ _ R) as I.
  destruct f as [|k t]; [cbn in L1; lia|]. set (f := k :: t) in *.
  assert (Le : c_ctobuf c = lenN (s_in s)) by (symmetry; apply (b_in _ _ (i_b _ _ I))).
  assert (L0 : lenN f <> 0) by lia.
  cbn [step]. unfold receive. destruct (N.eqb_spec (lenN f) 0); [lia|]. destruct (N.ltb_spec (c_ctobuf c) (lenN f)); [lia|].
  change (s_in (set_s_in b s)) with b.
  set (b1 := splice (s_in s) 0 f). set (b2 := splice b 0 f).
  change (set_s_in b2 (set_s_in b s)) with (set_s_in b2 (set_s_in b1 s)). set (s1 := set_s_in b1 s).
  assert (Lb1 : lenN b1 = c_ctobuf c) by (unfold b1; rewrite lenN_splice by lia; lia).
  assert (Lb2 : lenN b2 = c_ctobuf c) by (unfold b2; rewrite lenN_splice by lia; lia).
  assert (E : takeN (lenN f) b2 = takeN (lenN f) b1).
  { unfold b1, b2. now rewrite !take_splice0. }
  assert (G0 : gb b1 0 = k) by (unfold b1, splice; rewrite take_0; reflexivity).
  assert (G1 : need c k (gb b1 1) <= lenN f).
  { destruct t as [|x t]; [|replace (gb b1 1) with x; [exact Hn|unfold b1, splice; rewrite take_0; reflexivity]].
    cbn [nth f] in Hn. change (lenN f) with 1 in *. rewrite need_one; [lia|lia|exact Hn]. }
  unfold dispatch. change (s_in (set_s_in b2 s1)) with b2. change (s_in s1) with b1.
  replace (gb b2 0) with (gb b1 0) by (symmetry; apply (gb_take (lenN f)); auto; lia). rewrite G0.
  assert (8 <= c_ctobuf c) by (unfold c_ctobuf; lia).
  destruct (N.ltb_spec (lenN b1) 8); [lia|]. destruct (N.ltb_spec (lenN b2) 8); [lia|].
  change (s_conn (set_s_in b2 s1)) with (s_conn s1). change (s_busy (set_s_in b2 s1)) with (s_busy s1).
  assert (C : count_ctos c (set_s_in b2 s1) = set_s_in b2 (count_ctos c s1)) by (unfold count_ctos; destruct (c_stats c); reflexivity).
  assert (Ci : s_in (count_ctos c s1) = b1) by (unfold count_ctos; destruct (c_stats c); reflexivity).
  cbv zeta. rewrite C.
  assert (X : forall h, entry c k = Some h -> same_but_rx (h e (count_ctos c s1)) (h e (set_s_in b2 (count_ctos c s1)))).
  { intros h Hh. pose proof (rx_entries c e W K (255 - k) h Hh (count_ctos c s1) b2 (lenN f)) as Q.
    replace (255 - (255 - k)) with k in Q by (cbn [nth f] in H0; lia). rewrite Ci in Q.
    rewrite Q; [apply lift_sbr|lia|exact E|lia|exact G1]. }
  destruct (s_conn s1).
  - destruct (s_busy s1).
    + unfold busy_response. destruct (c_stats c); match goal with |- same_but_rx _ ?r => match r with err ?cc ?kk ?x =>
        match goal with |- same_but_rx (err _ _ ?y) _ => change (err cc kk x) with (err cc kk (set_s_in b2 y)) end end end;
        unfold err; rewrite cm_send8; apply lift_sbr.
    + fold (entry c k). destruct (entry c k) as [h|] eqn:Eh; [|reflexivity]. apply X. reflexivity.
  - destruct (N.eqb_spec k 0xFF) as [->|_]; [|split; reflexivity]. apply X. tbl.
Qed.
