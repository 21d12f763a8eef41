From Coq Require Import NArith ZArith List Bool Lia ZifyBool ZifyNat ZifyN.
From Verif Require Import Base Config Codec Checksum State Queue Daq Core Spec SpecMem SpecDaq Lists Effects Handlers HTx HInv HInv2 HResp
  DaqInv HSpec Steps Ops Exec ProofsDaqA ProofsDaqB ProofsDaqE ProofsDaqF ProofsDaqG ProofsFrames ProofsWrite Sampler SpecSampler.
Import ListNotations.
Open Scope N_scope.
Ltac Zify.zify_post_hook ::= Z.div_mod_to_equations.

(** ** Operations of other threads *)
Definition ctos (o : list pkt) : Prop := filter p_dto o = [].
Lemma ctos_app : forall a b, ctos a -> ctos b -> ctos (a ++ b).
Proof. unfold ctos. intros. now rewrite filter_app, H, H0. Qed.
Lemma ctos_entries : forall c e, entries c (fun k h => forall s s' o, h e s = Ok (s', o) -> ctos o).
Proof.
  intros c e. apply table_each; intros.
  all: unfold_h; invs; repeat (leaf; subst; try discriminate); try reflexivity.
Qed.

Lemma other_keeps : forall c e o s s' p, c_daq c = true -> d_run (s_daq s) = true -> harmless c (Other e o) -> step c e o s = Ok (s', p) ->
  s_daq s' = s_daq s /\ ctos p.
Proof.
  intros c e o s s' p Hd M Hh H. destruct o; cbn [harmless] in Hh; try contradiction.
  - cbn [step] in H. apply receive_Ok in H. destruct H as [(-> & -> & ->)|(k & f & -> & _ & H)]; [now split|]. destruct Hh as (Wf & Nk).
    assert (Hk : k < 256) by (inversion Wf; auto).
    destruct H as [(_ & _ & H)|[(_ & h & Hh & H)|(_ & _ & -> & ->)]].
    + unfold busy_response in H. unfold_h. invs; repeat (leaf; subst); split; try reflexivity; destruct (c_stats c); reflexivity.
    + assert (M' : d_run (s_daq (count_ctos c (set_s_in (splice (s_in s) 0 (k :: f)) s))) = true) by (unfold count_ctos; destruct (c_stats c); exact M).
      split; [|exact (entries_cmd _ _ _ _ (ctos_entries c e) Hk Hh _ _ _ H)].
      destruct (entries_cmd _ _ _ _ (daq_frozen_entries c e) Hk Hh _ _ _ Hd M' H) as [T|T]; [|contradiction].
      rewrite T. unfold count_ctos. destruct (c_stats c); reflexivity.
    + split; [|reflexivity]. unfold count_ctos. destruct (c_stats c); reflexivity.
  - cbn [step] in H. pose proof H as K. apply main_kept in K. destruct K as (_ & K). split; [exact K|]. clear K.
    unfold main_function in H. apply andthen_Ok in H. destruct H as (s1 & o1 & o2 & H1 & H2 & ->). apply ctos_app.
    + clear H2. destruct (c_sbm c); [|now invs]. unfold_h. invs; repeat (leaf; subst; try discriminate); reflexivity.
    + clear H1. destruct (job_on c); [|now invs]. unfold checksum_main in H2. unfold_h. invs; repeat (leaf; subst; try discriminate); reflexivity.
  - cbn [step] in H. destruct (c_ev_api c); [|now inv]. split; [apply special_kept in H; destruct H as (H & _); unfold same_session in H; apply H|]. unfold special in H. invs; repeat (leaf; subst; try discriminate); reflexivity.
  - cbn [step] in H. destruct (c_srv_api c); [|now inv]. split; [apply special_kept in H; destruct H as (H & _); unfold same_session in H; apply H|]. unfold special in H. invs; repeat (leaf; subst; try discriminate); reflexivity.
  - cbn [step] in H. now inv.
  - cbn [step] in H. now inv.
  - cbn [step] in H. inv. apply set_busy_Ok in H. subst. now split.
Qed.

(** ** The sampling thread *)
Definition ecost (es : list (N * N)) : N := fold_right (fun x a => snd x + 2 + a) 0 es.
Definition ocost (os : list (list (N * N))) : N := fold_right (fun es a => ecost es + 3 + a) 0 os.

Lemma firstn_get : forall A (l : list A) k x, getN l k = Some x -> firstn (N.to_nat (k + 1)) l = firstn (N.to_nat k) l ++ [x].
Proof.
  intros A l k x H. unfold getN in H. replace (N.to_nat (k + 1)) with (S (N.to_nat k)) by lia. revert l H. generalize (N.to_nat k). intro n.
  induction n; intros [|y l] H; try discriminate; cbn in H |- *; [now injection H as ->|]. f_equal. now apply IHn.
Qed.
Lemma dropN_all : forall A (l : list A) k, lenN l <= k -> dropN k l = [].
Proof. intros. unfold dropN. apply skipn_all2. unfold lenN in *. lia. Qed.
Lemma take_lenN : forall A (l : list A), firstn (N.to_nat (lenN l)) l = l.
Proof. intros. unfold lenN. rewrite Nat2N.id. apply firstn_all. Qed.
Lemma taken_len : forall M es parts, Forall2 (taken M) es parts ->
  lenN (concat parts) = lenN (concat (map (fun x : N * N => repeat 0 (N.to_nat (snd x))) es)).
Proof.
  intros M es parts H. induction H as [|x p es ps (A & _) _ IH]; [reflexivity|]. cbn [map concat]. rewrite !lenN_app, IH, A. unfold lenN at 2. rewrite repeat_length. lia.
Qed.
Lemma taken_split : forall M es parts k, Forall2 (taken M) (firstn (N.to_nat k) es) parts ->
  lenN (concat parts) + lenN (concat (map (fun x : N * N => repeat 0 (N.to_nat (snd x))) (dropN k es))) = lenN (concat (map (fun x : N * N => repeat 0 (N.to_nat (snd x))) es)).
Proof.
  intros M es parts k H. rewrite (taken_len _ _ _ H). rewrite <- lenN_app, <- concat_app, <- map_app. unfold dropN. now rewrite firstn_skipn.
Qed.

Lemma sum_q : forall c q d n i a, sum_odts c (set_d_q q d) n i a = sum_odts c d n i a.
Proof. induction n; intros; cbn [sum_odts]; [reflexivity|]. change (hdr_at (set_d_q q d) i) with (hdr_at d i). destruct (hdr_at d i) as [(x & y)|]; cbn [bind]; auto. Qed.
Lemma pid_q : forall c q d l, first_pid c (set_d_q q d) l = first_pid c d l.
Proof. intros. unfold first_pid. rewrite sum_q. reflexivity. Qed.

Section Thread.
Variables (c : cfg) (t : tree) (fo : N -> N) (fe : N -> N -> N) (D0 : daqst) (l : N) (os : list (list (N * N))).
Variables (W : wf_cfg c) (Sm : c_max_ent c < 65536) (I : dinv c D0) (Rp : represents_by fo fe c D0 t) (G : getN t l = Some os).
Variables (TS : list N) (U : N) (Sa : sampleable c TS os) (HU : U + lenN os <= 4).
Variables (M : mem -> Prop) (C : N -> list N -> Prop) (i0 : N).
Let B := odts_before t l.
Variables (Hc : forall i es f, i0 <= i -> getN os i = Some es -> captured M (if i =? 0 then TS else []) (B + i) es f -> C i f).

Definition part (es : list (N * N)) (i k : N) (data : list N) : Prop :=
  exists parts, data = (B + i) mod 256 :: (if i =? 0 then TS else []) ++ concat parts /\ Forall2 (taken M) (firstn (N.to_nat k) es) parts.
Definition stored (q : queue) (i : N) : Prop :=
  i0 <= i /\ exists fs, queued c q fs /\ q_head q = U + i /\ lenN fs = i /\ forall j f, getN fs j = Some f -> C j f.
Definition later (i : N) : N := ocost (dropN (i + 1) os) + lenN os + 2.

Definition stamp_bytes (tm : N) : list N := if c_ts c && (N.land (d_mode D0) 0x10 =? 0x10) then ts_bytes c tm else [].
Inductive Inv : sampler -> queue -> list (list N) -> N -> Prop :=
| v_called : forall ev tm q, stored q 0 -> d_run D0 = true -> ev < u8 (c_nevents c) -> getN (d_lfe D0) ev = Some l -> TS = stamp_bytes tm ->
    Inv (Called ev tm) q [] (ocost os + lenN os + 4)
| v_begun : forall tm q, stored q 0 -> TS = stamp_bytes tm -> Inv (Begun l tm) q [] (ocost os + lenN os + 3)
| v_loop : forall i q, stored q i -> i <= lenN os -> Inv (Loop l i (B + i) TS) q [] (ocost (dropN i os) + lenN os + 2)
| v_entries : forall i k es data q, stored q i -> getN os i = Some es -> k <= lenN es -> part es i k data ->
    Inv (Entries l i (B + i) TS (fo l + i) k data) q [] (ecost (dropN k es) + 2 + later i)
| v_copy : forall i k es data q a len bs n, stored q i -> getN os i = Some es -> getN es k = Some (a, len) -> part es i k data ->
    lenN bs + N.of_nat n = len -> (forall j b, getN bs j = Some b -> exists m, M m /\ b = m (a + j)) ->
    Inv (Copy l i (B + i) TS (fo l + i) k (data ++ bs) (a + lenN bs) n) q [] (N.of_nat n + 1 + ecost (dropN (k + 1) es) + 2 + later i)
| v_put : forall i es data q, stored q i -> getN os i = Some es -> part es i (lenN es) data ->
    Inv (Put l i (B + i) TS data) q [] (later i + 1)
| v_send : forall ofs fs q, queued c q fs -> q_head q = U + lenN os -> lenN (ofs ++ fs) = lenN os ->
    (forall j f, getN (ofs ++ fs) j = Some f -> C j f) -> Inv Send q ofs (lenN fs + 1)
| v_rest : forall ofs q, queued c q [] -> q_head q = U + lenN os -> lenN ofs = lenN os -> (forall j f, getN ofs j = Some f -> C j f) -> Inv Rest q ofs 0.

Lemma odt_there : forall i es, getN os i = Some es -> odt_at t l i = Some es.
Proof. intros. unfold odt_at. now rewrite G. Qed.

Lemma next_inv : forall x q ofs n s, Inv x q ofs n -> s_daq s = set_d_q q D0 -> M (s_mem s) ->
  exists x' s' o' q', next c x s = Ok (x', s', o') /\ s_daq s' = set_d_q q' D0 /\ s_mem s' = s_mem s /\ filter p_dto o' = o' /\
    Inv x' q' (ofs ++ map p_data o') (n - 1).
Proof.
  intros x q ofs n s V E Hm. unfold next, stay. cbv zeta. rewrite E. destruct V.
  - (* Called *)
    change (d_run (set_d_q q D0)) with (d_run D0). change (d_lfe (set_d_q q D0)) with (d_lfe D0). rewrite H0, H2. cbn [negb]. destruct (N.leb_spec (u8 (c_nevents c)) ev); [lia|].
    do 4 eexists. split; [reflexivity|]. split; [exact E|]. split; [reflexivity|]. split; [reflexivity|]. cbn [map app].
    replace (ocost os + lenN os + 4 - 1) with (ocost os + lenN os + 3) by lia. now apply v_begun.
  - (* Begun *)
    rewrite pid_q, (first_pid_rep c fo fe _ t l W Sm I Rp). pose proof (getN_Some_lt _ _ _ _ G).
    destruct (N.ltb_spec l (lenN t)); [|lia]. cbn [bind]. change (d_mode (set_d_q q D0)) with (d_mode D0). fold (stamp_bytes tm). rewrite <- H0.
    do 4 eexists. split; [reflexivity|]. split; [exact E|]. split; [reflexivity|]. split; [reflexivity|]. cbn [map app].
    replace (ocost os + lenN os + 3 - 1) with (ocost (dropN 0 os) + lenN os + 2) by (change (dropN 0 os) with os; lia).
    replace (odts_before t l) with (B + 0) by (unfold B; lia). apply v_loop; [assumption|lia].
  - (* Loop *)
    change (hdr_at (set_d_q q D0) l) with (hdr_at D0 l). rewrite (hdr_val _ _ _ _ (r_list _ _ _ _ _ Rp _ _ G)). cbn [bind].
    destruct (N.ltb_spec i (lenN os)).
    + destruct (getN_lt_Some _ os i H1) as (es & Ge). change (odt_index c (set_d_q q D0) l i) with (odt_index c D0 l i).
      destruct (rep_odt_index c W Sm _ _ _ _ _ _ _ I Rp (odt_there _ _ Ge)) as (-> & _). cbn [bind].
      do 4 eexists. split; [reflexivity|]. split; [exact E|]. split; [reflexivity|]. split; [reflexivity|].
      rewrite (drop_get _ _ _ _ Ge). cbn [ocost fold_right map app].
      replace (ecost es + 3 + fold_right (fun es a => ecost es + 3 + a) 0 (dropN (i + 1) os) + lenN os + 2 - 1) with (ecost (dropN 0 es) + 2 + later i).
      2: { unfold later, ocost. unfold dropN at 1. cbn [N.to_nat skipn]. lia. }
      apply v_entries; auto; [lia|]. exists []. cbn [concat N.to_nat firstn]. rewrite app_nil_r. split; [reflexivity|constructor].
    + assert (i = lenN os) by lia. subst i. do 4 eexists. split; [reflexivity|]. split; [exact E|]. split; [reflexivity|]. split; [reflexivity|].
      destruct H as (_ & fs & Q & Hh & Hl & Hf). rewrite dropN_all by lia. cbn [ocost fold_right map app].
      replace (0 + lenN os + 2 - 1) with (lenN fs + 1) by lia. apply v_send; auto.
  - (* Entries *)
    pose proof (odt_there _ _ H0) as Go. change (hdr_at (set_d_q q D0) (fo l + i)) with (hdr_at D0 (fo l + i)). rewrite (hdr_val _ _ _ _ (r_odt _ _ _ _ _ Rp _ _ _ Go)). cbn [bind].
    destruct (N.ltb_spec k (lenN es)).
    + destruct (getN_lt_Some _ es k H3) as ((a & len) & Ge). assert (V : entry_at t l i k = Some (a, len)) by (unfold entry_at; now rewrite Go).
      change (entry_index c (set_d_q q D0) l i k) with (entry_index c D0 l i k). destruct (rep_entry_index c W Sm _ _ _ _ _ _ _ _ I Rp V) as (-> & _). cbn [bind].
      change (ent_at (set_d_q q D0)) with (ent_at D0). destruct (entry_val _ _ _ (r_entry _ _ _ _ _ Rp _ _ _ _ V)) as (x & -> & E2). cbn [bind]. rewrite E2. cbn [bind].
      destruct (Sa i es H0) as (S1 & S2). pose proof (proj1 (Forall_forall _ _) S1 _ (getN_In _ _ _ _ Ge)) as (B1 & B2). cbn [fst snd] in B1, B2. unfold in_space in B2.
      pose proof H2 as (parts & Ed & Hp). assert (Ld : lenN data + len <= c_max_dto c).
      { pose proof (taken_split _ _ _ _ Hp) as T. rewrite (drop_get _ _ _ _ Ge) in T. cbn [map concat] in T. rewrite lenN_app in T. unfold lenN in T at 2. rewrite repeat_length in T. cbn [snd] in T.
        rewrite Ed, lenN_cons, lenN_app. lia. }
      destruct (N.ltb_spec (c_max_dto c - lenN data) len); [lia|]. destruct (N.eqb_spec len 0); [lia|]. destruct (N.ltb_spec (aspace c) (a + len)); [lia|].
      do 4 eexists. split; [reflexivity|]. split; [exact E|]. split; [reflexivity|]. split; [reflexivity|]. cbn [map app].
      rewrite (drop_get _ _ _ _ Ge). cbn [ecost fold_right snd].
      replace (len + 2 + fold_right (fun x a0 => snd x + 2 + a0) 0 (dropN (k + 1) es) + 2 + later i - 1) with (N.of_nat (N.to_nat len) + 1 + ecost (dropN (k + 1) es) + 2 + later i) by (unfold ecost; lia).
      rewrite <- (app_nil_r data). replace a with (a + lenN (@nil N)) at 1 by (cbn; lia).
      eapply v_copy; eauto; [cbn; lia|]. intros j b Hj. unfold getN in Hj. destruct (N.to_nat j); discriminate.
    + assert (k = lenN es) by lia. subst k. do 4 eexists. split; [reflexivity|]. split; [exact E|]. split; [reflexivity|]. split; [reflexivity|]. cbn [map app].
      rewrite dropN_all by lia. cbn [ecost fold_right]. replace (0 + 2 + later i - 1) with (later i + 1) by lia. eapply v_put; eauto.
  - (* Copy *)
    destruct n as [|n].
    + do 4 eexists. split; [reflexivity|]. split; [exact E|]. split; [reflexivity|]. split; [reflexivity|]. cbn [map app].
      replace (N.of_nat 0 + 1 + ecost (dropN (k + 1) es) + 2 + later i - 1) with (ecost (dropN (k + 1) es) + 2 + later i) by lia.
      apply v_entries; auto; [apply getN_Some_lt in H1; lia|]. destruct H2 as (parts & -> & Hp). exists (parts ++ [bs]). split.
      * cbn [app]. rewrite concat_app. cbn [concat]. rewrite app_nil_r, app_assoc. reflexivity.
      * rewrite (firstn_get _ _ _ _ H1). apply Forall2_app; [exact Hp|]. constructor; [|constructor]. split; [cbn; lia|exact H4].
    + do 4 eexists. split; [reflexivity|]. split; [exact E|]. split; [reflexivity|]. split; [reflexivity|]. cbn [map app].
      rewrite <- app_assoc. replace (a + lenN bs + 1) with (a + lenN (bs ++ [s_mem s (a + lenN bs)])) by (rewrite lenN_app; cbn; lia).
      replace (N.of_nat (S n) + 1 + ecost (dropN (k + 1) es) + 2 + later i - 1) with (N.of_nat n + 1 + ecost (dropN (k + 1) es) + 2 + later i) by lia.
      eapply v_copy; eauto; [rewrite lenN_app; cbn [lenN length N.of_nat]; lia|]. intros j b Hj. destruct (N.lt_ge_cases j (lenN bs)) as [L|L].
      * rewrite getN_app1 in Hj by exact L. auto.
      * rewrite getN_app2 in Hj by exact L. pose proof (getN_Some_lt _ _ _ _ Hj) as X. cbn in X. replace (j - lenN bs) with 0 in Hj by lia. cbn in Hj. injection Hj as <-.
        exists (s_mem s). split; [exact Hm|]. do 2 f_equal. lia.
  - (* Put *)
    change (d_q (set_d_q q D0)) with q. destruct H as (Hi & fs & Q & Hh & Hl & Hf). pose proof (getN_Some_lt _ _ _ _ H0) as Li.
    destruct H1 as (parts & Ed & Hp). rewrite take_lenN in Hp.
    assert (Cd : captured M (if i =? 0 then TS else []) (B + i) es data) by (exists parts; auto).
    destruct (Sa i es H0) as (_ & S2). destruct (enqueue_queued c data q fs W Q) as (q1 & X1 & X2 & X3 & X4 & X5); [lia| |].
    { rewrite Ed, lenN_cons, lenN_app, (taken_len _ _ _ Hp). lia. }
    rewrite X1. cbn [bind]. do 4 eexists. split; [reflexivity|]. split; [ss; rewrite E; reflexivity|]. split; [ss; reflexivity|]. split; [reflexivity|]. cbn [map app].
    assert (P : (B + i + 1) mod we c = B + (i + 1)).
    { rewrite N.mod_small; [lia|]. pose proof (pid_bound _ _ _ _ (odt_there _ _ H0)). pose proof (ent_lt_we c W). destruct (d_layout _ _ I) as (L1 & L2 & _). rewrite (d_len _ _ I) in L2.
      pose proof (r_count _ _ _ _ _ Rp). pose proof (getN_Some_lt _ _ _ _ G). unfold B. lia. }
    rewrite P. replace (later i + 1 - 1) with (ocost (dropN (i + 1) os) + lenN os + 2) by (unfold later; lia).
    apply v_loop; [|lia]. split; [lia|]. exists (fs ++ [data]). split; [exact X2|]. split; [lia|]. split; [rewrite lenN_app; cbn [lenN length N.of_nat]; lia|].
    intros j f Hj. destruct (N.lt_ge_cases j (lenN fs)) as [L|L].
    + rewrite getN_app1 in Hj by exact L. auto.
    + rewrite getN_app2 in Hj by exact L. pose proof (getN_Some_lt _ _ _ _ Hj) as X. cbn in X. replace (j - lenN fs) with 0 in Hj by lia. cbn in Hj. injection Hj as <-.
      replace j with i by lia. eapply Hc; eauto.
  - (* Send *)
    change (d_q (set_d_q q D0)) with q. destruct fs as [|f fs].
    + assert (q_head q = q_tail q) as -> by (destruct H as (_ & H & _); cbn in H; lia). rewrite N.eqb_refl. do 4 eexists. split; [reflexivity|]. split; [exact E|]. split; [reflexivity|]. split; [reflexivity|].
      cbn [map]. rewrite !app_nil_r in *. change (lenN [] + 1 - 1) with 0. apply v_rest; auto.
    + destruct H as (A & Q1 & Q2 & D). destruct (D 0 f eq_refl) as (Gf & L). rewrite N.add_0_r in Gf. rewrite lenN_cons in Q1.
      destruct (N.eqb_spec (q_head q) (q_tail q)); [lia|]. unfold dequeue, qmod. rewrite (wf_qs c W). destruct (N.leb_spec 4 (q_tail q)); [lia|]. rewrite Gf.
      destruct (N.ltb_spec (c_max_dto c) (lenN f)); [lia|]. destruct (N.eqb_spec (lenN f) 0); [lia|]. cbn [bind].
      replace ((q_tail q + 1) mod (4 + 1)) with (q_tail q + 1) by lia. unfold send_dto.
      assert (T : takeN (lenN f) f = f) by (unfold takeN; apply take_lenN). rewrite T.
      do 4 eexists. split; [reflexivity|]. split; [unfold bump; ss; rewrite E; reflexivity|]. split; [unfold bump; ss; reflexivity|]. split; [reflexivity|].
      cbn [map p_data]. rewrite lenN_cons. replace (lenN fs + 1 + 1 - 1) with (lenN fs + 1) by lia. apply v_send.
      * unfold queued. cbn [q_slots q_tail q_head set_q_tail]. split; [exact A|]. split; [lia|]. split; [exact Q2|]. intros j f0 Hj.
        specialize (D (j + 1) f0). unfold getN in D. replace (N.to_nat (j + 1)) with (S (N.to_nat j)) in D by lia. specialize (D Hj). destruct D as (D & D').
        split; [|exact D']. rewrite <- D. unfold getN. f_equal. lia.
      * exact H0.
      * rewrite <- app_assoc. exact H1.
      * rewrite <- app_assoc. exact H2.
  - do 4 eexists. split; [reflexivity|]. split; [exact E|]. split; [reflexivity|]. split; [reflexivity|]. cbn [map]. rewrite app_nil_r. now apply v_rest.
Qed.

Lemma next_go : forall x q ofs n s, Inv x q ofs n -> s_daq s = set_d_q q D0 -> M (s_mem s) ->
  exists s' o' q', take_all c (repeat Go (N.to_nat n)) x s = Ok (Rest, s', o') /\ filter p_dto o' = o' /\ s_daq s' = set_d_q q' D0 /\ s_mem s' = s_mem s /\ Inv Rest q' (ofs ++ map p_data o') 0.
Proof.
  intros x q ofs n. remember (N.to_nat n) as k eqn:K. revert x q ofs n K. induction k; intros x q ofs n K s V E Hm.
  - assert (n = 0) by lia. subst n. cbn [repeat take_all]. exists s, [], q. inversion V; try (exfalso; unfold later in *; lia). subst.
    cbn [map]. rewrite app_nil_r. auto 6.
  - destruct (next_inv _ _ _ _ _ V E Hm) as (x1 & s1 & o1 & q1 & N1 & E1 & M1 & F1 & V1). cbn [repeat take_all take]. rewrite N1. cbn [bind].
    destruct (IHk _ _ _ (n - 1) ltac:(lia) s1 V1 E1 ltac:(now rewrite M1)) as (s2 & o2 & q2 & N2 & F2 & E2 & M2 & V2). rewrite N2. cbn [bind].
    do 3 eexists. split; [reflexivity|]. split; [rewrite filter_app; congruence|]. split; [exact E2|]. split; [congruence|]. rewrite map_app, app_assoc. exact V2.
Qed.
Lemma all_inv : forall w x q ofs n s x' s' o', c_daq c = true -> d_run D0 = true -> Forall (harmless c) w -> Inv x q ofs n -> s_daq s = set_d_q q D0 ->
  (forall m, In m (moments c w x s) -> M m) -> take_all c w x s = Ok (x', s', o') ->
  exists q', s_daq s' = set_d_q q' D0 /\ Inv x' q' (ofs ++ daq_frames o') (n - accesses w).
Proof.
  induction w as [|u w IH]; intros x q ofs n s x' s' o' Hd Hr F V E Hm H.
  - cbn in H. injection H as <- <- <-. exists q. unfold daq_frames, accesses. cbn. rewrite app_nil_r, N.sub_0_r. auto.
  - inversion F as [|? ? Hu Fw]; subst. cbn [take_all] in H. apply bind_Ok in H. destruct H as (((x1 & s1) & o1) & H1 & H). apply bind_Ok in H. destruct H as (((x2 & s2) & o2) & H2 & H). injection H as <- <- <-.
    cbn [moments] in Hm. rewrite H1 in Hm. assert (M0 : M (s_mem s)) by (apply Hm; now left). destruct u as [|e o].
    + cbn [take] in H1. destruct (next_inv _ _ _ _ _ V E M0) as (x3 & s3 & o3 & q3 & N1 & E1 & M1 & F1 & V1). rewrite N1 in H1. injection H1 as <- <- <-.
      destruct (IH _ _ _ _ _ _ _ _ Hd Hr Fw V1 E1 (fun m Hi => Hm m (or_intror Hi)) H2) as (q' & E2 & V2). exists q'. split; [exact E2|].
      unfold daq_frames in *. rewrite filter_app, F1, map_app, app_assoc. unfold accesses in *. cbn [filter]. rewrite lenN_cons. replace (n - (lenN (filter (fun u => match u with Go => true | Other _ _ => false end) w) + 1)) with (n - 1 - lenN (filter (fun u => match u with Go => true | Other _ _ => false end) w)) by lia. exact V2.
    + cbn [take] in H1. apply bind_Ok in H1. destruct H1 as ((s3 & p) & H1 & H3). injection H3 as <- <- <-.
      destruct (other_keeps c e o s s3 p Hd ltac:(rewrite E; exact Hr) Hu H1) as (K1 & K2).
      destruct (IH _ _ _ _ _ _ _ _ Hd Hr Fw V ltac:(rewrite K1; exact E) (fun m Hi => Hm m (or_intror Hi)) H2) as (q' & E2 & V2). exists q'. split; [exact E2|].
      unfold daq_frames in *. unfold ctos in K2. rewrite filter_app, K2. exact V2.
Qed.
Lemma all_ub : forall w x q ofs n s y, c_daq c = true -> d_run D0 = true -> Forall (harmless c) w -> Inv x q ofs n -> s_daq s = set_d_q q D0 ->
  (forall m, In m (moments c w x s) -> M m) -> take_all c w x s = UB y ->
  exists w1 e o w2 x1 s1 o1, w = w1 ++ Other e o :: w2 /\ take_all c w1 x s = Ok (x1, s1, o1) /\ step c e o s1 = UB y.
Proof.
  induction w as [|u w IH]; intros x q ofs n s y Hd Hr F V E Hm H; [discriminate|].
  inversion F as [|? ? Hu Fw]; subst. cbn [take_all] in H. cbn [moments] in Hm. assert (M0 : M (s_mem s)) by (apply Hm; now left). destruct u as [|e o].
  - cbn [take] in H, Hm. destruct (next_inv _ _ _ _ _ V E M0) as (x3 & s3 & o3 & q3 & N1 & E1 & M1 & F1 & V1). rewrite N1 in H, Hm. cbn [bind] in H.
    destruct (take_all c w x3 s3) as [((x2 & s2) & o2)|w2] eqn:T; [discriminate|]. cbn [bind] in H. injection H as ->.
    destruct (IH _ _ _ _ _ _ Hd Hr Fw V1 E1 (fun m Hi => Hm m (or_intror Hi)) T) as (w1 & e & o & w2 & x1 & s1 & o1 & -> & T1 & T2).
    exists (Go :: w1), e, o, w2, x1, s1, (o3 ++ o1). split; [reflexivity|]. split; [|exact T2]. cbn [take_all take]. rewrite N1. cbn [bind]. now rewrite T1.
  - cbn [take] in H, Hm. destruct (step c e o s) as [(s3 & p)|w3] eqn:St.
    + cbn [bind] in H, Hm. destruct (take_all c w x s3) as [((x2 & s2) & o2)|w2] eqn:T; [discriminate|]. cbn [bind] in H. injection H as ->.
      destruct (other_keeps c e o s s3 p Hd ltac:(rewrite E; exact Hr) Hu St) as (K1 & _).
      destruct (IH _ _ _ _ _ _ Hd Hr Fw V ltac:(rewrite K1; exact E) (fun m Hi => Hm m (or_intror Hi)) T) as (w1 & e1 & o1 & w2 & x1 & s1 & p1 & -> & T1 & T2).
      exists (Other e o :: w1), e1, o1, w2, x1, s1, (p ++ p1). split; [reflexivity|]. split; [|exact T2]. cbn [take_all take]. rewrite St. cbn [bind]. now rewrite T1.
    + cbn [bind] in H. injection H as ->. exists [], e, o, w, x, s, []. auto.
Qed.
End Thread.
