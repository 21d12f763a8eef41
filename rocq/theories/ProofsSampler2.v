From Coq Require Import NArith ZArith List Bool Lia ZifyBool ZifyNat ZifyN.
From Verif Require Import Base Config Codec Checksum State Queue Daq Core Spec SpecMem SpecDaq Lists Effects Handlers HTx HInv HInv2 HResp
  DaqInv HSpec Steps Ops Exec ProofsDaqA ProofsDaqB ProofsDaqC ProofsDaqE ProofsDaqF ProofsDaqG ProofsFrames ProofsWrite Sampler SpecSampler ProofsSampler.
Import ListNotations.
Open Scope N_scope.
Ltac Zify.zify_post_hook ::= Z.div_mod_to_equations.

(** ** Without other threads *)
Definition final (r : res) : sres := match r with Ok (s, o) => Ok (Rest, s, o) | UB y => UB y end.
Definition comes (c : cfg) (x : sampler) (s : st) (r : res) : Prop := exists n, take_all c (repeat Go n) x s = final r.
Lemma comes_step : forall c x s x1 s1 o1 r, next c x s = Ok (x1, s1, o1) -> comes c x1 s1 r -> comes c x s ('(s2, o2) <- r ;; Ok (s2, o1 ++ o2)).
Proof.
  intros c x s x1 s1 o1 r H (n & Hn). exists (S n). cbn [repeat take_all take]. rewrite H. cbn [bind]. rewrite Hn. destruct r as [(s2 & o2)|]; reflexivity.
Qed.
Lemma comes_go : forall c x s x1 s1 r, next c x s = stay x1 s1 -> comes c x1 s1 r -> comes c x s r.
Proof. intros c x s x1 s1 r H C. pose proof (comes_step _ _ _ _ _ _ _ H C) as P. destruct r as [(s2 & o2)|]; exact P. Qed.
Lemma comes_ub : forall c x s y, next c x s = UB y -> comes c x s (UB y).
Proof. intros. exists 1%nat. cbn [repeat take_all take]. rewrite H. reflexivity. Qed.
Lemma comes_rest : forall c s, comes c Rest s (Ok (s, [])).
Proof. intros. exists 0%nat. reflexivity. Qed.

Lemma comes_copy : forall c s l i pid ts oi k n data a r,
  comes c (Entries l i pid ts oi (k + 1) (data ++ mread_nat (s_mem s) a n)) s r -> comes c (Copy l i pid ts oi k data a n) s r.
Proof.
  induction n; intros data a r H.
  - cbn [mread_nat] in H. rewrite app_nil_r in H. eapply comes_go; [reflexivity|exact H].
  - eapply comes_go; [reflexivity|]. apply IHn. rewrite <- app_assoc. exact H.
Qed.
Lemma comes_entries : forall c s l i pid ts oi n f (K : list N -> res), hdr_at (s_daq s) oi = Ok (n, f) -> (forall data, comes c (Put l i pid ts data) s (K data)) ->
  forall j k data, k + N.of_nat j = n -> comes c (Entries l i pid ts oi k data) s (data' <- sample_entries c (s_mem s) (s_daq s) l i j k data ;; K data').
Proof.
  intros c s l i pid ts oi n f K Hh HK. induction j; intros k data Hj.
  - cbn [sample_entries bind]. eapply comes_go; [|apply HK]. unfold next. cbv zeta. rewrite Hh. cbn [bind]. destruct (N.ltb_spec k n); [lia|]. reflexivity.
  - assert (E : next c (Entries l i pid ts oi k data) s =
      (j0 <- entry_index c (s_daq s) l i k ;; e <- ent_at (s_daq s) j0 ;; '(addr, len) <- entry_of (en_body e) ;;
        if c_max_dto c - lenN data <? len then UB Assert else if len =? 0 then UB Assert else if aspace c <? addr + len then UB WildAddr
        else stay (Copy l i pid ts oi k data addr (N.to_nat len)) s)).
    { unfold next. cbv zeta. rewrite Hh. cbn [bind]. destruct (N.ltb_spec k n); [|lia]. reflexivity. }
    cbn [sample_entries]. destruct (entry_index c (s_daq s) l i k) as [j0|]; cbn [bind] in E |- *; [|now apply comes_ub].
    destruct (ent_at (s_daq s) j0) as [en|]; cbn [bind] in E |- *; [|now apply comes_ub].
    destruct (entry_of (en_body en)) as [(a & len)|]; cbn [bind] in E |- *; [|now apply comes_ub].
    destruct (c_max_dto c - lenN data <? len); [now apply comes_ub|]. destruct (len =? 0); [now apply comes_ub|]. destruct (aspace c <? a + len); [now apply comes_ub|].
    eapply comes_go; [exact E|]. apply comes_copy. apply IHj. lia.
Qed.

Lemma enqueue_range : forall c bs q q', enqueue c bs q = Ok q' -> q_head q < qmod c -> q_tail q < qmod c -> q_head q' < qmod c /\ q_tail q' < qmod c.
Proof.
  intros c bs q q' H A B. unfold enqueue in H. destruct (queue_full c q); [injection H as <-; auto|].
  destruct (_ <=? _); [discriminate|]. destruct (_ <? _); [discriminate|]. destruct (_ =? _); [discriminate|]. injection H as <-.
  split; [|exact B]. cbn [q_head set_q_head]. apply N.mod_lt. unfold qmod. lia.
Qed.
Lemma pending_none : forall h t k, h < k -> t < k -> (h + k - t) mod k = 0 -> h = t.
Proof. intros. destruct (N.lt_ge_cases h t); [rewrite N.mod_small in H1 by lia; lia|]. replace (h + k - t) with ((h - t) + 1 * k) in H1 by lia. rewrite N.mod_add, N.mod_small in H1 by lia. lia. Qed.
Lemma pending_some : forall h t k n, h < k -> t < k -> (h + k - t) mod k = n + 1 -> h <> t /\ (t + 1) mod k < k /\ (h + k - (t + 1) mod k) mod k = n.
Proof.
  intros h t k n A B H. assert (h <> t). { intros ->. replace (t + k - t) with k in H by lia. rewrite N.mod_same in H by lia. lia. }
  split; [assumption|]. split; [apply N.mod_lt; lia|]. destruct (N.eq_dec (t + 1) k) as [E|E].
  - rewrite E, N.mod_same, N.sub_0_r by lia. replace (h + k) with (h + 1 * k) by lia. rewrite N.mod_add, N.mod_small by lia.
    rewrite N.mod_small in H by lia. lia.
  - rewrite (N.mod_small (t + 1)) by lia. destruct (N.lt_ge_cases h t).
    + rewrite N.mod_small in H by lia. rewrite N.mod_small by lia. lia.
    + replace (h + k - t) with ((h - t) + 1 * k) in H by lia. rewrite N.mod_add, N.mod_small in H by lia.
      replace (h + k - (t + 1)) with ((h - t - 1) + 1 * k) by lia. rewrite N.mod_add, N.mod_small by lia. lia.
Qed.
Lemma comes_send : forall c n s, let q := d_q (s_daq s) in q_head q < qmod c -> q_tail q < qmod c -> pending c q = N.of_nat n -> comes c Send s (transmit c n s).
Proof.
  intros c. induction n; intros s q A B P; unfold pending in P.
  - cbn [transmit]. apply pending_none in P; auto. eapply comes_go; [|apply comes_rest]. unfold next. cbv zeta. fold q. rewrite P, N.eqb_refl. reflexivity.
  - replace (N.of_nat (S n)) with (N.of_nat n + 1) in P by lia. destruct (pending_some _ _ _ _ A B P) as (P1 & P2 & P3). cbn [transmit]. fold q.
    assert (E : next c Send s = ('(data, q1) <- dequeue c q ;; let '(s1, o) := send_dto c data (upd_daq (set_d_q q1) s) in Ok (Send, s1, o))).
    { unfold next. cbv zeta. fold q. destruct (N.eqb_spec (q_head q) (q_tail q)); [contradiction|]. reflexivity. }
    destruct (dequeue c q) as [(data & q1)|] eqn:D; cbn [bind] in E |- *; [|now apply comes_ub].
    assert (Q1 : q1 = set_q_tail ((q_tail q + 1) mod qmod c) q).
    { unfold dequeue in D. destruct (if c_queue_slots c <=? q_tail q then None else getN (q_slots q) (q_tail q)) as [(len & dt)|]; [|discriminate]. destruct (c_max_dto c <? len); [discriminate|]. destruct (len =? 0); [discriminate|]. now injection D as _ <-. }
    destruct (send_dto c data (upd_daq (set_d_q q1) s)) as (s1 & o) eqn:S.
    assert (Q2 : d_q (s_daq s1) = q1). { unfold send_dto, bump in S. injection S as <- _. destruct s; reflexivity. }
    eapply comes_step; [exact E|]. apply IHn; cbv zeta; rewrite Q2, Q1; cbn [q_head q_tail set_q_tail]; auto.
Qed.

Lemma entries_q : forall c m q d l i j k data, sample_entries c m (set_d_q q d) l i j k data = sample_entries c m d l i j k data.
Proof.
  induction j; intros k data; cbn [sample_entries]; [reflexivity|]. change (entry_index c (set_d_q q d) l i k) with (entry_index c d l i k). destruct (entry_index c d l i k) as [j0|]; cbn [bind]; [|reflexivity].
  change (ent_at (set_d_q q d) j0) with (ent_at d j0). destruct (ent_at d j0) as [en|]; cbn [bind]; [|reflexivity].
  destruct (entry_of (en_body en)) as [(a & len)|]; cbn [bind]; [|reflexivity]. now rewrite IHj.
Qed.
Lemma comes_loop : forall c s0 l ts tso n f, hdr_at (s_daq s0) l = Ok (n, f) -> ts = match tso with Some t => ts_bytes c t | None => [] end ->
  forall j i pid q, i + N.of_nat j = n -> q_head q < qmod c -> q_tail q < qmod c ->
  comes c (Loop l i pid ts) (upd_daq (set_d_q q) s0)
    (q' <- sample_odts c (s_mem s0) tso (s_daq s0) l j i pid q ;; transmit c (N.to_nat (pending c q')) (upd_daq (set_d_q q') s0)).
Proof.
  intros c s0 l ts tso n f Hh Ht. induction j; intros i pid q Hj Qh Qt; set (s := upd_daq (set_d_q q) s0).
  - cbn [sample_odts bind]. eapply comes_go; [|apply comes_send; [exact Qh|exact Qt|]].
    + unfold next. cbv zeta. change (hdr_at (s_daq s) l) with (hdr_at (s_daq s0) l). rewrite Hh. cbn [bind]. destruct (N.ltb_spec i n); [lia|]. reflexivity.
    + change (d_q (s_daq (upd_daq (set_d_q q) s0))) with q. lia.
  - assert (E : next c (Loop l i pid ts) s = (oi <- odt_index c (s_daq s0) l i ;; stay (Entries l i pid ts oi 0 (u8 pid :: if i =? 0 then ts else [])) s)).
    { unfold next. cbv zeta. change (hdr_at (s_daq s) l) with (hdr_at (s_daq s0) l). rewrite Hh. cbn [bind]. destruct (N.ltb_spec i n); [|lia]. reflexivity. }
    cbn [sample_odts]. destruct (odt_index c (s_daq s0) l i) as [oi|]; cbn [bind] in E |- *; [|now apply comes_ub].
    eapply comes_go; [exact E|]. clear E. destruct (hdr_at (s_daq s0) oi) as [(ne & fe)|] eqn:He; cbn [bind].
    2: { apply comes_ub. unfold next. cbv zeta. change (hdr_at (s_daq s) oi) with (hdr_at (s_daq s0) oi). now rewrite He. }
    replace (match tso with Some t => if i =? 0 then ts_bytes c t else [] | None => [] end) with (if i =? 0 then ts else []) by (rewrite Ht; destruct tso, (i =? 0); reflexivity).
    match goal with |- comes _ _ _ (bind (bind ?x ?F) ?G) => replace (bind (bind x F) G) with (bind x (fun d => bind (F d) G)) by (now destruct x) end.
    assert (SE : forall j k data, sample_entries c (s_mem s0) (s_daq s0) l i j k data = sample_entries c (s_mem s) (s_daq s) l i j k data) by (intros; symmetry; apply entries_q).
    rewrite SE. eapply comes_entries with (n := ne); [exact He| |lia].
    intro data. assert (E : next c (Put l i pid ts data) s = (q1 <- enqueue c data q ;; stay (Loop l (i + 1) ((pid + 1) mod we c) ts) (upd_daq (set_d_q q1) s0))) by reflexivity.
    destruct (enqueue c data q) as [q1|] eqn:Eq; cbn [bind] in E |- *; [|now apply comes_ub].
    destruct (enqueue_range _ _ _ _ Eq Qh Qt). eapply comes_go; [exact E|]. apply IHj; auto. lia.
Qed.

Lemma alone_thm : forall c m l s o e ev, reachable c m l s o -> c_daq c = true -> comes c (Called ev (e_timer e)) s (step c e (OTrigger ev) s).
Proof.
  intros c m l s o e ev R Hd. pose proof (proj1 R) as W. pose proof (i_d _ _ (reach_inv _ _ _ _ _ R)) as I. destruct (d_qinv _ _ I) as (Q1 & Q2 & _).
  assert (Qm : qmod c = 5) by (unfold qmod; now rewrite (wf_qs c W)).
  cbn [step]. unfold trigger. rewrite Hd. cbn [negb]. unfold sample_event.
  destruct (d_run (s_daq s)) eqn:Hr; cbn [negb].
  2: { eapply comes_go; [|apply comes_rest]. unfold next. cbv zeta. now rewrite Hr. }
  destruct (u8 (c_nevents c) <=? ev) eqn:He.
  { eapply comes_go; [|apply comes_rest]. unfold next. cbv zeta. now rewrite Hr, He. }
  destruct (getN (d_lfe (s_daq s)) ev) as [l'|] eqn:Hl.
  2: { apply comes_ub. unfold next. cbv zeta. now rewrite Hr, He, Hl. }
  eapply comes_go; [unfold next; cbv zeta; rewrite Hr, He, Hl; reflexivity|].
  set (ts := if c_ts c && (N.land (d_mode (s_daq s)) 0x10 =? 0x10) then Some (e_timer e) else None).
  destruct (first_pid c (s_daq s) l') as [[pid|]|] eqn:Hp; cbn [bind].
  - eapply comes_go; [unfold next; cbv zeta; rewrite Hp; reflexivity|].
    destruct (hdr_at (s_daq s) l') as [(n & f)|] eqn:Hh; cbn [bind].
    2: { apply comes_ub. unfold next. cbv zeta. now rewrite Hh. }
    assert (Es : s = upd_daq (set_d_q (d_q (s_daq s))) s) by (clear; destruct s as [? ? ? ? ? ? ? ? ? ? ? ? ? ? ? ? ? ? ? ?]; destruct s_daq; reflexivity).
    match goal with |- comes _ _ _ (bind (bind ?x ?F) ?G) => replace (bind (bind x F) G) with (bind x (fun d => bind (F d) G)) by (now destruct x) end.
    cbn [bind]. assert (P := comes_loop c s l' _ ts n f Hh eq_refl (N.to_nat n) 0 pid (d_q (s_daq s)) ltac:(lia) ltac:(lia) ltac:(lia)).
    rewrite <- Es in P. replace (if c_ts c && (N.land (d_mode (s_daq s)) 16 =? 16) then ts_bytes c (e_timer e) else []) with (match ts with Some t => ts_bytes c t | None => [] end) by (unfold ts; now destruct (c_ts c && _)).
    exact P.
  - eapply comes_go; [|apply comes_rest]. unfold next. cbv zeta. now rewrite Hp.
  - apply comes_ub. unfold next. cbv zeta. now rewrite Hp.
Qed.
