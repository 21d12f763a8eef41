(** Predefined DAQ lists: the invariant over runs; event assignments. *)
From Coq Require Import NArith ZArith List Bool Lia ZifyBool ZifyNat ZifyN.
From Verif Require Import Base Config Codec Checksum State Queue Daq Core Spec Lists Effects Handlers HTx HInv HInv2
  HFields HResp DaqInv HSpec Steps Demo Ops ProofsSession Exec ProofsFrames SpecMem SpecDaq ProofsDaqA ProofsDaqE ProofsDaqF Predef SpecPre ProofsPre.
Import ListNotations.
Open Scope N_scope.
Ltac Zify.zify_post_hook ::= Z.div_mod_to_equations.

Definition rz (c : cfg) (f : list N) (z : sst) : sst := with_st (rx c f (z_st z)) z.

Section Run.
Variables (c : cfg) (p : predef) (es : list (N * N)).
Variables (W : wf_cfg c) (St : static c) (Wp : wf_pre c p es).

(** ** Reception *)
Lemma srecv_val : forall e k t z, zinv c p es z -> lenN (k :: t) <= c_ctobuf c ->
  sstep c p e (ORecv (k :: t)) z =
    match (if s_conn (z_st z) && negb (s_busy (z_st z)) then own c p k else None) with
    | Some h => h e (rz c (k :: t) z)
    | None => lift (receive c e (k :: t) (z_st z)) z
    end.
Proof.
  intros e k t z (I & _) L. cbn [sstep]. destruct (recv_len8 c _ _ W I L) as (A & B). unfold sreceive.
  destruct (N.eqb_spec (lenN (k :: t)) 0) as [E|_]; [rewrite lenN_cons in E; lia|].
  destruct (N.ltb_spec (c_ctobuf c) (lenN (k :: t))); [lia|]. unfold sdispatch. cbn [z_st with_st]. ss.
  assert (X : lift (receive c e (k :: t) (z_st z)) z = lift (dispatch c e (set_s_in (splice (s_in (z_st z)) 0 (k :: t)) (z_st z))) (with_st (set_s_in (splice (s_in (z_st z)) 0 (k :: t)) (z_st z)) z)).
  { unfold receive. destruct (N.eqb_spec (lenN (k :: t)) 0) as [E|_]; [rewrite lenN_cons in E; lia|]. destruct (N.ltb_spec (c_ctobuf c) (lenN (k :: t))); [lia|]. reflexivity. }
  destruct (s_conn (z_st z) && negb (s_busy (z_st z))); [|now rewrite X].
  change (gb (splice (s_in (z_st z)) 0 (k :: t)) 0) with k. destruct (own c p k); [|now rewrite X].
  rewrite A. destruct (N.ltb_spec (c_ctobuf c) 8); [lia|]. reflexivity.
Qed.
Lemma srecv_Ok : forall e f z z' o, zinv c p es z -> sstep c p e (ORecv f) z = Ok (z', o) ->
  (exists k t h, f = k :: t /\ ready (z_st z) /\ own c p k = Some h /\ lenN f <= c_ctobuf c /\ h e (rz c f z) = Ok (z', o)) \/
  (lift (receive c e f (z_st z)) z = Ok (z', o) /\ forall k t, f = k :: t -> ready (z_st z) -> own c p k = None).
Proof.
  intros e f z z' o I H. destruct f as [|k t].
  - right. split; [|discriminate]. cbn in H. injection H as <- <-. unfold lift. cbn. destruct z. reflexivity.
  - assert (L : lenN (k :: t) <= c_ctobuf c).
    { cbn [sstep] in H. unfold sreceive in H. destruct (N.eqb_spec (lenN (k :: t)) 0) as [E|_]; [rewrite lenN_cons in E; lia|].
      destruct (N.ltb_spec (c_ctobuf c) (lenN (k :: t))); [discriminate|lia]. }
    rewrite srecv_val in H; auto. destruct (s_conn (z_st z)) eqn:C; destruct (s_busy (z_st z)) eqn:B; cbn [andb negb] in H.
    2: { destruct (own c p k) eqn:E; [left; exists k, t, s; unfold ready; auto|right]. split; [exact H|]. intros k' t' Q _. congruence. }
    all: right; split; [exact H|]; intros k' t' Q (Q1 & Q2); congruence.
Qed.
Lemma off_entry : forall k h, In k [0xD6; 0xD5; 0xD4; 0xD3] -> getN (table c) (255 - k) = Some h -> h = h_unknown c.
Proof.
  intros k h Hi G. destruct St as (Hd & F). rewrite Forall_forall in F. specialize (F k Hi).
  cbn [In] in Hi. destruct Hi as [<-|[<-|[<-|[<-|[]]]]].
  all: match type of F with c_opt c ?k = _ => let X := fresh in assert (X : getN (table c) (255 - k) = Some (h_unknown c)) by
    (transitivity (Some (if c_daq c && c_opt c k then match getN (table c) (255 - k) with Some g => g | None => h_unknown c end else h_unknown c));
     [|rewrite F, andb_false_r; reflexivity]; cbv [table getN]; cbn [N.sub N.to_nat nth_error]; rewrite F, ?andb_false_r; cbn; now rewrite ?andb_false_r, ?Hd); congruence end.
Qed.
Lemma unk_daq : forall e s s' o, h_unknown c e s = Ok (s', o) -> s_daq s' = s_daq s.
Proof. intros e s s' o H. unfold h_unknown in H. apply err_quiet in H. apply H. Qed.
Lemma receive_daq : forall e f s s' o, bytes f -> receive c e f s = Ok (s', o) -> (forall k t, f = k :: t -> ready s -> own c p k = None) -> s_daq s' = s_daq s.
Proof.
  intros e f s s' o Bf H N. apply receive_Ok in H. destruct H as [(-> & -> & ->)|(k & t & E & L & H)]; [reflexivity|].
  destruct H as [(Hc & Hb & H)|[(C & h & G & H)|(Hc & Hk & -> & ->)]]; [| |reflexivity].
  - apply busy_Ok in H. destruct H as (ob & _ & -> & _). reflexivity.
  - assert (K : k < 256) by (subst f; inversion Bf; auto). pose proof (entries_cmd c _ k h (same_entries c e) K G _ _ _ H) as (_ & X & _).
    destruct X as [X|X]; [exact X|]. destruct C as [(C & B)|(C & ->)]; [|exfalso; cbn in X; intuition discriminate].
    specialize (N k t E (conj C B)). destruct St as (Hd & _).
    assert (U : h = h_unknown c -> s_daq s' = s_daq s) by (intros ->; apply unk_daq in H; exact H).
    unfold daq_cmds in X. cbn [In] in X.
    repeat match type of X with ?a = k \/ _ => destruct X as [X|X]; [subst k|] | False => destruct X end.
    all: try (cbn [own] in N; rewrite ?Hd in N; discriminate N).
    + apply U. cbn [own] in N. destruct (c_opt c 0xF7) eqn:O; [discriminate|].
      assert (Y : getN (table c) (255 - 0xF7) = Some (h_unknown c)) by (cbv [table getN]; cbn [N.sub N.to_nat nth_error]; change (c_opt c 247) with (c_opt c 0xF7); cbn; now rewrite O). congruence.
    + apply U. apply (off_entry 0xD6); cbn; auto.
    + apply U. apply (off_entry 0xD5); cbn; auto.
    + apply U. apply (off_entry 0xD4); cbn; auto.
    + apply U. apply (off_entry 0xD3); cbn; auto.
    + apply U. cbn [own] in N. rewrite Hd in N. cbn [andb] in N. destruct (c_opt c 0xC7) eqn:O; [discriminate|].
      assert (Y : getN (table c) (255 - 0xC7) = Some (h_unknown c)) by (cbv [table getN]; cbn; now rewrite O, andb_false_r). congruence.
Qed.
Lemma rz_inv : forall f z, zinv c p es z -> bytes f -> lenN f <= c_ctobuf c -> zinv c p es (rz c f z).
Proof. intros f z (A & B) Bf L. split; [|exact B]. apply sinv_in; auto. Qed.
Lemma lift_inv : forall r z z' o, zinv c p es z -> (forall s' o', r = Ok (s', o') -> sinv c s' /\ s_daq s' = s_daq (z_st z)) ->
  lift r z = Ok (z', o) -> zinv c p es z' /\ s_daq (z_st z') = s_daq (z_st z).
Proof.
  intros r z z' o I Q H. apply lift_Ok in H. destruct H as (s & H & ->). destruct (Q _ _ H) as (Q1 & Q2). destruct I as (_ & I).
  split; [|exact Q2]. split; [exact Q1|]. unfold with_st. cbn [z_st z_modes z_entries]. rewrite Q2. exact I.
Qed.

(** ** Events *)
Lemma sentries_bytes : forall m es l o n k data r, (forall x, m x < 256) -> bytes data ->
  sentries c p es m l o n k data = Ok r -> bytes r.
Proof.
  induction n; intros k data r Hm Hd H; cbn [sentries] in H; [injection H as <-; auto|].
  apply bind_Ok in H. destruct H as (i & _ & H). apply bind_Ok in H. destruct H as ((a & len) & _ & H).
  destruct (_ <? _); [discriminate|]. destruct (_ =? _); [discriminate|]. destruct (_ <? _); [discriminate|].
  eapply IHn; [auto| |exact H]. apply bytes_app; auto. apply bytes_mread. auto.
Qed.
Lemma sodts_qinv : forall m es ts l n i pid q q', (forall x, m x < 256) -> qinv c q -> sodts c p es m ts l n i pid q = Ok q' -> qinv c q'.
Proof.
  induction n; intros i pid q q' Hm Q H; cbn [sodts] in H; [injection H as <-; auto|].
  apply bind_Ok in H. destruct H as ((ne & f) & _ & H).
  apply bind_Ok in H. destruct H as (data & Hs & H). apply bind_Ok in H. destruct H as (q1 & Hq & H).
  eapply IHn; [auto| |exact H]. eapply qinv_enqueue; [exact W| |exact Q|exact Hq].
  eapply sentries_bytes; [exact Hm| |exact Hs]. constructor; [apply u8_lt|].
  destruct ts; [destruct (_ =? _)|]; try constructor. apply ts_bytes_b.
Qed.
Lemma strigger_inv : forall e ev z z' o, zinv c p es z -> strigger c p e ev z = Ok (z', o) ->
  zinv c p es z' /\ exists q, s_daq (z_st z') = set_d_q q (s_daq (z_st z)).
Proof.
  intros e ev z z' o I H. unfold strigger in H.
  assert (X : zinv c p es z /\ exists q, s_daq (z_st z) = set_d_q q (s_daq (z_st z))).
  { split; [exact I|]. exists (d_q (s_daq (z_st z))). destruct (s_daq (z_st z)). reflexivity. }
  destruct (negb _); [injection H as <- <-; exact X|]. destruct (_ <=? _); [injection H as <- <-; exact X|].
  destruct (getN _ _); [|discriminate]. apply bind_Ok in H. destruct H as (r & _ & H). destruct r; [|injection H as <- <-; exact X].
  apply bind_Ok in H. destruct H as ((no & f) & _ & H). apply bind_Ok in H. destruct H as (md & _ & H). apply bind_Ok in H. destruct H as (q & Hq & H).
  destruct I as (I & B & B' & C & D & E).
  apply sodts_qinv in Hq; [|exact (b_mem _ _ (i_b _ _ I))|exact (d_qinv _ _ (i_d _ _ I))].
  apply lift_Ok in H. destruct H as (s & H & ->).
  pose proof (sinv_q _ _ _ I Hq) as Iq. pose proof (transmit_inv _ _ _ _ _ W Iq H) as (Is & _).
  pose proof (transmit_kept _ _ _ _ _ H) as (_ & (q2 & K) & _). pose proof (transmit_all _ _ _ _ _ W Iq H) as T.
  unfold with_st. cbn [z_st z_modes z_entries]. split.
  - split; [exact Is|]. split; [exact B|]. split; [exact B'|]. split; [exact C|]. cbn [z_st]. split; [|apply T; ss; lia]. rewrite K. ss. exact D.
  - exists q2. rewrite K. ss. reflexivity.
Qed.

(** ** Event assignments *)
Lemma q_daq : forall s s', quiet c s s' -> s_daq s' = s_daq s. Proof. intros s s' (_ & H). apply H. Qed.
Definition lfe (z : sst) : list N := d_lfe (s_daq (z_st z)).
Lemma lift_lfe : forall r z z' o, (forall s' o', r = Ok (s', o') -> quiet c (z_st z) s') -> lift r z = Ok (z', o) -> lfe z' = lfe z.
Proof. intros r z z' o Q H. apply lift_Ok in H. destruct H as (s & H & ->). apply Q in H. unfold lfe. cbn [z_st with_st]. now rewrite (q_daq _ _ H). Qed.
Lemma sdisc_lfe : forall z z', zinv c p es z -> sdisconnect c z = Ok z' -> lfe z' = lfe z.
Proof.
  intros z z' I H. apply (sdisc_inv c p es St) in H; [|now apply zinv3]. destruct H as (_ & _ & L & _). exact L.
Qed.
Ltac lf H := apply lift_lfe in H; [|intros; first [eapply res_quiet; eassumption | eapply err_quiet; eassumption | eapply pos_quiet; eassumption
                                           | eapply send8_quiet; [|eassumption]; bytes_tac]].
Ltac guards H := repeat (match type of H with (if ?b then _ else _) = Ok _ => destruct b; [lf H; exact H|] end).
Lemma disc_lfe : forall e z z' o, zinv c p es z -> zh_disconnect c e z = Ok (z', o) -> lfe z' = lfe z.
Proof.
  intros e z z' o I H. unfold zh_disconnect, spgm_idle in H. guards H.
  apply sthen_Ok in H. destruct H as (z1 & o1 & o2 & H1 & H2 & _). pose proof H1 as I1. apply (lift_pos c p es) in I1; auto. lf H1.
  apply bind_Ok in H2. destruct H2 as (z2 & H2 & H3). injection H3 as <- <-. apply sdisc_lfe in H2; [congruence|exact I1].
Qed.
Lemma unlock_lfe : forall e z z' o, zinv c p es z -> zh_unlock c e z = Ok (z', o) -> lfe z' = lfe z.
Proof.
  intros e z z' o I H. unfold zh_unlock, spgm_idle in H. guards H.
  apply bind_Ok in H. destruct H as ((z1 & o1) & H1 & H). injection H as <- <-. change (lfe z1 = lfe z). destruct (e_unlock _ _ _ _).
  - apply lift_Ok in H1. destruct H1 as (s & H1 & ->). apply send8_quiet in H1.
    + unfold lfe. cbn [z_st with_st]. rewrite (q_daq _ _ H1). reflexivity.
    + destruct I as (I0 & _). pose proof (b_prot _ _ (i_b _ _ I0)).
      assert (N.ldiff (s_prot (z_st z)) (s_seed (z_st z)) < 256) by (pose proof (ldiff_le (s_prot (z_st z)) (s_seed (z_st z))); lia). ss. bytes_tac.
  - apply sthen_Ok in H1. destruct H1 as (z2 & o2 & o3 & H1 & H2 & _). pose proof H1 as I1. apply (lift_err c p es) in I1; auto. lf H1.
    apply bind_Ok in H2. destruct H2 as (z3 & H2 & H3). injection H3 as <- <-. apply sdisc_lfe in H2; [congruence|exact I1].
Qed.
Lemma ptr_lfe : forall e z z' o, zh_set_daq_ptr c p e z = Ok (z', o) -> lfe z' = lfe z.
Proof.
  intros e z z' o H. unfold zh_set_daq_ptr, sdaq_stopped, spgm_idle, sunlocked in H. guards H.
  apply bind_Ok in H. destruct H as (ok & _ & H). destruct (negb ok); [lf H; exact H|]. apply lift_Ok in H. destruct H as (s & H & ->).
  apply pos_quiet in H. unfold lfe. cbn [z_st with_st]. rewrite (q_daq _ _ H). reflexivity.
Qed.
Lemma swrite_lfe : forall a b z z', swrite c p a b z = Ok z' -> lfe z' = lfe z.
Proof.
  intros a b z z' H. unfold swrite in H. apply bind_Ok in H. destruct H as (i & _ & H). apply bind_Ok in H. destruct H as (x & _ & H). injection H as <-. reflexivity.
Qed.
Lemma swrites_lfe : forall b n i z z', swrites c p b n i z = Ok z' -> lfe z' = lfe z.
Proof.
  induction n; intros i z z' H; cbn [swrites] in H; [injection H as <-; reflexivity|]. apply bind_Ok in H. destruct H as (z1 & H1 & H).
  apply swrite_lfe in H1. apply IHn in H. congruence.
Qed.
Lemma write_lfe : forall e z z' o, zh_write_daq c p e z = Ok (z', o) -> lfe z' = lfe z.
Proof.
  intros e z z' o H. unfold zh_write_daq, sdaq_stopped, spgm_idle, sunlocked in H. guards H.
  apply bind_Ok in H. destruct H as (z1 & H1 & H). apply swrite_lfe in H1. lf H. congruence.
Qed.
Lemma writes_lfe : forall e z z' o, zh_write_daq_multiple c p e z = Ok (z', o) -> lfe z' = lfe z.
Proof.
  intros e z z' o H. unfold zh_write_daq_multiple, sdaq_stopped, spgm_idle, sunlocked in H. guards H. destruct (_ <? _); [discriminate|].
  apply bind_Ok in H. destruct H as (z1 & H1 & H). apply swrites_lfe in H1. lf H. congruence.
Qed.
Lemma sslist_lfe : forall e z z' o, zh_start_stop_list c p e z = Ok (z', o) -> lfe z' = lfe z.
Proof.
  intros e z z' o H. unfold zh_start_stop_list, spgm_idle, sunlocked in H. guards H.
  apply sthen_Ok in H. destruct H as (z1 & o1 & o2 & H1 & H & _).
  assert (J : lfe z1 = lfe z). { destruct (_ <=? _); [lf H1; exact H1|]. injection H1 as <- <-. reflexivity. }
  rewrite <- J. guards H. apply bind_Ok in H. destruct H as (z2 & H2 & H). apply bind_Ok in H. destruct H as (r & _ & H).
  assert (J2 : lfe z2 = lfe z1). { destruct (_ =? 2); [|now injection H2 as <-]. apply bind_Ok in H2. destruct H2 as (old & _ & H2). now injection H2 as <-. }
  rewrite <- J2. lf H. exact H.
Qed.
Lemma synch_lfe : forall e z z' o, zh_start_stop_synch c e z = Ok (z', o) -> lfe z' = lfe z.
Proof.
  intros e z z' o H. unfold zh_start_stop_synch, spgm_idle, sunlocked in H.
  do 2 (match type of H with (if ?b then _ else _) = Ok _ => destruct b; [lf H; exact H|] end).
  repeat (match type of H with (if ?b then _ else _) = Ok _ => destruct b; [lf H; rewrite H; reflexivity|] end). lf H. exact H.
Qed.
Lemma pinfo_lfe : forall e z z' o, zh_daq_processor_info c p e z = Ok (z', o) -> lfe z' = lfe z.
Proof.
  intros e z z' o H. unfold zh_daq_processor_info, spgm_idle, sunlocked in H. guards H.
  assert (sproperties c < 256) by (unfold sproperties; destruct (c_prescaler c), (c_ts c); reflexivity). lf H. exact H.
Qed.
Lemma linfo_lfe : forall e z z' o, zh_daq_list_info c p e z = Ok (z', o) -> lfe z' = lfe z.
Proof.
  intros e z z' o H. unfold zh_daq_list_info, spgm_idle, sunlocked in H. guards H.
  apply sthen_Ok in H. destruct H as (z1 & o1 & o2 & H1 & H & _).
  assert (J : lfe z1 = lfe z). { destruct (_ <=? _); [lf H1; exact H1|]. injection H1 as <- <-. reflexivity. }
  rewrite <- J. apply bind_Ok in H. destruct H as ((n & f) & _ & H). lf H. exact H.
Qed.
Lemma own_lfe : forall k h e z z' o, own c p k = Some h -> k <> 0xE0 -> zinv c p es z -> h e z = Ok (z', o) -> lfe z' = lfe z.
Proof.
  intros k h e z z' o K Hk I H. unfold own in K.
  repeat match type of K with
  | context [match ?x with _ => _ end] => is_var x; destruct x; try discriminate; try congruence
  end.
  all: try (destruct (c_opt c 0xF7); [|discriminate]); try (destruct (c_daq c); [|discriminate]); cbn [andb] in K;
    try (match type of K with (if ?b then _ else _) = _ => destruct b; [|discriminate] end); injection K as <-.
  all: eauto using disc_lfe, unlock_lfe, ptr_lfe, write_lfe, writes_lfe, sslist_lfe, synch_lfe, pinfo_lfe, linfo_lfe.
Qed.

(** ** Operations *)
Lemma sstep_inv : forall e x z z' o, wf_op c (e, x) -> zinv c p es z -> sstep c p e x z = Ok (z', o) ->
  zinv c p es z' /\ ((forall t, x <> ORecv (0xE0 :: t)) -> lfe z' = lfe z).
Proof.
  intros e x z z' o Wo I H. pose proof Wo as (We & Wx). cbn [fst snd] in We, Wx.
  assert (L : forall r, (forall s' o', r = Ok (s', o') -> sinv c s' /\ s_daq s' = s_daq (z_st z)) -> lift r z = Ok (z', o) ->
    zinv c p es z' /\ ((forall t, x <> ORecv (0xE0 :: t)) -> lfe z' = lfe z)).
  { intros r Q X. apply lift_inv in X; auto. destruct X as (X1 & X2). split; [exact X1|]. intros _. unfold lfe. now rewrite X2. }
  assert (S : forall op, x = op -> (forall s' o', step c e op (z_st z) = Ok (s', o') -> s_daq s' = s_daq (z_st z)) ->
    forall s' o', step c e op (z_st z) = Ok (s', o') -> sinv c s' /\ s_daq s' = s_daq (z_st z)).
  { intros op <- Q s' o' X. split; [|eauto]. eapply step_inv; eauto. apply I. }
  destruct x; cbn [sstep] in H.
  - destruct (srecv_Ok _ _ _ _ _ I H) as [(k & t & h & -> & Rd & K & Hl & X)|(X & N)].
    + pose proof (rz_inv _ _ I Wx Hl) as J. split; [eapply own_inv; eauto|].
      intro Hk. change (lfe z' = lfe (rz c (k :: t) z)). eapply own_lfe; eauto. intros ->. now apply (Hk t).
    + apply (L _) in X; [exact X|]. intros s' o' Y. split; [|eapply receive_daq; eauto]. eapply receive_inv; eauto; apply I.
  - apply (L (step c e OMain (z_st z))) in H; [exact H|]. apply (S OMain eq_refl). intros s' o' Y. cbn [step] in Y. now apply main_kept in Y.
  - destruct (c_daq c); [|injection H as <- <-; auto]. apply strigger_inv in H; auto. destruct H as (H & q & Hq). split; [exact H|]. intros _. unfold lfe. rewrite Hq. reflexivity.
  - match type of H with lift ?r _ = _ => apply (L r) in H; [exact H|] end. apply (S _ eq_refl). intros s' o' Y. cbn [step] in Y.
    destruct (c_ev_api c); [apply special_kept in Y; apply Y|injection Y as <- <-; reflexivity].
  - match type of H with lift ?r _ = _ => apply (L r) in H; [exact H|] end. apply (S _ eq_refl). intros s' o' Y. cbn [step] in Y.
    destruct (c_srv_api c); [apply special_kept in Y; apply Y|injection Y as <- <-; reflexivity].
  - match type of H with lift ?r _ = _ => apply (L r) in H; [exact H|] end. apply (S _ eq_refl). intros s' o' Y. cbn [step] in Y. injection Y as <- <-. reflexivity.
  - apply bind_Ok in H. destruct H as (z1 & H & E). injection E as <- <-. split; [eapply sdisc_inv; [apply St|apply zinv3|]; eauto|]. intros _. now apply sdisc_lfe.
  - match type of H with lift ?r _ = _ => apply (L r) in H; [exact H|] end. apply (S _ eq_refl). intros s' o' Y. cbn [step] in Y. injection Y as <- <-. reflexivity.
  - match type of H with lift ?r _ = _ => apply (L r) in H; [exact H|] end. apply (S _ eq_refl). intros s' o' Y. cbn [step] in Y.
    apply bind_Ok in Y. destruct Y as (s1 & Y & E). injection E as <- <-. apply set_busy_Ok in Y. now subst s1.
  - apply bind_Ok in H. destruct H as (z1 & H & E). injection E as <- <-. destruct I as (I & B & B' & C & D & Q). pose proof (i_b _ _ I) as [].
    apply (sinit_inv c p es) in H; auto; [|apply I]. destruct H as (X1 & _ & X2 & _). split; [exact X1|]. intros _. exact X2.
Qed.
Lemma srun_cons : forall e x l z z' o, srun c p ((e, x) :: l) z = Ok (z', o) ->
  exists z1 o1 o2, sstep c p e x z = Ok (z1, o1) /\ srun c p l z1 = Ok (z', o2) /\ o = o1 ++ o2.
Proof. intros e x l z z' o H. cbn [srun] in H. now apply sthen_Ok in H. Qed.
Lemma srun_inv : forall l z z' o, wf_run c l -> zinv c p es z -> srun c p l z = Ok (z', o) ->
  zinv c p es z' /\ ((forall e t, ~ In (e, ORecv (0xE0 :: t)) l) -> lfe z' = lfe z).
Proof.
  induction l as [|(e & x) l IH]; intros z z' o Wl I H.
  - cbn in H. injection H as <- <-. auto.
  - apply srun_cons in H. destruct H as (z1 & o1 & o2 & H1 & H2 & _). inversion Wl; subst.
    destruct (sstep_inv _ _ _ _ _ H3 I H1) as (I1 & L1). destruct (IH _ _ _ H4 I1 H2) as (I2 & L2). split; [exact I2|].
    intro Hn. rewrite L2, L1; auto.
    + intros t ->. apply (Hn e t). now left.
    + intros e' t Hi. apply (Hn e' t). now right.
Qed.
End Run.

Lemma sreach_inv : forall c p es m l z o, sreachable c p es m l z o -> zinv c p es z.
Proof.
  intros c p es m l z o (W & St & Wp & M & Wl & z0 & B & H). apply (sboot_inv c p es W St) in B; auto. eapply srun_inv; eauto. apply B.
Qed.
Lemma srun_app : forall c p l1 l2 z z' o, srun c p (l1 ++ l2) z = Ok (z', o) ->
  exists z1 o1 o2, srun c p l1 z = Ok (z1, o1) /\ srun c p l2 z1 = Ok (z', o2) /\ o = o1 ++ o2.
Proof.
  induction l1 as [|(e & x) l1 IH]; intros l2 z z' o H.
  - exists z, [], o. auto.
  - cbn [app] in H. apply srun_cons in H. destruct H as (z1 & o1 & o2 & H1 & H2 & ->). apply IH in H2. destruct H2 as (z2 & o3 & o4 & H2 & H3 & ->).
    exists z2, (o1 ++ o3), o4. split; [|split; [exact H3|now rewrite app_assoc]]. cbn [srun]. unfold sthen. rewrite H1. cbn [bind]. rewrite H2. reflexivity.
Qed.
