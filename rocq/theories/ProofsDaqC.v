(** Allocation: sequence, pool, histories (C32 - C35). *)
From Coq Require Import NArith ZArith List Bool Lia ZifyBool ZifyNat ZifyN.
From Verif Require Import Base Config Codec Checksum State Queue Daq Core Spec Lists Effects Handlers HTx HInv HInv2
  HFields HResp DaqInv HSpec Steps Demo Ops ProofsSession Exec ProofsFrames SpecProt ProofsProt SpecMem ProofsMem ProofsWrite SpecDaq ProofsDaqA ProofsDaqB.
Import ListNotations.
Open Scope N_scope.
Ltac Zify.zify_post_hook ::= Z.div_mod_to_equations.

(** ** C34 *)
Lemma builds_thm : forall c, wf_cfg c -> dlc_ok c -> c_max_ent c < 65536 -> forall l s t s' t',
  builds c s t l s' t' -> wf_run c l -> sinv c s -> represents c s t -> sinv c s' /\ represents c s' t'.
Proof.
  intros c W D Sm l s t s' t' B. induction B; intros Wl I R; [auto| | |]; inversion Wl as [|? ? Wo Wl']; subst.
  - apply IHB; auto; [eapply step_inv; eauto|eapply req_step; eauto].
  - apply IHB; auto; [eapply step_inv; eauto|eapply reset_step; eauto].
  - apply IHB; auto; [eapply step_inv; eauto|eapply leave_step; eauto].
Qed.
Lemma builds_run : forall c l s t s' t', builds c s t l s' t' -> exists o, run c l s = Ok (s', o).
Proof.
  intros c l s t s' t' B. induction B.
  - exists []. reflexivity.
  - destruct IHB as (o' & E). exists (o ++ o'). cbn [run]. unfold andthen. rewrite H. cbn [bind]. now rewrite E.
  - destruct IHB as (o' & E). exists (o ++ o'). cbn [run]. unfold andthen. rewrite H. cbn [bind]. now rewrite E.
  - destruct IHB as (o' & E). exists (o ++ o'). cbn [run]. unfold andthen. rewrite H. cbn [bind]. now rewrite E.
Qed.
Lemma builds_reach : forall c m l0 s o t l s' t', dlc_ok c -> c_max_ent c < 65536 -> reachable c m l0 s o -> represents c s t ->
  wf_run c l -> builds c s t l s' t' -> represents c s' t' /\ exists o', run c l s = Ok (s', o') /\ reachable c m (l0 ++ l) s' (o ++ o').
Proof.
  intros c m l0 s o t l s' t' D Sm R Rp Wl B. split.
  - eapply (builds_thm c (proj1 R) D Sm); eauto. eapply reach_inv; eauto.
  - destruct (builds_run _ _ _ _ _ _ B) as (o' & E). exists o'. split; [exact E|]. eapply reach_app; eauto.
Qed.
(** At power-on nothing is configured. *)
Lemma boot_empty : forall c m s, c_daq c = true -> boot c m = Ok s -> represents c s [].
Proof.
  intros c m s Hd H. unfold boot in H. apply init_fields in H. destruct H as (_ & _ & _ & _ & _ & _ & _ & _ & _ & _ & H).
  rewrite Hd in H. do 2 eexists. eapply rep_init; eauto.
Qed.

(** ** C33 *)
Fixpoint idx {A} (i : N) (l : list A) : list (N * A) := match l with [] => [] | x :: t => (i, x) :: idx (i + 1) t end.
Lemma filter_range : forall (p : entity -> bool) l a b i, (forall j x, getN l j = Some x -> p x = (a <=? i + j) && (i + j <? b)) ->
  i <= a <= b -> b <= i + lenN l -> lenN (filter p l) = b - a.
Proof.
  intros p. induction l as [|x l IH]; intros a b i H A B; [unfold lenN in *; cbn in *; lia|].
  rewrite lenN_cons in B. pose proof (H 0 x eq_refl) as H0. rewrite N.add_0_r in H0.
  assert (H' : forall j y, getN l j = Some y -> p y = (a <=? i + 1 + j) && (i + 1 + j <? b)).
  { intros j y Hj. replace (i + 1 + j) with (i + (j + 1)) by lia. apply H. unfold getN in *. now replace (N.to_nat (j + 1)) with (S (N.to_nat j)) by lia. }
  cbn [filter]. destruct (N.eqb_spec a i) as [->|Na].
  - destruct (N.eqb_spec b i) as [->|Nb].
    + rewrite H0; match goal with |- context [if ?q then _ else _] => replace q with false by lia end.
      assert (Z : forall j y, getN l j = Some y -> p y = false) by (intros j y Hj; rewrite (H' _ _ Hj); lia).
      assert (E : filter p l = []).
      { clear - Z. induction l as [|y l IH]; [reflexivity|]. cbn [filter]. rewrite (Z 0 y eq_refl). apply IH.
        intros j w Hj. apply (Z (j + 1)). unfold getN in *. now replace (N.to_nat (j + 1)) with (S (N.to_nat j)) by lia. }
      rewrite E. change (lenN []) with 0. lia.
    + rewrite H0; match goal with |- context [if ?q then _ else _] => replace q with true by lia end. rewrite lenN_cons.
      assert (H2 : forall j y, getN l j = Some y -> p y = (i + 1 <=? i + 1 + j) && (i + 1 + j <? b)) by (intros j y Hj; rewrite (H' _ _ Hj); lia).
      rewrite (IH (i + 1) b (i + 1) H2) by lia. lia.
  - rewrite H0; match goal with |- context [if ?q then _ else _] => replace q with false by lia end. apply (IH a b (i + 1) H'); lia.
Qed.
Lemma count_thm : forall c s, dinv c (s_daq s) ->
  let d := s_daq s in
  count KList s = d_lcnt d /\ count KOdt s = d_ocnt d /\ count KEntry s + d_lcnt d + d_ocnt d = d_ecnt d /\
  count KUnused s + d_ecnt d = c_max_ent c.
Proof.
  intros c s I d. destruct (d_layout _ _ I) as (L1 & L2 & L3). pose proof (d_len _ _ I) as L. fold d in L, L1, L2, L3.
  unfold count. fold d.
  assert (G : forall k a b, (forall i, i < lenN (d_ents d) -> match k, kind_at (d_lcnt d) (d_ocnt d) (d_ecnt d) i with
       | KList, KList | KOdt, KOdt | KEntry, KEntry | KUnused, KUnused => true | _, _ => false end = (a <=? i) && (i <? b)) ->
     a <= b -> b <= lenN (d_ents d) -> lenN (filter (is_kind k) (d_ents d)) = b - a).
  { intros k a b H A B. apply (filter_range _ _ a b 0); [|lia|lia]. intros j x Hj. unfold is_kind. pose proof (getN_Some_lt _ _ _ _ Hj). rewrite (L3 _ _ Hj), H by auto. lia. }
  rewrite (G KList 0 (d_lcnt d)), (G KOdt (d_lcnt d) (d_lcnt d + d_ocnt d)), (G KEntry (d_lcnt d + d_ocnt d) (d_ecnt d)), (G KUnused (d_ecnt d) (lenN (d_ents d))); try lia.
  all: intros i Hi; unfold kind_at; destruct (N.ltb_spec i (d_lcnt d)); [|destruct (N.ltb_spec i (d_lcnt d + d_ocnt d)); [|destruct (N.ltb_spec i (d_ecnt d))]]; cbv iota; lia.
Qed.
Lemma kind_thm : forall c s, dinv c (s_daq s) -> forall i e, getN (d_ents (s_daq s)) i = Some e ->
  let d := s_daq s in
  (en_kind e = KList <-> i < d_lcnt d) /\ (en_kind e = KOdt <-> d_lcnt d <= i < d_lcnt d + d_ocnt d) /\
  (en_kind e = KEntry <-> d_lcnt d + d_ocnt d <= i < d_ecnt d) /\ (en_kind e = KUnused <-> d_ecnt d <= i).
Proof.
  intros c s I i e H d. destruct (d_layout _ _ I) as (L1 & L2 & L3). rewrite (L3 _ _ H). fold d in L1 |- *. unfold kind_at.
  destruct (N.ltb_spec i (d_lcnt d)); [|destruct (N.ltb_spec i (d_lcnt d + d_ocnt d)); [|destruct (N.ltb_spec i (d_ecnt d))]];
    repeat split; intros; try discriminate; try lia; auto.
Qed.

(** ** C32 *)
Lemma reach_queue : forall c m l s o, reachable c m l s o -> c_daq c = true -> pdu_size c <=? 1 + c_max_dto c = true.
Proof.
  intros c m l s o (W & _ & _ & s0 & B & _) Hd. unfold boot in B. apply init_fields in B.
  destruct B as (_ & _ & _ & _ & _ & _ & _ & _ & _ & _ & H). rewrite Hd in H. unfold daq_init, queue_init in H. destruct (_ <=? _); [reflexivity|discriminate].
Qed.
Lemma init_ok : forall c d, pdu_size c <=? 1 + c_max_dto c = true -> exists d', daq_init c d = Ok d'.
Proof. intros c d H. unfold daq_init, queue_init. rewrite H. cbn [bind]. eauto. Qed.
Lemma emptied_free : forall c d, emptied (daq_free c d).
Proof.
  intros. unfold emptied, daq_free. ss. repeat split; try reflexivity; apply Forall_forall; intros x Hx; apply repeat_spec in Hx; subst; auto.
Qed.
Lemma emptied_init : forall c d d', daq_init c d = Ok d' -> emptied d' /\ d_run d' = false.
Proof.
  intros c d d' H. unfold daq_init in H. apply bind_Ok in H. destruct H as (q & _ & H). injection H as <-.
  split; [|reflexivity]. exact (emptied_free c d).
Qed.

Section C32.
Variables (c : cfg) (m : mem) (l : list (env * op)) (s : st) (o : list pkt) (e : env).
Variables (R : reachable c m l s o) (RD : ready s) (D : dlc_ok c) (Op : daq_open c s).
Let W := proj1 R.
Let Hd := proj1 Op.
Let Np := proj1 (proj2 Op).
Let Nl := proj2 (proj2 Op).

Lemma open_rx : forall f k, pgm_idle c (rx c f s) (unlocked c 4 (rx c f s) k) = k.
Proof. intros. rewrite pgm_idle_no by exact Np. now rewrite unlocked_no by exact Nl. Qed.
Lemma ss_daq : forall f d, same_session (with_daq d s) (set_s_daq d (rx c f s)).
Proof. intros. unfold same_session, with_daq, rx, count_ctos. ss. repeat split. Qed.

(** FREE_DAQ. *)
Lemma free_thm : forall t, c_opt c 0xD6 = true -> lenN (0xD6 :: t) <= c_ctobuf c ->
  exists d, answers c e (0xD6 :: t) s [0xFF] (with_daq d s) /\ emptied d /\
    d_run d = d_run (s_daq s) /\ d_plist d = d_plist (s_daq s) /\ d_podt d = d_podt (s_daq s) /\ d_pent d = d_pent (s_daq s) /\
    d_mode d = d_mode (s_daq s) /\ d_q d = d_q (s_daq s).
Proof.
  intros t Ho Hl. exists (daq_free c (s_daq s)). split; [|split; [apply emptied_free|repeat split]].
  unfold answers. assert (En : entry c 0xD6 = Some (h_free_daq c)) by tbl. rewrite (exec_val c m l s o e 0xD6 _ _ R RD Hl En).
  unfold h_free_daq. rewrite unlocked_no by exact Nl. rewrite pgm_idle_no by exact Np.
  apply pos_ans; auto; [exact (rx_out c m l s o (0xD6 :: t) R)|apply ss_daq].
Qed.

(** Frames of the three allocation commands lead to these functions. *)
Definition call (k l' o' n : N) (d : daqst) : daq_ret :=
  if k =? 0xD5 then daq_alloc c n d else if k =? 0xD4 then daq_alloc_odt c l' n d else daq_alloc_entry c l' o' n d.
Lemma frame_call : forall f k n, bytes f -> lenN f <= c_ctobuf c -> alloc_frame c f k n -> c_opt c k = true -> (k = 0xD5 -> fits c n) ->
  n < 65536 /\ exists l' o', (exists t, f = k :: t) /\ step c e (ORecv f) s = ('(d, r) <- call k l' o' n (s_daq s) ;; send_result c r (set_s_daq d (rx c f s))).
Proof.
  intros f k n Wf Hl F Ho Fn. destruct F as [(-> & r & a & b & t & -> & ->)|[(-> & r & a & b & t & ->)|(-> & r & a & b & o' & t & ->)]].
  - inversion Wf as [|? ? _ W1]; subst. inversion W1 as [|? ? _ W2]; subst. inversion W2 as [|? ? Ha W3]; subst. inversion W3 as [|? ? Hb _]; subst.
    split; [now apply field2|]. exists 0, 0. split; [eauto|]. assert (En : entry c 0xD5 = Some (h_alloc_daq c)) by tbl. rewrite (exec_val c m l s o e 0xD5 _ _ R RD Hl En).
    unfold h_alloc_daq. rewrite open_rx, rx_in, gw_eq. change (gb (rxbuf s _) 2) with a. change (gb (rxbuf s _) (2 + 1)) with b.
    rewrite mod_we_small by (auto; now apply field2). reflexivity.
  - inversion Wf as [|? ? _ W1]; subst. inversion W1 as [|? ? _ W2]; subst. inversion W2 as [|? ? Ha W3]; subst. inversion W3 as [|? ? Hb W4]; subst. inversion W4; subst.
    split; [lia|]. eexists _, 0. split; [eauto|]. assert (En : entry c 0xD4 = Some (h_alloc_odt c)) by tbl. rewrite (exec_val c m l s o e 0xD4 _ _ R RD Hl En).
    unfold h_alloc_odt. rewrite open_rx, rx_in. change (gb (rxbuf s _) 4) with n. reflexivity.
  - inversion Wf as [|? ? _ W1]; subst. inversion W1 as [|? ? _ W2]; subst. inversion W2 as [|? ? Ha W3]; subst. inversion W3 as [|? ? Hb W4]; subst.
    inversion W4 as [|? ? _ W5]; subst. inversion W5; subst.
    split; [lia|]. eexists _, o'. split; [eauto|]. assert (En : entry c 0xD3 = Some (h_alloc_odt_entry c)) by tbl. rewrite (exec_val c m l s o e 0xD3 _ _ R RD Hl En).
    unfold h_alloc_odt_entry. rewrite open_rx, rx_in. change (gb (rxbuf s _) 5) with n. change (gb (rxbuf s _) 4) with o'. reflexivity.
Qed.

Lemma out_of_seq : forall f k n, bytes f -> lenN f <= c_ctobuf c -> alloc_frame c f k n -> c_opt c k = true -> (k = 0xD5 -> fits c n) ->
  (forall b, ~ in_sequence (d_alloc (s_daq s)) k b) ->
  if c_reset_seq c then exists d, answers c e f s [0xFE; 0x29] (with_daq d s) /\ emptied d /\ d_run d = false
  else refuses c e f s 0x29.
Proof.
  intros f k n Wf Hl F Ho Fn Ns. destruct (frame_call f k n Wf Hl F Ho Fn) as (_ & l' & o' & (t & Ef) & Ec).
  assert (E : call k l' o' n (s_daq s) = seq_error c (s_daq s)).
  { unfold call. destruct F as [(-> & _)|[(-> & _)|(-> & _)]]; cbn [N.eqb Pos.eqb].
    - unfold daq_alloc. destruct (d_alloc (s_daq s)) eqn:A; cbn [allowed negb]; try reflexivity; exfalso; eapply Ns; constructor.
    - unfold daq_alloc_odt. destruct (d_alloc (s_daq s)) eqn:A; cbn [allowed negb]; try reflexivity; exfalso; eapply Ns; constructor.
    - unfold daq_alloc_entry. destruct (d_alloc (s_daq s)) eqn:A; cbn [allowed negb]; try reflexivity; exfalso; eapply Ns; constructor. }
  rewrite E in Ec. unfold seq_error in Ec. destruct (c_reset_seq c).
  - destruct (init_ok c (s_daq s) (reach_queue _ _ _ _ _ R Hd)) as (d & Ed). rewrite Ed in Ec. cbn [bind] in Ec.
    exists d. split; [|eapply emptied_init; eauto]. unfold answers. rewrite Ec. apply res_err_ans; auto; [exact (rx_out c m l s o f R)|lia|apply ss_daq].
  - unfold refuses, answers. rewrite Ec. cbn [bind]. apply res_err_ans; auto; [exact (rx_out c m l s o f R)|lia|].
    eapply ss_trans; [|apply (ss_daq f (s_daq s))]. unfold same_session, with_daq. ss. repeat split.
Qed.

Lemma overflow : forall f k n, bytes f -> lenN f <= c_ctobuf c -> alloc_frame c f k n -> c_opt c k = true -> (k = 0xD5 -> fits c n) ->
  (exists b, in_sequence (d_alloc (s_daq s)) k b) -> c_max_ent c < d_ecnt (s_daq s) + n ->
  refuses c e f s 0x30.
Proof.
  intros f k n Wf Hl F Ho Fn (b & Is) Hn. destruct (frame_call f k n Wf Hl F Ho Fn) as (Bn & l' & o' & (t & Ef) & Ec).
  pose proof (i_d _ _ (reach_inv _ _ _ _ _ R)) as I. destruct (d_layout _ _ I) as (L1 & L2 & _). rewrite (d_len _ _ I) in L2.
  assert (E : call k l' o' n (s_daq s) = Ok (s_daq s, 0x30)).
  { unfold call. destruct F as [(-> & _)|[(-> & _)|(-> & _)]]; cbn [N.eqb Pos.eqb].
    - unfold daq_alloc. rewrite ent_sum_exact by auto. destruct (N.ltb_spec (c_max_ent c) (d_ecnt (s_daq s) + n)); [|lia].
      destruct (d_alloc (s_daq s)) eqn:A; cbn [allowed negb]; try reflexivity; inversion Is.
    - unfold daq_alloc_odt. rewrite ent_sum_exact by auto. destruct (N.ltb_spec (c_max_ent c) (d_ecnt (s_daq s) + n)); [|lia].
      destruct (d_alloc (s_daq s)) eqn:A; cbn [allowed negb]; try reflexivity; inversion Is.
    - unfold daq_alloc_entry. rewrite ent_sum_exact by auto. destruct (N.ltb_spec (c_max_ent c) (d_ecnt (s_daq s) + n)); [|lia].
      destruct (d_alloc (s_daq s)) eqn:A; cbn [allowed negb]; try reflexivity; inversion Is. }
  rewrite E in Ec. cbn [bind] in Ec. unfold refuses, answers. rewrite Ec. apply res_err_ans; auto; [exact (rx_out c m l s o f R)|lia|].
  eapply ss_trans; [|apply (ss_daq f (s_daq s))]. unfold same_session, with_daq. ss. repeat split.
Qed.

(** Accepted allocations in a represented configuration. *)
Variables (Sm : c_max_ent c < 65536).
Lemma same_only : forall d, only_tables d d. Proof. intro. repeat split. Qed.

Lemma alloc_thm : forall t r a b tl, let f := 0xD5 :: r :: a :: b :: tl in let n := field c [a; b] in
  represents c s t -> bytes f -> lenN f <= c_ctobuf c -> c_opt c 0xD5 = true -> fits c n ->
  (d_alloc (s_daq s) = AFree \/ d_alloc (s_daq s) = ADaq) -> d_ecnt (s_daq s) + n <= c_max_ent c ->
  exists d, answers c e f s [0xFF] (with_daq d s) /\ represents c (with_daq d s) (t ++ repeat [] (N.to_nat n)) /\
    only_tables (s_daq s) d /\ d_alloc d = ADaq.
Proof.
  intros t r a b tl f n Rp Wf Hl Ho Fn Ha Hn.
  assert (F : alloc_frame c f 0xD5 n) by (left; split; [reflexivity|]; exists r, a, b, tl; auto).
  destruct (frame_call f 0xD5 n Wf Hl F Ho (fun _ => Fn)) as (Bn & l' & o' & _ & Ec). unfold call in Ec. cbn [N.eqb Pos.eqb] in Ec.
  pose proof (i_d _ _ (reach_inv _ _ _ _ _ R)) as I. destruct (d_layout _ _ I) as (L1 & L2 & L3). rewrite (d_len _ _ I) in L2.
  destruct Rp as (fo & fe & Rp).
  assert (E : exists d, daq_alloc c n (s_daq s) = Ok (d, 0xFF) /\ only_tables (s_daq s) d /\ d_alloc d = ADaq).
  { unfold daq_alloc. replace (negb (allowed (d_alloc (s_daq s)) TDaq)) with false by (destruct Ha as [->| ->]; reflexivity).
    rewrite ent_sum_exact by auto. destruct (N.ltb_spec (c_max_ent c) (d_ecnt (s_daq s) + n)); [lia|].
    replace (existsb is_bent _) with false; [eexists; split; [reflexivity|]; split; [|reflexivity]; repeat split|].
    symmetry. apply not_true_iff_false. intro X. apply existsb_exists in X. destruct X as (x & X1 & X2).
    apply In_nth_error in X1. destruct X1 as (i & X1). assert (X1' : getN (takeN (d_ecnt (s_daq s) + n - d_ecnt (s_daq s)) (dropN (d_ecnt (s_daq s)) (d_ents (s_daq s)))) (N.of_nat i) = Some x)
      by (unfold getN; now rewrite Nnat.Nat2N.id).
    pose proof (getN_Some_lt _ _ _ _ X1') as Hi. rewrite lenN_take in Hi. rewrite getN_take in X1' by lia. rewrite getN_drop in X1'.
    pose proof (r_free _ _ _ _ _ Rp (d_ecnt (s_daq s) + N.of_nat i)) as Fr. unfold body_at in Fr. rewrite X1' in Fr. cbn [option_map] in Fr.
    specialize (Fr ltac:(lia)). injection Fr as Fr. unfold is_bent in X2. rewrite Fr in X2. discriminate. }
  destruct E as (d & E & O & A). exists d. rewrite E in Ec. cbn [bind] in Ec. split; [|split; [|auto]].
  - unfold answers. rewrite Ec. apply pos_ans; auto; [exact (rx_out c m l s o f R)|apply ss_daq].
  - unfold represents, with_daq. ss. do 2 eexists. eapply rep_alloc; eauto.
Qed.

Lemma list_call : forall a b t x (fo : N -> N) fe, a < 256 -> b < 256 -> represents_by fo fe c (s_daq s) t -> getN t (field c [a; b]) = Some x ->
  field c [a; b] mod we c = field c [a; b].
Proof.
  intros. apply mod_we_small; [now apply field2|]. eapply list_fits; eauto. apply (i_d _ _ (reach_inv _ _ _ _ _ R)).
Qed.

Lemma alloc_odt_thm : forall t r a b n tl, let f := 0xD4 :: r :: a :: b :: n :: tl in let l' := field c [a; b] in
  represents c s t -> getN t l' = Some [] -> bytes f -> lenN f <= c_ctobuf c -> c_opt c 0xD4 = true ->
  (d_alloc (s_daq s) = ADaq \/ d_alloc (s_daq s) = AOdt) -> d_ecnt (s_daq s) + n <= c_max_ent c ->
  exists d, answers c e f s [0xFF] (with_daq d s) /\ represents c (with_daq d s) (put_odts t l' (repeat [] (N.to_nat n))) /\
    only_tables (s_daq s) d /\ d_alloc d = AOdt.
Proof.
  intros t r a b n tl f l' (fo & fe & Rp) G Wf Hl Ho Ha Hn.
  inversion Wf as [|? ? _ W1]; subst. inversion W1 as [|? ? _ W2]; subst. inversion W2 as [|? ? Xa W3]; subst. inversion W3 as [|? ? Xb W4]; subst. inversion W4 as [|? ? Xn _]; subst.
  assert (Ec : step c e (ORecv f) s = ('(d, r) <- daq_alloc_odt c l' n (s_daq s) ;; send_result c r (set_s_daq d (rx c f s)))).
  { unfold f. assert (En : entry c 0xD4 = Some (h_alloc_odt c)) by tbl. rewrite (exec_val c m l s o e 0xD4 _ _ R RD Hl En).
    unfold h_alloc_odt. rewrite open_rx, rx_in, gw_eq. change (gb (rxbuf s _) 4) with n. change (gb (rxbuf s _) 2) with a. change (gb (rxbuf s _) (2 + 1)) with b.
    now rewrite (list_call a b _ _ _ _ Xa Xb Rp G). }
  pose proof (i_d _ _ (reach_inv _ _ _ _ _ R)) as I. destruct (d_layout _ _ I) as (L1 & L2 & L3). rewrite (d_len _ _ I) in L2. pose proof (d_len _ _ I) as Dl.
  assert (E : exists d, daq_alloc_odt c l' n (s_daq s) = Ok (d, 0xFF) /\ only_tables (s_daq s) d /\ d_alloc d = AOdt).
  { unfold daq_alloc_odt. replace (negb (allowed (d_alloc (s_daq s)) TOdt)) with false by (destruct Ha as [->| ->]; reflexivity).
    rewrite ent_sum_exact by (auto; lia). destruct (N.ltb_spec (c_max_ent c) (d_ecnt (s_daq s) + n)); [lia|].
    set (d1 := set_d_ents _ _).
    assert (Hh : header d1 l' 0 (fo l')).
    { eapply header_same; [|exact (r_list _ _ _ _ _ Rp _ _ G)]. unfold body_at, d1. ss. apply body_kind; lia. }
    apply hdr_val in Hh. unfold hdr_at in Hh. apply bind_Ok in Hh. destruct Hh as (x & X1 & X2). rewrite X1. cbn [bind]. rewrite X2. cbn [bind].
    eexists. split; [reflexivity|]. split; [|reflexivity]. repeat split. }
  destruct E as (d & E & O & A). exists d. rewrite E in Ec. cbn [bind] in Ec. split; [|split; [|auto]].
  - unfold answers. rewrite Ec. apply pos_ans; auto; [exact (rx_out c m l s o f R)|apply ss_daq].
  - unfold represents, with_daq, put_odts. ss. rewrite put_upd by (eapply getN_Some_lt; eauto). do 2 eexists. eapply rep_alloc_odt; eauto. lia.
Qed.

Lemma alloc_entry_thm : forall t r a b k n tl, let f := 0xD3 :: r :: a :: b :: k :: n :: tl in let l' := field c [a; b] in
  represents c s t -> odt_at t l' k = Some [] -> bytes f -> lenN f <= c_ctobuf c -> c_opt c 0xD3 = true ->
  (d_alloc (s_daq s) = AOdt \/ d_alloc (s_daq s) = AEntry) -> d_ecnt (s_daq s) + n <= c_max_ent c ->
  exists d, answers c e f s [0xFF] (with_daq d s) /\ represents c (with_daq d s) (put_entries t l' k (repeat (0, 0) (N.to_nat n))) /\
    only_tables (s_daq s) d /\ d_alloc d = AEntry.
Proof.
  intros t r a b k n tl f l' (fo & fe & Rp) Go Wf Hl Ho Ha Hn. destruct (odt_list _ _ _ _ Go) as (os & G & Gk).
  inversion Wf as [|? ? _ W1]; subst. inversion W1 as [|? ? _ W2]; subst. inversion W2 as [|? ? Xa W3]; subst. inversion W3 as [|? ? Xb W4]; subst. inversion W4 as [|? ? Xk W5]; subst.
  inversion W5 as [|? ? Xn _]; subst.
  assert (Ec : step c e (ORecv f) s = ('(d, r) <- daq_alloc_entry c l' k n (s_daq s) ;; send_result c r (set_s_daq d (rx c f s)))).
  { unfold f. assert (En : entry c 0xD3 = Some (h_alloc_odt_entry c)) by tbl. rewrite (exec_val c m l s o e 0xD3 _ _ R RD Hl En).
    unfold h_alloc_odt_entry. rewrite open_rx, rx_in, gw_eq. change (gb (rxbuf s _) 4) with k. change (gb (rxbuf s _) 5) with n. change (gb (rxbuf s _) 2) with a. change (gb (rxbuf s _) (2 + 1)) with b.
    now rewrite (list_call a b _ _ _ _ Xa Xb Rp G). }
  pose proof (i_d _ _ (reach_inv _ _ _ _ _ R)) as I. destruct (d_layout _ _ I) as (L1 & L2 & L3). rewrite (d_len _ _ I) in L2. pose proof (d_len _ _ I) as Dl.
  destruct (rep_odt_index c W Sm _ _ _ _ _ _ _ I Rp Go) as (_ & Bi).
  assert (E : exists d, daq_alloc_entry c l' k n (s_daq s) = Ok (d, 0xFF) /\ only_tables (s_daq s) d /\ d_alloc d = AEntry).
  { unfold daq_alloc_entry. replace (negb (allowed (d_alloc (s_daq s)) TEntry)) with false by (destruct Ha as [->| ->]; reflexivity).
    rewrite ent_sum_exact by (auto; lia). destruct (N.ltb_spec (c_max_ent c) (d_ecnt (s_daq s) + n)); [lia|].
    set (d1 := set_d_ents _ _).
    assert (Sb : forall i, body_at d1 i = body_at (s_daq s) i) by (intro i; unfold body_at, d1; ss; apply body_kind; lia).
    assert (Hh : header d1 l' (lenN os) (fo l')) by (eapply header_same; [apply Sb|exact (r_list _ _ _ _ _ Rp _ _ G)]).
    apply hdr_val in Hh. rewrite Hh. cbn [bind]. replace (u16 k) with k by (unfold u16; symmetry; apply N.mod_small; lia). rewrite we_mod by (auto; lia).
    assert (Ho' : header d1 (fo l' + k) 0 (fe l' k)) by (eapply header_same; [apply Sb|exact (r_odt _ _ _ _ _ Rp _ _ _ Go)]).
    apply hdr_val in Ho'. unfold hdr_at in Ho'. apply bind_Ok in Ho'. destruct Ho' as (x & X1 & X2). rewrite X1. cbn [bind].
    eexists. split; [reflexivity|]. split; [|reflexivity]. repeat split. }
  destruct E as (d & E & O & A). exists d. rewrite E in Ec. cbn [bind] in Ec. split; [|split; [|auto]].
  - unfold answers. rewrite Ec. apply pos_ans; auto; [exact (rx_out c m l s o f R)|apply ss_daq].
  - unfold represents, with_daq. ss. do 2 eexists. eapply rep_alloc_entry; eauto. lia.
Qed.
End C32.
