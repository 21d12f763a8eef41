(** Phases, invalid numbers, DAQ pointer, WRITE_DAQ (C32, C35 - C38). *)
From Coq Require Import NArith ZArith List Bool Lia ZifyBool ZifyNat ZifyN.
From Verif Require Import Base Config Codec Checksum State Queue Daq Core Spec Lists Effects Handlers HTx HInv HInv2
  HFields HResp DaqInv HSpec Steps Demo Ops ProofsSession Exec ProofsFrames SpecProt ProofsProt SpecMem ProofsMem ProofsWrite SpecDaq ProofsDaqA ProofsDaqB ProofsDaqC.
Import ListNotations.
Open Scope N_scope.
Ltac Zify.zify_post_hook ::= Z.div_mod_to_equations.

(** ** C32: phases *)
Lemma unlock_any : forall c e s s' o, h_unlock c e s = Ok (s', o) -> s_daq s' = s_daq s \/ daq_init c (s_daq s) = Ok (s_daq s').
Proof.
  intros c e s s' o H. unfold_h. invs; repeat (leaf; subst); ss; auto.
Qed.
Lemma alloc_phase : forall c n d d', daq_alloc c n d = Ok (d', 0xFF) -> in_sequence (d_alloc d) 0xD5 (d_alloc d').
Proof.
  intros c n d d' H. unfold daq_alloc in H. destruct (allowed (d_alloc d) TDaq) eqn:A; cbn [negb] in H.
  - destruct (_ <? _); [discriminate|]. destruct (existsb _ _); [discriminate|]. injection H as <-. ss. destruct (d_alloc d); try discriminate; constructor.
  - apply seq_code in H. destruct H; discriminate.
Qed.
Lemma alloc_odt_phase : forall c l n d d', daq_alloc_odt c l n d = Ok (d', 0xFF) -> in_sequence (d_alloc d) 0xD4 (d_alloc d').
Proof.
  intros c l n d d' H. unfold daq_alloc_odt in H. destruct (allowed (d_alloc d) TOdt) eqn:A; cbn [negb] in H.
  - destruct (_ <? _); [discriminate|]. apply bind_Ok in H. destruct H as (? & _ & H). apply bind_Ok in H. destruct H as ((? & ?) & _ & H). injection H as <-. ss.
    destruct (d_alloc d); try discriminate; constructor.
  - apply seq_code in H. destruct H; discriminate.
Qed.
Lemma alloc_entry_phase : forall c l k n d d', daq_alloc_entry c l k n d = Ok (d', 0xFF) -> in_sequence (d_alloc d) 0xD3 (d_alloc d').
Proof.
  intros c l k n d d' H. unfold daq_alloc_entry in H. destruct (allowed (d_alloc d) TEntry) eqn:A; cbn [negb] in H.
  - destruct (_ <? _); [discriminate|]. apply bind_Ok in H. destruct H as ((? & ?) & _ & H). apply bind_Ok in H. destruct H as (? & _ & H). injection H as <-. ss.
    destruct (d_alloc d); try discriminate; constructor.
  - apply seq_code in H. destruct H; discriminate.
Qed.
Lemma write_phase : forall c sz a d d', write_daq_entry c sz a d = Ok d' -> d_alloc d' = d_alloc d.
Proof. unfold write_daq_entry. intros. invs. reflexivity. Qed.
Lemma multiple_phase : forall c buf n i d d', write_multiple c buf n i d = Ok d' -> d_alloc d' = d_alloc d.
Proof.
  induction n; cbn; intros; invs; auto. match goal with H : write_multiple _ _ _ _ _ = _ |- _ => apply IHn in H; rewrite H end. eapply write_phase; eauto.
Qed.

Lemma phase_thm : forall c m l s o e x s' o', reachable c m l s o -> dlc_ok c -> c_max_ent c < 65536 -> wf_op c (e, x) -> step c e x s = Ok (s', o') ->
  d_alloc (s_daq s') = d_alloc (s_daq s) \/ emptied (s_daq s') /\ d_run (s_daq s') = false \/
  exists k t, x = ORecv (k :: t) /\ accepted o' /\ in_sequence (d_alloc (s_daq s)) k (d_alloc (s_daq s')).
Proof.
  intros c m l s o e x s' o' R D Sm (_ & Wx) H. pose proof (reach_inv _ _ _ _ _ R) as I. pose proof (proj1 R) as W. cbn [snd] in Wx.
  assert (Z : forall d, daq_init c d = Ok (s_daq s') -> emptied (s_daq s') /\ d_run (s_daq s') = false) by (intros d Hd; eapply emptied_init; eauto).
  assert (E : s_daq s' = s_daq s -> d_alloc (s_daq s') = d_alloc (s_daq s)) by (intros ->; auto).
  assert (O : (forall f, x <> ORecv f) -> d_alloc (s_daq s') = d_alloc (s_daq s) \/ emptied (s_daq s') /\ d_run (s_daq s') = false).
  { intro Nf. destruct (other_ops _ _ _ _ _ _ H Nf) as (_ & _ & _ & [(q & K)|[(_ & _ & K)|[(_ & _ & K)|(_ & _ & K)]]]); eauto.
    - left. rewrite K. reflexivity.
    - left. rewrite K. reflexivity. }
  destruct x; try (destruct O as [O|O]; [congruence|auto|auto]). clear O.
  destruct frame as [|k f].
  - cbn [step] in H. apply receive_Ok in H. destruct H as [(_ & -> & _)|(? & ? & ? & _)]; [auto|discriminate].
  - assert (Hk : k < 256) by (inversion Wx; auto).
    destruct (recv_cases _ W D Sm _ _ _ _ _ _ I H) as [(K & _)|(h & Hh & K)]; [auto|].
    destruct (entries_cmd _ _ _ _ (table_entries c e) Hk Hh _ _ _ K) as [T|T]; [left; apply T|].
    unfold table_cmds in T. cbn [In] in T.
    assert (X : forall g, (forall d', g (s_daq s) = Ok (d', 0xFF) -> in_sequence (d_alloc (s_daq s)) k (d_alloc d')) ->
       nothing s s' o' \/ c_daq c = true /\ allocated c g s s' o' ->
       d_alloc (s_daq s') = d_alloc (s_daq s) \/ emptied (s_daq s') /\ d_run (s_daq s') = false \/
       exists k0 t, ORecv (k :: f) = ORecv (k0 :: t) /\ accepted o' /\ in_sequence (d_alloc (s_daq s)) k0 (d_alloc (s_daq s'))).
    { intros g G [(Y & _)|(_ & [(Y1 & Y2)|[(Y & _)|(_ & _ & Y)]])]; eauto 8. }
    destruct T as [<-|[<-|[<-|[<-|[<-|[<-|[<-|[<-|[]]]]]]]]].
    + clear K. pose proof H as H'. apply cmd_FE in H; auto. destruct H as [(Y & _)|(Y & Y1)]; [auto|].
      destruct (c_daq c) eqn:Hd; [eauto|]. injection Hh as <-.
      destruct (recv_cases _ W D Sm _ _ _ _ _ _ I H') as [(K & _)|(h & Hh & K)]; [auto|]. injection Hh as <-.
      unfold h_disconnect in K. unfold pgm_idle in K. destruct (_ && _).
      * left. unfold send_result, err in K. invs; repeat (leaf; subst); reflexivity.
      * left. apply andthen_Ok in K. destruct K as (s1 & o1 & o2 & K1 & K2 & _). unfold pos in K1. leaf. subst. apply bind_Ok in K2. destruct K2 as (s2 & K2 & K3). injection K3 as <- <-.
        apply disconnect_fields in K2. destruct K2 as (d & -> & Hx). rewrite Hd in Hx. subst d. reflexivity.
    + injection Hh as Hh. destruct (c_opt c 0xF7); subst h.
      * apply unlock_any in K. ss_in K. destruct K as [K|K]; eauto.
      * unfold h_unknown, err in K. leaf. subst. left. reflexivity.
    + apply cmd_D6 in H; auto. destruct H as [(Y & _)|(Y & Y1)]; [auto|]. right; right. exists 0xD6, f. split; [auto|]. split; [auto|].
      rewrite Y. constructor.
    + apply cmd_D5 in H; auto. eapply X; [|exact H]. intros d' Hd. eapply alloc_phase; eauto.
    + apply cmd_D4 in H; auto. eapply X; [|exact H]. intros d' Hd. eapply alloc_odt_phase; eauto.
    + apply cmd_D3 in H; auto. eapply X; [|exact H]. intros d' Hd. eapply alloc_entry_phase; eauto.
    + apply cmd_E1 in H; auto. destruct H as [(Y & _)|(Y & _)]; [auto|]. left. eapply write_phase; eauto.
    + apply cmd_C7 in H; auto. destruct H as [(Y & _)|(Y & _)]; [auto|]. left. eapply multiple_phase; eauto.
Qed.

(** ** C35 - C38 *)
Lemma get_none : forall A (l : list A) i, lenN l <= i -> getN l i = None.
Proof. intros. now apply getN_None. Qed.
Lemma narrow : forall c x n, c_max_ent c < 65536 -> beyond c x n = (n <=? x).
Proof.
  intros c x n H. unfold beyond. destruct (we_cases c) as [(A & ->)|[(A & ->)|(A & ->)]]; try reflexivity. exfalso. change (2 ^ 16) with 65536 in *. lia.
Qed.
Lemma bz_or_hdr : forall fo fe c d t i, represents_by fo fe c d t -> (forall l o k x, entry_at t l o k = Some x -> False) ->
  lenN t <= i < c_max_ent c -> d_ecnt d <= i -> body_at d i = Some BZero.
Proof. intros. eapply r_free; eauto. lia. Qed.

Section Ptr.
Variables (c : cfg) (m : mem) (l : list (env * op)) (s : st) (o : list pkt) (e : env).
Variables (R : reachable c m l s o) (RD : ready s) (D : dlc_ok c) (Op : daq_open c s).
Variables (Sm : c_max_ent c < 65536).
Let W := proj1 R.
Let Hd := proj1 Op.
Let I := i_d _ _ (reach_inv _ _ _ _ _ R).

Lemma stopped_rx : forall f k, ~ measuring s -> daq_stopped c (rx c f s) (pgm_idle c (rx c f s) (unlocked c 4 (rx c f s) k)) = k.
Proof. intros f k M. rewrite daq_stopped_no by exact M. apply (open_rx c s Op). Qed.

(** ALLOC_ODT for a list number that was not allocated. *)
Lemma alloc_odt_wild : forall t r a b n tl, let f := 0xD4 :: r :: a :: b :: n :: tl in let l' := field c [a; b] in
  represents c s t -> bytes f -> lenN f <= c_ctobuf c -> c_opt c 0xD4 = true ->
  (d_alloc (s_daq s) = ADaq \/ d_alloc (s_daq s) = AOdt) -> d_ecnt (s_daq s) + n <= c_max_ent c ->
  d_ecnt (s_daq s) <= l' < c_max_ent c ->
  exists d, answers c e f s [0xFF] (with_daq d s) /\ d_ecnt d = d_ecnt (s_daq s) + n /\ d_lcnt d = d_lcnt (s_daq s) /\
    body_at d l' = Some (BHdr n (d_ecnt (s_daq s))).
Proof.
  intros t r a b n tl f l' (fo & fe & Rp) Wf Hl Ho Ha Hn Hw.
  inversion Wf as [|? ? _ W1]; subst. inversion W1 as [|? ? _ W2]; subst. inversion W2 as [|? ? Xa W3]; subst. inversion W3 as [|? ? Xb W4]; subst. inversion W4 as [|? ? Xn _]; subst.
  assert (Ec : step c e (ORecv f) s = ('(d, r) <- daq_alloc_odt c l' n (s_daq s) ;; send_result c r (set_s_daq d (rx c f s)))).
  { unfold f. assert (En : entry c 0xD4 = Some (h_alloc_odt c)) by tbl. rewrite (exec_val c m l s o e 0xD4 _ _ R RD Hl En).
    unfold h_alloc_odt. rewrite (open_rx c s Op), rx_in, gw_eq. change (gb (rxbuf s _) 4) with n. change (gb (rxbuf s _) 2) with a. change (gb (rxbuf s _) (2 + 1)) with b.
    fold l'. rewrite (we_mod c l' W) by lia. reflexivity. }
  destruct (d_layout _ _ I) as (L1 & L2 & L3). rewrite (d_len _ _ I) in L2. pose proof (d_len _ _ I) as Dl.
  pose proof (r_free _ _ _ _ _ Rp l' Hw) as Fr.
  pose proof (ent_lt_we c W).
  assert (E : exists d, daq_alloc_odt c l' n (s_daq s) = Ok (d, 0xFF) /\ d_ecnt d = d_ecnt (s_daq s) + n /\ d_lcnt d = d_lcnt (s_daq s) /\
    body_at d l' = Some (BHdr n (d_ecnt (s_daq s)))).
  { unfold daq_alloc_odt. replace (negb (allowed (d_alloc (s_daq s)) TOdt)) with false by (destruct Ha as [->| ->]; reflexivity).
    rewrite ent_sum_exact by (auto; lia). destruct (N.ltb_spec (c_max_ent c) (d_ecnt (s_daq s) + n)); [lia|].
    set (es := on_range _ _ _ _). set (d1 := set_d_ents _ _).
    assert (Le : lenN es = c_max_ent c) by (unfold es; rewrite lenN_on_range; lia).
    assert (Hh : header d1 l' 0 0). { right. split; [|auto]. unfold body_at, d1. ss. unfold es. rewrite body_kind by lia. exact Fr. }
    apply hdr_val in Hh. unfold hdr_at in Hh. apply bind_Ok in Hh. destruct Hh as (x & X1 & X2). rewrite X1. cbn [bind]. rewrite X2. cbn [bind].
    eexists. split; [reflexivity|]. ss. split; [apply N.mod_small; lia|]. split; [reflexivity|]. unfold body_at, d1. ss.
    rewrite body_upd by (rewrite Le; lia). rewrite N.eqb_refl. cbn [en_body]. rewrite N.add_0_l, N.mod_small by lia. unfold u16. rewrite N.mod_small by lia. reflexivity. }
  destruct E as (d & E & O). exists d. rewrite E in Ec. cbn [bind] in Ec. split; [|exact O].
  unfold answers. rewrite Ec. apply pos_ans; auto; [exact (rx_out c m l s o f R)|apply ss_daq].
Qed.
(** ... or that lies outside the pool. *)
Lemma alloc_odt_oob : forall r a b n tl, let f := 0xD4 :: r :: a :: b :: n :: tl in let l' := field c [a; b] in
  bytes f -> lenN f <= c_ctobuf c -> c_opt c 0xD4 = true -> fits c l' ->
  (d_alloc (s_daq s) = ADaq \/ d_alloc (s_daq s) = AOdt) -> d_ecnt (s_daq s) + n <= c_max_ent c -> c_max_ent c <= l' ->
  step c e (ORecv f) s = UB OobEntity.
Proof.
  intros r a b n tl f l' Wf Hl Ho Fl Ha Hn Hw.
  inversion Wf as [|? ? _ W1]; subst. inversion W1 as [|? ? _ W2]; subst. inversion W2 as [|? ? Xa W3]; subst. inversion W3 as [|? ? Xb W4]; subst. inversion W4 as [|? ? Xn _]; subst.
  unfold f. assert (En : entry c 0xD4 = Some (h_alloc_odt c)) by tbl. rewrite (exec_val c m l s o e 0xD4 _ _ R RD Hl En).
  unfold h_alloc_odt. rewrite (open_rx c s Op), rx_in, gw_eq. change (gb (rxbuf s _) 4) with n. change (gb (rxbuf s _) 2) with a. change (gb (rxbuf s _) (2 + 1)) with b.
  fold l'. rewrite mod_we_small by (auto; now apply field2).
  destruct (d_layout _ _ I) as (L1 & L2 & L3). rewrite (d_len _ _ I) in L2. pose proof (d_len _ _ I) as Dl.
  change (s_daq (rx c (0xD4 :: r :: a :: b :: n :: tl) s)) with (s_daq s).
  unfold daq_alloc_odt. replace (negb (allowed (d_alloc (s_daq s)) TOdt)) with false by (destruct Ha as [->| ->]; reflexivity).
  rewrite ent_sum_exact by (auto; lia). destruct (N.ltb_spec (c_max_ent c) (d_ecnt (s_daq s) + n)); [lia|].
  unfold ent_at. ss. rewrite get_none by (rewrite lenN_on_range; lia). reflexivity.
Qed.

(** SET_DAQ_PTR. *)
Lemma validate_rep : forall t l' k j, represents c s t ->
  validate_entry c l' k j (s_daq s) = Ok (match entry_at t l' k j with Some _ => true | None => false end).
Proof.
  intros t l' k j (fo & fe & Rp). unfold validate_entry. rewrite !narrow by exact Sm. rewrite (r_lists _ _ _ _ _ Rp).
  destruct (N.leb_spec (lenN t) l') as [Hl|Hl].
  - unfold entry_at, odt_at. now rewrite get_none by lia.
  - destruct (getN_lt_Some _ _ _ Hl) as (os & G). rewrite (hdr_val _ _ _ _ (r_list _ _ _ _ _ Rp _ _ G)). cbn [bind]. rewrite narrow by exact Sm.
    destruct (N.leb_spec (lenN os) k) as [Hk|Hk].
    + unfold entry_at, odt_at. now rewrite G, get_none by lia.
    + destruct (getN_lt_Some _ _ _ Hk) as (es & Ge). assert (Go : odt_at t l' k = Some es) by (unfold odt_at; now rewrite G).
      destruct (rep_odt_index c W Sm _ _ _ _ _ _ _ I Rp Go) as (E1 & _). rewrite E1. cbn [bind].
      rewrite (hdr_val _ _ _ _ (r_odt _ _ _ _ _ Rp _ _ _ Go)). cbn [bind]. rewrite narrow by exact Sm. unfold entry_at. rewrite Go.
      destruct (N.leb_spec (lenN es) j) as [Hj|Hj]; [now rewrite get_none by lia|]. destruct (getN_lt_Some _ _ _ Hj) as (x & Gx). now rewrite Gx.
Qed.
Lemma set_ptr_thm : forall t r a b k j tl, let f := 0xE2 :: r :: a :: b :: k :: j :: tl in let l' := field c [a; b] in
  represents c s t -> ~ measuring s -> bytes f -> lenN f <= c_ctobuf c -> fits c l' ->
  match entry_at t l' k j with
  | Some _ => answers c e f s [0xFF] (with_daq (set_d_pent j (set_d_podt k (set_d_plist l' (s_daq s)))) s)
  | None => refuses c e f s 0x22
  end.
Proof.
  intros t r a b k j tl f l' Rp M Wf Hl Fl.
  inversion Wf as [|? ? _ W1]; subst. inversion W1 as [|? ? _ W2]; subst. inversion W2 as [|? ? Xa W3]; subst. inversion W3 as [|? ? Xb _]; subst.
  assert (Ec : step c e (ORecv f) s = (ok <- validate_entry c l' k j (s_daq s) ;;
     if negb ok then err c 0x22 (rx c f s) else pos c (upd_daq (fun d => set_d_pent j (set_d_podt k (set_d_plist l' d))) (rx c f s)))).
  { unfold f. assert (En : entry c 0xE2 = Some (h_set_daq_ptr c)) by tbl. rewrite (exec_val c m l s o e 0xE2 _ _ R RD Hl En).
    unfold h_set_daq_ptr. rewrite stopped_rx by exact M. rewrite rx_in, gw_eq. change (gb (rxbuf s _) 4) with k. change (gb (rxbuf s _) 5) with j. change (gb (rxbuf s _) 2) with a. change (gb (rxbuf s _) (2 + 1)) with b.
    fold l'. rewrite mod_we_small by (auto; now apply field2). reflexivity. }
  rewrite (validate_rep t l' k j Rp) in Ec. cbn [bind] in Ec. destruct (entry_at t l' k j); cbn [negb] in Ec.
  - unfold answers. rewrite Ec. apply pos_ans; auto; [exact (rx_out c m l s o f R)|apply ss_daq].
  - unfold refuses, answers. rewrite Ec. apply err_ans; auto; [exact (rx_out c m l s o f R)|lia|apply ss_rx].
Qed.

(** WRITE_DAQ. *)
Lemma write_daq_exec : forall r n x a0 a1 a2 a3 tl, let f := 0xE1 :: r :: n :: x :: a0 :: a1 :: a2 :: a3 :: tl in
  ~ measuring s -> lenN f <= c_ctobuf c ->
  step c e (ORecv f) s = (d <- write_daq_entry c n (field c [a0; a1; a2; a3]) (s_daq s) ;; pos c (set_s_daq d (rx c f s))).
Proof.
  intros r n x a0 a1 a2 a3 tl f M Hl. unfold f. assert (En : entry c 0xE1 = Some (h_write_daq c)) by tbl. rewrite (exec_val c m l s o e 0xE1 _ _ R RD Hl En).
  unfold h_write_daq. rewrite stopped_rx by exact M. rewrite rx_in, gd_eq. reflexivity.
Qed.
Lemma write_thm : forall t r n x a0 a1 a2 a3 tl y, let f := 0xE1 :: r :: n :: x :: a0 :: a1 :: a2 :: a3 :: tl in
  let d := s_daq s in
  represents c s t -> ~ measuring s -> lenN f <= c_ctobuf c -> entry_at t (d_plist d) (d_podt d) (d_pent d) = Some y ->
  exists es, let d' := set_d_pent (d_pent d + 1) (set_d_ents es d) in
    answers c e f s [0xFF] (with_daq d' s) /\
    represents c (with_daq d' s) (put_entry t (d_plist d) (d_podt d) (d_pent d) (field c [a0; a1; a2; a3], n)).
Proof.
  intros t r n x a0 a1 a2 a3 tl y f d (fo & fe & Rp) M Hl V. pose proof (write_daq_exec r n x a0 a1 a2 a3 tl M Hl) as Ec. fold f in Ec.
  destruct (rep_entry_index c W Sm _ _ _ _ _ _ _ _ I Rp V) as (Ei & Bi). fold d in Ei.
  assert (Bk : d_pent d + 1 < we c) by (pose proof (ent_lt_we c W); destruct (entry_odt _ _ _ _ _ V) as (es & O1 & O2); pose proof (r_entry_in _ _ _ _ _ Rp _ _ _ _ V); destruct (d_layout _ _ I) as (L1 & L2 & _); rewrite (d_len _ _ I) in L2; pose proof (r_count _ _ _ _ _ Rp); destruct (odt_list _ _ _ _ O1) as (os & O3 & _); pose proof (getN_Some_lt _ _ _ _ O3); lia).
  destruct (write_daq_entry c n (field c [a0; a1; a2; a3]) (s_daq s)) as [d'|u] eqn:E.
  - pose proof (rep_write c W Sm _ _ _ _ _ _ _ _ I Rp V E) as R1. cbn [bind] in Ec.
    exists (d_ents d'). assert (Ed : d' = set_d_pent (d_pent d + 1) (set_d_ents (d_ents d') d)).
    { unfold write_daq_entry in E. fold d in E. rewrite Ei in E. cbn [bind] in E. apply bind_Ok in E. destruct E as (z & _ & E). injection E as <-.
      rewrite N.mod_small by exact Bk. reflexivity. }
    cbv zeta. rewrite <- Ed. split; [|unfold represents, with_daq; ss; eauto].
    unfold answers. rewrite Ec. apply pos_ans; auto; [exact (rx_out c m l s o f R)|apply ss_daq].
  - exfalso. unfold write_daq_entry in E. fold d in E. rewrite Ei in E. cbn [bind] in E. unfold ent_at in E.
    destruct (getN_lt_Some _ (d_ents d) (fe (d_plist d) (d_podt d) + d_pent d)) as (z & G); [unfold d; rewrite (d_len _ _ I); exact Bi|]. rewrite G in E. discriminate.
Qed.

(** C38: a pointer behind the last entry of its ODT. *)
Lemma write_wild : forall t fo fe r n x a0 a1 a2 a3 tl es, let f := 0xE1 :: r :: n :: x :: a0 :: a1 :: a2 :: a3 :: tl in
  let d := s_daq s in let i := fe (d_plist d) (d_podt d) + d_pent d in
  represents_by fo fe c d t -> ~ measuring s -> lenN f <= c_ctobuf c -> odt_at t (d_plist d) (d_podt d) = Some es ->
  i < c_max_ent c ->
  exists d', answers c e f s [0xFF] (with_daq d' s) /\ body_at d' i = Some (BEnt (field c [a0; a1; a2; a3]) n).
Proof.
  intros t fo fe r n x a0 a1 a2 a3 tl es f d i Rp M Hl V Bi. pose proof (write_daq_exec r n x a0 a1 a2 a3 tl M Hl) as Ec. fold f in Ec.
  assert (Ei : entry_index c d (d_plist d) (d_podt d) (d_pent d) = Ok i).
  { unfold entry_index. destruct (rep_odt_index c W Sm _ _ _ _ _ _ _ I Rp V) as (E1 & _). fold d in E1. rewrite E1. cbn [bind].
    rewrite (hdr_val _ _ _ _ (r_odt _ _ _ _ _ Rp _ _ _ V)). cbn [bind]. replace (u16 (d_pent d)) with (d_pent d) by (unfold u16; symmetry; apply N.mod_small; lia).
    fold i. now rewrite we_mod. }
  destruct (getN_lt_Some _ (d_ents d) i) as (z & G); [unfold d; rewrite (d_len _ _ I); exact Bi|].
  unfold write_daq_entry in Ec. fold d in Ec. rewrite Ei in Ec. cbn [bind] in Ec. unfold ent_at in Ec. rewrite G in Ec. cbn [bind] in Ec.
  eexists. split.
  - unfold answers. rewrite Ec. apply pos_ans; auto; [exact (rx_out c m l s o f R)|apply ss_daq].
  - unfold body_at. ss. rewrite body_upd by (unfold d; rewrite (d_len _ _ I); exact Bi). now rewrite N.eqb_refl.
Qed.
Lemma write_oob : forall t fo fe r n x a0 a1 a2 a3 tl es, let f := 0xE1 :: r :: n :: x :: a0 :: a1 :: a2 :: a3 :: tl in
  let d := s_daq s in let i := fe (d_plist d) (d_podt d) + d_pent d in
  represents_by fo fe c d t -> ~ measuring s -> lenN f <= c_ctobuf c -> odt_at t (d_plist d) (d_podt d) = Some es ->
  c_max_ent c <= i < we c ->
  step c e (ORecv f) s = UB OobEntity.
Proof.
  intros t fo fe r n x a0 a1 a2 a3 tl es f d i Rp M Hl V Bi. unfold f. rewrite (write_daq_exec r n x a0 a1 a2 a3 tl M Hl). fold f. fold d.
  unfold write_daq_entry, entry_index. destruct (rep_odt_index c W Sm _ _ _ _ _ _ _ I Rp V) as (E1 & _). fold d in E1. rewrite E1. cbn [bind].
  rewrite (hdr_val _ _ _ _ (r_odt _ _ _ _ _ Rp _ _ _ V)). cbn [bind].
  assert (we c <= 65536) by (destruct (we_cases c) as [(A & ->)|[(A & ->)|(A & ->)]]; change (2 ^ 16) with 65536 in *; lia).
  replace (u16 (d_pent d)) with (d_pent d) by (unfold u16; symmetry; apply N.mod_small; lia).
  fold i. rewrite N.mod_small by lia. unfold ent_at. rewrite get_none by (unfold d; rewrite (d_len _ _ I); lia). reflexivity.
Qed.
End Ptr.
