From Coq Require Import NArith ZArith List Bool Lia ZifyBool ZifyNat ZifyN.
From Verif Require Import Base Config State Core Spec Lists Effects Handlers HTx HInv HInv2 HFields HResp DaqInv HSpec Steps Ops ProofsSession Exec ProofsFrames SpecMem SpecDaq SpecE2e ProofsWrite ProofsRx SpecSerial ProofsSerial
  Can SpecCan ProofsCan Kv SpecKv ProofsKv CanBus Net Iocp SpecIocp ProofsIocp Ino SpecIno ProofsIno SpecRef ProofsRef ProofsRef2 SpecStack ProofsStack SpecBus.
Import ListNotations.
Open Scope N_scope.

Section Bus.
Variable c : cfg.
Variable m : N -> N.
Hypothesis D : dlc_ok c.
Hypothesis Sm : c_max_ent c < 65536.
Hypothesis St : stamp_ok c.

Lemma ref_recv : forall l0 s o0 a e q rs a1 d b, reachable c m l0 s o0 -> related c a s -> wf_env c e -> encodable c q -> ref_step c e a q rs a1 ->
  key_local e -> carried c q d -> lenN b = c_ctobuf c ->
  exists s1 o1, dispatch c e (set_s_in (splice b 0 d) s) = Ok (set_s_in (splice b 0 d) s1, o1) /\
    reachable c m (l0 ++ [(e, operation c q)]) s1 (o0 ++ o1) /\ Forall2 (shows c) rs o1 /\ related c a1 s1 /\ lenN (splice b 0 d) = c_ctobuf c.
Proof.
  intros l0 s o0 a e q rs a1 d b R V We En Hs K (Cq & Cp & (pad & ->) & L) Lb.
  pose proof (proj1 R) as W. pose proof (wf_cto _ W) as Wc.
  destruct (sim_step c m l0 s o0 e a R D Sm St We V q rs a1 Hs En) as (s1 & o1 & E1 & F1 & V1).
  pose proof (op_wf c e q W We En) as Wo.
  assert (R1 : reachable c m (l0 ++ [(e, operation c q)]) s1 (o0 ++ o1)) by (eapply reach_step; [exact R|exact Wo|exact E1]).
  set (f := frame c q) in *.
  assert (O : operation c q = ORecv f) by (destruct q; cbn [command] in Cq; try contradiction; reflexivity).
  rewrite O in *. destruct Wo as (_ & Wo). cbn [snd] in Wo.
  assert (L1 : 1 <= lenN f) by apply Cp.
  assert (H0 : nth 0 f 0 < 256). { destruct f as [|z f']; [cbn in L1; lia|]. now inversion Wo. }
  assert (Lf : lenN f + lenN pad <= c_ctobuf c) by (rewrite lenN_app in L; unfold c_ctobuf; lia).
  pose proof (reach_inv _ _ _ _ _ R) as I. assert (Li : lenN (s_in s) = c_ctobuf c) by apply (b_in _ _ (i_b _ _ I)).
  set (d := f ++ pad). assert (Ld : lenN d = lenN f + lenN pad) by (unfold d; now rewrite lenN_app).
  set (b1 := splice b 0 d). assert (Lb1 : lenN b1 = c_ctobuf c) by (unfold b1; rewrite lenN_splice by lia; lia).
  assert (E0 : step c e (ORecv f) s = dispatch c e (set_s_in (splice (s_in s) 0 f) s)).
  { cbn [step]. unfold receive. destruct (N.eqb_spec (lenN f) 0); [lia|]. destruct (N.ltb_spec (c_ctobuf c) (lenN f)); [lia|]. reflexivity. }
  assert (C8 : 8 <= c_ctobuf c) by (unfold c_ctobuf; lia).
  assert (T1 : takeN (lenN f) b1 = f).
  { unfold b1, splice. rewrite take_0. cbn [app]. unfold d. rewrite <- app_assoc. apply take_app. }
  change (set_s_in b1 s) with (set_s_in b1 (set_s_in (splice (s_in s) 0 f) s)).
  rewrite (cm_dispatch c e f (set_s_in (splice (s_in s) 0 f) s) b1 W K Cp H0).
  - exists s1, o1. rewrite <- E0, E1. cbn [lift]. auto.
  - ss. apply take_splice0.
  - exact T1.
  - ss. rewrite lenN_splice by lia. lia.
  - lia.
Qed.

Lemma ref_app : forall l0 s o0 a e q rs a1 b, reachable c m l0 s o0 -> related c a s -> wf_env c e -> encodable c q -> ref_step c e a q rs a1 ->
  ~ command q ->
  exists s1 o1, step c e (operation c q) (set_s_in b s) = Ok (set_s_in b s1, o1) /\
    reachable c m (l0 ++ [(e, operation c q)]) s1 (o0 ++ o1) /\ Forall2 (shows c) rs o1 /\ related c a1 s1.
Proof.
  intros l0 s o0 a e q rs a1 b R V We En Hs Cq.
  destruct (sim_step c m l0 s o0 e a R D Sm St We V q rs a1 Hs En) as (s1 & o1 & E1 & F1 & V1).
  assert (R1 : reachable c m (l0 ++ [(e, operation c q)]) s1 (o0 ++ o1)) by (eapply reach_step; [exact R|apply op_wf; auto; apply R|exact E1]).
  exists s1, o1. split; [|auto]. pose proof (cm_step c (e, operation c q) b s) as X. cbn [fst snd] in X. rewrite X, E1; [reflexivity|].
  destruct q; cbn [command] in Cq; try (exfalso; exact (Cq I)); exact I.
Qed.

(** ** SocketCAN *)
Lemma lor_conf : forall x i, in_range x i -> configured x i = if x then N.lor 0x80000000 i else i.
Proof.
  clear D Sm St.
  intros [] i H; [|reflexivity]. unfold configured, in_range in *. change 0x80000000 with (2 ^ 31). rewrite <- N.lxor_lor.
  - symmetry. rewrite <- N.add_nocarry_lxor; [reflexivity|]. apply N.bits_inj_0. intros n. rewrite N.land_spec, N.pow2_bits_eqb. destruct (N.eqb_spec 31 n) as [<-|]; [|reflexivity].
    rewrite (tb_hi 29 31 i H) by lia. reflexivity.
  - apply N.bits_inj_0. intros n. rewrite N.land_spec, N.pow2_bits_eqb. destruct (N.eqb_spec 31 n) as [<-|]; [|reflexivity]. rewrite (tb_hi 29 31 i H) by lia. reflexivity.
Qed.

Lemma accepts_own : forall xi i xb b d f, in_range xi i -> in_range xb b -> can_own (xi, i) (xb, b) d f ->
  accepted (configured xi i) (configured xb b) f = true.
Proof.
  clear D Sm St.
  intros xi i xb b d [x r j d0] Hi Hb (R & E & O). cbn [n_rtr n_data n_ext n_ident] in *. subst r d0. rewrite (lor_conf xi i Hi), (lor_conf xb b Hb). unfold in_range in *.
  destruct O as [O | O]; injection O as -> ->.
  - destruct xi; [apply (proj2 (own_accepted i _ d) Hi)|apply (proj1 (own_accepted i _ d) Hi)].
  - destruct xb; [apply (proj2 (own_accepted b _ d) Hb)|apply (proj1 (own_accepted b _ d) Hb)].
Qed.

Lemma no_match : forall x i f, in_range x i -> n_rtr f = false -> n_ext f = false -> n_ident f < 2 ^ 11 -> (n_ext f, n_ident f) <> (x, i) ->
  filter_matches (configured x i) f = false.
Proof.
  clear D Sm St.
  intros x i [y r j d] Hi R X J N. cbn [n_rtr n_ext n_ident] in *. subst y r. rewrite (lor_conf x i Hi). unfold in_range in Hi. destruct x.
  - destruct (ext_ext i) as [E1 E2]; [assert (2 ^ 29 < 2 ^ 31) by reflexivity; lia|]. unfold filter_matches, can_mask. rewrite E1, E2. unfold can_id. cbn [n_ext n_rtr n_ident].
    change (N.lor 0 (N.lor 0 j)) with j. assert (Z : N.land j 0x80000000 = 0).
    { change 0x80000000 with (2 ^ 31). apply N.bits_inj_0. intros n. rewrite N.land_spec, N.pow2_bits_eqb. destruct (N.eqb_spec 31 n) as [<-|]; [|apply andb_false_r]. rewrite (tb_hi 11 31 j J) by lia. reflexivity. }
    rewrite Z. reflexivity.
  - unfold filter_matches, can_mask. rewrite ext_std by (assert (2 ^ 11 < 2 ^ 31) by reflexivity; lia). rewrite !land_7ff, id_low. cbn [n_ident].
    rewrite !N.mod_small by assumption. apply N.eqb_neq. congruence.
Qed.
Lemma noise_ignored : forall xi i xb b f e s, in_range xi i -> in_range xb b -> can_noise (xi, i) (xb, b) f ->
  (if accepted (configured xi i) (configured xb b) f then can_receive c e f s else Ok (s, [])) = Ok (s, []).
Proof.
  clear D Sm St.
  intros xi i xb b f e s Hi Hb [E | (R & X & J & N1 & N2)].
  - unfold can_receive. rewrite E. destruct (accepted _ _ _); reflexivity.
  - unfold accepted. rewrite !no_match by auto. reflexivity.
Qed.

Lemma conf_fields : forall x i, in_range x i ->
  is_extended (configured x i) = x /\ N.testbit (configured x i) 30 = false /\ N.land (configured x i) (if x then 0x1FFFFFFF else 0x7FF) = i.
Proof.
  clear D Sm St.
  intros x i H. split; [apply land_bit31; exact H|]. rewrite (lor_conf x i H). unfold in_range in H. destruct x.
  - rewrite N.lor_spec. rewrite (tb_hi 29 30 i H) by lia. split; [reflexivity|]. rewrite N.land_lor_distr_l. change (N.land 0x80000000 0x1FFFFFFF) with 0. rewrite N.lor_0_l.
    change 0x1FFFFFFF with (N.ones 29). rewrite N.land_ones. now apply N.mod_small.
  - rewrite (tb_hi 11 30 i H) by lia. split; [reflexivity|]. rewrite land_7ff. now apply N.mod_small.
Qed.

Lemma shows_reads : forall r p, shows c r p -> reads c r (p_data p).
Proof.
  clear D Sm St. intros [b|b|b] p H; apply H. Qed.

Lemma sends_ok : forall fd xo o' l s o, reachable c m l s o -> c_len_size c = 0 -> c_ctr_size c = 0 -> in_range xo o' -> c_max_cto c <= frame_room fd -> c_max_dto c <= frame_room fd ->
  forall o1, incl o1 o -> sock_sends fd (configured xo o') o1 = Ok (map (fun p => mkCan xo false o' (p_data p)) o1).
Proof.
  clear D Sm St.
  intros fd xo o' l s o R L0 C0 Ho M1 M2. destruct (conf_fields xo o' Ho) as (X1 & X2 & X3).
  induction o1 as [|p t IH]; intro Inc; [reflexivity|]. cbn [sock_sends map]. unfold sock_send.
  assert (Ip : In p o) by (apply Inc; now left).
  destruct (tx_fits c m l s o p fd R Ip L0 C0 M1 M2) as (pad & E & _). rewrite E. cbn [bind]. rewrite X1, X2, X3.
  rewrite IH by (intros z Hz; apply Inc; now right). cbn [bind]. repeat f_equal.
  destruct (frames_thm c m l s o p R Ip) as [[n [F1 [F2 _]]] _]. rewrite L0, C0 in F2. change (N.to_nat 0) with O in F2. change (le_bytes 0 (lenN (p_data p)) ++ le_bytes 0 n) with (@nil N) in F2.
  unfold wire. now rewrite F2.
Qed.

Lemma sock_thm : forall fd xi i xb b xo o', in_range xi i -> in_range xb b -> in_range xo o' -> c_len_size c = 0 -> c_ctr_size c = 0 ->
  c_max_cto c <= frame_room fd -> c_max_dto c <= frame_room fd ->
  forall l lr, traffic c (can_own (xi, i) (xb, b)) (can_noise (xi, i) (xb, b)) l lr -> forall a rs a', ref_run c a lr rs a' ->
  forall l0 s o0 bf, reachable c m l0 s o0 -> related c a s -> lenN bf = c_ctobuf c ->
  exists s' fs, sock_run c fd (configured xi i) (configured xb b) (configured xo o') l (set_s_in bf s) = Ok (s', fs) /\ Forall2 (can_shows c (xo, o')) rs fs /\ related c a' s'.
Proof.
  intros fd xi i xb b xo o' Hi Hb Ho L0 C0 M1 M2 l lr T.
  assert (Sh : forall rs o1, Forall2 (shows c) rs o1 -> Forall2 (can_shows c (xo, o')) rs (map (fun p => mkCan xo false o' (p_data p)) o1)).
  { intros rs o1 F. induction F; cbn [map]; constructor; auto. split; [reflexivity|]. split; [reflexivity|]. now apply shows_reads. }
  induction T as [|e q d f l lr K Ca Ow T IH|e f l lr No T IH|e q l lr Cq T IH]; intros a rs a' H l0 s o0 bf R V Lb.
  - inversion H; subst. exists (set_s_in bf s), []. split; [reflexivity|]. split; [constructor|]. eapply related_rx; [|exact V]. reflexivity.
  - inversion H as [|? ? ? rs1 a1 ? rs2 ? We En Hs Hr]; subst.
    destruct (ref_recv l0 s o0 a e q rs1 a1 d bf R V We En Hs K Ca Lb) as (s1 & o1 & E & R1 & F1 & V1 & Lb1).
    destruct (IH a1 rs2 a' Hr _ s1 _ (splice bf 0 d) R1 V1 Lb1) as (s2 & fs2 & E2 & F2 & V2).
    exists s2, (map (fun p => mkCan xo false o' (p_data p)) o1 ++ fs2). split; [|split; [apply Forall2_app; auto|exact V2]].
    cbn [sock_run]. unfold sock_step. rewrite (accepts_own xi i xb b d f Hi Hb Ow).
    assert (Dd : n_data f = d) by apply Ow. destruct Ca as (Cq & (Cp & _) & (pad & Ep) & Ld).
    assert (Rc : can_receive c e f (set_s_in bf s) = dispatch c e (set_s_in (splice bf 0 d) s)).
    { unfold can_receive. rewrite Dd. destruct (N.eqb_spec (lenN d) 0) as [Z|_]; [rewrite Ep, lenN_app in Z; lia|]. destruct (N.ltb_spec (c_ctobuf c) (lenN d)); [unfold c_ctobuf in *; lia|]. reflexivity. }
    rewrite Rc, E. cbn [bind]. rewrite (sends_ok fd xo o' _ _ _ R1 L0 C0 Ho M1 M2) by (intros z Hz; apply in_or_app; now right). cbn [bind]. rewrite E2. reflexivity.
  - destruct (IH a rs a' H l0 s o0 bf R V Lb) as (s2 & fs2 & E2 & F2 & V2). exists s2, fs2. split; [|auto].
    cbn [sock_run]. unfold sock_step. rewrite (noise_ignored xi i xb b f e _ Hi Hb No). cbn [bind sock_sends]. rewrite E2. reflexivity.
  - inversion H as [|? ? ? rs1 a1 ? rs2 ? We En Hs Hr]; subst.
    destruct (ref_app l0 s o0 a e q rs1 a1 bf R V We En Hs Cq) as (s1 & o1 & E & R1 & F1 & V1).
    destruct (IH a1 rs2 a' Hr _ s1 _ bf R1 V1 Lb) as (s2 & fs2 & E2 & F2 & V2).
    exists s2, (map (fun p => mkCan xo false o' (p_data p)) o1 ++ fs2). split; [|split; [apply Forall2_app; auto|exact V2]].
    cbn [sock_run]. unfold sock_step. rewrite E. cbn [bind]. rewrite (sends_ok fd xo o' _ _ _ R1 L0 C0 Ho M1 M2) by (intros z Hz; apply in_or_app; now right). cbn [bind]. rewrite E2. reflexivity.
Qed.

Lemma set_in_same : forall s, set_s_in (s_in s) s = s.
Proof.
  clear D Sm St. destruct s; reflexivity. Qed.
Lemma boots_reach : forall s0, wf_cfg c -> wf_mem m -> boot c m = Ok s0 -> reachable c m [] s0 [] /\ related c (power_up c m) s0 /\ lenN (s_in s0) = c_ctobuf c.
Proof.
  clear D St.
  intros s0 W Wm B. assert (R : reachable c m [] s0 []) by (split; [exact W|]; split; [exact Wm|]; split; [constructor|]; exists s0; split; [exact B|reflexivity]).
  split; [exact R|]. split; [now apply boot_related|]. apply (b_in _ _ (i_b _ _ (reach_inv _ _ _ _ _ R))).
Qed.
Lemma can_ref_thm : forall s0 fd xi i xb b xo o' l lr rs a, wf_cfg c -> wf_mem m -> boot c m = Ok s0 ->
  in_range xi i -> in_range xb b -> in_range xo o' -> c_len_size c = 0 -> c_ctr_size c = 0 ->
  c_max_cto c <= frame_room fd -> c_max_dto c <= frame_room fd ->
  traffic c (can_own (xi, i) (xb, b)) (can_noise (xi, i) (xb, b)) l lr -> ref_run c (power_up c m) lr rs a ->
  exists s fs, sock_run c fd (configured xi i) (configured xb b) (configured xo o') l s0 = Ok (s, fs) /\ Forall2 (can_shows c (xo, o')) rs fs /\ related c a s.
Proof.
  intros s0 fd xi i xb b xo o' l lr rs a W Wm B Hi Hb Ho L0 C0 M1 M2 T H. destruct (boots_reach s0 W Wm B) as (R & V & L).
  rewrite <- (set_in_same s0). eapply sock_thm; eauto.
Qed.

(** ** Kvaser *)
Lemma kv_sends : forall xo o' l s o, reachable c m l s o -> in_range xo o' -> c_len_size c = 0 -> c_ctr_size c = 0 -> c_max_cto c <= 8 -> c_max_dto c <= 8 ->
  forall o1, incl o1 o -> forall fr, fold_left (fun x b => kv_send (configured xo o') b x) (map wire o1) (fr, 0) = (fr ++ map (fun p => (o', xo, p_data p)) o1, 0).
Proof.
  clear D Sm St.
  intros xo o' l s o R Ho L C M1 M2. destruct (land_bit31 xo o' Ho) as (X1 & X2).
  induction o1 as [|p t IH]; intros Inc fr; [cbn; now rewrite app_nil_r|]. cbn [map fold_left].
  destruct (frames_thm c m l s o p R ltac:(apply Inc; now left)) as [[n [F1 [F2 _]]] _].
  rewrite L, C in F2. change (N.to_nat 0) with O in F2. change (le_bytes 0 (lenN (p_data p)) ++ le_bytes 0 n) with (@nil N) in F2.
  assert (E : kv_send (configured xo o') (wire p) (fr, 0) = (fr ++ [(o', xo, p_data p)], 0)).
  { unfold kv_send, wire. rewrite F2. cbn [app]. rewrite X1, X2. destruct (N.ltb_spec 8 (lenN (p_data p))); [destruct (p_dto p); lia|]. reflexivity. }
  rewrite E, IH by (intros z Hz; apply Inc; now right). rewrite <- app_assoc. reflexivity.
Qed.

Lemma kv_thm : forall xi i xb b xo o', in_range xi i -> in_range xb b -> in_range xo o' -> c_len_size c = 0 -> c_ctr_size c = 0 -> c_max_cto c <= 8 -> c_max_dto c <= 8 ->
  forall l lr, traffic c (kv_own c (xi, i)) (kv_noise c (xi, i)) l lr -> forall a rs a', ref_run c a lr rs a' ->
  forall l0 s o0 bf fr, reachable c m l0 s o0 -> related c a s -> lenN bf = c_ctobuf c ->
  exists s' fs, kv_run c (configured xi i) (configured xb b) (configured xo o') l (set_s_in bf s, (fr, 0)) = Ok (s', (fr ++ fs, 0)) /\ Forall2 (kv_shows c (xo, o')) rs fs /\ related c a' s'.
Proof.
  intros xi i xb b xo o' Hi Hb Ho L0 C0 M1 M2 l lr T.
  assert (Sh : forall rs o1, Forall2 (shows c) rs o1 -> Forall2 (kv_shows c (xo, o')) rs (map (fun p => (o', xo, p_data p)) o1)).
  { intros rs o1 F. induction F; cbn [map]; constructor; auto. split; [reflexivity|]. now apply shows_reads. }
  assert (X2 : forall x : bool, N.testbit (if x then 4 else 2) 2 = x) by (intros []; reflexivity).
  assert (X0 : forall x : bool, N.testbit (if x then 4 else 2) 0 = false) by (intros []; reflexivity).
  assert (X3 : forall x : bool, ((if x then 4 else 2) mod 65536 =? 4) = x) by (intros []; reflexivity).
  induction T as [|e q d f l lr K Ca Ow T IH|e f l lr No T IH|e q l lr Cq T IH]; intros a rs a' H l0 s o0 bf fr R V Lb.
  - inversion H; subst. exists (set_s_in bf s), []. split; [cbn; now rewrite app_nil_r|]. split; [constructor|]. eapply related_rx; [|exact V]. reflexivity.
  - inversion H as [|? ? ? rs1 a1 ? rs2 ? We En Hs Hr]; subst.
    destruct (ref_recv l0 s o0 a e q rs1 a1 d bf R V We En Hs K Ca Lb) as (s1 & o1 & E & R1 & F1 & V1 & Lb1).
    destruct (IH a1 rs2 a' Hr _ s1 _ (splice bf 0 d) (fr ++ map (fun p => (o', xo, p_data p)) o1) R1 V1 Lb1) as (s2 & fs2 & E2 & F2 & V2).
    exists s2, (map (fun p => (o', xo, p_data p)) o1 ++ fs2). split; [|split; [apply Forall2_app; auto|exact V2]].
    cbn [kv_run]. unfold kv_step. destruct Ow as (-> & G). cbn [fst snd].
    assert (P : kv_passes (kv_filter (configured xi i) (configured xb b)) (N.testbit (k_flag (data_frame xi i d)) 2) (k_id (data_frame xi i d)) = true).
    { unfold data_frame. cbn [k_flag k_id]. rewrite X2. apply filter_own; auto. }
    rewrite P. destruct Ca as (Cq & (Cp & _) & (pad & Ep) & Ld).
    assert (Rc : kv_notify c (configured xi i) (configured xb b) e (data_frame xi i d) (set_s_in bf s) = dispatch c e (set_s_in (splice bf 0 d) s)).
    { rewrite own_frames; auto; [|rewrite Ep, lenN_app in *; unfold c_ctobuf; lia]. rewrite recv_kv; [reflexivity|rewrite Ep, lenN_app; lia|unfold c_ctobuf; lia]. }
    rewrite Rc, E. cbn [bind]. rewrite (kv_sends xo o' _ _ _ R1 Ho L0 C0 M1 M2) by (intros z Hz; apply in_or_app; now right). rewrite E2, <- app_assoc. reflexivity.
  - destruct No as (x & j & d & -> & Ld & N).
    assert (Z : exists b2, lenN b2 = c_ctobuf c /\
      (if kv_passes (kv_filter (configured xi i) (configured xb b)) (N.testbit (k_flag (data_frame x j d)) 2) (k_id (data_frame x j d)) then kv_notify c (configured xi i) (configured xb b) e (data_frame x j d) (set_s_in bf s) else Ok (set_s_in bf s, [])) = Ok (set_s_in b2 s, [])).
    { destruct (kv_passes _ _ _); [|exists bf; auto]. exists (splice bf 0 d). split; [rewrite lenN_splice by (unfold c_ctobuf in *; lia); lia|].
      unfold kv_notify, data_frame, k_remote. cbn [k_data k_flag k_id]. rewrite X0. destruct (N.ltb_spec (c_ctobuf c) (lenN d)); [unfold c_ctobuf in *; lia|].
      rewrite matches_cfg by auto. rewrite X3. unfold dlc_good in N.
      destruct (c_max_dlc c); cbn [andb].
      - destruct (N.eqb_spec (lenN d) (c_max_cto c)) as [E1|]; cbn [negb]; [|reflexivity]. destruct (N.eqb_spec (lenN d) 0); [reflexivity|].
        destruct N as [N | [N | N]]; [|rewrite N in *; contradiction|exfalso; apply N; auto].
        destruct (N.eqb_spec i j) as [->|]; cbn [andb]; [|reflexivity]. destruct xi, x; cbn [Bool.eqb]; try reflexivity; congruence.
      - destruct (N.eqb_spec (lenN d) 0); [reflexivity|].
        destruct N as [N | [N | N]]; [|rewrite N in *; contradiction|exfalso; apply N; discriminate].
        destruct (N.eqb_spec i j) as [->|]; cbn [andb]; [|reflexivity]. destruct xi, x; cbn [Bool.eqb]; try reflexivity; congruence. }
    destruct Z as (b2 & Lb2 & Z). destruct (IH a rs a' H l0 s o0 b2 fr R V Lb2) as (s2 & fs2 & E2 & F2 & V2). exists s2, fs2. split; [|auto].
    cbn [kv_run].
    assert (KS : kv_step c (configured xi i) (configured xb b) (configured xo o') e (BFrame (data_frame x j d)) (set_s_in bf s, (fr, 0)) = Ok (set_s_in b2 s, (fr, 0))).
    { unfold kv_step. cbv beta iota. match goal with |- bind ?y _ = _ => replace y with (@Ok (st * list pkt) (set_s_in b2 s, [])) by (symmetry; exact Z) end. reflexivity. }
    rewrite KS. cbn [bind]. exact E2.
  - inversion H as [|? ? ? rs1 a1 ? rs2 ? We En Hs Hr]; subst.
    destruct (ref_app l0 s o0 a e q rs1 a1 bf R V We En Hs Cq) as (s1 & o1 & E & R1 & F1 & V1).
    destruct (IH a1 rs2 a' Hr _ s1 _ bf (fr ++ map (fun p => (o', xo, p_data p)) o1) R1 V1 Lb) as (s2 & fs2 & E2 & F2 & V2).
    exists s2, (map (fun p => (o', xo, p_data p)) o1 ++ fs2). split; [|split; [apply Forall2_app; auto|exact V2]].
    cbn [kv_run]. unfold kv_step. rewrite E. cbn [bind]. rewrite (kv_sends xo o' _ _ _ R1 Ho L0 C0 M1 M2) by (intros z Hz; apply in_or_app; now right). rewrite E2, <- app_assoc. reflexivity.
Qed.

Lemma kv_ref_thm : forall s0 xi i xb b xo o' l lr rs a, wf_cfg c -> wf_mem m -> boot c m = Ok s0 ->
  in_range xi i -> in_range xb b -> in_range xo o' -> c_len_size c = 0 -> c_ctr_size c = 0 -> c_max_cto c <= 8 -> c_max_dto c <= 8 ->
  traffic c (kv_own c (xi, i)) (kv_noise c (xi, i)) l lr -> ref_run c (power_up c m) lr rs a ->
  exists s fs, kv_run c (configured xi i) (configured xb b) (configured xo o') l (s0, ([], 0)) = Ok (s, (fs, 0)) /\ Forall2 (kv_shows c (xo, o')) rs fs /\ related c a s.
Proof.
  intros s0 xi i xb b xo o' l lr rs a W Wm B Hi Hb Ho L0 C0 M1 M2 T H. destruct (boots_reach s0 W Wm B) as (R & V & L).
  pose proof (kv_thm xi i xb b xo o' Hi Hb Ho L0 C0 M1 M2 l lr T _ _ _ H [] s0 [] (s_in s0) [] R V L) as X. rewrite set_in_same in X. exact X.
Qed.

(** ** Completion port *)
Lemma iocp_thm : forall udp p l lr, completes c p l lr -> forall a rs a', ref_run c a lr rs a' ->
  forall l0 w o0, reachable c m l0 (w_st w) o0 -> related c a (w_st w) -> headed c w -> serves udp p w \/ (udp = true /\ w_xcp w = false /\ match l with WRecv _ q _ :: _ => q = p | _ => False end) ->
  exists w' o, wrun c udp l w = Ok (w', o) /\ Forall2 (fun r x => gets c (p, r) x) rs o /\ related c a' (w_st w').
Proof.
  intros udp p l lr T.
  assert (Sh : forall rs o1, Forall2 (shows c) rs o1 -> Forall2 (fun r x => gets c (p, r) x) rs (map (pair p) o1)).
  { intros rs o1 F. induction F; cbn [map]; constructor; auto. now split. }
  induction T as [|e q h l lr Cq Ne Lf Lh T IH|e l lr T IH|e q l lr Cq T IH]; intros a rs a' H l0 w o0 R V Hd Sv.
  - inversion H; subst. exists w, []. cbn. auto.
  - inversion H as [|? ? ? rs1 a1 ? rs2 ? We En Hs Hr]; subst.
    destruct (sim_step c m l0 (w_st w) o0 e a R D Sm St We V q rs1 a1 Hs En) as (s1 & o1 & E1 & F1 & V1).
    assert (R1 : reachable c m (l0 ++ [(e, operation c q)]) s1 (o0 ++ o1)) by (eapply reach_step; [exact R|apply op_wf; auto; apply R|exact E1]).
    assert (O : operation c q = ORecv (frame c q)) by (destruct q; cbn [command] in Cq; try contradiction; reflexivity).
    rewrite O in *. destruct Sv as [(Dv & Hc & Hx) | (Eu & Hx & _)].
    2:{ assert (L1 : 1 <= lenN (frame c q)) by (destruct (frame c q); [contradiction|rewrite lenN_cons; lia]).
      assert (He : heard udp p w) by (now left).
      cbn [wrun]. rewrite one_frame by auto. rewrite E1. cbn [bind]. rewrite Eu. set (w' := mkW s1 h _ _ _ _).
      assert (S : serves true p w').
      { unfold w'. repeat split; auto. cbn [w_xcp w_con]. unfold w_after. destruct (saves _ _); cbn [fst snd]; [auto|]. destruct (releases _ _ _ _); cbn [fst snd]; [discriminate|]. rewrite Hx. discriminate. }
      rewrite Eu in IH. destruct (IH a1 rs2 a' Hr _ w' _ R1 V1 Lh (or_introl S)) as (w2 & o2 & E2 & F2 & V2). rewrite E2. exists w2, (map (pair p) o1 ++ o2). split; [reflexivity|]. split; [apply Forall2_app; auto|exact V2]. }
    assert (He : heard udp p w). { unfold heard. destruct (w_xcp w) eqn:X; [right|now left]. rewrite (Hx eq_refl). destruct udp; congruence. }
    assert (L1 : 1 <= lenN (frame c q)) by (destruct (frame c q); [contradiction|rewrite lenN_cons; lia]).
    cbn [wrun]. rewrite one_frame by auto. rewrite E1. cbn [bind].
    replace (if udp then p else w_cur w) with p by (destruct udp; congruence).
    set (w' := mkW s1 h _ _ _ _).
    assert (S : serves udp p w').
    { unfold w'. repeat split; auto. cbn [w_xcp w_con]. unfold w_after. destruct (saves _ _); cbn [fst snd]; [auto|]. destruct (releases _ _ _ _); cbn [fst snd]; [discriminate|auto]. }
    destruct (IH a1 rs2 a' Hr _ w' _ R1 V1 Lh (or_introl S)) as (w2 & o2 & E2 & F2 & V2). rewrite E2. exists w2, (map (pair p) o1 ++ o2). split; [reflexivity|]. split; [apply Forall2_app; auto|exact V2].
  - destruct Sv as [Sv | (_ & _ & [])].
    assert (X : wstep c udp (WSent e) w = Ok (w, [])).
    { cbn [wstep]. destruct (c_sbm c); [|reflexivity]. unfold upload_block. destruct (v_idle _ _ _ V) as (_ & -> & _). destruct w; reflexivity. }
    destruct (IH a rs a' H l0 w o0 R V Hd (or_introl Sv)) as (w2 & o2 & E2 & F2 & V2). exists w2, o2. split; [|auto]. cbn [wrun]. rewrite X. cbn [bind]. rewrite E2. reflexivity.
  - destruct Sv as [Sv | (_ & _ & [])]. inversion H as [|? ? ? rs1 a1 ? rs2 ? We En Hs Hr]; subst.
    destruct (sim_step c m l0 (w_st w) o0 e a R D Sm St We V q rs1 a1 Hs En) as (s1 & o1 & E1 & F1 & V1).
    assert (R1 : reachable c m (l0 ++ [(e, operation c q)]) s1 (o0 ++ o1)) by (eapply reach_step; [exact R|apply op_wf; auto; apply R|exact E1]).
    set (w' := mkW s1 (w_hdr w) (w_xcp w) (w_sock w) (w_cur w) (w_con w)).
    assert (X : wstep c udp (WOp e (operation c q)) w = Ok (w', map (pair p) o1)).
    { cbn [wstep]. rewrite E1. cbn [bind]. assert (Dp : wdest udp w' = p). { destruct Sv as (Dv & Hc & _). unfold wdest, w'. cbn [w_sock w_cur]. destruct Dv as [-> | ->]; [exact Hc|now rewrite orb_true_r]. }
      destruct q; cbn [command] in Cq; try (exfalso; exact (Cq I)); cbn [operation]; fold w'; unfold wsent; rewrite Dp; reflexivity. }
    destruct (IH a1 rs2 a' Hr _ w' _ R1 V1 Hd (or_introl Sv)) as (w2 & o2 & E2 & F2 & V2).
    exists w2, (map (pair p) o1 ++ o2). split; [cbn [wrun]; rewrite X; cbn [bind]; rewrite E2; reflexivity|]. split; [apply Forall2_app; auto|exact V2].
Qed.

Lemma iocp_ref_thm : forall w0 udp p l lr rs a, wf_cfg c -> wf_mem m -> wboot c m = Ok w0 -> (udp = true -> comes p l) -> completes c p l lr -> ref_run c (power_up c m) lr rs a ->
  exists w' o, wrun c udp ((if udp then [] else [WAccept p]) ++ l) w0 = Ok (w', o) /\ Forall2 (fun r x => gets c (p, r) x) rs o /\ related c a (w_st w').
Proof.
  intros w0 udp p l lr rs a W Wm B Co T H. unfold wboot in B. apply bind_Ok in B. destruct B as (s0 & B & Ew). injection Ew as Ew.
  destruct (boots_reach s0 W Wm B) as (R & V & L).
  assert (Hd : headed c w0) by (subst w0; unfold headed; cbn [w_hdr]; now rewrite lenN_repeat, N2Nat.id).
  destruct udp.
  - cbn [app]. eapply (iocp_thm true p l lr T _ _ _ H [] w0 []); [subst w0; exact R|subst w0; exact V|exact Hd|]. right. split; [reflexivity|]. split; [subst w0; reflexivity|now apply Co].
  - cbn [app wrun wstep]. assert (X : w_xcp w0 = false) by (subst w0; reflexivity). rewrite X. cbn [orb bind].
    set (w1 := mkW _ _ _ _ _ _).
    destruct (iocp_thm false p l lr T _ _ _ H [] w1 []) as (w2 & o2 & E2 & F2 & V2); [subst w0; exact R|subst w0; exact V|exact Hd| |].
    { left. repeat split; auto. unfold w1. cbn. intro Z. congruence. }
    rewrite E2. exists w2, o2. auto.
Qed.

(** ** Arduino *)
Lemma ino_run : forall l lr, traffic c ino_own (fun _ => False) l lr -> forall ws, map on_bus ws = l -> forall a rs a', ref_run c a lr rs a' ->
  forall l0 s o0 bf, reachable c m l0 s o0 -> related c a s -> lenN bf = c_ctobuf c ->
  exists s' o, run c (map as_op ws) (set_s_in bf s) = Ok (s', o) /\ Forall2 (shows c) rs o /\ related c a' s'.
Proof.
  intros l lr T. induction T as [|e q d f l lr K Ca Ow T IH|e f l lr No T IH|e q l lr Cq T IH]; intros ws Ew a rs a' H l0 s o0 bf R V Lb; try contradiction.
  - destruct ws; [|discriminate]. inversion H; subst. exists (set_s_in bf s), []. split; [reflexivity|]. split; [constructor|]. eapply related_rx; [|exact V]. reflexivity.
  - destruct ws as [|(e' & w) ws]; [discriminate|]. unfold on_bus in Ew; cbn [map fst snd] in Ew; fold on_bus in Ew. destruct w as [f' k|]; [|discriminate]. injection Ew as -> -> Ew2.
    inversion H as [|? ? ? rs1 a1 ? rs2 ? We En Hs Hr]; subst.
    destruct (ref_recv l0 s o0 a e q rs1 a1 d bf R V We En Hs K Ca Lb) as (s1 & o1 & E & R1 & F1 & V1 & Lb1).
    destruct (IH ws eq_refl a1 rs2 a' Hr _ s1 _ (splice bf 0 d) R1 V1 Lb1) as (s2 & o2 & E2 & F2 & V2).
    exists s2, (o1 ++ o2). split; [|split; [apply Forall2_app; auto|exact V2]].
    cbn [map run]. unfold as_op at 1. cbn [fst snd]. destruct Ca as (Cq & (Cp & _) & (pad & Ep) & Ld). destruct Ow as (_ & ->).
    rewrite recv_disp; [|rewrite Ep, lenN_app; lia|unfold c_ctobuf; lia]. change (s_in (set_s_in bf s)) with bf. change (set_s_in (splice bf 0 d) (set_s_in bf s)) with (set_s_in (splice bf 0 d) s).
    unfold andthen. rewrite E. cbn [bind]. rewrite E2. reflexivity.
  - destruct ws as [|(e' & w) ws]; [discriminate|]. unfold on_bus in Ew; cbn [map fst snd] in Ew; fold on_bus in Ew. destruct w as [|o]; [discriminate|]. injection Ew as -> -> Ew2.
    inversion H as [|? ? ? rs1 a1 ? rs2 ? We En Hs Hr]; subst.
    destruct (ref_app l0 s o0 a e q rs1 a1 bf R V We En Hs Cq) as (s1 & o1 & E & R1 & F1 & V1).
    destruct (IH ws eq_refl a1 rs2 a' Hr _ s1 _ bf R1 V1 Lb) as (s2 & o2 & E2 & F2 & V2).
    exists s2, (o1 ++ o2). split; [|split; [apply Forall2_app; auto|exact V2]].
    cbn [map run]. unfold as_op at 1. cbn [fst snd]. unfold andthen. rewrite E. cbn [bind]. rewrite E2. reflexivity.
Qed.
Lemma ino_ref_thm : forall s0 ws lr rs a, wf_cfg c -> wf_mem m -> boot c m = Ok s0 -> Forall (paced c) ws ->
  traffic c ino_own (fun _ => False) (map on_bus ws) lr -> ref_run c (power_up c m) lr rs a ->
  exists x o, irun c (flat_map as_run ws) (iboot s0) = Ok (x, o) /\ Forall2 (shows c) rs o /\ related c a (i_st x).
Proof.
  intros s0 ws lr rs a W Wm B P T H. destruct (boots_reach s0 W Wm B) as (R & V & L).
  destruct (ino_run _ _ T ws eq_refl _ _ _ H [] s0 [] (s_in s0) R V L) as (s' & o & E & F & V'). rewrite set_in_same in E.
  pose proof (paced_thm c ws (iboot s0)) as X. unfold ends in X. change (i_st (iboot s0)) with s0 in X. rewrite E in X.
  destruct X as (x & E2 & <- & _); [repeat split|exact P|]. exists x, o. auto.
Qed.
End Bus.
