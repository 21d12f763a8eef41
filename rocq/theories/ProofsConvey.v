From Coq Require Import NArith ZArith List Bool Lia ZifyBool ZifyNat ZifyN.
From Verif Require Import Base Config State Core Spec Lists Effects Handlers HTx HInv HInv2 HFields HResp DaqInv HSpec Steps Ops ProofsSession Exec ProofsFrames SpecMem SpecDaq SpecE2e ProofsWrite ProofsRx SpecSerial ProofsSerial
  Can SpecCan ProofsCan Kv SpecKv ProofsKv CanBus Ino SpecIno ProofsIno SpecRef ProofsRef ProofsRef2 SpecStack ProofsStack SpecBus ProofsBus ProofsSafe2 SpecTask ProofsTask ProofsIocp Net Iocp SpecIocp Sxi SpecSxi Serial SpecConvey.
Import ListNotations.
Open Scope N_scope.

Section Convey.
Variable c : cfg.
Variable m : N -> N.

(** One command, behind another content of the buffer. *)
Lemma cv_recv : forall l0 s o0 e f pad b, reachable c m l0 s o0 -> wf_op c (e, ORecv f) -> key_local e -> complete c f -> lenN (f ++ pad) <= c_max_cto c -> lenN b = c_ctobuf c ->
  dispatch c e (set_s_in (splice b 0 (f ++ pad)) s) = lift (splice b 0 (f ++ pad)) (step c e (ORecv f) s) /\ lenN (splice b 0 (f ++ pad)) = c_ctobuf c.
Proof.
  intros l0 s o0 e f pad b R Wo K Cp L Lb. pose proof (proj1 R) as W. pose proof (wf_cto _ W) as Wc.
  destruct Wo as (_ & Wo). cbn [snd] in Wo.
  assert (L1 : 1 <= lenN f) by apply Cp.
  assert (H0 : nth 0 f 0 < 256). { destruct f as [|z f']; [cbn in L1; lia|]. now inversion Wo. }
  assert (Lf : lenN f + lenN pad <= c_ctobuf c) by (rewrite lenN_app in L; unfold c_ctobuf; lia).
  pose proof (reach_inv _ _ _ _ _ R) as I. assert (Li : lenN (s_in s) = c_ctobuf c) by apply (b_in _ _ (i_b _ _ I)).
  set (d := f ++ pad). assert (Ld : lenN d = lenN f + lenN pad) by (unfold d; now rewrite lenN_app).
  set (b1 := splice b 0 d). assert (Lb1 : lenN b1 = c_ctobuf c) by (unfold b1; rewrite lenN_splice by lia; lia).
  assert (E0 : step c e (ORecv f) s = dispatch c e (set_s_in (splice (s_in s) 0 f) s)).
  { cbn [step]. unfold receive. destruct (N.eqb_spec (lenN f) 0); [lia|]. destruct (N.ltb_spec (c_ctobuf c) (lenN f)); [lia|]. reflexivity. }
  assert (C8 : 8 <= c_ctobuf c) by (unfold c_ctobuf; lia).
  assert (T1 : takeN (lenN f) b1 = f).
  { unfold b1, splice. rewrite take_0. cbn [app]. unfold d. rewrite <- app_assoc. apply take_app. }
  split; [|exact Lb1].
  change (set_s_in b1 s) with (set_s_in b1 (set_s_in (splice (s_in s) 0 f) s)).
  rewrite (cm_dispatch c e f (set_s_in (splice (s_in s) 0 f) s) b1 W K Cp H0).
  - now rewrite E0.
  - ss. apply take_splice0.
  - exact T1.
  - ss. rewrite lenN_splice by lia. lia.
  - lia.
Qed.

Lemma sock_conv : forall fd xi i xb b xo o', in_range xi i -> in_range xb b -> in_range xo o' -> c_len_size c = 0 -> c_ctr_size c = 0 ->
  c_max_cto c <= frame_room fd -> c_max_dto c <= frame_room fd ->
  forall l lo, conveys c (can_own (xi, i) (xb, b)) (can_noise (xi, i) (xb, b)) l lo -> wf_run c lo ->
  forall l0 s o0 bf, reachable c m l0 s o0 -> lenN bf = c_ctobuf c ->
  like (run c lo s) (sock_run c fd (configured xi i) (configured xb b) (configured xo o') l (set_s_in bf s)) (fun y => y) (can_frames (xo, o')).
Proof.
  intros fd xi i xb b xo o' Hi Hb Ho L0 C0 M1 M2 l lo T.
  induction T as [|e f pad fr l lo K Cp Ld Ow T IH|e fr l lo No T IH|e o l lo Ar T IH]; intros Wr l0 s o0 bf R Lb.
  - cbn. eexists. split; reflexivity.
  - inversion Wr as [|? ? Wo Wr']; subst.
    destruct (cv_recv l0 s o0 e f pad bf R Wo K Cp Ld Lb) as (E & Lb1).
    cbn [sock_run run fst snd]. unfold sock_step. rewrite (accepts_own m xi i xb b _ fr Hi Hb Ow).
    assert (Dd : n_data fr = f ++ pad) by apply Ow. destruct Cp as (Cp & Cp').
    assert (Rc : can_receive c e fr (set_s_in bf s) = dispatch c e (set_s_in (splice bf 0 (f ++ pad)) s)).
    { unfold can_receive. rewrite Dd. destruct (N.eqb_spec (lenN (f ++ pad)) 0) as [Z|_]; [rewrite lenN_app in Z; lia|]. destruct (N.ltb_spec (c_ctobuf c) (lenN (f ++ pad))); [unfold c_ctobuf in *; lia|]. reflexivity. }
    rewrite Rc, E. unfold andthen, like. destruct (step c e (ORecv f) s) as [(s1 & o1)|w] eqn:E1; cbn [lift bind]; [|reflexivity].
    pose proof (reach_step _ _ _ _ _ _ _ _ _ R Wo E1) as R1.
    rewrite (sends_ok c m fd xo o' _ _ _ R1 L0 C0 Ho M1 M2) by (intros z Hz; apply in_or_app; now right). cbn [bind].
    specialize (IH Wr' _ s1 _ _ R1 Lb1). unfold like in IH. destruct (run c lo s1) as [(s2 & o2)|w]; cbn [bind].
    + destruct IH as (y & -> & Y). exists y. split; [|exact Y]. cbn [bind]. unfold can_frames. rewrite map_app. reflexivity.
    + rewrite IH. reflexivity.
  - cbn [sock_run]. unfold sock_step. rewrite (noise_ignored c m xi i xb b fr e _ Hi Hb No). cbn [bind sock_sends].
    specialize (IH Wr l0 s o0 bf R Lb). unfold like in *. destruct (run c lo s) as [(s2 & o2)|w].
    + destruct IH as (y & -> & Y). exists y. split; [reflexivity|exact Y].
    + rewrite IH. reflexivity.
  - inversion Wr as [|? ? Wo Wr']; subst. cbn [sock_run run fst snd]. unfold sock_step.
    pose proof (cm_step c (e, o) bf s Ar) as X. cbn [fst snd] in X. rewrite X. unfold andthen, like.
    destruct (step c e o s) as [(s1 & o1)|w] eqn:E1; cbn [lift bind]; [|reflexivity].
    pose proof (reach_step _ _ _ _ _ _ _ _ _ R Wo E1) as R1.
    rewrite (sends_ok c m fd xo o' _ _ _ R1 L0 C0 Ho M1 M2) by (intros z Hz; apply in_or_app; now right). cbn [bind].
    specialize (IH Wr' _ s1 _ bf R1 Lb). unfold like in IH. destruct (run c lo s1) as [(s2 & o2)|w]; cbn [bind].
    + destruct IH as (y & -> & Y). exists y. split; [|exact Y]. cbn [bind]. unfold can_frames. rewrite map_app. reflexivity.
    + rewrite IH. reflexivity.
Qed.

Lemma kv_conv : forall xi i xb b xo o', in_range xi i -> in_range xb b -> in_range xo o' -> c_len_size c = 0 -> c_ctr_size c = 0 -> c_max_cto c <= 8 -> c_max_dto c <= 8 ->
  forall l lo, conveys c (kv_own c (xi, i)) (kv_noise c (xi, i)) l lo -> wf_run c lo ->
  forall l0 s o0 bf fr, reachable c m l0 s o0 -> lenN bf = c_ctobuf c ->
  like (run c lo s) (kv_run c (configured xi i) (configured xb b) (configured xo o') l (set_s_in bf s, (fr, 0))) (fun y => y) (fun o => (fr ++ kv_frames (xo, o') o, 0)).
Proof.
  intros xi i xb b xo o' Hi Hb Ho L0 C0 M1 M2 l lo T.
  assert (X2 : forall x : bool, N.testbit (if x then 4 else 2) 2 = x) by (intros []; reflexivity).
  assert (X0 : forall x : bool, N.testbit (if x then 4 else 2) 0 = false) by (intros []; reflexivity).
  assert (X3 : forall x : bool, ((if x then 4 else 2) mod 65536 =? 4) = x) by (intros []; reflexivity).
  induction T as [|e f pad fr0 l lo K Cp Ld Ow T IH|e fr0 l lo No T IH|e o l lo Ar T IH]; intros Wr l0 s o0 bf fr R Lb.
  - cbn. eexists. split; [unfold kv_frames; cbn; now rewrite app_nil_r|reflexivity].
  - inversion Wr as [|? ? Wo Wr']; subst.
    destruct (cv_recv l0 s o0 e f pad bf R Wo K Cp Ld Lb) as (E & Lb1).
    destruct Ow as (-> & G). cbn [fst snd].
    assert (P : kv_passes (kv_filter (configured xi i) (configured xb b)) (N.testbit (k_flag (data_frame xi i (f ++ pad))) 2) (k_id (data_frame xi i (f ++ pad))) = true).
    { unfold data_frame. cbn [k_flag k_id]. rewrite X2. apply filter_own; auto. }
    assert (Rc : kv_notify c (configured xi i) (configured xb b) e (data_frame xi i (f ++ pad)) (set_s_in bf s) = dispatch c e (set_s_in (splice bf 0 (f ++ pad)) s)).
    { assert (1 <= lenN f) by apply Cp. rewrite own_frames; auto; [|rewrite lenN_app in *; unfold c_ctobuf; lia]. rewrite recv_kv; [reflexivity|rewrite lenN_app; lia|unfold c_ctobuf; lia]. }
    cbn [kv_run]. unfold kv_step. rewrite P, Rc, E. unfold like. cbn [run fst snd]. unfold andthen.
    destruct (step c e (ORecv f) s) as [(s1 & o1)|w] eqn:E1; cbn [lift bind]; [|reflexivity].
    pose proof (reach_step _ _ _ _ _ _ _ _ _ R Wo E1) as R1.
    rewrite (kv_sends c m xo o' _ _ _ R1 Ho L0 C0 M1 M2) by (intros z Hz; apply in_or_app; now right).
    specialize (IH Wr' _ s1 _ _ (fr ++ map (fun p => (o', xo, p_data p)) o1) R1 Lb1). unfold like in IH. destruct (run c lo s1) as [(s2 & o2)|w]; cbn [bind].
    + destruct IH as (y & -> & Y). exists y. split; [|exact Y]. unfold kv_frames. cbn [fst snd]. rewrite map_app, app_assoc. reflexivity.
    + exact IH.
  - destruct No as (x & j & d & -> & Ld & N).
    assert (Z : exists b2, lenN b2 = c_ctobuf c /\
      (if kv_passes (kv_filter (configured xi i) (configured xb b)) (N.testbit (k_flag (data_frame x j d)) 2) (k_id (data_frame x j d)) then kv_notify c (configured xi i) (configured xb b) e (data_frame x j d) (set_s_in bf s) else Ok (set_s_in bf s, [])) = Ok (set_s_in b2 s, [])).
    { destruct (kv_passes _ _ _); [|exists bf; auto]. exists (splice bf 0 d). split; [rewrite lenN_splice by (unfold c_ctobuf in *; lia); lia|].
      unfold kv_notify, data_frame, k_remote. cbn [k_data k_flag k_id]. rewrite X0. destruct (N.ltb_spec (c_ctobuf c) (lenN d)); [unfold c_ctobuf in *; lia|].
      rewrite matches_cfg by auto. rewrite X3. unfold dlc_good in N.
      destruct (c_max_dlc c); cbn [andb].
      - destruct (N.eqb_spec (lenN d) (c_max_cto c)) as [E1|]; cbn [negb]; [|reflexivity]. destruct (N.eqb_spec (lenN d) 0); [reflexivity|].
        destruct N as [N | [N | N]]; [|rewrite N in *; contradiction|exfalso; apply N; auto].
        destruct (N.eqb_spec i j) as [->|]; cbn [andb]; [|reflexivity]. destruct xi, x; cbn [Bool.eqb]; try reflexivity; congruence.
      - destruct (N.eqb_spec (lenN d) 0); [reflexivity|].
        destruct N as [N | [N | N]]; [|rewrite N in *; contradiction|exfalso; apply N; discriminate].
        destruct (N.eqb_spec i j) as [->|]; cbn [andb]; [|reflexivity]. destruct xi, x; cbn [Bool.eqb]; try reflexivity; congruence. }
    destruct Z as (b2 & Lb2 & Z). cbn [kv_run].
    assert (KS : kv_step c (configured xi i) (configured xb b) (configured xo o') e (BFrame (data_frame x j d)) (set_s_in bf s, (fr, 0)) = Ok (set_s_in b2 s, (fr, 0))).
    { unfold kv_step. cbv beta iota. match goal with |- bind ?y _ = _ => replace y with (@Ok (st * list pkt) (set_s_in b2 s, [])) by (symmetry; exact Z) end. reflexivity. }
    rewrite KS. cbn [bind]. exact (IH Wr l0 s o0 b2 fr R Lb2).
  - inversion Wr as [|? ? Wo Wr']; subst. cbn [kv_run]. unfold kv_step.
    pose proof (cm_step c (e, o) bf s Ar) as X. cbn [fst snd] in X. rewrite X. unfold like. cbn [run fst snd]. unfold andthen.
    destruct (step c e o s) as [(s1 & o1)|w] eqn:E1; cbn [lift bind]; [|reflexivity].
    pose proof (reach_step _ _ _ _ _ _ _ _ _ R Wo E1) as R1.
    rewrite (kv_sends c m xo o' _ _ _ R1 Ho L0 C0 M1 M2) by (intros z Hz; apply in_or_app; now right).
    specialize (IH Wr' _ s1 _ bf (fr ++ map (fun p => (o', xo, p_data p)) o1) R1 Lb). unfold like in IH. destruct (run c lo s1) as [(s2 & o2)|w]; cbn [bind].
    + destruct IH as (y & -> & Y). exists y. split; [|exact Y]. unfold kv_frames. cbn [fst snd]. rewrite map_app, app_assoc. reflexivity.
    + exact IH.
Qed.

Lemma ino_conv : forall l lo, conveys c ino_own (fun _ => False) l lo -> wf_run c lo -> forall ws, map on_bus ws = l ->
  forall l0 s o0 bf, reachable c m l0 s o0 -> lenN bf = c_ctobuf c -> like (run c lo s) (run c (map as_op ws) (set_s_in bf s)) (fun y => y) (fun o => o).
Proof.
  intros l lo T. induction T as [|e f pad fr0 l lo K Cp Ld Ow T IH|e fr0 l lo No T IH|e o l lo Ar T IH]; intros Wr ws Ew l0 s o0 bf R Lb; try contradiction.
  - destruct ws; [|discriminate]. cbn. eexists. split; reflexivity.
  - destruct ws as [|(e' & w) ws]; [discriminate|]. unfold on_bus in Ew; cbn [map fst snd] in Ew; fold on_bus in Ew. destruct w as [f' k|]; [|discriminate]. injection Ew as -> -> Ew2.
    inversion Wr as [|? ? Wo Wr']; subst. destruct (cv_recv l0 s o0 e f pad bf R Wo K Cp Ld Lb) as (E & Lb1).
    cbn [map run]. unfold as_op at 1. cbn [fst snd]. destruct Ow as (_ & ->). assert (1 <= lenN f) by apply Cp.
    rewrite (recv_disp c e (f ++ pad)); [|rewrite lenN_app; lia|unfold c_ctobuf; lia]. change (s_in (set_s_in bf s)) with bf. change (set_s_in (splice bf 0 (f ++ pad)) (set_s_in bf s)) with (set_s_in (splice bf 0 (f ++ pad)) s).
    rewrite E. unfold andthen, like. destruct (step c e (ORecv f) s) as [(s1 & o1)|w] eqn:E1; cbn [lift bind]; [|reflexivity].
    pose proof (reach_step _ _ _ _ _ _ _ _ _ R Wo E1) as R1. specialize (IH Wr' ws eq_refl _ s1 _ _ R1 Lb1). unfold like in IH.
    destruct (run c lo s1) as [(s2 & o2)|w]; cbn [bind]; [destruct IH as (y & -> & Y); exists y; auto|now rewrite IH].
  - destruct ws as [|(e' & w) ws]; [discriminate|]. unfold on_bus in Ew; cbn [map fst snd] in Ew; fold on_bus in Ew. destruct w as [|o2]; [discriminate|]. injection Ew as -> -> Ew2.
    inversion Wr as [|? ? Wo Wr']; subst. cbn [map run]. unfold as_op at 1. cbn [fst snd].
    pose proof (cm_step c (e, o) bf s Ar) as X. cbn [fst snd] in X. rewrite X. unfold andthen, like. destruct (step c e o s) as [(s1 & o1)|w] eqn:E1; cbn [lift bind]; [|reflexivity].
    pose proof (reach_step _ _ _ _ _ _ _ _ _ R Wo E1) as R1. specialize (IH Wr' ws eq_refl _ s1 _ _ R1 Lb). unfold like in IH.
    destruct (run c lo s1) as [(s2 & o2)|w]; cbn [bind]; [destruct IH as (y & -> & Y); exists y; auto|now rewrite IH].
Qed.
End Convey.

(** ** From any state *)
Lemma sock_convey : forall c m l0 s o0 fd xi i xb b xo o' l lo, reachable c m l0 s o0 -> in_range xi i -> in_range xb b -> in_range xo o' -> c_len_size c = 0 -> c_ctr_size c = 0 ->
  c_max_cto c <= frame_room fd -> c_max_dto c <= frame_room fd -> conveys c (can_own (xi, i) (xb, b)) (can_noise (xi, i) (xb, b)) l lo -> wf_run c lo ->
  like (run c lo s) (sock_run c fd (configured xi i) (configured xb b) (configured xo o') l s) (fun y => y) (can_frames (xo, o')).
Proof.
  intros c m l0 s o0 fd xi i xb b xo o' l lo R Hi Hb Ho L0 C0 M1 M2 T Wr.
  pose proof (sock_conv c m fd xi i xb b xo o' Hi Hb Ho L0 C0 M1 M2 l lo T Wr l0 s o0 (s_in s) R (b_in _ _ (i_b _ _ (reach_inv _ _ _ _ _ R)))) as X.
  replace (set_s_in (s_in s) s) with s in X by (destruct s; reflexivity). exact X.
Qed.
Lemma kv_convey : forall c m l0 s o0 fr xi i xb b xo o' l lo, reachable c m l0 s o0 -> in_range xi i -> in_range xb b -> in_range xo o' -> c_len_size c = 0 -> c_ctr_size c = 0 ->
  c_max_cto c <= 8 -> c_max_dto c <= 8 -> conveys c (kv_own c (xi, i)) (kv_noise c (xi, i)) l lo -> wf_run c lo ->
  like (run c lo s) (kv_run c (configured xi i) (configured xb b) (configured xo o') l (s, (fr, 0))) (fun y => y) (fun o => (fr ++ kv_frames (xo, o') o, 0)).
Proof.
  intros c m l0 s o0 fr xi i xb b xo o' l lo R Hi Hb Ho L0 C0 M1 M2 T Wr.
  pose proof (kv_conv c m xi i xb b xo o' Hi Hb Ho L0 C0 M1 M2 l lo T Wr l0 s o0 (s_in s) fr R (b_in _ _ (i_b _ _ (reach_inv _ _ _ _ _ R)))) as X.
  replace (set_s_in (s_in s) s) with s in X by (destruct s; reflexivity). exact X.
Qed.
Lemma ino_convey : forall c m l0 x o0 ws lo, reachable c m l0 (i_st x) o0 -> resting x -> Forall (paced c) ws -> conveys c ino_own (fun _ => False) (map on_bus ws) lo -> wf_run c lo ->
  like (run c lo (i_st x)) (irun c (flat_map as_run ws) x) i_st (fun o => o).
Proof.
  intros c m l0 x o0 ws lo R Rx P T Wr.
  pose proof (ino_conv c m _ lo T Wr ws eq_refl l0 (i_st x) o0 (s_in (i_st x)) R (b_in _ _ (i_b _ _ (reach_inv _ _ _ _ _ R)))) as X.
  replace (set_s_in (s_in (i_st x)) (i_st x)) with (i_st x) in X by (destruct (i_st x); reflexivity).
  pose proof (paced_thm c ws x Rx P) as Y. unfold ends in Y. unfold like in *.
  destruct (run c lo (i_st x)) as [(s1 & o1)|w].
  - destruct X as (y & E & Z). rewrite E in Y. destruct Y as (x' & -> & <- & _). exists x'. auto.
  - now rewrite X in Y.
Qed.

(** ** Tasks *)
Lemma trelated_rx : forall c a t s s', s' = set_s_in (s_in s') s -> trelated c a t s -> trelated c a t s'.
Proof.
  intros c a t s s' E V. assert (H : hushed s' = set_s_in (s_in (hushed s')) (hushed s)) by (rewrite E; reflexivity).
  destruct t; cbn [trelated] in *.
  - eapply related_rx; eauto.
  - destruct V as (V & X). split; [eapply related_rx; eauto|]. rewrite E. exact X.
  - destruct V as (V & X). split; [eapply related_rx; eauto|]. rewrite E. exact X.
  - destruct V as (V & X). split; [eapply related_rx; eauto|]. rewrite E. exact X.
Qed.
Lemma tasks_wf : forall c l a t rs a' t', wf_cfg c -> task_run c a t l rs a' t' -> wf_run c (toperations c l).
Proof. intros c l a t rs a' t' W H. induction H; [constructor|]. cbn [toperations map fst snd]. constructor; [now apply top_wf|exact IHtask_run]. Qed.

Lemma like_tasks : forall A B (state : A -> st) (g : list pkt -> B) (x : out (A * B)) c m l0 s o0 l a t rs a' t', dlc_ok c -> c_max_ent c < 65536 -> stamp_ok c ->
  reachable c m l0 s o0 -> trelated c a t s -> task_run c a t l rs a' t' -> like (run c (toperations c l) s) x state g ->
  exists y o, x = Ok (y, g o) /\ Forall2 (shows c) rs o /\ trelated c a' t' (state y).
Proof.
  intros A B state g x c m l0 s o0 l a t rs a' t' D Sm St R V H L.
  destruct (task_run_thm c m D Sm St l a t rs a' t' H l0 s o0 R V) as (s' & o & E & _ & F & V'). unfold like in L. rewrite E in L.
  destruct L as (y & E2 & Y). exists y, o. split; [exact E2|]. split; [exact F|]. eapply trelated_rx; eauto.
Qed.

Lemma sock_tasks : forall c m l0 s o0 fd xi i xb b xo o' l lr a t rs a' t', dlc_ok c -> c_max_ent c < 65536 -> stamp_ok c -> reachable c m l0 s o0 -> trelated c a t s ->
  in_range xi i -> in_range xb b -> in_range xo o' -> c_len_size c = 0 -> c_ctr_size c = 0 -> c_max_cto c <= frame_room fd -> c_max_dto c <= frame_room fd ->
  conveys c (can_own (xi, i) (xb, b)) (can_noise (xi, i) (xb, b)) l (toperations c lr) -> task_run c a t lr rs a' t' ->
  exists s' fs, sock_run c fd (configured xi i) (configured xb b) (configured xo o') l s = Ok (s', fs) /\ Forall2 (can_shows c (xo, o')) rs fs /\ trelated c a' t' s'.
Proof.
  intros c m l0 s o0 fd xi i xb b xo o' l lr a t rs a' t' D Sm St R V Hi Hb Ho L0 C0 M1 M2 T H.
  destruct (like_tasks _ _ _ _ _ c m l0 s o0 lr a t rs a' t' D Sm St R V H
    (sock_convey c m l0 s o0 fd xi i xb b xo o' l _ R Hi Hb Ho L0 C0 M1 M2 T (tasks_wf _ _ _ _ _ _ _ (proj1 R) H))) as (y & o & E & F & V').
  exists y, (can_frames (xo, o') o). split; [exact E|]. split; [|exact V'].
  clear -F. induction F; cbn [can_frames map]; constructor; auto. split; [reflexivity|]. split; [reflexivity|]. destruct x, y; cbn [shows reads n_data] in *; tauto.
Qed.
Lemma kv_tasks : forall c m l0 s o0 fr xi i xb b xo o' l lr a t rs a' t', dlc_ok c -> c_max_ent c < 65536 -> stamp_ok c -> reachable c m l0 s o0 -> trelated c a t s ->
  in_range xi i -> in_range xb b -> in_range xo o' -> c_len_size c = 0 -> c_ctr_size c = 0 -> c_max_cto c <= 8 -> c_max_dto c <= 8 ->
  conveys c (kv_own c (xi, i)) (kv_noise c (xi, i)) l (toperations c lr) -> task_run c a t lr rs a' t' ->
  exists s' fs, kv_run c (configured xi i) (configured xb b) (configured xo o') l (s, (fr, 0)) = Ok (s', (fr ++ fs, 0)) /\ Forall2 (kv_shows c (xo, o')) rs fs /\ trelated c a' t' s'.
Proof.
  intros c m l0 s o0 fr xi i xb b xo o' l lr a t rs a' t' D Sm St R V Hi Hb Ho L0 C0 M1 M2 T H.
  destruct (like_tasks _ _ _ _ _ c m l0 s o0 lr a t rs a' t' D Sm St R V H
    (kv_convey c m l0 s o0 fr xi i xb b xo o' l _ R Hi Hb Ho L0 C0 M1 M2 T (tasks_wf _ _ _ _ _ _ _ (proj1 R) H))) as (y & o & E & F & V').
  exists y, (kv_frames (xo, o') o). split; [exact E|]. split; [|exact V'].
  clear -F. induction F; cbn [kv_frames map]; constructor; auto. split; [reflexivity|]. destruct x, y; cbn [shows reads n_data] in *; tauto.
Qed.
Lemma ino_tasks : forall c m l0 x o0 ws lr a t rs a' t', dlc_ok c -> c_max_ent c < 65536 -> stamp_ok c -> reachable c m l0 (i_st x) o0 -> trelated c a t (i_st x) -> resting x ->
  Forall (paced c) ws -> conveys c ino_own (fun _ => False) (map on_bus ws) (toperations c lr) -> task_run c a t lr rs a' t' ->
  exists x' o, irun c (flat_map as_run ws) x = Ok (x', o) /\ Forall2 (shows c) rs o /\ trelated c a' t' (i_st x').
Proof.
  intros c m l0 x o0 ws lr a t rs a' t' D Sm St R V Rx P T H.
  exact (like_tasks _ _ _ _ _ c m l0 _ o0 lr a t rs a' t' D Sm St R V H (ino_convey c m l0 x o0 ws _ R Rx P T (tasks_wf _ _ _ _ _ _ _ (proj1 R) H))).
Qed.
Lemma serial_tasks : forall c m l0 s o0 buf fs l more lr a t rs a' t', dlc_ok c -> c_max_ent c < 65536 -> stamp_ok c -> reachable c m l0 s o0 -> trelated c a t s ->
  12 <= lenN buf <= 2 ^ 16 -> Forall (SpecSxi.fits (lenN buf)) fs -> Forall (fun f => good c (f_data f)) fs ->
  SpecSxi.quiet 0 (polls l) -> octets (polls l) ++ more = wires fs -> Forall around (others l) -> Forall key_local (envs l) ->
  weave 0 fs l = toperations c lr -> task_run c a t lr rs a' t' ->
  exists r s' o, serial_run c l (sxi_init buf) s = Ok (r, s', o) /\ Forall2 (shows c) rs o /\ trelated c a' t' s'.
Proof.
  intros c m l0 s o0 buf fs l more lr a t rs a' t' D Sm St R V Hb Hf Hg Hq Ho Ha Hk Hw H.
  destruct (task_run_thm c m D Sm St lr a t rs a' t' H l0 s o0 R V) as (s1 & o & Er & _ & F & V').
  pose proof (serial_thm c m l0 s o0 buf fs l more R Hb Hf Hg Hq Ho Ha Hk) as X. rewrite Hw, Er in X. unfold same_but_rx, outcome in X.
  destruct (serial_run c l (sxi_init buf) s) as [((r & s') & o')|w]; cbn [bind] in X; [|contradiction]. destruct X as (-> & X).
  exists r, s', o. split; [reflexivity|]. split; [exact F|]. eapply trelated_rx; eauto.
Qed.

(** ** Completion port *)
Lemma not_sending : forall c a t s, trelated c a t s -> (forall n, t <> Sending n) -> s_sact s = false.
Proof.
  intros c a t s V N. destruct t; cbn [trelated] in V.
  - apply (v_idle _ _ _ V).
  - now destruct (N n).
  - apply V.
  - destruct V as (V & _). apply (v_idle _ _ _ V).
Qed.
Lemma port_thm : forall c m udp p a t l rs a' t', dlc_ok c -> c_max_ent c < 65536 -> stamp_ok c -> port_run c p a t l rs a' t' ->
  forall l0 w o0, reachable c m l0 (w_st w) o0 -> trelated c a t (w_st w) -> headed c w -> serves udp p w \/ (udp = true /\ w_xcp w = false /\ match l with WRecv _ q _ :: _ => q = p | _ => False end) ->
  exists w' o, wrun c udp l w = Ok (w', o) /\ Forall2 (fun r x => gets c (p, r) x) rs o /\ trelated c a' t' (w_st w').
Proof.
  intros c m udp p a t l rs a' t' D Sm St T.
  assert (Sh : forall rs o1, Forall2 (shows c) rs o1 -> Forall2 (fun r x => gets c (p, r) x) rs (map (pair p) o1)).
  { intros rs1 o1 F. induction F; cbn [map]; constructor; auto. now split. }
  induction T as [a t|a t e q f h rs1 a1 t1 l rs2 a2 t2 O Ne Lf Lh We En Hs T IH|a t e q o rs1 a1 t1 l rs2 a2 t2 O No We En Hs T IH|a n e rs1 a1 t1 l rs2 a2 t2 We Hs T IH|a t e l rs a2 t2 Ns T IH];
    intros l0 w o0 R V Hd Sv.
  - exists w, []. cbn. auto.
  - destruct (tsim_step c m l0 (w_st w) o0 e a R D Sm St We t q rs1 a1 t1 V Hs En) as (s1 & o1 & E1 & F1 & V1).
    assert (R1 : reachable c m (l0 ++ [(e, toperation c q)]) s1 (o0 ++ o1)) by (eapply reach_step; [exact R|apply top_wf; auto; apply R|exact E1]).
    assert (L1 : 1 <= lenN f) by (destruct f; [contradiction|rewrite lenN_cons; lia]).
    rewrite O in *. destruct Sv as [(Dv & Hc & Hx) | (Eu & Hx & _)].
    2:{ assert (He : heard udp p w) by (now left).
      cbn [wrun]. rewrite one_frame by auto. rewrite E1. cbn [bind]. rewrite Eu. set (w' := mkW s1 h _ _ _ _).
      assert (S : serves true p w').
      { unfold w'. repeat split; auto. cbn [w_xcp w_con]. unfold w_after. destruct (saves _ _); cbn [fst snd]; [auto|]. destruct (releases _ _ _ _); cbn [fst snd]; [discriminate|]. rewrite Hx. discriminate. }
      rewrite Eu in IH. destruct (IH _ w' _ R1 V1 Lh (or_introl S)) as (w2 & o2 & E2 & F2 & V2). rewrite E2. exists w2, (map (pair p) o1 ++ o2). split; [reflexivity|]. split; [apply Forall2_app; auto|exact V2]. }
    assert (He : heard udp p w). { unfold heard. destruct (w_xcp w) eqn:X; [right|now left]. rewrite (Hx eq_refl). destruct udp; congruence. }
    cbn [wrun]. rewrite one_frame by auto. rewrite E1. cbn [bind].
    replace (if udp then p else w_cur w) with p by (destruct udp; congruence).
    set (w' := mkW s1 h _ _ _ _).
    assert (S : serves udp p w').
    { unfold w'. repeat split; auto. cbn [w_xcp w_con]. unfold w_after. destruct (saves _ _); cbn [fst snd]; [auto|]. destruct (releases _ _ _ _); cbn [fst snd]; [discriminate|auto]. }
    destruct (IH _ w' _ R1 V1 Lh (or_introl S)) as (w2 & o2 & E2 & F2 & V2). rewrite E2. exists w2, (map (pair p) o1 ++ o2). split; [reflexivity|]. split; [apply Forall2_app; auto|exact V2].
  - destruct Sv as [Sv | (_ & _ & [])].
    destruct (tsim_step c m l0 (w_st w) o0 e a R D Sm St We t q rs1 a1 t1 V Hs En) as (s1 & o1 & E1 & F1 & V1).
    assert (R1 : reachable c m (l0 ++ [(e, toperation c q)]) s1 (o0 ++ o1)) by (eapply reach_step; [exact R|apply top_wf; auto; apply R|exact E1]).
    set (w' := mkW s1 (w_hdr w) (w_xcp w) (w_sock w) (w_cur w) (w_con w)).
    assert (X : wstep c udp (WOp e o) w = Ok (w', map (pair p) o1)).
    { cbn [wstep]. rewrite <- O, E1. cbn [bind]. assert (Dp : wdest udp w' = p). { destruct Sv as (Dv & Hc & _). unfold wdest, w'. cbn [w_sock w_cur]. destruct Dv as [-> | ->]; [exact Hc|now rewrite orb_true_r]. }
      rewrite <- O in No. destruct q as [q| |]; [|now destruct (No _ eq_refl)..]. cbn [toperation] in *.
      destruct q; cbn [operation] in *; try (exfalso; exact (No _ eq_refl)); fold w'; unfold wsent; rewrite Dp; reflexivity. }
    destruct (IH _ w' _ R1 V1 Hd (or_introl Sv)) as (w2 & o2 & E2 & F2 & V2).
    exists w2, (map (pair p) o1 ++ o2). split; [cbn [wrun]; rewrite X; cbn [bind]; rewrite E2; reflexivity|]. split; [apply Forall2_app; auto|exact V2].
  - destruct Sv as [Sv | (_ & _ & [])].
    destruct (tsim_step c m l0 (w_st w) o0 e a R D Sm St We (Sending n) (Plain QMain) rs1 a1 t1 V Hs I) as (s1 & o1 & E1 & F1 & V1).
    assert (R1 : reachable c m (l0 ++ [(e, OMain)]) s1 (o0 ++ o1)) by (eapply reach_step; [exact R|split; [exact We|exact I]|exact E1]).
    set (w' := mkW s1 (w_hdr w) (w_xcp w) (w_sock w) (w_cur w) (w_con w)).
    assert (Cs : c_sbm c = true) by (clear -Hs; inversion Hs; subst; auto; contradiction).
    assert (X : wstep c udp (WSent e) w = Ok (w', map (pair p) o1)).
    { cbn [wstep]. rewrite Cs. cbn [toperation operation step] in E1. unfold main_function in E1. rewrite Cs in E1. unfold andthen in E1.
      destruct (upload_block c e (w_st w)) as [(s2 & o2)|] eqn:Eu; cbn [bind] in E1; [|discriminate].
      assert (Nj : no_job s2). { unfold no_job. rewrite (proj2 (block_same _ _ _ _ _ Eu)). destruct V as (_ & _ & _ & _ & _ & J & _). exact J. }
      assert (Z : (if job_on c then checksum_main c s2 else Ok (s2, [])) = Ok (s2, [])).
      { destruct (job_on c); [|reflexivity]. unfold checksum_main. unfold no_job in Nj. rewrite Nj. reflexivity. }
      rewrite Z in E1. cbn [bind] in E1. injection E1 as <- <-. rewrite app_nil_r. cbn [bind]. fold w'.
      assert (Dp : wdest udp w = p). { destruct Sv as (Dv & Hc & _). unfold wdest. destruct Dv as [-> | ->]; [exact Hc|now rewrite orb_true_r]. }
      unfold wsent. rewrite Dp. reflexivity. }
    destruct (IH _ w' _ R1 V1 Hd (or_introl Sv)) as (w2 & o2 & E2 & F2 & V2).
    exists w2, (map (pair p) o1 ++ o2). split; [cbn [wrun]; rewrite X; cbn [bind]; rewrite E2; reflexivity|]. split; [apply Forall2_app; auto|exact V2].
  - destruct Sv as [Sv | (_ & _ & [])].
    assert (X : wstep c udp (WSent e) w = Ok (w, [])).
    { cbn [wstep]. destruct (c_sbm c); [|reflexivity]. unfold upload_block. rewrite (not_sending _ _ _ _ V Ns). destruct w; reflexivity. }
    destruct (IH l0 w o0 R V Hd (or_introl Sv)) as (w2 & o2 & E2 & F2 & V2). exists w2, o2. split; [|auto]. cbn [wrun]. rewrite X. cbn [bind]. rewrite E2. reflexivity.
Qed.

Lemma iocp_tasks : forall c m w0 udp p l rs a t, dlc_ok c -> c_max_ent c < 65536 -> stamp_ok c -> wf_cfg c -> wf_mem m -> wboot c m = Ok w0 -> (udp = true -> comes p l) ->
  port_run c p (power_up c m) Free l rs a t ->
  exists w' o, wrun c udp ((if udp then [] else [WAccept p]) ++ l) w0 = Ok (w', o) /\ Forall2 (fun r x => gets c (p, r) x) rs o /\ trelated c a t (w_st w').
Proof.
  intros c m w0 udp p l rs a t D Sm St W Wm B Co H. unfold wboot in B. apply bind_Ok in B. destruct B as (s0 & B & Ew). injection Ew as Ew.
  destruct (boots_reach c m Sm s0 W Wm B) as (R & V & L).
  assert (Hd : headed c w0) by (subst w0; unfold headed; cbn [w_hdr]; now rewrite lenN_repeat, N2Nat.id).
  destruct udp.
  - cbn [app]. eapply (port_thm c m true p _ _ l _ _ _ D Sm St H [] w0 []); [subst w0; exact R|subst w0; exact V|exact Hd|]. right. split; [reflexivity|]. split; [subst w0; reflexivity|now apply Co].
  - cbn [app wrun wstep]. assert (X : w_xcp w0 = false) by (subst w0; reflexivity). rewrite X. cbn [orb bind].
    set (w1 := mkW _ _ _ _ _ _).
    destruct (port_thm c m false p _ _ l _ _ _ D Sm St H [] w1 []) as (w2 & o2 & E2 & F2 & V2); [subst w0; exact R|subst w0; exact V|exact Hd| |].
    { left. repeat split; auto. unfold w1. cbn. intro Z. congruence. }
    rewrite E2. exists w2, o2. auto.
Qed.
Lemma boot_start : forall c m s0, wf_cfg c -> wf_mem m -> c_max_ent c < 65536 -> boot c m = Ok s0 -> reachable c m [] s0 [] /\ trelated c (power_up c m) Free s0.
Proof. intros c m s0 W Wm Sm B. destruct (boots_reach c m Sm s0 W Wm B) as (R & V & _). auto. Qed.
