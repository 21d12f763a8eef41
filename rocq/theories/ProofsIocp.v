(** Proofs of the properties of the Windows completion port. *)
From Coq Require Import NArith ZArith List Bool Lia ZifyBool ZifyNat ZifyN.
From Verif Require Import Base Config State Core Spec SpecProt ProofsProt ProofsDaqI Lists Net Iocp SpecIocp.
Import ListNotations.
Open Scope N_scope.

Definition w_after (c : cfg) (e : env) (s : st) (w : iocp) (cur : N) : bool * N :=
  if saves s (s_in s) then (true, cur) else if releases c e s (s_in s) then (false, w_con w) else (w_xcp w, w_con w).
Lemma wrecv_eq : forall c udp e p bs w, heard udp p w ->
  let cur := if udp then p else w_cur w in
  let b := splice (w_hdr w ++ s_in (w_st w)) 0 bs in
  let s := set_s_in (dropN (c_offset c) b) (w_st w) in
  wstep c udp (WRecv e p bs) w =
  '(s', o) <- dispatch c e s ;; Ok (mkW s' (takeN (c_offset c) b) (fst (w_after c e s w cur)) (w_sock w) cur (snd (w_after c e s w cur)),
    map (pair (if udp || w_sock w then cur else 0)) o).
Proof.
  intros c udp e p bs w H cur b s. cbn [wstep]. fold cur b s. replace (negb (w_xcp w) || (w_con w =? cur)) with true.
  2:{ destruct H as [H|H]; [now rewrite H|]. fold cur in H. rewrite H, N.eqb_refl. now rewrite orb_true_r. }
  unfold w_after. destruct (saves s (s_in s)), (releases c e s (s_in s)); cbn [w_xcp w_con w_sock fst snd]; destruct (dispatch c e s) as [(s' & o)|]; reflexivity.
Qed.
(** Bytes that the slave sees. *)
Definition seen (c : cfg) (bs : list N) (w : iocp) : list N := if lenN bs <=? c_offset c then takeN 1 (s_in (w_st w)) else dropN (c_offset c) bs.
Lemma seen_in : forall c bs w, headed c w -> lenN (s_in (w_st w)) <> 0 -> 1 <= lenN bs ->
  dropN (c_offset c) (splice (w_hdr w ++ s_in (w_st w)) 0 bs) = splice (s_in (w_st w)) 0 (seen c bs w) /\ lenN (seen c bs w) <> 0.
Proof.
  intros c bs w H I L. unfold headed in H. unfold seen. unfold splice at 1. rewrite take_0. cbn [app]. rewrite N.add_0_l.
  destruct (N.leb_spec (lenN bs) (c_offset c)).
  - split.
    + rewrite drop_app_ge by lia. rewrite drop_drop. replace (lenN bs + (c_offset c - lenN bs)) with (lenN (w_hdr w)) by lia. rewrite drop_app.
      unfold splice. rewrite take_0. cbn [app]. rewrite N.add_0_l, lenN_take. replace (N.min 1 (lenN (s_in (w_st w)))) with 1 by lia. now rewrite take_drop.
    + rewrite lenN_take. lia.
  - split.
    + rewrite drop_app_le by lia. unfold splice. rewrite take_0. cbn [app]. f_equal. rewrite drop_app_ge by lia. f_equal. rewrite lenN_drop. lia.
    + rewrite lenN_drop. lia.
Qed.
Lemma recv_disp : forall c e f s, lenN f <> 0 -> lenN f <= c_ctobuf c -> step c e (ORecv f) s = dispatch c e (set_s_in (splice (s_in s) 0 f) s).
Proof. intros. cbn [step]. unfold receive. replace (lenN f =? 0) with false by lia. replace (c_ctobuf c <? lenN f) with false by lia. reflexivity. Qed.
Lemma any_chunk : forall c udp e p bs w, headed c w -> heard udp p w -> lenN (s_in (w_st w)) = c_ctobuf c -> 1 <= c_ctobuf c ->
  1 <= lenN bs <= c_offset c + c_ctobuf c -> (udp = true \/ w_sock w = true) ->
  same_as udp (if udp then p else w_cur w)
    (step c e (ORecv (if lenN bs <=? c_offset c then takeN 1 (s_in (w_st w)) else dropN (c_offset c) bs)) (w_st w)) (wstep c udp (WRecv e p bs) w).
Proof.
  intros c udp e p bs w Hd He I C L D. rewrite wrecv_eq by auto. destruct (seen_in c bs w Hd ltac:(lia) ltac:(lia)) as (-> & S).
  assert (S2 : lenN (seen c bs w) <= c_ctobuf c).
  { unfold seen. destruct (N.leb_spec (lenN bs) (c_offset c)); [rewrite lenN_take|rewrite lenN_drop]; lia. }
  fold (seen c bs w). rewrite recv_disp by auto. unfold same_as. destruct (dispatch c e _) as [(s' & o)|]; [|reflexivity].
  eexists. split; [cbn [bind]; replace (udp || w_sock w) with true; [reflexivity|destruct D as [-> | ->]; [reflexivity|now rewrite orb_true_r]]|reflexivity].
Qed.

(** ** C94 *)
Lemma one_frame : forall c udp e p h f w, headed c w -> heard udp p w -> lenN h = c_offset c -> 1 <= lenN f <= c_ctobuf c -> (udp = true \/ w_sock w = true) ->
  let cur := if udp then p else w_cur w in
  let s := set_s_in (splice (s_in (w_st w)) 0 f) (w_st w) in
  wstep c udp (WRecv e p (h ++ f)) w =
  '(s', o) <- step c e (ORecv f) (w_st w) ;; Ok (mkW s' h (fst (w_after c e s w cur)) (w_sock w) cur (snd (w_after c e s w cur)), map (pair cur) o).
Proof.
  intros c udp e p h f w Hd He Hh F D cur s. rewrite wrecv_eq by auto. fold cur.
  assert (E : dropN (c_offset c) (splice (w_hdr w ++ s_in (w_st w)) 0 (h ++ f)) = splice (s_in (w_st w)) 0 f).
  { unfold headed in Hd. unfold splice. rewrite !take_0. cbn [app]. rewrite !N.add_0_l, lenN_app, <- app_assoc, <- Hh, drop_app.
    f_equal. rewrite drop_app_ge by lia. f_equal. lia. }
  assert (E2 : takeN (c_offset c) (splice (w_hdr w ++ s_in (w_st w)) 0 (h ++ f)) = h).
  { unfold splice. rewrite take_0. cbn [app]. rewrite <- app_assoc, <- Hh. apply take_app. }
  rewrite E, E2. fold s. rewrite recv_disp by lia. fold s. replace (udp || w_sock w) with true; [reflexivity|].
  destruct D as [-> | ->]; [reflexivity|now rewrite orb_true_r].
Qed.
Lemma frames_run : forall c udp p l w, headed c w -> serves udp p w -> Forall (fun x => lenN (snd (fst x)) = c_offset c /\ 1 <= lenN (snd x) <= c_ctobuf c) l ->
  same_as udp p (run c (map (fun x => (fst (fst x), ORecv (snd x))) l) (w_st w)) (wrun c udp (map (fun x => WRecv (fst (fst x)) p (snd (fst x) ++ snd x)) l) w).
Proof.
  intros c udp p l. induction l as [|((e & h) & f) l IH]; intros w Hd (D & Hc & Hx) F; cbn [map run wrun].
  - exists w. now split.
  - inversion_clear F as [|? ? (Hh & Hf) Fl]. cbn [fst snd] in *.
    assert (He : heard udp p w). { unfold heard. destruct (w_xcp w) eqn:X; [right|now left]. rewrite (Hx eq_refl). destruct udp; congruence. }
    rewrite one_frame by auto. destruct (step c e (ORecv f) (w_st w)) as [(s' & o)|y]; [|reflexivity]. unfold andthen. cbn [bind].
    replace (if udp then p else w_cur w) with p by (destruct udp; congruence).
    set (w' := mkW s' h _ _ _ _). specialize (IH w').
    assert (S : serves udp p w').
    { unfold w'. repeat split; auto. cbn [w_xcp w_con]. unfold w_after. destruct (saves _ _); cbn [fst snd]; [auto|]. destruct (releases _ _ _ _); cbn [fst snd]; [discriminate|auto]. }
    specialize (IH Hh S Fl). unfold same_as in *. change (w_st w') with s' in IH.
    revert IH. destruct (run c _ s') as [(s2 & o2)|y]; intros IH.
    + destruct IH as (w2 & -> & <-). cbn [bind]. exists w2. split; [|reflexivity]. now rewrite map_app.
    + cbn [bind]. now rewrite IH.
Qed.

(** ** C95 *)
Lemma foreign : forall c e q bs w, w_xcp w = true -> q <> w_con w ->
  exists h i, wstep c true (WRecv e q bs) w = Ok (mkW (set_s_in i (w_st w)) h true (w_sock w) q (w_con w), []).
Proof.
  intros c e q bs w X Q. cbn [wstep]. rewrite X. cbn [negb orb]. replace (w_con w =? q) with false by lia. eexists. eexists. reflexivity.
Qed.
Lemma local_dest : forall c l w w' o, Forall local l -> wrun c true l w = Ok (w', o) -> w_cur w' = w_cur w /\ forall d x, In (d, x) o -> d = w_cur w.
Proof.
  intros c l. induction l as [|ev l IH]; intros w w' o F H.
  - injection H as <- <-. split; [reflexivity|intros ? ? []].
  - inversion_clear F as [|? ? L Fl]. cbn [wrun] in H. destruct (wstep c true ev w) as [(w1 & o1)|] eqn:E; [|discriminate H]. cbn [bind] in H.
    destruct (wrun c true l w1) as [(w2 & o2)|] eqn:R; [|discriminate H]. injection H as <- <-. specialize (IH _ _ _ Fl R) as (I1 & I2).
    assert (A : w_cur w1 = w_cur w /\ forall d x, In (d, x) o1 -> d = w_cur w).
    { destruct ev; try destruct L; cbn [wstep] in E.
      - destruct (c_sbm c).
        + destruct (upload_block c e (w_st w)) as [(s & o)|]; [|discriminate E]. injection E as <- <-. split; [reflexivity|].
          intros d x I. unfold wsent in I. apply in_map_iff in I. destruct I as (y & I & _). now injection I as <- _.
        + injection E as <- <-. split; [reflexivity|intros ? ? []].
      - destruct (step c e o (w_st w)) as [(s & o')|]; [|discriminate E]. injection E as <- <-.
        destruct o; try destruct L; (split; [reflexivity|]); intros d x I; unfold wsent in I; apply in_map_iff in I; destruct I as (y & I & _); now injection I as <- _. }
    destruct A as (A1 & A2). split; [congruence|]. intros d x I. apply in_app_or in I. destruct I as [I|I]; [eauto|]. rewrite <- A1. eauto.
Qed.
Lemma redirected : forall c e q bs l w w' o, w_xcp w = true -> q <> w_con w -> Forall local l -> wrun c true (WRecv e q bs :: l) w = Ok (w', o) ->
  w_cur w' = q /\ forall d x, In (d, x) o -> d = q.
Proof.
  intros c e q bs l w w' o X Q F H. cbn [wrun] in H. destruct (foreign c e q bs w X Q) as (h & i & E). rewrite E in H. cbn [bind] in H.
  destruct (wrun c true l _) as [(w2 & o2)|] eqn:R; [|discriminate H]. injection H as <- <-. apply local_dest in R; [exact R|auto].
Qed.

(** ** C96 *)
Lemma end_disc : forall c e m l w o, reachable c m l (w_st w) o -> exists s', wstep c false WEnd w = Ok (mkW s' (w_hdr w) false false (w_cur w) (w_con w), []) /\
  step c e ODisconnect (w_st w) = Ok (s', []) /\ relocked_st c s' /\ same_rest (w_st w) s'.
Proof.
  intros c e m l w o R. destruct (api_disconnect_thm c m l (w_st w) o e R) as (s' & E & A & B). exists s'. split; [|auto].
  cbn [step] in E. cbn [wstep]. destruct (xcp_disconnect c (w_st w)) as [s1|]; [|discriminate E]. injection E as <-. reflexivity.
Qed.
Lemma end_thm : forall c m l w o, reachable c m l (w_st w) o ->
  exists w', wstep c false WEnd w = Ok (w', []) /\ w_xcp w' = false /\ w_sock w' = false /\ relocked_st c (w_st w') /\ same_rest (w_st w) (w_st w') /\
    (c_daq c = true -> ~ measuring (w_st w')).
Proof.
  intros c m l w o R. destruct (end_disc c (env_yes) m l w o R) as (s' & E & S & A & B). eexists. split; [exact E|]. cbn [w_st w_xcp w_sock].
  split; [reflexivity|]. split; [reflexivity|]. split; [exact A|]. split; [exact B|]. intros D. exact (stop_call c env_yes ODisconnect (w_st w) s' [] D (or_introl eq_refl) S).
Qed.
Lemma next_peer : forall c m l w o q, reachable c m l (w_st w) o -> headed c w ->
  exists w', wrun c false [WEnd; WAccept q] w = Ok (w', []) /\ s_conn (w_st w') = s_conn (w_st w) /\
    forall e h f, lenN h = c_offset c -> 1 <= lenN f <= c_ctobuf c -> same_as false q (step c e (ORecv f) (w_st w')) (wstep c false (WRecv e q (h ++ f)) w').
Proof.
  intros c m l w o q R Hd. destruct (end_disc c env_yes m l w o R) as (s' & E & S & A & B).
  eexists. split; [cbn [wrun]; rewrite E; cbn [bind wstep orb w_xcp]; reflexivity|]. split; [apply B|]. intros e h f Hh F. set (w' := mkW _ _ _ _ _ _).
  rewrite one_frame; auto; [|now left]. unfold same_as. destruct (step c e (ORecv f) (w_st w')) as [(s2 & o2)|]; [|reflexivity]. cbn [bind]. eexists. split; reflexivity.
Qed.

Lemma init_serves : forall c udp w e q w1 x, headed c w -> wstep c udp (WOp e OInit) w = Ok (w1, x) -> x = [] /\
  exists w', wstep c udp (WAccept q) w1 = Ok (w', []) /\ w_st w' = w_st w1 /\
    forall e1 h f, lenN h = c_offset c -> 1 <= lenN f <= c_ctobuf c -> same_as udp q (step c e1 (ORecv f) (w_st w1)) (wstep c udp (WRecv e1 q (h ++ f)) w').
Proof.
  intros c udp w e q w1 x Hd H. cbn [wstep] in H. apply bind_Ok in H. destruct H as ((s & o) & Hs & H). cbv zeta in H. injection H as <- <-.
  assert (o = []) as -> by (cbn [step] in Hs; apply bind_Ok in Hs; destruct Hs as (s1 & _ & Hs); injection Hs as _ <-; reflexivity). split; [reflexivity|].
  destruct udp; (eexists; split; [cbn [wstep w_xcp orb]; reflexivity|]; split; [reflexivity|]); intros e1 h f Hh F; cbn [w_st];
    (rewrite one_frame; auto; [|now left]); cbn [w_st w_sock orb]; unfold same_as; (destruct (step c e1 (ORecv f) s) as [(s2 & o2)|]; [|reflexivity]); cbn [bind]; eexists; split; reflexivity.
Qed.
