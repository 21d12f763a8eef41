From Coq Require Import NArith ZArith List Bool Lia ZifyBool ZifyNat ZifyN.
From Verif Require Import Base Config Codec State Core Spec SpecProt Lists Exec ProofsProt ProofsSession ProofsFrames Steps ProofsWrite SpecFrames Eth SpecSxi SpecEth ProofsEth Net ProofsNet Tcp SpecTcp.
Import ListNotations.
Open Scope N_scope.

(** Dispatching over TCP: the destination is the peer of the socket; the flag and addresses do not matter for the commands. *)
Lemma deliver_run : forall c E p fs k n, t_sock n = Some p ->
  match run c (commands E k fs) (t_st n) with
  | Ok (s', o) => exists n', deliver c E k p fs n = Ok (n', map (pair p) o) /\ t_st n' = s' /\ t_sock n' = Some p
  | UB w => deliver c E k p fs n = UB w
  end.
Proof.
  intros c E p fs. induction fs as [|f fs IH]; intros k n Hs; [cbn; exists n; auto|].
  cbn [commands run deliver net_step]. unfold andthen. cbn [step].
  destruct (receive c (E k) f (t_st n)) as [(s1 & o1)|w]; cbn [bind]; [|reflexivity].
  set (n2 := if saves (t_st n) f then _ else _). set (n1 := mkNet _ _ _ _ _).
  assert (S2 : t_sock n2 = Some p) by (unfold n2; destruct (saves _ _); [exact Hs|]; destruct (_ && releases _ _ _ _); exact Hs).
  specialize (IH (k + 1) n1 S2). change (t_st n1) with s1 in IH.
  destruct (run c (commands E (k + 1) fs) s1) as [(s' & o)|w]; cbn [bind].
  - destruct IH as (n' & -> & A & B). cbn [bind]. exists n'. split; [|auto]. rewrite map_app. unfold sent, dest. rewrite S2. reflexivity.
  - rewrite IH. reflexivity.
Qed.

Lemma accept_step : forall c p n, t_tl n = false -> net_step c false (EAccept p) n = Ok (mkNet (t_st n) false (Some p) p (t_conn n), []).
Proof. intros c p n H. cbn [net_step orb]. rewrite H. reflexivity. Qed.

Lemma main_finished : forall c blen E, blen < 65536 -> forall vs qs, Forall2 (finished blen (c_ctobuf c)) vs qs ->
  forall last lq, (forall v, last = Some v -> exists q r, lq = q :: r /\ open_end blen (c_ctobuf c) v q) -> (last = None -> lq = []) ->
  forall fuel k cur n, (length qs < fuel)%nat -> t_tl n = false ->
  seen (tcp_main fuel c blen E k cur (qs ++ lq) n) = visits c E k (vs ++ match last with Some v => [v] | None => [] end) (t_st n).
Proof.
  intros c blen E B vs qs F. induction F as [|v q vs qs Hq F IH]; intros last lq HS HN fuel k cur n Hf Ht.
  - destruct fuel as [|j]; [lia|]. cbn [app tcp_main]. rewrite Ht. destruct last as [v|].
    + destruct (HS v eq_refl) as (q & r & -> & cs & (C1 & C2 & C3 & C4) & ->). cbn [k_peer k_in]. rewrite accept_step by exact Ht. cbn [bind].
      destruct (eth_frames blen (c_ctobuf c) (snd v) cs B C1 C2 C3 C4) as (R & _). rewrite R. cbn [bind visits]. fold (said v).
      pose proof (deliver_run c E (fst v) (said v) k (mkNet (t_st n) false (Some (fst v)) (fst v) (t_conn n)) eq_refl) as D. cbn [t_st] in D.
      destruct (run c (commands E k (said v)) (t_st n)) as [(s' & o)|w]; cbn [bind].
      * destruct D as (n' & -> & A & _). cbn [bind seen]. unfold seen. cbn [bind]. rewrite A, app_nil_r. reflexivity.
      * rewrite D. reflexivity.
    + rewrite (HN eq_refl). reflexivity.
  - destruct fuel as [|j]; [cbn in Hf; lia|]. cbn [app tcp_main]. rewrite Ht. destruct Hq as (cs & (C1 & C2 & C3 & C4) & ->). cbn [k_peer k_in].
    rewrite accept_step by exact Ht. cbn [bind].
    destruct (eth_frames blen (c_ctobuf c) (snd v) cs B C1 C2 C3 C4) as (_ & R). rewrite R. cbn [bind visits]. fold (said v).
    pose proof (deliver_run c E (fst v) (said v) k (mkNet (t_st n) false (Some (fst v)) (fst v) (t_conn n)) eq_refl) as D. cbn [t_st] in D.
    destruct (run c (commands E k (said v)) (t_st n)) as [(s' & o)|w]; cbn [bind].
    + destruct D as (n' & -> & A & _). cbn [bind net_step].
      set (n2 := mkNet _ _ _ _ _). specialize (IH last lq HS HN j (k + lenN (said v)) (mkConn (fst v) []) n2).
      rewrite <- A. change (t_st n') with (t_st n2). rewrite <- IH; [|cbn [length app] in Hf; lia|reflexivity].
      destruct (tcp_main _ _ _ _ _ _ _ _) as [(n3 & o3)|w]; reflexivity.
    + rewrite D. reflexivity.
Qed.

Lemma visits_thm : forall c blen E vs qs n, blen < 65536 -> Forall2 (finished blen (c_ctobuf c)) vs qs -> t_tl n = false ->
  seen (tcp_serve c blen E qs n) = visits c E 0 vs (t_st n) /\
  forall v q r, open_end blen (c_ctobuf c) v q -> seen (tcp_serve c blen E (qs ++ q :: r) n) = visits c E 0 (vs ++ [v]) (t_st n).
Proof.
  intros c blen E vs qs n B F Ht. split; [|intros v q r Hq]; unfold tcp_serve.
  - pose proof (main_finished c blen E B vs qs F None [] ltac:(discriminate) ltac:(reflexivity) (tcp_fuel qs) 0 (mkConn 0 []) n ltac:(unfold tcp_fuel; lia) Ht) as H.
    now rewrite !app_nil_r in H.
  - refine (main_finished c blen E B vs qs F (Some v) (q :: r) _ _ (tcp_fuel (qs ++ q :: r)) 0 (mkConn 0 []) n _ Ht);
      [intros w [= <-]; eauto|discriminate|unfold tcp_fuel; rewrite app_length; lia].
Qed.

(** ** The streams to the peers *)
Lemma visits_app : forall c E vs ws k s s' o, visits c E k (vs ++ ws) s = Ok (s', o) ->
  exists s1 o1 o2, visits c E k vs s = Ok (s1, o1) /\ visits c E (k + lenN (concat (map said vs))) ws s1 = Ok (s', o2) /\ o = o1 ++ o2.
Proof.
  intros c E vs ws. induction vs as [|v vs IH]; intros k s s' o H.
  - exists s, [], o. cbn [map concat app visits] in *. change (lenN []) with 0. rewrite N.add_0_r. auto.
  - cbn [app visits] in *. destruct (run c (commands E k (said v)) s) as [(s1 & o1)|w]; cbn [bind] in *; [|discriminate].
    destruct (visits c E (k + lenN (said v)) (vs ++ ws) s1) as [(s2 & o2)|w] eqn:V; cbn [bind] in *; [|discriminate]. injection H as <- <-.
    destruct (IH _ _ _ _ V) as (s3 & o3 & o4 & A & A' & ->). exists s3, (map (pair (fst v)) o1 ++ o3), o4. rewrite A. cbn [bind map concat]. split; [reflexivity|].
    rewrite lenN_app, N.add_assoc. split; [exact A'|now rewrite app_assoc].
Qed.
Lemma visits_to : forall c E vs k s s' o, visits c E k vs s = Ok (s', o) -> forall p, ~ In p (map fst vs) -> filter (fun x => fst x =? p) o = [].
Proof.
  intros c E vs. induction vs as [|v vs IH]; intros k s s' o H p Hp; [injection H as <- <-; reflexivity|].
  cbn [visits] in H. destruct (run c (commands E k (said v)) s) as [(s1 & o1)|w]; cbn [bind] in *; [|discriminate].
  destruct (visits c E (k + lenN (said v)) vs s1) as [(s2 & o2)|w] eqn:V; cbn [bind] in *; [|discriminate]. injection H as <- <-.
  cbn [map] in Hp. rewrite filter_app, (IH _ _ _ _ V p) by (intro; apply Hp; now right). rewrite app_nil_r.
  clear - Hp. induction o1 as [|x o IH]; [reflexivity|]. cbn [map filter fst]. destruct (N.eqb_spec (fst v) p) as [Eq|]; [exfalso; apply Hp; left; exact Eq|exact IH].
Qed.
Lemma filter_own : forall (p : N) (o : list pkt), filter (fun x => fst x =? p) (map (pair p) o) = map (pair p) o.
Proof. intros p o. induction o as [|x o IH]; [reflexivity|]. cbn [map filter fst]. now rewrite N.eqb_refl, IH. Qed.
Lemma commands_wf : forall c E fs k, (forall k, wf_env c (E k)) -> Forall bytes fs -> wf_run c (commands E k fs) /\ no_init (commands E k fs).
Proof.
  intros c E fs. induction fs as [|f fs IH]; intros k He Hf; [split; constructor|]. inversion Hf as [|? ? Hb Hf']; subst. destruct (IH (k + 1) He Hf') as (A & B).
  split; cbn [commands]; constructor; auto; [split; [apply He|exact Hb]|discriminate].
Qed.
Lemma visits_reach : forall c m E vs, (forall k, wf_env c (E k)) -> Forall (fun v => Forall bytes (said v)) vs -> forall k l s o s' o',
  reachable c m l s o -> visits c E k vs s = Ok (s', o') -> exists l' o2, reachable c m l' s' o2.
Proof.
  intros c m E vs He. induction vs as [|v vs IH]; intros Hv k l s o s' o' R H; [injection H as <- <-; eauto|].
  inversion Hv as [|? ? Hb Hv']; subst. cbn [visits] in H. destruct (run c (commands E k (said v)) s) as [(s1 & o1)|w] eqn:Er; cbn [bind] in *; [|discriminate].
  destruct (visits c E (k + lenN (said v)) vs s1) as [(s2 & o2)|w] eqn:V; cbn [bind] in *; [|discriminate]. injection H as <- <-.
  eapply (IH Hv'); [|exact V]. eapply reach_app; eauto. now apply commands_wf.
Qed.
Lemma decodes_thm : forall c m l s o E vs s' o', reachable c m l s o -> (forall k, wf_env c (E k)) -> Forall (fun v => Forall bytes (said v)) vs ->
  c_len_size c <> 0 -> NoDup (map fst vs) -> visits c E 0 vs s = Ok (s', o') ->
  forall vs1 v vs2, vs = vs1 ++ v :: vs2 ->
  exists s1 s2 ov, let mine := filter (fun x => fst x =? fst v) o' in
    run c (commands E (lenN (concat (map said vs1))) (said v)) s1 = Ok (s2, ov) /\ map snd mine = ov /\
    decode c (length ov) (bytes_to (fst v) o') = Some (numbered c (s_ctr s1) ov).
Proof.
  intros c m l s o E vs s' o' R He Hb Hl Nd H vs1 v vs2 ->. destruct (visits_app c E vs1 (v :: vs2) 0 s s' o' H) as (s1 & o1 & o2 & V1 & V2 & ->).
  apply Forall_app in Hb. destruct Hb as (Hb1 & Hb2). inversion Hb2 as [|? ? Hbv _]; subst.
  destruct (visits_reach c m E vs1 He Hb1 0 l s o s1 o1 R V1) as (l1 & o3 & R1).
  cbn [visits] in V2. rewrite N.add_0_l in V2. destruct (run c (commands E (lenN (concat (map said vs1))) (said v)) s1) as [(s2 & ov)|w] eqn:Er; cbn [bind] in *; [|discriminate].
  destruct (visits c E _ vs2 s2) as [(s3 & o4)|w] eqn:V3; cbn [bind] in *; [|discriminate]. injection V2 as <- <-.
  rewrite map_app in Nd. cbn [map] in Nd. apply NoDup_remove_2 in Nd. rewrite in_app_iff in Nd.
  assert (M : filter (fun x => fst x =? fst v) (o1 ++ map (pair (fst v)) ov ++ o4) = map (pair (fst v)) ov).
  { rewrite !filter_app, filter_own. rewrite (visits_to _ _ _ _ _ _ _ V1) by tauto. rewrite (visits_to _ _ _ _ _ _ _ V3) by tauto. now rewrite app_nil_r. }
  exists s1, s2, ov. cbv zeta. split; [exact Er|]. unfold bytes_to. rewrite M. split; [now rewrite map_map, map_id|].
  rewrite map_map. destruct (commands_wf c E (said v) (lenN (concat (map said vs1))) He Hbv) as (W & Ni). exact (stream_thm c m l1 s1 o3 _ s2 ov R1 W Ni Er Hl).
Qed.

(** ** Who has a session *)
Lemma hd_padded : forall c x l, exists r, padded c (x :: l) = x :: r.
Proof. intros. unfold padded. destruct (c_max_dlc c); cbn [app]; eauto. Qed.
Lemma answered_padded : forall c o l, sends o (padded c l) -> forall bs, lenN bs <= lenN l -> answered bs o = starts bs l.
Proof.
  intros c o l (p & -> & _ & H) bs L. unfold answered. rewrite H. clear H. unfold padded. destruct (c_max_dlc c); [|reflexivity].
  generalize (repeat 0 (8 - length l)). intros r. revert l L. induction bs as [|b bs IH]; intros l L; [reflexivity|].
  destruct l as [|x l]; [rewrite lenN_cons in L; change (lenN []) with 0 in L; lia|]. cbn [app starts]. rewrite IH; [reflexivity|]. rewrite !lenN_cons in L. lia.
Qed.
Lemma gb_rx : forall s k t, gb (rxbuf s (k :: t)) 0 = k.
Proof. reflexivity. Qed.
Lemma tl_step : forall c m l s o e f b s1 o1, reachable c m l s o -> dlc_ok c -> step c e (ORecv f) s = Ok (s1, o1) ->
  (if saves s f then true else if negb (lenN f =? 0) && releases c e s (splice (s_in s) 0 f) then false else b) = held_after f o1 b.
Proof.
  intros c m l s o e f b s1 o1 R D H. destruct f as [|k t].
  { cbn [saves]. reflexivity. }
  replace (negb (lenN (k :: t) =? 0)) with true by (rewrite lenN_cons; lia). cbn [andb].
  assert (L : lenN (k :: t) <= c_ctobuf c).
  { cbn [step] in H. unfold receive in H. destruct (lenN (k :: t) =? 0) eqn:Z; [rewrite lenN_cons in Z; lia|]. destruct (N.ltb_spec (c_ctobuf c) (lenN (k :: t))); [discriminate|lia]. }
  pose proof (reach_inv _ _ _ _ _ R) as I. pose proof (proj1 R) as W.
  rewrite rxbuf_splice. cbn [saves]. unfold held_after, releases. rewrite gb_rx. cbn [starts]. rewrite !andb_true_r, !(N.eqb_sym _ k).
  destruct (N.eqb_spec k 0xFF) as [->|K1].
  { change (0xFF =? 0xFE) with false. change (0xFF =? 0xF7) with false. cbn [andb orb]. rewrite andb_false_r.
    destruct (s_conn s && s_busy s) eqn:CB; cbn [negb].
    - apply andb_prop in CB. destruct CB as (C & B). destruct (busy_frame c e (0xFF :: t) s W D I C B ltac:(discriminate) L) as (s' & o' & H' & A & _).
      rewrite H' in H. injection H as <- <-. rewrite (answered_padded c _ _ A) by (vm_compute; discriminate). reflexivity.
    - destruct (connect_Ok c e (0xFF :: t) s W D I CB eq_refl L) as (s' & o' & H' & (p & -> & _ & A) & _). rewrite H' in H. injection H as <- <-.
      cbn [answered]. rewrite A. reflexivity. }
  cbn [andb]. destruct (s_conn s) eqn:C; cbn [andb].
  2:{ assert (o1 = []) as ->. { cbn [step] in H. rewrite receive_val in H by auto. rewrite C in H. destruct (N.eqb_spec k 0xFF); [congruence|]. congruence. }
      cbn [answered]. now rewrite !andb_false_r. }
  destruct (s_busy s) eqn:B; cbn [negb andb].
  { destruct (busy_frame c e (k :: t) s W D I C B ltac:(discriminate) L) as (s' & o' & H' & A & _).
    rewrite H' in H. injection H as <- <-. rewrite !(answered_padded c _ _ A) by (vm_compute; discriminate). cbn. now rewrite !andb_false_r. }
  assert (Rd : ready s) by (split; assumption).
  destruct (N.eqb_spec k 0xFE) as [->|K2].
  { change (0xFE =? 0xF7) with false. cbn [andb orb]. rewrite orb_false_r, andb_true_r.
    destruct (c_pgm c && _) eqn:P; cbn [negb].
    - apply andb_prop in P. destruct P as (P1 & P2). assert (Pg : programming s) by (unfold programming; destruct (s_pgm s); congruence).
      assert (E : step c e (ORecv (0xFE :: t)) s = h_disconnect c e (rx c (0xFE :: t) s)) by (apply (exec_val c m l s o); auto; tbl).
      rewrite E in H. unfold h_disconnect in H. rewrite pgm_idle_yes in H by auto.
      destruct (res_err_ans c 0x12 (rx c (0xFE :: t) s) s W D (rx_out _ _ _ _ _ _ R) ltac:(lia) (ss_rx _ _ _)) as (s2 & o2 & H2 & A & _).
      rewrite H2 in H. injection H as <- <-. rewrite (answered_padded c _ _ A) by (vm_compute; discriminate). reflexivity.
    - assert (Pg : ~ programming s). { intros Q. rewrite (reach_pgm _ _ _ _ _ R Q) in P. unfold programming in Q. rewrite Q in P. discriminate. }
      destruct (disconnect_thm c m l s o e (0xFE :: t) R D Rd Pg eq_refl L) as (s2 & o2 & H2 & A & _).
      rewrite H2 in H. injection H as <- <-. rewrite (answered_padded c _ _ A) by (vm_compute; discriminate). reflexivity. }
  cbn [andb orb]. destruct (N.eqb_spec k 0xF7) as [->|K3]; [|now rewrite andb_false_r].
  cbn [andb]. destruct (c_opt c 0xF7) eqn:Op.
  2:{ assert (Im : implemented c 0xF7 = false) by (unfold implemented; cbn; now rewrite Op).
      destruct (unknown_frame c e 0xF7 t s W D I C B ltac:(lia) Im L) as (s2 & o2 & H2 & A & _).
      rewrite H2 in H. injection H as <- <-. rewrite (answered_padded c _ _ A) by (vm_compute; discriminate). cbn. now rewrite andb_false_r. }
  cbn [andb]. destruct (c_pgm c && _) eqn:P; cbn [negb andb].
  { apply andb_prop in P. destruct P as (P1 & P2). assert (Pg : programming s) by (unfold programming; destruct (s_pgm s); congruence).
    assert (E : step c e (ORecv (0xF7 :: t)) s = h_unlock c e (rx c (0xF7 :: t) s)) by (apply (exec_val c m l s o); auto; tbl).
    rewrite E in H. unfold h_unlock in H. rewrite pgm_idle_yes in H by auto.
    destruct (res_err_ans c 0x12 (rx c (0xF7 :: t) s) s W D (rx_out _ _ _ _ _ _ R) ltac:(lia) (ss_rx _ _ _)) as (s2 & o2 & H2 & A & _).
    rewrite H2 in H. injection H as <- <-. rewrite (answered_padded c _ _ A) by (vm_compute; discriminate). reflexivity. }
  assert (Pg : ~ programming s). { intros Q. rewrite (reach_pgm _ _ _ _ _ R Q) in P. unfold programming in Q. rewrite Q in P. discriminate. }
  destruct (N.eqb_spec (s_seed s) 0) as [S0|S0]; cbn [negb andb].
  { assert (E : step c e (ORecv (0xF7 :: t)) s = h_unlock c e (rx c (0xF7 :: t) s)) by (apply (exec_val c m l s o); auto; tbl).
    rewrite E in H. unfold h_unlock in H. rewrite pgm_idle_no in H by exact Pg. change (s_seed (rx c (0xF7 :: t) s)) with (s_seed s) in H. rewrite S0 in H. change (0 =? 0) with true in H. cbv iota in H.
    destruct (err_ans c 0x29 (rx c (0xF7 :: t) s) s W D (rx_out _ _ _ _ _ _ R) ltac:(lia) (ss_rx _ _ _)) as (s2 & o2 & H2 & A & _).
    rewrite H2 in H. injection H as <- <-. rewrite (answered_padded c _ _ A) by (vm_compute; discriminate). reflexivity. }
  destruct (e_unlock e (s_seed s) (gb (rxbuf s (0xF7 :: t)) 1) (dropN 2 (rxbuf s (0xF7 :: t)))) eqn:U; cbn [negb].
  - destruct (unlock_thm c m l s o e t R D Rd Op Pg L S0 U) as (v & _ & s2 & o2 & H2 & A & _).
    rewrite H2 in H. injection H as <- <-. rewrite (answered_padded c _ _ A) by (vm_compute; discriminate). reflexivity.
  - destruct (rejected_thm c m l s o e (0xF7 :: t) R D Rd Op Pg eq_refl L S0) as (s2 & o2 & H2 & A & _).
    { unfold key_accepted. change (skipn 2) with (@dropN N 2). intro Q. unfold gb in U. change (N.to_nat 1) with 1%nat in U. congruence. }
    rewrite H2 in H. injection H as <- <-. rewrite (answered_padded c _ _ A) by (vm_compute; discriminate). reflexivity.
Qed.

Lemma deliver_held : forall c m E p fs k n l o n' on, reachable c m l (t_st n) o -> dlc_ok c -> (forall k, wf_env c (E k)) -> Forall bytes fs ->
  deliver c E k p fs n = Ok (n', on) -> t_tl n' = held c E k fs (t_tl n) (t_st n).
Proof.
  intros c m E p fs. induction fs as [|f fs IH]; intros k n l o n' on R D He Hb H; [injection H as <- <-; reflexivity|].
  inversion Hb as [|? ? Hf Hb']; subst. cbn [deliver net_step] in H. cbn [held step].
  destruct (receive c (E k) f (t_st n)) as [(s1 & o1)|w] eqn:Er; cbn [bind] in *; [|discriminate].
  set (n2 := if saves (t_st n) f then _ else _) in H. set (n1 := mkNet _ _ _ _ _) in H.
  destruct (deliver c E (k + 1) p fs n1) as [(n3 & o3)|w] eqn:Ed; cbn [bind] in *; [|discriminate]. injection H as <- <-.
  assert (R1 : reachable c m (l ++ [(E k, ORecv f)]) s1 (o ++ o1)) by (eapply reach_step; eauto; split; auto; apply He).
  rewrite (IH _ n1 _ _ _ _ R1 D He Hb' Ed). change (t_st n1) with s1. f_equal.
  rewrite <- (tl_step c m l (t_st n) o (E k) f (t_tl n) s1 o1 R D Er). unfold n1, n2. destruct (saves _ _); [reflexivity|]. destruct (_ && releases _ _ _ _); reflexivity.
Qed.

(** ** Frames up to an empty one *)
Lemma rx_empty : forall fs e0 y cs fuel rx tl blen cbuf, blen < 65536 -> lenN rx = blen -> Forall (sendable blen cbuf) fs -> empty e0 -> y <> [] -> portions cs ->
  concat cs = wires (fs ++ [e0]) ++ y -> headers_whole (fs ++ [e0]) cs -> (S (weight (map Data cs ++ tl)) <= fuel)%nat ->
  exists ds, rx_loop fuel false cbuf rx (map Data cs ++ tl) = Ok (map f_data fs, EmptyData, map Data ds ++ tl) /\ portions ds /\ concat ds = y /\
    (forall gs, y = wires gs -> headers_whole (fs ++ e0 :: gs) cs -> headers_whole gs ds).
Proof.
  induction fs as [|f fs IH]; intros e0 y cs fuel rx tl blen cbuf B R S E0 Y P E W F; (destruct fuel as [|fuel]; [lia|]).
  - cbn [app] in *. destruct cs as [|c cs]; [cbn in E; discriminate|]. inversion P as [|? ? C P']; subst.
    assert (L : lenN (wire e0) <= lenN (concat (c :: cs))).
    { rewrite E. unfold wires. cbn [map concat]. rewrite !lenN_app. lia. }
    assert (LC : 4 <= lenN c).
    { apply lenN_pos in C. specialize (W [] e0 [] [c] cs eq_refl eq_refl). cbv zeta in W. cbn [wires map concat] in W.
      rewrite app_nil_r in W. change (lenN []) with 0 in W. lia. }
    assert (HD : N.lor (N.shiftl (nth 1 c 0) 8) (nth 0 c 0) = 0).
    { destruct c as [|c0 [|c1 c]]; try (cbn in LC; lia). unfold wires in E. cbn [map concat wire app] in E. rewrite E0 in E. injection E as E1 E2 _.
      cbn [nth]. rewrite E1, E2. reflexivity. }
    cbn [rx_loop]. rewrite (header_ok c cs _ tl LC P'). rewrite HD. cbn [bind].
    assert (D4 : concat (adv 4 (c :: cs)) = y).
    { rewrite adv_concat, E. unfold wires. cbn [map concat]. unfold wire. rewrite E0. reflexivity. }
    exists (adv 4 (c :: cs)). split; [|split; [now apply adv_portions|split; [exact D4|]]].
    + destruct (adv 4 (c :: cs)) as [|d ds]; [cbn in D4; congruence|]. reflexivity.
    + intros gs G W'. pose proof (whole_next e0 gs (c :: cs) W' L P) as X. rewrite E0 in X. change (lenN []) with 0 in X. rewrite adv_0 in X by now apply adv_portions. exact X.
  - destruct cs as [|c cs]; [cbn in E; discriminate|]. inversion P as [|? ? C P']; subst. inversion S as [|? ? [S1 [S2 S3]] S']; subst.
    assert (L : lenN (wire f) <= lenN (concat (c :: cs))).
    { rewrite E. unfold wires. cbn [app map concat]. rewrite !lenN_app. lia. }
    assert (LC : 4 <= lenN c).
    { apply lenN_pos in C. specialize (W [] f (fs ++ [e0]) [c] cs eq_refl eq_refl). cbv zeta in W. cbn [wires map concat] in W.
      rewrite app_nil_r in W. change (lenN []) with 0 in W. lia. }
    assert (HD : N.lor (N.shiftl (nth 1 c 0) 8) (nth 0 c 0) = lenN (f_data f)).
    { destruct c as [|c0 [|c1 c]]; try (cbn in LC; lia). unfold wires in E. cbn [map concat wire app] in E. injection E as E1 E2 _.
      cbn [nth]. rewrite E1, E2. rewrite lor_word' by (apply N.mod_lt; lia). lia. }
    cbn [rx_loop]. rewrite (header_ok c cs _ tl LC P'). rewrite HD. cbn [bind].
    assert (D4 : concat (adv 4 (c :: cs)) = f_data f ++ wires (fs ++ [e0]) ++ y).
    { rewrite adv_concat, E. unfold wires. cbn [app map concat]. fold (wires (fs ++ [e0])). unfold wire. rewrite <- !app_assoc. reflexivity. }
    rewrite read_data_ok; auto; try lia.
    2:{ apply adv_portions. assumption. }
    2:{ rewrite D4, lenN_app. lia. }
    cbn [bind]. replace (cbuf <? lenN (f_data f)) with false by lia.
    rewrite D4, take_app.
    destruct (IH e0 y (adv (lenN (f_data f)) (adv 4 (c :: cs))) fuel (splice rx 0 (f_data f)) tl (lenN rx) cbuf B) as (ds & X1 & X2 & X3 & X4); auto.
    + apply lenN_splice. lia.
    + apply adv_portions, adv_portions. assumption.
    + rewrite adv_concat, D4. apply drop_app.
    + apply whole_next; assumption.
    + rewrite ProofsSxi.lenN_wire in L.
      pose proof (weight_adv (c :: cs) 4 tl ltac:(lia) P) as W1.
      pose proof (weight_adv (adv 4 (c :: cs)) (lenN (f_data f)) tl ltac:(rewrite D4, lenN_app; lia) (adv_portions _ _ P)) as W2. lia.
    + exists ds. rewrite X1. cbn [bind map]. rewrite take_splice0. split; [reflexivity|]. split; [exact X2|]. split; [exact X3|].
      intros gs G W'. apply X4; auto. apply whole_next; auto.
Qed.

Lemma commands_app : forall E fs gs k, commands E k (fs ++ gs) = commands E k fs ++ commands E (k + lenN fs) gs.
Proof.
  intros E fs. induction fs as [|f fs IH]; intros gs k; cbn [app commands].
  - change (lenN []) with 0. now rewrite N.add_0_r.
  - rewrite IH, lenN_cons. do 3 f_equal. lia.
Qed.

Lemma run_both : forall c l1 l2 s, run c (l1 ++ l2) s = andthen (run c l1 s) (run c l2).
Proof.
  intros c. induction l1 as [|[e x] l1 IH]; intros l2 s.
  - cbn [app run]. unfold andthen. cbn [bind]. destruct (run c l2 s) as [(s2 & o2)|w]; reflexivity.
  - cbn [app run]. unfold andthen in *. destruct (step c e x s) as [(s1 & o1)|w]; cbn [bind]; [|reflexivity]. rewrite IH.
    destruct (run c l1 s1) as [(s2 & o2)|w]; cbn [bind]; [|reflexivity]. destruct (run c l2 s2) as [(s3 & o3)|w]; cbn [bind]; [|reflexivity]. now rewrite app_assoc.
Qed.

Lemma abandoned_thm : forall c m l o E blen vs qs n p fs e0 y cs tl, reachable c m l (t_st n) o -> dlc_ok c -> (forall k, wf_env c (E k)) -> blen < 65536 ->
  Forall bytes (map f_data fs) -> Forall (sendable blen (c_ctobuf c)) fs -> empty e0 -> y <> [] -> portions cs ->
  concat cs = wires (fs ++ [e0]) ++ y -> headers_whole (fs ++ [e0]) cs -> Forall2 (finished blen (c_ctobuf c)) vs qs -> t_tl n = false ->
  held c E 0 (map f_data fs) false (t_st n) = false ->
  seen (tcp_serve c blen E (mkConn p (map Data cs ++ tl) :: qs) n) = visits c E 0 ((p, fs) :: vs) (t_st n).
Proof.
  intros c m l o E blen vs qs n p fs e0 y cs tl R D He B Hb Hs E0 Y P Ec W F Ht Hh.
  unfold tcp_serve, tcp_fuel. cbn [length map list_sum fold_right]. set (j := (S _ + _)%nat). assert (J : (length qs < j)%nat) by (unfold j; lia). clearbody j.
  cbn [tcp_main]. rewrite Ht. cbn [k_peer k_in]. rewrite accept_step by exact Ht. cbn [bind].
  unfold rx_handler.
  destruct (rx_empty fs e0 y cs (S (weight (map Data cs ++ tl))) (repeat 0 (N.to_nat blen)) tl blen (c_ctobuf c) B ltac:(rewrite lenN_repeat; lia) Hs E0 Y P Ec W ltac:(lia)) as (ds & X & _).
  rewrite X. cbn [bind visits said snd fst]. fold (said (p, fs)).
  pose proof (deliver_run c E p (said (p, fs)) 0 (mkNet (t_st n) false (Some p) p (t_conn n)) eq_refl) as Q. cbn [t_st] in Q.
  unfold said in *. cbn [snd] in *.
  destruct (run c (commands E 0 (map f_data fs)) (t_st n)) as [(s' & o')|w]; cbn [bind].
  - destruct Q as (n' & Q & A & _). pose proof (deliver_held c m E p (map f_data fs) 0 (mkNet (t_st n) false (Some p) p (t_conn n)) l o n' _ R D He Hb Q) as T.
    cbn [t_tl t_st] in T. rewrite Hh in T. rewrite Q. cbn [bind].
    pose proof (main_finished c blen E B vs qs F None [] ltac:(discriminate) ltac:(reflexivity) j (0 + lenN (map f_data fs)) (mkConn p (map Data ds ++ tl)) n' J T) as M.
    rewrite !app_nil_r in M. rewrite A in M. rewrite <- M. destruct (tcp_main _ _ _ _ _ _ _ _) as [(n3 & o3)|w]; reflexivity.
  - rewrite Q. reflexivity.
Qed.

Lemma kept_thm : forall c m l o E blen vs qs n p fs e0 gs cs, reachable c m l (t_st n) o -> dlc_ok c -> (forall k, wf_env c (E k)) -> blen < 65536 ->
  Forall bytes (map f_data fs) -> Forall (sendable blen (c_ctobuf c)) (fs ++ gs) -> empty e0 -> gs <> [] -> portions cs ->
  concat cs = wires (fs ++ e0 :: gs) -> headers_whole (fs ++ e0 :: gs) cs -> Forall2 (finished blen (c_ctobuf c)) vs qs -> t_tl n = false ->
  held c E 0 (map f_data fs) false (t_st n) = true ->
  seen (tcp_serve c blen E (mkConn p (map Data cs ++ [Eof]) :: qs) n) = visits c E 0 ((p, fs ++ gs) :: vs) (t_st n).
Proof.
  intros c m l o E blen vs qs n p fs e0 gs cs R D He B Hb Hs E0 Y P Ec W F Ht Hh.
  unfold tcp_serve, tcp_fuel. cbn [length map list_sum fold_right k_in]. set (j := (S _ + _)%nat).
  assert (J : (S (length qs) < j)%nat).
  { unfold j. assert (0 < weight (map Data cs ++ [Eof]))%nat; [|lia]. destruct cs as [|x cs]; cbn; lia. }
  clearbody j. cbn [tcp_main]. rewrite Ht. cbn [k_peer k_in]. rewrite accept_step by exact Ht. cbn [bind].
  unfold rx_handler at 1.
  apply Forall_app in Hs. destruct Hs as (Hs1 & Hs2).
  assert (Ew : wires (fs ++ e0 :: gs) = wires (fs ++ [e0]) ++ wires gs).
  { unfold wires. rewrite !map_app, !concat_app. cbn [map concat]. rewrite app_nil_r, <- app_assoc. reflexivity. }
  assert (Yw : wires gs <> []). { destruct gs as [|g gs]; [congruence|]. unfold wires. cbn [map concat]. unfold wire. cbn [app]. discriminate. }
  assert (W1 : headers_whole (fs ++ [e0]) cs).
  { intros f1 g f2 c1 c2 Q1 Q2. apply (W f1 g (f2 ++ gs) c1 c2); auto. change (fs ++ e0 :: gs) with (fs ++ [e0] ++ gs). rewrite app_assoc, Q1, <- app_assoc. reflexivity. }
  destruct (rx_empty fs e0 (wires gs) cs (S (weight (map Data cs ++ [Eof]))) (repeat 0 (N.to_nat blen)) [Eof] blen (c_ctobuf c) B ltac:(rewrite lenN_repeat; lia) Hs1 E0 Yw P ltac:(congruence) W1 ltac:(lia)) as (ds & X & X2 & X3 & X4).
  specialize (X4 gs eq_refl W). rewrite X. cbn [bind visits fst]. unfold said. cbn [snd]. rewrite map_app, commands_app, run_both.
  pose proof (deliver_run c E p (map f_data fs) 0 (mkNet (t_st n) false (Some p) p (t_conn n)) eq_refl) as Q. cbn [t_st] in Q. unfold andthen.
  destruct (run c (commands E 0 (map f_data fs)) (t_st n)) as [(s' & o')|w]; cbn [bind].
  - destruct Q as (n' & Q & A & So). pose proof (deliver_held c m E p (map f_data fs) 0 (mkNet (t_st n) false (Some p) p (t_conn n)) l o n' _ R D He Hb Q) as T.
    cbn [t_tl t_st] in T. rewrite Hh in T. rewrite Q. cbn [bind]. destruct j as [|j]; [lia|]. cbn [tcp_main]. rewrite T. cbn [k_peer k_in].
    destruct (eth_frames blen (c_ctobuf c) gs ds B Hs2 X2 X3 X4) as (_ & R2). rewrite R2. cbn [bind].
    pose proof (deliver_run c E p (map f_data gs) (0 + lenN (map f_data fs)) n' So) as Q2. rewrite A in Q2.
    destruct (run c (commands E (0 + lenN (map f_data fs)) (map f_data gs)) s') as [(s2 & o2)|w]; cbn [bind].
    + destruct Q2 as (n2 & -> & A2 & _). cbn [bind net_step].
      set (n4 := mkNet _ _ _ _ _).
      pose proof (main_finished c blen E B vs qs F None [] ltac:(discriminate) ltac:(reflexivity) j (0 + lenN (map f_data fs) + lenN (map f_data gs)) (mkConn p []) n4 ltac:(lia) eq_refl) as M.
      rewrite !app_nil_r in M. change (t_st n4) with (t_st n2) in M. rewrite A2 in M. rewrite lenN_app, N.add_assoc. rewrite <- M.
      destruct (tcp_main _ _ _ _ _ _ _ _) as [(n3 & o3)|w]; [|reflexivity]. cbn [bind seen]. unfold seen. cbn [bind]. rewrite map_app, !app_assoc. reflexivity.
    + rewrite Q2. reflexivity.
  - rewrite Q. reflexivity.
Qed.

(** ** Short sends *)
Definition framed (c : cfg) (x : N * list N) : nat := (N.to_nat (c_len_size c) + N.to_nat (c_ctr_size c) + length (snd x))%nat.
Lemma take_le_len : forall n bs v t, take_le n bs = Some (v, t) -> length bs = (n + length t)%nat.
Proof.
  intros n bs v t H. unfold take_le in H. destruct (Nat.leb_spec n (length bs)) as [L|]; [|discriminate]. injection H as _ <-. rewrite skipn_length. lia.
Qed.
Lemma decode_len : forall c fuel bs r, decode c fuel bs = Some r -> length bs = list_sum (map (framed c) r).
Proof.
  intros c. induction fuel as [|k IH]; intros bs r H.
  - destruct bs; [injection H as <-; reflexivity|discriminate].
  - destruct bs as [|b bs]; [injection H as <-; reflexivity|]. cbn [decode] in H. set (l := b :: bs) in *. clearbody l.
    destruct (take_le (N.to_nat (c_len_size c)) l) as [(len & t)|] eqn:E1; [|discriminate]. destruct (take_le (N.to_nat (c_ctr_size c)) t) as [(ctr & t2)|] eqn:E2; [|discriminate].
    destruct (Nat.leb_spec (N.to_nat len) (length t2)) as [L|]; [|discriminate]. destruct (decode c k (skipn (N.to_nat len) t2)) as [r2|] eqn:E3; [|discriminate]. injection H as <-.
    apply take_le_len in E1, E2. apply IH in E3. rewrite skipn_length in E3. cbn [map list_sum fold_right]. unfold framed at 1. cbn [snd]. rewrite firstn_length_le by exact L.
    unfold list_sum in E3. lia.
Qed.
Lemma sent_len : forall o, (length (tcp_sent o) <= length (concat (map State.wire (map fst o))))%nat /\
  (length (tcp_sent o) = length (concat (map State.wire (map fst o))) -> forall x, In x o -> lenN (State.wire (fst x)) <= snd x).
Proof.
  induction o as [|x o (A & B)]; [split; [cbn; lia|intros _ x []]|]. unfold tcp_sent in *. cbn [map concat]. rewrite !app_length.
  assert (T : (length (takeN (snd x) (State.wire (fst x))) = Nat.min (N.to_nat (snd x)) (length (State.wire (fst x))))%nat) by apply firstn_length.
  split; [lia|]. intros H y [<-|Hy]; [|apply B; auto; lia]. unfold lenN. lia.
Qed.
Lemma sent_full : forall o, (forall x, In x o -> lenN (State.wire (fst x)) <= snd x) -> tcp_sent o = concat (map State.wire (map fst o)).
Proof.
  intros o H. unfold tcp_sent. rewrite map_map. f_equal. apply map_ext_in. intros x Hx. specialize (H x Hx). unfold takeN, lenN in *. apply firstn_all2. lia.
Qed.
Lemma short_thm : forall c m l s o l' s' (o' : list (pkt * N)), reachable c m l s o -> wf_run c l' -> no_init l' -> run c l' s = Ok (s', map fst o') -> c_len_size c <> 0 ->
  ((exists fuel, decode c fuel (tcp_sent o') = Some (numbered c (s_ctr s) (map fst o'))) <-> forall x, In x o' -> lenN (State.wire (fst x)) <= snd x).
Proof.
  intros c m l s o l' s' o' R W Ni H L. pose proof (stream_thm c m l s o l' s' _ R W Ni H L) as D. split.
  - intros (fuel & F). apply decode_len in F, D. apply sent_len. lia.
  - intros F. exists (length (map fst o')). now rewrite sent_full.
Qed.

(** ** Deciding hypotheses, for the examples *)
Fixpoint cuts (n : N) (cs : list (list N)) : list N := n :: match cs with [] => [] | x :: t => cuts (n + lenN x) t end.
Fixpoint marks (n : N) (fs : list sframe) : list N := match fs with [] => [] | f :: t => n :: marks (n + lenN (wire f)) t end.
Definition whole_b (fs : list sframe) (cs : list (list N)) : bool :=
  forallb (fun h => forallb (fun u => negb ((h <? u) && (u <? h + 4))) (cuts 0 cs)) (marks 0 fs).
Lemma in_cuts : forall c1 c2 n, In (n + lenN (concat c1)) (cuts n (c1 ++ c2)).
Proof.
  induction c1 as [|x c1 IH]; intros c2 n; cbn [app cuts concat].
  - change (lenN []) with 0. rewrite N.add_0_r. destruct c2; cbn; auto.
  - right. rewrite lenN_app, N.add_assoc. apply IH.
Qed.
Lemma in_marks : forall f1 g f2 n, In (n + lenN (wires f1)) (marks n (f1 ++ g :: f2)).
Proof.
  induction f1 as [|x f1 IH]; intros g f2 n; cbn [app marks].
  - left. cbn. lia.
  - right. unfold wires. cbn [map concat]. rewrite lenN_app, N.add_assoc. apply IH.
Qed.
Lemma whole_ok : forall fs cs, whole_b fs cs = true -> headers_whole fs cs.
Proof.
  intros fs cs H f1 g f2 c1 c2 -> ->. cbv zeta. unfold whole_b in H. rewrite forallb_forall in H. specialize (H _ (in_marks f1 g f2 0)).
  rewrite forallb_forall in H. specialize (H _ (in_cuts c1 c2 0)). lia.
Qed.
