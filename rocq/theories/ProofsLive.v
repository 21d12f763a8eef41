From Coq Require Import NArith ZArith List Bool Lia ZifyBool ZifyNat ZifyN.
From Verif Require Import Base Config Codec State Core Spec Lists SpecFrames Eth SpecSxi SpecEth ProofsEth Net Tcp SpecTcp ProofsTcp Live SpecLive.
Import ListNotations.
Open Scope N_scope.

(** ** Complete frames, and what follows *)
Lemma rx_prefix : forall fs y cs fuel rx tl blen cbuf, blen < 65536 -> lenN rx = blen -> Forall (sendable blen cbuf) fs -> portions cs ->
  concat cs = wires fs ++ y -> headers_whole fs cs -> (S (weight (map Data cs ++ tl)) <= fuel)%nat ->
  exists ds rx1 fuel1, lenN rx1 = blen /\ (S (weight (map Data ds ++ tl)) <= fuel1)%nat /\ portions ds /\ concat ds = y /\
    (forall g, headers_whole (fs ++ [g]) cs -> headers_whole [g] ds) /\
    rx_loop fuel false cbuf rx (map Data cs ++ tl) =
      ('(more, e, r) <- rx_loop fuel1 false cbuf rx1 (map Data ds ++ tl) ;; Ok (map f_data fs ++ more, e, r)).
Proof.
  induction fs as [|f fs IH]; intros y cs fuel rx tl blen cbuf B R S P E W F.
  { exists cs, rx, fuel. repeat split; auto. destruct (rx_loop _ _ _ _ _) as [((a & b) & d)|]; reflexivity. }
  destruct fuel as [|fuel]; [lia|].
  destruct cs as [|c cs]; [cbn in E; discriminate|]. inversion P as [|? ? C P']; subst. inversion S as [|? ? [S1 [S2 S3]] S']; subst.
  assert (L : lenN (wire f) <= lenN (concat (c :: cs))).
  { rewrite E. unfold wires. cbn [map concat]. rewrite !lenN_app. lia. }
  assert (LC : 4 <= lenN c).
  { apply lenN_pos in C. specialize (W [] f fs [c] cs eq_refl eq_refl). cbv zeta in W. cbn [wires map concat] in W.
    rewrite app_nil_r in W. change (lenN []) with 0 in W. lia. }
  assert (HD : N.lor (N.shiftl (nth 1 c 0) 8) (nth 0 c 0) = lenN (f_data f)).
  { destruct c as [|c0 [|c1 c]]; try (cbn in LC; lia). unfold wires in E. cbn [map concat wire app] in E. injection E as E1 E2 _.
    cbn [nth]. rewrite E1, E2. rewrite lor_word' by (apply N.mod_lt; lia). lia. }
  cbn [rx_loop]. rewrite (header_ok c cs _ tl LC P'). rewrite HD. cbn [bind].
  assert (D4 : concat (adv 4 (c :: cs)) = f_data f ++ wires fs ++ y).
  { rewrite adv_concat, E. unfold wires. cbn [map concat]. fold (wires fs). unfold wire. rewrite <- !app_assoc. reflexivity. }
  rewrite read_data_ok; auto; try lia.
  2:{ apply adv_portions. assumption. }
  2:{ rewrite D4, lenN_app. lia. }
  cbn [bind]. replace (cbuf <? lenN (f_data f)) with false by lia.
  rewrite D4, take_app.
  destruct (IH y (adv (lenN (f_data f)) (adv 4 (c :: cs))) fuel (splice rx 0 (f_data f)) tl (lenN rx) cbuf B) as (ds & rx1 & fuel1 & X1 & X2 & X3 & X4 & X5 & X6); auto.
  + apply lenN_splice. lia.
  + apply adv_portions, adv_portions. assumption.
  + rewrite adv_concat, D4. apply drop_app.
  + apply whole_next; assumption.
  + rewrite ProofsSxi.lenN_wire in L.
    pose proof (weight_adv (c :: cs) 4 tl ltac:(lia) P) as W1.
    pose proof (weight_adv (adv 4 (c :: cs)) (lenN (f_data f)) tl ltac:(rewrite D4, lenN_app; lia) (adv_portions _ _ P)) as W2. lia.
  + exists ds, rx1, fuel1. repeat split; auto.
    * intros g Wg. apply X5. apply whole_next; auto.
    * rewrite X6. destruct (rx_loop fuel1 _ _ _ _) as [((a & b) & d)|]; cbn [bind map app]; [|reflexivity]. rewrite take_splice0. reflexivity.
Qed.

(** Data that ends early. *)
Lemma data_short : forall cs fuel buf m off tl, portions cs -> lenN (concat cs) < m -> off + m <= lenN buf -> off + m < 65536 ->
  (S (weight (map Data cs ++ Eof :: tl)) <= fuel)%nat ->
  exists buf1, read_data fuel false buf m off (map Data cs ++ Eof :: tl) = Ok (Zero, buf1, tl).
Proof.
  induction cs as [|c t IH]; intros fuel buf m off tl P M B O F; (destruct fuel as [|fuel]; [lia|]).
  - cbn [map app read_data recv]. eauto.
  - inversion P as [|? ? C P']; subst. apply lenN_pos in C. cbn [concat] in M. rewrite lenN_app in M. cbn [map app weight] in F.
    cbn [read_data map app recv]. replace (m =? 0) with false by lia. replace (lenN c =? 0) with false by lia.
    cbn [orb]. unfold store. rewrite lenN_take. replace (lenN buf <? off + N.min m (lenN c)) with false by lia. cbn [bind].
    replace (lenN c <=? m) with true by lia. replace (N.min m (lenN c)) with (lenN c) by lia. rewrite take_all by lia.
    replace (u16 (m + (65536 - lenN c))) with (m - lenN c) by (unfold u16; lia).
    replace (m - lenN c =? 0) with false by lia. replace (u16 (off + lenN c)) with (off + lenN c) by (unfold u16; lia).
    apply IH; auto; try lia. rewrite lenN_splice by lia. lia.
Qed.

(** Ending of one call of XcpTl_RxHandler. *)
Lemma rx_reset : forall blen cbuf fs cs, blen < 65536 -> Forall (sendable blen cbuf) fs -> portions cs -> concat cs = wires fs -> headers_whole fs cs ->
  rx_handler false blen cbuf (map Data cs ++ [Failed; Eof]) = Ok (map f_data fs, Released, []).
Proof.
  intros blen cbuf fs cs B S P E W. unfold rx_handler.
  destruct (rx_prefix fs [] cs (Datatypes.S (weight (map Data cs ++ [Failed; Eof]))) (repeat 0 (N.to_nat blen)) [Failed; Eof] blen cbuf B ltac:(rewrite lenN_repeat; lia) S P ltac:(now rewrite app_nil_r) W ltac:(lia))
    as (ds & rx1 & k & X1 & X2 & X3 & X4 & _ & ->).
  destruct ds as [|d ds]; [|exfalso; cbn in X4; apply app_eq_nil in X4; destruct X4; inversion X3; contradiction].
  destruct k as [|k]; [lia|]. cbn [map app]. 
  change (rx_loop (Datatypes.S k) false cbuf rx1 [Failed; Eof]) with (Ok (@nil (list N), Released, @nil piece)). cbn [bind]. now rewrite app_nil_r.
Qed.
Lemma rx_header : forall blen cbuf fs y cs, blen < 65536 -> Forall (sendable blen cbuf) fs -> portions cs -> concat cs = wires fs ++ y -> lenN y < 4 -> headers_whole fs cs ->
  rx_handler false blen cbuf (map Data cs ++ [Eof]) = Ok (map f_data fs, Released, []).
Proof.
  intros blen cbuf fs y cs B S P E Y W. unfold rx_handler.
  destruct (rx_prefix fs y cs (Datatypes.S (weight (map Data cs ++ [Eof]))) (repeat 0 (N.to_nat blen)) [Eof] blen cbuf B ltac:(rewrite lenN_repeat; lia) S P E W ltac:(lia))
    as (ds & rx1 & k & X1 & X2 & X3 & X4 & _ & ->).
  destruct k as [|k]; [lia|]. cbn [rx_loop]. rewrite header_pieces by (auto; try lia; try reflexivity; rewrite X4; exact Y).
  cbn [weight read_header recv bind]. now rewrite app_nil_r.
Qed.
Lemma rx_data : forall blen cbuf fs g j cs, blen < 65536 -> Forall (sendable blen cbuf) fs -> sendable blen cbuf g -> 4 <= j -> j < lenN (wire g) -> portions cs ->
  concat cs = wires fs ++ takeN j (wire g) -> headers_whole (fs ++ [g]) cs ->
  rx_handler false blen cbuf (map Data cs ++ [Eof; Eof]) = Ok (map f_data fs, EmptyData, [Eof]).
Proof.
  intros blen cbuf fs g j cs B S G J1 J2 P E W. unfold rx_handler.
  assert (W1 : headers_whole fs cs).
  { intros f1 h f2 c1 c2 Q1 Q2. apply (W f1 h (f2 ++ [g]) c1 c2); auto. rewrite Q1, <- app_assoc. reflexivity. }
  destruct (rx_prefix fs (takeN j (wire g)) cs (Datatypes.S (weight (map Data cs ++ [Eof; Eof]))) (repeat 0 (N.to_nat blen)) [Eof; Eof] blen cbuf B ltac:(rewrite lenN_repeat; lia) S P E W1 ltac:(lia))
    as (ds & rx1 & k & X1 & X2 & X3 & X4 & X5 & ->). specialize (X5 g W).
  assert (Lj : lenN (concat ds) = j) by (rewrite X4, lenN_take; lia).
  destruct ds as [|d ds]; [cbn in Lj; lia|]. inversion X3 as [|? ? D D']; subst.
  assert (LD : 4 <= lenN d).
  { apply lenN_pos in D. specialize (X5 [] g [] [d] ds eq_refl eq_refl). cbv zeta in X5. cbn [wires map concat] in X5.
    rewrite app_nil_r in X5. change (lenN []) with 0 in X5. lia. }
  destruct G as (G1 & G2 & G3).
  assert (HD : N.lor (N.shiftl (nth 1 d 0) 8) (nth 0 d 0) = lenN (f_data g)).
  { assert (T : takeN 2 (concat (d :: ds)) = takeN 2 (wire g)).
    { rewrite X4. unfold takeN. rewrite firstn_firstn. f_equal. lia. }
    destruct d as [|c0 [|c1 d]]; try (cbn in LD; lia). cbn [concat app] in T.
    change (takeN 2 (c0 :: c1 :: d ++ concat ds)) with [c0; c1] in T. unfold wire in T. cbn [app] in T.
    match type of T with _ = takeN 2 (?a :: ?b :: ?r) => change (takeN 2 (a :: b :: r)) with [a; b] in T end. injection T as E1 E2.
    cbn [nth]. rewrite E1, E2. rewrite lor_word' by (apply N.mod_lt; lia). lia. }
  destruct k as [|k]; [lia|]. cbn [rx_loop]. rewrite (header_ok d ds _ [Eof; Eof] LD D'). rewrite HD. cbn [bind].
  assert (L4 : lenN (concat (adv 4 (d :: ds))) < lenN (f_data g)).
  { rewrite adv_concat, lenN_drop. rewrite ProofsSxi.lenN_wire in J2. lia. }
  destruct (data_short (adv 4 (d :: ds)) (Datatypes.S (weight (map Data (adv 4 (d :: ds)) ++ [Eof; Eof]))) rx1 (lenN (f_data g)) 0 [Eof] (adv_portions _ _ X3) L4 ltac:(lia) ltac:(lia) ltac:(lia)) as (b1 & ->).
  cbn [bind]. now rewrite app_nil_r.
Qed.

(** ** The main loop *)
Lemma main_leaves : forall c blen E, blen < 65536 -> forall vs qs, Forall2 (leaves blen (c_ctobuf c)) vs qs ->
  forall last lq, (forall v, last = Some v -> exists q r, lq = q :: r /\ open_end blen (c_ctobuf c) v q) -> (last = None -> lq = []) ->
  forall fuel k cur n, (2 * length qs < fuel)%nat -> t_tl n = false ->
  seen (tcp_main fuel c blen E k cur (qs ++ lq) n) = visits c E k (vs ++ match last with Some v => [v] | None => [] end) (t_st n).
Proof.
  intros c blen E B vs qs F. induction F as [|v q vs qs Hq F IH]; intros last lq HS HN fuel k cur n Hf Ht.
  { apply (main_finished c blen E B [] [] (Forall2_nil _) last lq HS HN); auto. }
  destruct fuel as [|j]; [cbn in Hf; lia|]. cbn [app tcp_main]. rewrite Ht.
  assert (K : k_peer q = fst v /\ (rx_handler false blen (c_ctobuf c) (k_in q) = Ok (said v, Released, []) \/
                                  rx_handler false blen (c_ctobuf c) (k_in q) = Ok (said v, EmptyData, [Eof]))).
  { destruct Hq as [cs (C1 & C2 & C3 & C4)|cs (C1 & C2 & C3 & C4)|cs y C1 C2 C3 C4 C5|cs g i C1 C2 C3 C4 C5 C6 C7]; cbn [k_peer k_in]; (split; [reflexivity|]).
    - left. exact (proj2 (eth_frames _ _ _ _ B C1 C2 C3 C4)).
    - left. now apply rx_reset.
    - left. eapply rx_header; eauto.
    - right. eapply rx_data; eauto. }
  destruct K as (K & K'). rewrite K, accept_step by exact Ht. cbn [bind]. cbn [length] in Hf.
  pose proof (deliver_run c E (fst v) (said v) k (mkNet (t_st n) false (Some (fst v)) (fst v) (t_conn n)) eq_refl) as D. cbn [t_st] in D.
  cbn [visits]. destruct K' as [-> | ->]; cbn [bind]; (destruct (run c (commands E k (said v)) (t_st n)) as [(s' & o)|w]; cbn [bind]; [|rewrite D; reflexivity]);
    destruct D as (n' & -> & A & So); cbn [bind net_step].
  - set (n2 := mkNet _ _ _ _ _). specialize (IH last lq HS HN j (k + lenN (said v)) (mkConn (fst v) []) n2).
    rewrite <- A. change (t_st n') with (t_st n2). rewrite <- IH; [|lia|reflexivity].
    destruct (tcp_main _ _ _ _ _ _ _ _) as [(n3 & o3)|w]; reflexivity.
  - destruct (t_tl n') eqn:T.
    + destruct j as [|j]; [lia|]. cbn [tcp_main]. rewrite T. cbn [k_peer k_in].
      change (rx_handler false blen (c_ctobuf c) [Eof]) with (Ok (@nil (list N), Released, @nil piece)). cbn [bind deliver net_step app].
      set (n2 := mkNet _ _ _ _ _). specialize (IH last lq HS HN j (k + lenN (said v)) (mkConn (fst v) []) n2).
      rewrite <- A. change (t_st n') with (t_st n2). rewrite <- IH; [|lia|reflexivity].
      change (lenN []) with 0. rewrite N.add_0_r.
      destruct (tcp_main _ _ _ _ _ _ _ _) as [(n3 & o3)|w]; reflexivity.
    + specialize (IH last lq HS HN j (k + lenN (said v)) (mkConn (fst v) [Eof]) n').
      rewrite <- A. rewrite <- IH; [|lia|exact T].
      destruct (tcp_main _ _ _ _ _ _ _ _) as [(n3 & o3)|w]; reflexivity.
Qed.

Lemma leaves_weight : forall blen cbuf v q, leaves blen cbuf v q -> (0 < weight (k_in q))%nat.
Proof.
  assert (A : forall cs x tl, (0 < weight (map Data cs ++ x :: tl))%nat). { intros [|c cs] [b| |] tl; cbn; lia. }
  intros blen cbuf v q [cs H|cs H|cs y ? ? ? ? ?|cs g j ? ? ? ? ? ? ?]; cbn [k_in]; apply A.
Qed.
Lemma leaves_fuel : forall blen cbuf vs qs, Forall2 (leaves blen cbuf) vs qs -> forall r, (2 * length qs < tcp_fuel (qs ++ r))%nat.
Proof.
  intros blen cbuf vs qs F r. unfold tcp_fuel. rewrite app_length, map_app, list_sum_app.
  assert (length qs <= list_sum (map (fun q => weight (k_in q)) qs))%nat; [|lia].
  induction F as [|v q vs qs H F IH]; [reflexivity|]. cbn [length map]. change (list_sum (?a :: ?l)) with (a + list_sum l)%nat. apply leaves_weight in H. lia.
Qed.
Lemma leaves_thm : forall c blen E vs qs n, blen < 65536 -> Forall2 (leaves blen (c_ctobuf c)) vs qs -> t_tl n = false ->
  seen (tcp_serve c blen E qs n) = visits c E 0 vs (t_st n) /\
  forall v q r, open_end blen (c_ctobuf c) v q -> seen (tcp_serve c blen E (qs ++ q :: r) n) = visits c E 0 (vs ++ [v]) (t_st n).
Proof.
  intros c blen E vs qs n B F Ht. split; [|intros v q r Hq]; unfold tcp_serve.
  - pose proof (leaves_fuel _ _ _ _ F []) as L. rewrite app_nil_r in L.
    pose proof (main_leaves c blen E B vs qs F None [] ltac:(discriminate) ltac:(reflexivity) (tcp_fuel qs) 0 (mkConn 0 []) n L Ht) as H.
    now rewrite !app_nil_r in H.
  - refine (main_leaves c blen E B vs qs F (Some v) (q :: r) _ _ (tcp_fuel (qs ++ q :: r)) 0 (mkConn 0 []) n (leaves_fuel _ _ _ _ F _) Ht);
      [intros w [= <-]; eauto|discriminate].
Qed.

(** ** Frame by frame *)
Lemma transmit_nil : forall win n ps, transmit win n [] ps = Ok ([], ps).
Proof. intros win [|n] ps; reflexivity. Qed.
Lemma transmit_ok : forall win n i r t ps, (n <= i)%nat -> transmit win n (fails_at i r t) ps = Ok (fails_at (i - n) r t, ps).
Proof.
  intros win n. induction n as [|n IH]; intros i r t ps H; [now rewrite Nat.sub_0_r|]. destruct i as [|i]; [lia|]. exact (IH i r t ps ltac:(lia)).
Qed.
Lemma transmit_dead : forall win n rs, exists rs1, transmit win n rs dead = UB Exit \/ transmit win n rs dead = Ok (rs1, dead).
Proof.
  intros win n. induction n as [|n IH]; intros rs; [exists rs; now right|]. destruct rs as [|[| |] rs]; cbn [transmit]; [exists []; now right|apply IH| |apply IH].
  destruct win; [apply IH|exists []; now left].
Qed.
Lemma transmit_fail : forall win n i r t ps, (i < n)%nat -> r <> Taken ->
  transmit win n (fails_at i r t) ps = (if match r with Pipe => negb win | _ => false end then UB Exit else transmit win (n - S i) t dead).
Proof.
  intros win n. induction n as [|n IH]; intros i r t ps H Hr; [lia|]. destruct i as [|i].
  - cbn [fails_at repeat app transmit]. rewrite Nat.sub_succ, Nat.sub_0_r. destruct r; [congruence| |reflexivity]. now destruct win.
  - exact (IH i r t ps ltac:(lia) Hr).
Qed.
Lemma header_dead : read_header (S (weight dead)) false (repeat None 8) 4 0 dead = UB Uninit.
Proof. vm_compute. reflexivity. Qed.

Lemma live_taken : forall fuel c win E k p rx ps n fs e rest, rx_loop fuel false (c_ctobuf c) rx ps = Ok (fs, e, rest) ->
  rx_live fuel c win E k p rx ps [] n = ('(n1, o1) <- deliver c E k p fs n ;; Ok (n1, o1, e, rest)).
Proof.
  induction fuel as [|fuel IH]; intros c win E k p rx ps n fs e rest H; [discriminate|]. cbn [rx_loop rx_live] in *.
  destruct (read_header _ false _ 4 0 ps) as [(h & ps1)|w]; cbn [bind] in *; [|discriminate].
  destruct h as [dlc| |]; [|injection H as <- <- <-; reflexivity|injection H as <- <- <-; reflexivity].
  destruct (read_data _ false rx dlc 0 ps1) as [((d & rx1) & ps2)|w]; cbn [bind] in *; [|discriminate].
  destruct d as [u| |]; [|injection H as <- <- <-; reflexivity|injection H as <- <- <-; reflexivity].
  destruct (c_ctobuf c <? dlc); [discriminate|].
  destruct (rx_loop fuel false (c_ctobuf c) rx1 ps2) as [((more & e1) & ps3)|w] eqn:R; cbn [bind] in *; [|discriminate]. injection H as <- <- <-.
  cbn [deliver]. destruct (net_step c false _ n) as [(n1 & o1)|w]; cbn [bind]; [|reflexivity]. rewrite transmit_nil. cbn [bind].
  rewrite (IH c win E (k + 1) p rx1 ps2 n1 more e1 ps3 R). destruct (deliver c E (k + 1) p more n1) as [(n2 & o2)|w]; reflexivity.
Qed.
Lemma live_thm : forall c win blen E k p ps n fs e rest, rx_handler false blen (c_ctobuf c) ps = Ok (fs, e, rest) ->
  live_handler c win blen E k p ps [] n = ('(n1, o1) <- deliver c E k p fs n ;; Ok (n1, o1, e, rest)).
Proof. intros. now apply live_taken. Qed.

(** The way in which the program ends; Linux and Windows. *)
Definition breakdown (win : bool) (r : shipped) : why := match r with Pipe => if win then Uninit else Exit | _ => Uninit end.

Lemma live_dead : forall fuel c win E k p rx rs n, rx_live (S fuel) c win E k p rx dead rs n = UB Uninit.
Proof. intros. cbn [rx_live]. rewrite header_dead. reflexivity. Qed.
Lemma live_fails : forall fuel c win E k p rx ps n fs e rest n1 o1, rx_loop fuel false (c_ctobuf c) rx ps = Ok (fs, e, rest) ->
  deliver c E k p fs n = Ok (n1, o1) -> forall i r t, (i < length o1)%nat -> r <> Taken -> Forall (fun x => x = Refused) t ->
  rx_live fuel c win E k p rx ps (fails_at i r t) n = UB (breakdown win r).
Proof.
  induction fuel as [|fuel IH]; intros c win E k p rx ps n fs e rest n1 o1 H D i r t Hi Hr Ht; [discriminate|]. cbn [rx_loop rx_live] in *.
  destruct (read_header _ false _ 4 0 ps) as [(h & ps1)|w]; cbn [bind] in *; [|discriminate].
  destruct h as [dlc| |]; [|injection H as <- <- <-; injection D as <- <-; cbn in Hi; lia|injection H as <- <- <-; injection D as <- <-; cbn in Hi; lia].
  destruct (read_data _ false rx dlc 0 ps1) as [((d & rx1) & ps2)|w]; cbn [bind] in *; [|discriminate].
  destruct d as [u| |]; [|injection H as <- <- <-; injection D as <- <-; cbn in Hi; lia|injection H as <- <- <-; injection D as <- <-; cbn in Hi; lia].
  destruct (c_ctobuf c <? dlc); [discriminate|].
  destruct (rx_loop fuel false (c_ctobuf c) rx1 ps2) as [((more & e1) & ps3)|w] eqn:R; cbn [bind] in *; [|discriminate]. injection H as <- <- <-.
  cbn [deliver] in D. destruct (net_step c false _ n) as [(n2 & o2)|w]; cbn [bind] in *; [|discriminate].
  destruct (deliver c E (k + 1) p more n2) as [(n3 & o3)|w] eqn:D2; cbn [bind] in *; [|discriminate]. injection D as <- <-. rewrite app_length in Hi.
  destruct (Nat.lt_ge_cases i (length o2)) as [Lt|Ge].
  - rewrite transmit_fail by assumption. destruct fuel as [|fuel]; [discriminate|].
    assert (T : forall m, exists rs1, transmit win m t dead = Ok (rs1, dead)).
    { clear - Ht. induction Ht as [|x t Hx Ht IHt]; intros [|m]; cbn [transmit]; eauto. subst x. apply IHt. }
    destruct (T (length o2 - S i)%nat) as (rs1 & T1).
    destruct r; [congruence| |]; [destruct win|]; cbn [negb bind breakdown]; try reflexivity; rewrite T1; cbn [bind]; now rewrite live_dead.
  - rewrite transmit_ok by exact Ge. cbn [bind]. rewrite (IH c win E (k + 1) p rx1 ps2 n2 more e1 ps3 n3 o3 R D2 (i - length o2)%nat r t ltac:(lia) Hr Ht). reflexivity.
Qed.
Lemma fails_thm : forall c win blen E k p ps n fs e rest n1 o1, rx_handler false blen (c_ctobuf c) ps = Ok (fs, e, rest) ->
  deliver c E k p fs n = Ok (n1, o1) -> forall i r t, (i < length o1)%nat -> r <> Taken -> Forall (fun x => x = Refused) t ->
  live_handler c win blen E k p ps (fails_at i r t) n = UB (breakdown win r).
Proof. intros. eapply live_fails; eauto. Qed.

Lemma broken_thm : forall c win blen E k p cs fs tl n s' o i r t, blen < 65536 -> Forall (sendable blen (c_ctobuf c)) fs -> portions cs -> concat cs = wires fs -> headers_whole fs cs ->
  tl = [] \/ tl = [Eof] -> t_sock n = Some p -> run c (commands E k (map f_data fs)) (t_st n) = Ok (s', o) ->
  (i < length o)%nat -> r <> Taken -> Forall (fun x => x = Refused) t ->
  live_handler c win blen E k p (map Data cs ++ tl) (fails_at i r t) n = UB (breakdown win r).
Proof.
  intros c win blen E k p cs fs tl n s' o i r t B S P Ec W T So R Hi Hr Ht.
  pose proof (deliver_run c E p (map f_data fs) k n So) as D. rewrite R in D. destruct D as (n1 & D & _).
  destruct (eth_frames blen (c_ctobuf c) fs cs B S P Ec W) as (X1 & X2).
  destruct T as [-> | ->]; [rewrite app_nil_r; eapply fails_thm; [exact X1|exact D|rewrite map_length; exact Hi|exact Hr|exact Ht]|].
  eapply fails_thm; [exact X2|exact D|rewrite map_length; exact Hi|exact Hr|exact Ht].
Qed.
Lemma taken_thm : forall c win blen E k p cs fs n, blen < 65536 -> Forall (sendable blen (c_ctobuf c)) fs -> portions cs -> concat cs = wires fs -> headers_whole fs cs ->
  t_sock n = Some p ->
  ('(n1, o, e, rest) <- live_handler c win blen E k p (map Data cs ++ [Eof]) [] n ;; Ok (t_st n1, o, e, rest)) =
  ('(s', o) <- run c (commands E k (map f_data fs)) (t_st n) ;; Ok (s', map (pair p) o, Released, [])).
Proof.
  intros c win blen E k p cs fs n B S P Ec W So.
  pose proof (deliver_run c E p (map f_data fs) k n So) as D. destruct (eth_frames blen (c_ctobuf c) fs cs B S P Ec W) as (_ & X2).
  rewrite (live_thm c win blen E k p _ n _ _ _ X2). destruct (run c (commands E k (map f_data fs)) (t_st n)) as [(s' & o)|w]; cbn [bind].
  - destruct D as (n1 & -> & <- & _). reflexivity.
  - rewrite D. reflexivity.
Qed.
