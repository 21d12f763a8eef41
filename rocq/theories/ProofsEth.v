From Coq Require Import ZArith NArith List Bool Lia.
From Coq Require Import ZifyBool ZifyNat ZifyN.
From Verif Require Import Base Lists Eth SpecSxi SpecEth ProofsSxi.
Import ListNotations.
Open Scope N_scope.
Ltac Zify.zify_post_hook ::= Z.div_mod_to_equations.

(** What is left of the portions after [n] bytes. *)
Fixpoint adv (n : N) (cs : list (list N)) : list (list N) :=
  match cs with
  | [] => []
  | c :: t => if lenN c <=? n then adv (n - lenN c) t else dropN n c :: t
  end.

Lemma adv_concat : forall cs n, concat (adv n cs) = dropN n (concat cs).
Proof.
  induction cs as [|c t IH]; intros n; cbn [adv concat].
  - unfold dropN. rewrite skipn_nil. reflexivity.
  - destruct (lenN c <=? n) eqn:E.
    + rewrite IH. rewrite drop_app_ge by lia. reflexivity.
    + cbn [concat]. rewrite drop_app_le by lia. reflexivity.
Qed.

Lemma lenN_pos : forall A (l : list A), l <> [] -> 0 < lenN l.
Proof. intros A [|x l] H; [contradiction|]. rewrite lenN_cons. lia. Qed.

Lemma nonempty_len : forall A (l : list A), 0 < lenN l -> l <> [].
Proof. intros A [|x l] H; [cbn in H; lia|discriminate]. Qed.

Lemma adv_portions : forall cs n, portions cs -> portions (adv n cs).
Proof.
  induction cs as [|c t IH]; intros n P; cbn [adv]; [exact P|]. inversion P; subst.
  destruct (lenN c <=? n) eqn:E; [apply IH; assumption|]. constructor; [|assumption].
  apply nonempty_len. rewrite lenN_drop. lia.
Qed.

Lemma adv_cut : forall cs n a b, n <= lenN (concat cs) -> adv n cs = a ++ b ->
  lenN (concat a) = 0 \/ exists a' b', cs = a' ++ b' /\ lenN (concat a') = n + lenN (concat a).
Proof.
  induction cs as [|c t IH]; intros n a b L E; cbn [adv] in E.
  - left. symmetry in E. apply app_eq_nil in E. destruct E as [-> _]. reflexivity.
  - cbn [concat] in L. rewrite lenN_app in L. destruct (lenN c <=? n) eqn:C.
    + destruct (IH (n - lenN c) a b) as [X|[a' [b' [X Y]]]]; [lia|exact E|left; exact X|].
      right. exists (c :: a'), b'. split; [cbn; congruence|]. cbn [concat]. rewrite lenN_app. lia.
    + destruct a as [|a0 a]; [left; reflexivity|]. cbn [app] in E. injection E as E1 E2. right.
      exists (c :: a), b. split; [cbn; congruence|]. cbn [concat]. rewrite !lenN_app, <- E1, lenN_drop. lia.
Qed.

Lemma weight_adv : forall cs n tl, n <= lenN (concat cs) -> portions cs ->
  (weight (map Data (adv n cs) ++ tl) + N.to_nat n <= weight (map Data cs ++ tl))%nat.
Proof.
  induction cs as [|c t IH]; intros n tl L P; cbn [adv map app weight].
  - cbn in L. lia.
  - inversion P; subst. cbn [concat] in L. rewrite lenN_app in L. destruct (lenN c <=? n) eqn:C.
    + specialize (IH (n - lenN c) tl ltac:(lia) H2). unfold lenN in *. lia.
    + cbn [map app weight]. unfold dropN. rewrite skipn_length. unfold lenN in *. lia.
Qed.

Lemma splice_app : forall A (l a b : list A) off, off + lenN a + lenN b <= lenN l ->
  splice (splice l off a) (off + lenN a) b = splice l off (a ++ b).
Proof.
  intros A l a b off H. unfold splice at 1.
  assert (T : takeN (off + lenN a) (splice l off a) = takeN off l ++ a).
  { unfold splice. rewrite app_assoc. rewrite take_app_le by (rewrite lenN_app, lenN_take; lia).
    apply take_all. rewrite lenN_app, lenN_take. lia. }
  rewrite T. unfold splice. rewrite (app_assoc (takeN off l) a). rewrite drop_app_ge by (rewrite lenN_app, lenN_take; lia).
  rewrite drop_drop, lenN_app, lenN_take, <- !app_assoc. rewrite lenN_app. do 3 f_equal. f_equal. lia.
Qed.

Lemma adv_0 : forall t, portions t -> adv 0 t = t.
Proof.
  intros [|d t] P; [reflexivity|]. cbn [adv]. inversion P as [|? ? D _]; subst. apply lenN_pos in D.
  replace (lenN d <=? 0) with false by lia. reflexivity.
Qed.

(** Reading [m] bytes of contents. *)
Lemma read_data_ok : forall cs fuel buf m off tl,
  portions cs -> 1 <= m -> m <= lenN (concat cs) -> off + m <= lenN buf -> off + m < 65536 ->
  (S (weight (map Data cs ++ tl)) <= fuel)%nat ->
  read_data fuel false buf m off (map Data cs ++ tl) = Ok (Got tt, splice buf off (takeN m (concat cs)), map Data (adv m cs) ++ tl).
Proof.
  induction cs as [|c t IH]; intros fuel buf m off tl P M1 M2 B O F; [cbn in M2; lia|].
  inversion P as [|? ? C P']; subst. destruct fuel as [|fuel]; [lia|]. cbn [map app weight] in F.
  apply lenN_pos in C. cbn [concat] in M2. rewrite lenN_app in M2.
  cbn [read_data map app recv]. replace (m =? 0) with false by lia. replace (lenN c =? 0) with false by lia.
  cbn [orb adv]. cbn [concat]. unfold store. rewrite lenN_take.
  replace (lenN buf <? off + N.min m (lenN c)) with false by lia. cbn [bind].
  destruct (lenN c <=? m) eqn:E.
  - replace (N.min m (lenN c)) with (lenN c) by lia. rewrite take_all by lia.
    destruct (N.eq_dec m (lenN c)) as [->|NE].
    + replace (u16 (lenN c + (65536 - lenN c)) =? 0) with true by (unfold u16; lia).
      rewrite take_app. replace (lenN c - lenN c) with 0 by lia.
      rewrite adv_0 by exact P'. reflexivity.
    + replace (u16 (m + (65536 - lenN c))) with (m - lenN c) by (unfold u16; lia).
      replace (m - lenN c =? 0) with false by lia. replace (u16 (off + lenN c)) with (off + lenN c) by (unfold u16; lia).
      rewrite IH; auto; try lia.
      2:{ rewrite lenN_splice by lia. lia. }
      rewrite take_app_ge by lia. rewrite splice_app by (rewrite lenN_take; lia). reflexivity.
  - replace (N.min m (lenN c)) with m by lia.
    replace (u16 (m + (65536 - m)) =? 0) with true by (unfold u16; lia). rewrite take_app_le by lia. reflexivity.
Qed.

Lemma header_ok : forall c t fuel tl, 4 <= lenN c -> portions t ->
  read_header (S fuel) false (repeat None 8) 4 0 (map Data (c :: t) ++ tl) =
  Ok (Got (N.lor (N.shiftl (nth 1 c 0) 8) (nth 0 c 0)), map Data (adv 4 (c :: t)) ++ tl).
Proof.
  intros c t fuel tl C P. destruct c as [|c0 [|c1 [|c2 [|c3 c]]]]; try (cbn in C; lia).
  cbn [map app read_header recv]. change (4 =? 0) with false. replace (lenN (c0 :: c1 :: c2 :: c3 :: c) =? 0) with false by lia.
  cbn [orb]. change (takeN 4 (c0 :: c1 :: c2 :: c3 :: c)) with [c0; c1; c2; c3].
  change (store (repeat None 8) 0 (map Some [c0; c1; c2; c3])) with (Ok [Some c0; Some c1; Some c2; Some c3; None; None; None; None]).
  cbn [bind]. change (u8 (4 + (256 - lenN [c0; c1; c2; c3])) =? 0) with true. cbv iota.
  change (header_word [Some c0; Some c1; Some c2; Some c3; None; None; None; None] 0) with (Ok (N.lor (N.shiftl c1 8) c0)). cbn [bind].
  cbn [adv nth]. destruct (lenN (c0 :: c1 :: c2 :: c3 :: c) <=? 4) eqn:E; [|reflexivity].
  replace (4 - lenN (c0 :: c1 :: c2 :: c3 :: c)) with 0 by lia.
  rewrite !lenN_cons in *. assert (lenN c = 0) as Z by lia. apply lenN_0 in Z. subst c. rewrite adv_0 by exact P. reflexivity.
Qed.

Lemma lor_word' : forall a b, a < 256 -> N.lor (N.shiftl b 8) a = a + 256 * b.
Proof. intros. rewrite N.lor_comm. apply lor_word. assumption. Qed.

Lemma whole_next : forall f fs cs, headers_whole (f :: fs) cs -> lenN (wire f) <= lenN (concat cs) -> portions cs ->
  headers_whole fs (adv (lenN (f_data f)) (adv 4 cs)).
Proof.
  intros f fs cs W L P fs1 g fs2 cs1 cs2 E1 E2. cbv zeta. rewrite lenN_wire in L.
  destruct (adv_cut (adv 4 cs) (lenN (f_data f)) cs1 cs2) as [X|[a [b [X Y]]]]; auto.
  { rewrite adv_concat, lenN_drop. lia. } { lia. }
  destruct (adv_cut cs 4 a b) as [X'|[a' [b' [X' Y']]]]; auto; [lia|lia|].
  specialize (W (f :: fs1) g fs2 a' b'). cbn [app] in W. specialize (W (f_equal (cons f) E1) X'). cbv zeta in W.
  unfold wires in *. cbn [map concat] in W. rewrite lenN_app, lenN_wire in W. lia.
Qed.

Definition ends (tl : list piece) (e : ending) : Prop := (tl = [] /\ e = Blocked) \/ (tl = [Eof] /\ e = Released).

Lemma rx_frames : forall fs cs fuel rx tl e blen cbuf, blen < 65536 -> lenN rx = blen -> Forall (sendable blen cbuf) fs -> portions cs ->
  concat cs = wires fs -> headers_whole fs cs -> ends tl e -> (S (weight (map Data cs ++ tl)) <= fuel)%nat ->
  rx_loop fuel false cbuf rx (map Data cs ++ tl) = Ok (map f_data fs, e, []).
Proof.
  induction fs as [|f fs IH]; intros cs fuel rx tl e blen cbuf B R S P E W T F; (destruct fuel as [|fuel]; [lia|]).
  - destruct cs as [|c cs].
    + cbn [map app rx_loop]. destruct T as [[-> ->]|[-> ->]]; reflexivity.
    + exfalso. inversion P as [|? ? C _]; subst. cbn in E. apply app_eq_nil in E. destruct E. contradiction.
  - destruct cs as [|c cs]; [cbn in E; discriminate|]. inversion P as [|? ? C P']; subst. inversion S as [|? ? [S1 [S2 S3]] S']; subst.
    assert (L : lenN (wire f) <= lenN (concat (c :: cs))).
    { rewrite E. unfold wires. cbn [map concat]. rewrite lenN_app. lia. }
    assert (LC : 4 <= lenN c).
    { apply lenN_pos in C. specialize (W [] f fs [c] cs eq_refl eq_refl). cbv zeta in W. cbn [wires map concat] in W.
      rewrite app_nil_r in W. change (lenN []) with 0 in W. lia. }
    assert (HD : N.lor (N.shiftl (nth 1 c 0) 8) (nth 0 c 0) = lenN (f_data f)).
    { destruct c as [|c0 [|c1 c]]; try (cbn in LC; lia). unfold wires in E. cbn [map concat wire app] in E. injection E as E0 E1 _.
      cbn [nth]. rewrite E0, E1. rewrite lor_word' by (apply N.mod_lt; lia). lia. }
    cbn [rx_loop]. 
    rewrite (header_ok c cs _ tl LC P'). rewrite HD. cbn [bind].
    assert (D4 : concat (adv 4 (c :: cs)) = f_data f ++ wires fs).
    { rewrite adv_concat, E. unfold wires. cbn [map concat]. fold (wires fs). unfold wire. reflexivity. }
    rewrite read_data_ok; auto; try lia.
    2:{ apply adv_portions. assumption. }
    2:{ rewrite D4, lenN_app. lia. }
    cbn [bind]. replace (cbuf <? lenN (f_data f)) with false by lia.
    rewrite D4, take_app.
    rewrite (IH _ fuel _ tl e (lenN rx) cbuf B); auto.
    + cbn [bind map]. rewrite take_splice0. reflexivity.
    + apply lenN_splice. lia.
    + apply adv_portions, adv_portions. assumption.
    + rewrite adv_concat, D4. apply drop_app.
    + apply whole_next; assumption.
    + rewrite lenN_wire in L.
      pose proof (weight_adv (c :: cs) 4 tl ltac:(lia) P) as W1.
      pose proof (weight_adv (adv 4 (c :: cs)) (lenN (f_data f)) tl ltac:(rewrite D4, lenN_app; lia) (adv_portions _ _ P)) as W2. lia.
Qed.

Theorem eth_frames : forall blen cbuf fs cs, blen < 65536 -> Forall (sendable blen cbuf) fs -> portions cs ->
  concat cs = wires fs -> headers_whole fs cs ->
  rx_handler false blen cbuf (map Data cs) = Ok (map f_data fs, Blocked, []) /\
  rx_handler false blen cbuf (map Data cs ++ [Eof]) = Ok (map f_data fs, Released, []).
Proof.
  intros blen cbuf fs cs B S P E W. unfold rx_handler. split.
  - rewrite <- (app_nil_r (map Data cs)). apply (rx_frames fs cs _ _ [] Blocked blen cbuf); auto.
    rewrite lenN_repeat. lia. left. auto.
  - apply (rx_frames fs cs _ _ [Eof] Released blen cbuf); auto. rewrite lenN_repeat. lia. right. auto.
Qed.

(** ** The number of rounds does not matter *)

Lemma recv_weight : forall d n ps g ps1, recv d n ps = (g, ps1) ->
  match g with GBytes _ | GFailed => (weight ps1 < weight ps)%nat | _ => (weight ps1 <= weight ps)%nat end.
Proof.
  intros d n ps g ps1 H. destruct ps as [|[bs| |] t]; cbn [recv] in H.
  - injection H as <- <-. lia.
  - destruct (n =? 0) eqn:N0. { injection H as <- <-. destruct d; cbn [weight]; lia. }
    destruct (lenN bs =? 0) eqn:B0. { injection H as <- <-. cbn [weight]; lia. }
    injection H as <- <-. destruct (d || (lenN bs <=? n)) eqn:E; cbn [weight]; [lia|].
    unfold dropN. rewrite skipn_length. unfold lenN in *. lia.
  - injection H as <- <-. cbn [weight]. lia.
  - injection H as <- <-. cbn [weight]. lia.
Qed.

Lemma header_fuel : forall k1 k2 d hb rem off ps, (weight ps < k1)%nat -> (weight ps < k2)%nat ->
  read_header k1 d hb rem off ps = read_header k2 d hb rem off ps.
Proof.
  induction k1 as [|k1 IH]; intros k2 d hb rem off ps H1 H2; [lia|]. destruct k2 as [|k2]; [lia|].
  cbn [read_header]. destruct (recv d rem ps) as [g ps1] eqn:R. pose proof (recv_weight _ _ _ _ _ R) as W. destruct g; try reflexivity.
  - destruct (store hb off (map Some bs)); cbn [bind]; [|reflexivity]. destruct (_ =? 0); [reflexivity|]. apply IH; lia.
  - destruct (_ =? 0); [reflexivity|]. apply IH; lia.
Qed.

Lemma data_fuel : forall k1 k2 d buf rem off ps, (weight ps < k1)%nat -> (weight ps < k2)%nat ->
  read_data k1 d buf rem off ps = read_data k2 d buf rem off ps.
Proof.
  induction k1 as [|k1 IH]; intros k2 d hb rem off ps H1 H2; [lia|]. destruct k2 as [|k2]; [lia|].
  cbn [read_data]. destruct (recv d rem ps) as [g ps1] eqn:R. pose proof (recv_weight _ _ _ _ _ R) as W. destruct g; try reflexivity.
  - destruct (store hb off bs); cbn [bind]; [|reflexivity]. destruct (_ =? 0); [reflexivity|]. apply IH; lia.
  - destruct (_ =? 0); [reflexivity|]. apply IH; lia.
Qed.

Lemma header_weight : forall k d hb rem off ps w ps1, read_header k d hb rem off ps = Ok (Got w, ps1) -> (weight ps1 < weight ps)%nat.
Proof.
  induction k as [|k IH]; intros d hb rem off ps w ps1 H; [discriminate|]. cbn [read_header] in H.
  destruct (recv d rem ps) as [g ps2] eqn:R. pose proof (recv_weight _ _ _ _ _ R) as W. destruct g; try discriminate.
  - destruct (store hb off (map Some bs)); cbn [bind] in H; [|discriminate]. destruct (_ =? 0).
    + destruct (header_word a off); cbn [bind] in H; [|discriminate]. injection H as _ <-. exact W.
    + apply IH in H. lia.
  - destruct (_ =? 0).
    + destruct (header_word hb off); cbn [bind] in H; [|discriminate]. injection H as _ <-. exact W.
    + apply IH in H. lia.
Qed.

Lemma data_weight : forall k d buf rem off ps x buf1 ps1, read_data k d buf rem off ps = Ok (x, buf1, ps1) -> (weight ps1 <= weight ps)%nat.
Proof.
  induction k as [|k IH]; intros d hb rem off ps w b1 ps1 H; [discriminate|]. cbn [read_data] in H.
  destruct (recv d rem ps) as [g ps2] eqn:R. pose proof (recv_weight _ _ _ _ _ R) as W. destruct g.
  - destruct (store hb off bs); cbn [bind] in H; [|discriminate]. destruct (_ =? 0).
    + injection H as _ _ <-. lia.
    + apply IH in H. lia.
  - injection H as _ _ <-. exact W.
  - destruct (_ =? 0).
    + injection H as _ _ <-. lia.
    + apply IH in H. lia.
  - injection H as _ _ <-. exact W.
Qed.

Lemma rx_fuel : forall k1 k2 d cbuf rx ps, (weight ps < k1)%nat -> (weight ps < k2)%nat -> rx_loop k1 d cbuf rx ps = rx_loop k2 d cbuf rx ps.
Proof.
  induction k1 as [|k1 IH]; intros k2 d cbuf rx ps H1 H2; [lia|]. destruct k2 as [|k2]; [lia|]. cbn [rx_loop].
  destruct (read_header (S (weight ps)) d (repeat None 8) 4 0 ps) as [[h ps1]|] eqn:E; cbn [bind]; [|reflexivity].
  destruct h as [dlc| |]; try reflexivity. apply header_weight in E.
  destruct (read_data (S (weight ps1)) d rx dlc 0 ps1) as [[[x rx1] ps2]|] eqn:E2; cbn [bind]; [|reflexivity].
  destruct x; try reflexivity. apply data_weight in E2. destruct (cbuf <? dlc); [reflexivity|].
  rewrite (IH k2) by lia. reflexivity.
Qed.

(** One round, with the header given. *)
Definition rest_of (d : bool) (cbuf : N) (rx : list N) (h : out (got_all N * list piece)) : out (list (list N) * ending * list piece) :=
  '(h, ps1) <- h ;;
  match h with
  | Wait => Ok ([], Blocked, ps1)
  | Zero => Ok ([], Released, ps1)
  | Got dlc =>
      '(x, rx1, ps2) <- read_data (S (weight ps1)) d rx dlc 0 ps1 ;;
      match x with
      | Wait => Ok ([], Blocked, ps2)
      | Zero => Ok ([], EmptyData, ps2)
      | Got _ =>
          if cbuf <? dlc then UB Assert
          else '(more, e, ps3) <- rx_loop (S (weight ps2)) d cbuf rx1 ps2 ;; Ok (takeN dlc rx1 :: more, e, ps3)
      end
  end.

Lemma rx_round : forall d cbuf rx ps k, (weight ps < k)%nat ->
  rx_loop k d cbuf rx ps = rest_of d cbuf rx (read_header (S (weight ps)) d (repeat None 8) 4 0 ps).
Proof.
  intros d cbuf rx ps [|k] H; [lia|]. cbn [rx_loop]. unfold rest_of.
  destruct (read_header (S (weight ps)) d (repeat None 8) 4 0 ps) as [[h ps1]|] eqn:E; cbn [bind]; [|reflexivity].
  destruct h as [dlc| |]; try reflexivity. apply header_weight in E.
  destruct (read_data (S (weight ps1)) d rx dlc 0 ps1) as [[[x rx1] ps2]|] eqn:E2; cbn [bind]; [|reflexivity].
  destruct x; try reflexivity. apply data_weight in E2. destruct (cbuf <? dlc); [reflexivity|].
  rewrite (rx_fuel k (S (weight ps2))) by lia. reflexivity.
Qed.

(** ** A header in several portions *)

Lemma header_pieces : forall cs hb rem off tl, portions cs -> lenN (concat cs) < rem -> rem <= 4 -> off + rem = 4 -> lenN hb = 8 ->
  read_header (S (weight (map Data cs ++ tl))) false hb rem off (map Data cs ++ tl) =
  read_header (S (weight tl)) false (splice hb off (map Some (concat cs))) (rem - lenN (concat cs)) (off + lenN (concat cs)) tl.
Proof.
  induction cs as [|c cs IH]; intros hb rem off tl P L R O H.
  - cbn [map app concat]. change (lenN []) with 0. rewrite N.sub_0_r, N.add_0_r. f_equal.
    unfold splice. cbn [app lenN length]. change (lenN []) with 0. rewrite N.add_0_r. symmetry. apply take_drop.
  - inversion P as [|? ? C P']; subst. apply lenN_pos in C. cbn [concat] in *. rewrite lenN_app in L.
    cbn [map app]. set (fuel := weight (Data c :: map Data cs ++ tl)). cbn [read_header recv].
    replace (rem =? 0) with false by lia. replace (lenN c =? 0) with false by lia. replace (lenN c <=? rem) with true by lia.
    cbn [orb]. rewrite take_all by lia. unfold store. rewrite lenN_map. replace (lenN hb <? off + lenN c) with false by lia. cbn [bind].
    replace (u8 (rem + (256 - lenN c))) with (rem - lenN c) by (unfold u8; lia). replace (rem - lenN c =? 0) with false by lia.
    replace (u8 (off + lenN c)) with (off + lenN c) by (unfold u8; lia).
    rewrite (header_fuel fuel (S (weight (map Data cs ++ tl)))) by (unfold fuel; cbn [weight]; unfold lenN in C; lia).
    rewrite IH; auto; try lia.
    2:{ rewrite lenN_splice; [exact H|]. rewrite lenN_map. lia. }
    rewrite <- (lenN_map _ _ Some c). rewrite splice_app.
    2:{ rewrite !lenN_map. lia. }
    rewrite <- map_app. rewrite !lenN_map, lenN_app. rewrite N.sub_add_distr, N.add_assoc. reflexivity.
Qed.

Theorem header_halves : forall blen cbuf cs h0 h1 h2 h3 x ps, portions cs -> concat cs = [h0; h1] -> forall y z,
  rx_handler false blen cbuf (map Data cs ++ Data (h2 :: h3 :: x) :: ps) = rx_handler false blen cbuf (Data (h2 :: h3 :: y :: z :: x) :: ps).
Proof.
  intros blen cbuf cs h0 h1 h2 h3 x ps P E y z. unfold rx_handler. rewrite !rx_round by lia. f_equal.
  rewrite header_pieces; auto; try reflexivity. 2:{ rewrite E. reflexivity. }
  rewrite E. change (4 - lenN [h0; h1]) with 2. change (0 + lenN [h0; h1]) with 2.
  change (splice (repeat None 8) 0 (map Some [h0; h1])) with [Some h0; Some h1; None; None; None; None; None; None].
  cbn [read_header recv]. change (2 =? 0) with false. change (4 =? 0) with false.
  replace (lenN (h2 :: h3 :: x) =? 0) with false by (rewrite !lenN_cons; lia). replace (lenN (h2 :: h3 :: y :: z :: x) =? 0) with false by (rewrite !lenN_cons; lia).
  cbn [orb]. change (takeN 2 (h2 :: h3 :: x)) with [h2; h3]. change (takeN 4 (h2 :: h3 :: y :: z :: x)) with [h2; h3; y; z].
  change (store [Some h0; Some h1; None; None; None; None; None; None] 2 (map Some [h2; h3])) with (Ok [Some h0; Some h1; Some h2; Some h3; None; None; None; None]).
  change (store (repeat None 8) 0 (map Some [h2; h3; y; z])) with (Ok [Some h2; Some h3; Some y; Some z; None; None; None; None]).
  cbn [bind]. change (u8 (2 + (256 - lenN [h2; h3])) =? 0) with true. change (u8 (4 + (256 - lenN [h2; h3; y; z])) =? 0) with true. cbv iota.
  change (header_word [Some h0; Some h1; Some h2; Some h3; None; None; None; None] 2) with (Ok (N.lor (N.shiftl h3 8) h2)).
  change (header_word [Some h2; Some h3; Some y; Some z; None; None; None; None] 0) with (Ok (N.lor (N.shiftl h3 8) h2)). cbn [bind].
  f_equal. f_equal. rewrite !lenN_cons. destruct (lenN x + 1 + 1 <=? 2) eqn:C1; destruct (lenN x + 1 + 1 + 1 + 1 <=? 4) eqn:C2; try lia; reflexivity.
Qed.

Theorem header_one : forall blen cbuf h0 h1 h2 h3 x ps y z,
  rx_handler false blen cbuf (Data [h0] :: Data (h1 :: h2 :: h3 :: x) :: ps) = rx_handler false blen cbuf (Data (h1 :: h2 :: y :: z :: x) :: ps).
Proof.
  intros blen cbuf h0 h1 h2 h3 x ps y z. unfold rx_handler. rewrite !rx_round by lia. f_equal.
  change (Data [h0] :: Data (h1 :: h2 :: h3 :: x) :: ps) with (map Data [[h0]] ++ Data (h1 :: h2 :: h3 :: x) :: ps).
  rewrite header_pieces; auto; try reflexivity. 2:{ repeat constructor; discriminate. }
  change (4 - lenN (concat [[h0]])) with 3. change (0 + lenN (concat [[h0]])) with 1.
  change (splice (repeat None 8) 0 (map Some (concat [[h0]]))) with [Some h0; None; None; None; None; None; None; None].
  cbn [read_header recv]. change (3 =? 0) with false. change (4 =? 0) with false.
  replace (lenN (h1 :: h2 :: h3 :: x) =? 0) with false by (rewrite !lenN_cons; lia). replace (lenN (h1 :: h2 :: y :: z :: x) =? 0) with false by (rewrite !lenN_cons; lia).
  cbn [orb]. change (takeN 3 (h1 :: h2 :: h3 :: x)) with [h1; h2; h3]. change (takeN 4 (h1 :: h2 :: y :: z :: x)) with [h1; h2; y; z].
  change (store [Some h0; None; None; None; None; None; None; None] 1 (map Some [h1; h2; h3])) with (Ok [Some h0; Some h1; Some h2; Some h3; None; None; None; None]).
  change (store (repeat None 8) 0 (map Some [h1; h2; y; z])) with (Ok [Some h1; Some h2; Some y; Some z; None; None; None; None]).
  cbn [bind]. change (u8 (3 + (256 - lenN [h1; h2; h3])) =? 0) with true. change (u8 (4 + (256 - lenN [h1; h2; y; z])) =? 0) with true. cbv iota.
  change (header_word [Some h0; Some h1; Some h2; Some h3; None; None; None; None] 1) with (Ok (N.lor (N.shiftl h2 8) h1)).
  change (header_word [Some h1; Some h2; Some y; Some z; None; None; None; None] 0) with (Ok (N.lor (N.shiftl h2 8) h1)). cbn [bind].
  f_equal. f_equal. rewrite !lenN_cons. destruct (lenN x + 1 + 1 + 1 <=? 3) eqn:C1; destruct (lenN x + 1 + 1 + 1 + 1 <=? 4) eqn:C2; try lia; reflexivity.
Qed.

Theorem header_last : forall blen cbuf cs h0 h1 h2 h3 x ps, portions cs -> concat cs = [h0; h1; h2] ->
  rx_handler false blen cbuf (map Data cs ++ Data (h3 :: x) :: ps) = UB Uninit.
Proof.
  intros blen cbuf cs h0 h1 h2 h3 x ps P E. unfold rx_handler. rewrite !rx_round by lia.
  rewrite header_pieces; auto; try reflexivity. 2:{ rewrite E. reflexivity. }
  rewrite E. change (4 - lenN [h0; h1; h2]) with 1. change (0 + lenN [h0; h1; h2]) with 3.
  change (splice (repeat None 8) 0 (map Some [h0; h1; h2])) with [Some h0; Some h1; Some h2; None; None; None; None; None].
  cbn [read_header recv]. change (1 =? 0) with false. replace (lenN (h3 :: x) =? 0) with false by (rewrite !lenN_cons; lia).
  cbn [orb]. change (takeN 1 (h3 :: x)) with [h3].
  change (store [Some h0; Some h1; Some h2; None; None; None; None; None] 3 (map Some [h3])) with (Ok [Some h0; Some h1; Some h2; Some h3; None; None; None; None]).
  reflexivity.
Qed.

(** ** Failing calls *)

Theorem recv_fails : forall d blen cbuf bs ps, bs <> [] -> rx_handler d blen cbuf (Failed :: Data bs :: ps) = UB OobBuffer.
Proof.
  intros d blen cbuf bs ps B. apply lenN_pos in B. unfold rx_handler. rewrite rx_round by lia.
  cbn [weight read_header recv]. change (u8 (4 + (256 - 255))) with 5. change (u8 (0 + 255)) with 255. change (5 =? 0) with false. cbv iota.
  replace (lenN bs =? 0) with false by lia. unfold store. rewrite lenN_map, lenN_take.
  change (lenN (repeat None 8)) with 8. replace (8 <? 255 + N.min 5 (lenN bs)) with true by lia. reflexivity.
Qed.

(** ** Frames too long *)

Lemma data_overflow : forall cs buf m off tl, portions cs -> off <= lenN buf -> lenN buf < off + m -> lenN buf < off + lenN (concat cs) -> off + m < 65536 ->
  read_data (S (weight (map Data cs ++ tl))) false buf m off (map Data cs ++ tl) = UB OobBuffer.
Proof.
  induction cs as [|c cs IH]; intros buf m off tl P O M L U.
  - cbn [concat] in L. change (lenN []) with 0 in L. lia.
  - inversion P as [|? ? C P']; subst. apply lenN_pos in C. cbn [concat] in L. rewrite lenN_app in L.
    cbn [map app]. set (fuel := weight (Data c :: map Data cs ++ tl)). cbn [read_data recv].
    replace (m =? 0) with false by lia. replace (lenN c =? 0) with false by lia. unfold store. rewrite lenN_take.
    destruct (lenN buf <? off + N.min m (lenN c)) eqn:E; [reflexivity|]. cbn [bind].
    replace (lenN c <=? m) with true by lia. cbn [orb]. rewrite take_all by lia.
    replace (N.min m (lenN c)) with (lenN c) by lia.
    replace (u16 (m + (65536 - lenN c))) with (m - lenN c) by (unfold u16; lia). replace (m - lenN c =? 0) with false by lia.
    replace (u16 (off + lenN c)) with (off + lenN c) by (unfold u16; lia).
    rewrite (data_fuel fuel (S (weight (map Data cs ++ tl)))) by (unfold fuel; cbn [weight]; unfold lenN in C; lia).
    assert (LB : lenN (splice buf off c) = lenN buf) by (apply lenN_splice; lia).
    apply IH; auto; rewrite ?LB; lia.
Qed.

Lemma first_header : forall h0 h1 h2 h3 x cs tl, h0 < 256 -> portions cs ->
  read_header (S (weight (map Data ((h0 :: h1 :: h2 :: h3 :: x) :: cs) ++ tl))) false (repeat None 8) 4 0 (map Data ((h0 :: h1 :: h2 :: h3 :: x) :: cs) ++ tl) =
  Ok (Got (h0 + 256 * h1), map Data (adv 4 ((h0 :: h1 :: h2 :: h3 :: x) :: cs)) ++ tl).
Proof. intros. rewrite header_ok; auto; [|rewrite !lenN_cons; lia]. cbn [nth]. rewrite lor_word' by assumption. reflexivity. Qed.

Lemma adv_first : forall h0 h1 h2 h3 x cs, concat (adv 4 ((h0 :: h1 :: h2 :: h3 :: x) :: cs)) = x ++ concat cs.
Proof. intros. rewrite adv_concat. reflexivity. Qed.

Theorem eth_overflow : forall blen cbuf n k0 k1 x cs tl, portions cs -> blen < n -> n < 65536 -> blen < lenN (x ++ concat cs) ->
  rx_handler false blen cbuf (map Data ((n mod 256 :: n / 256 :: k0 :: k1 :: x) :: cs) ++ tl) = UB OobBuffer.
Proof.
  intros blen cbuf n k0 k1 x cs tl P B N16 L. unfold rx_handler. rewrite rx_round by lia.
  rewrite first_header by (try assumption; apply N.mod_lt; lia). replace (n mod 256 + 256 * (n / 256)) with n by lia.
  unfold rest_of. cbn [bind]. rewrite data_overflow; try reflexivity; rewrite ?lenN_repeat, ?adv_first, ?N2Nat.id; try lia.
  apply adv_portions. constructor; [discriminate|assumption].
Qed.

Theorem eth_assert : forall blen cbuf n k0 k1 x cs tl, portions cs -> 1 <= n -> cbuf < n -> n <= blen -> n < 65536 -> n <= lenN (x ++ concat cs) ->
  rx_handler false blen cbuf (map Data ((n mod 256 :: n / 256 :: k0 :: k1 :: x) :: cs) ++ tl) = UB Assert.
Proof.
  intros blen cbuf n k0 k1 x cs tl P N1 C B N16 L. unfold rx_handler. rewrite rx_round by lia.
  rewrite first_header by (try assumption; apply N.mod_lt; lia). replace (n mod 256 + 256 * (n / 256)) with n by lia.
  unfold rest_of. cbn [bind]. rewrite read_data_ok; rewrite ?lenN_repeat, ?adv_first, ?N2Nat.id; try lia.
  - cbn [bind]. replace (cbuf <? n) with true by lia. reflexivity.
  - apply adv_portions. constructor; [discriminate|assumption].
Qed.

(** ** UDP *)

Lemma udp_header : forall f rest ps, rest = f_data f -> lenN (f_data f) < 65536 ->
  read_header (S (weight (Data (wire f) :: ps))) true (repeat None 8) 4 0 (Data (wire f) :: ps) = Ok (Got (lenN (f_data f)), ps).
Proof.
  intros f rest ps _ L. unfold wire. cbn [app]. cbn [weight read_header recv]. change (4 =? 0) with false.
  replace (lenN (lenN (f_data f) mod 256 :: lenN (f_data f) / 256 :: f_ctr0 f :: f_ctr1 f :: f_data f) =? 0) with false by (rewrite !lenN_cons; lia).
  cbn [orb]. match goal with |- context [takeN 4 (?a :: ?b :: ?c :: ?d :: _)] => change (takeN 4 (a :: b :: c :: d :: f_data f)) with [a; b; c; d];
    change (store (repeat None 8) 0 (map Some [a; b; c; d])) with (Ok [Some a; Some b; Some c; Some d; None; None; None; None]);
    cbn [bind]; change (u8 (4 + (256 - lenN [a; b; c; d])) =? 0) with true; cbv iota;
    change (header_word [Some a; Some b; Some c; Some d; None; None; None; None] 0) with (Ok (N.lor (N.shiftl b 8) a)) end.
  rewrite lor_word' by (apply N.mod_lt; lia). cbn [bind]. do 3 f_equal. lia.
Qed.

Lemma udp_data : forall blen rx m bs ps, lenN rx = blen -> 1 <= m -> m <= lenN bs -> m <= blen -> m < 65536 ->
  read_data (S (weight (Data bs :: ps))) true rx m 0 (Data bs :: ps) = Ok (Got tt, splice rx 0 (takeN m bs), ps).
Proof.
  intros blen rx m bs ps R M1 M2 B U. cbn [weight read_data recv]. replace (m =? 0) with false by lia. replace (lenN bs =? 0) with false by lia.
  cbn [orb]. unfold store. rewrite lenN_take. replace (N.min m (lenN bs)) with m by lia. replace (lenN rx <? 0 + m) with false by lia. cbn [bind].
  replace (u16 (m + (65536 - m)) =? 0) with true by (unfold u16; lia). reflexivity.
Qed.

Theorem udp_lost : forall blen cbuf f, blen < 65536 -> sendable blen cbuf f -> rx_handler true blen cbuf [Data (wire f)] = Ok ([], Blocked, []).
Proof.
  intros blen cbuf f B [S1 [S2 S3]]. unfold rx_handler. rewrite rx_round by lia. rewrite (udp_header f (f_data f)) by (auto; lia).
  unfold rest_of. cbn [bind]. reflexivity.
Qed.

Theorem udp_mixed : forall blen cbuf f g, blen < 65536 -> sendable blen cbuf f -> sendable blen cbuf g -> lenN (f_data f) <= lenN (wire g) ->
  rx_handler true blen cbuf [Data (wire f); Data (wire g)] = Ok ([takeN (lenN (f_data f)) (wire g)], Blocked, []).
Proof.
  intros blen cbuf f g B [S1 [S2 S3]] _ L. unfold rx_handler. rewrite rx_round by lia. rewrite (udp_header f (f_data f)) by (auto; lia).
  unfold rest_of. cbn [bind]. rewrite (udp_data blen); try lia; [|rewrite lenN_repeat; lia]. cbn [bind].
  replace (cbuf <? lenN (f_data f)) with false by lia. cbn [weight rx_loop read_header recv bind].
  do 4 f_equal. replace (lenN (f_data f)) with (lenN (takeN (lenN (f_data f)) (wire g))) at 1 by (rewrite lenN_take; lia). apply take_splice0.
Qed.

Lemma store4 : forall a b c d : N, store (repeat None 8) 0 (map Some [a; b; c; d]) = Ok [Some a; Some b; Some c; Some d; None; None; None; None].
Proof. reflexivity. Qed.
Lemma word4 : forall a b c d : N, header_word [Some a; Some b; Some c; Some d; None; None; None; None] 0 = Ok (N.lor (N.shiftl b 8) a).
Proof. reflexivity. Qed.

Lemma udp_header4 : forall f ps, lenN (f_data f) < 65536 ->
  read_header (S (weight (Data (takeN 4 (wire f)) :: ps))) true (repeat None 8) 4 0 (Data (takeN 4 (wire f)) :: ps) = Ok (Got (lenN (f_data f)), ps).
Proof.
  intros f ps L. unfold wire. cbn [app].
  match goal with |- context [takeN 4 (?a :: ?b :: ?c :: ?d :: _)] => change (takeN 4 (a :: b :: c :: d :: f_data f)) with [a; b; c; d] end.
  cbn [weight length read_header recv]. change (4 =? 0) with false.
  match goal with |- context [lenN [?a; ?b; ?c; ?d] =? 0] => change (lenN [a; b; c; d] =? 0) with false; change (takeN 4 [a; b; c; d]) with [a; b; c; d];
    cbn [orb]; change (u8 (4 + (256 - lenN [a; b; c; d])) =? 0) with true; cbv iota end.
  rewrite store4. cbn [bind]. rewrite word4.
  rewrite lor_word' by (apply N.mod_lt; lia). cbn [bind]. do 3 f_equal. lia.
Qed.

Theorem udp_apart : forall blen cbuf fs, blen < 65536 -> Forall (sendable blen cbuf) fs ->
  rx_handler true blen cbuf (flat_map apart fs) = Ok (map f_data fs, Blocked, []).
Proof.
  intros blen cbuf fs B S. unfold rx_handler.
  assert (R : lenN (repeat 0 (N.to_nat blen)) = blen) by (rewrite lenN_repeat; lia).
  revert R. generalize (repeat 0 (N.to_nat blen)). induction S as [|f fs [S1 [S2 S3]] S IH]; intros rx R; [reflexivity|].
  rewrite rx_round by lia. cbn [flat_map]. unfold apart. cbn [app]. rewrite udp_header4 by lia. unfold rest_of. cbn [bind].
  rewrite (udp_data blen); try lia. cbn [bind]. replace (cbuf <? lenN (f_data f)) with false by lia.
  rewrite IH. 2:{ rewrite lenN_splice; [exact R|]. rewrite lenN_take. lia. }
  cbn [bind map]. rewrite (take_all _ _ (f_data f)) by lia. rewrite take_splice0. reflexivity.
Qed.
