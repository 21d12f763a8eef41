From Coq Require Import NArith List Bool Lia.
From Coq Require Import ZArith ZifyBool ZifyNat ZifyN.
From Verif Require Import Base Lists Sxi SpecSxi.
Import ListNotations.
Open Scope N_scope.
Ltac Zify.zify_post_hook ::= Z.div_mod_to_equations.

(** State of the receiver after the bytes [w] of the frame [f], last byte at [last];
    [d] is what the contents part held when the frame began. *)
Record mid (n : N) (d : list N) (f : sframe) (w : list N) (last : N) (r : rcv) : Prop := mkMid {
  mi_len : lenN (r_buf r) = n;
  mi_idx : r_index r = lenN w;
  mi_buf : takeN (lenN w) (r_buf r) = w;
  mi_old : dropN (N.max 4 (lenN w)) (r_buf r) = dropN (lenN w - 4) d;
  mi_t : w <> [] -> t_running (r_timer r) = true;
  mi_tt : t_running (r_timer r) = true -> t_value (r_timer r) = last;
  mi_st : r_state r = match w with [] => Idle | [_] => UntilLength | _ => Remaining end;
  mi_rem : 2 <= lenN w -> r_dlc r = lenN (f_data f) /\ r_remaining r = lenN (f_data f) + 4 - lenN w }.

Lemma take_upd : forall A (l : list A) i x, i < lenN l -> takeN (i + 1) (updN l i x) = takeN i l ++ [x].
Proof.
  intros A l i x H. apply getN_ext. intros j.
  destruct (N.lt_ge_cases j (i + 1)) as [J|J].
  - rewrite getN_take by lia. destruct (N.eq_dec j i) as [->|E].
    + rewrite getN_upd_same by lia. rewrite getN_app2 by (rewrite lenN_take; lia).
      rewrite lenN_take. replace (i - N.min i (lenN l)) with 0 by lia. reflexivity.
    + rewrite getN_upd_other by lia. rewrite getN_app1 by (rewrite lenN_take; lia). rewrite getN_take by lia. reflexivity.
  - rewrite (proj2 (getN_None _ _ _)) by (rewrite lenN_take, lenN_upd; lia).
    rewrite (proj2 (getN_None _ _ _)); [reflexivity|]. rewrite lenN_app, lenN_take. change (lenN [x]) with 1. lia.
Qed.

Lemma drop_upd : forall A (l : list A) i x k, i < k -> dropN k (updN l i x) = dropN k l.
Proof. intros. apply getN_ext. intros j. rewrite !getN_drop. rewrite getN_upd_other by lia. reflexivity. Qed.

Lemma lenN_wire : forall f, lenN (wire f) = lenN (f_data f) + 4.
Proof. intros. unfold wire. rewrite lenN_app, !lenN_cons, lenN_nil. lia. Qed.

Lemma lor_word : forall a b, a < 256 -> N.lor a (N.shiftl b 8) = a + 256 * b.
Proof.
  intros a b A. rewrite N.shiftl_mul_pow2.
  assert (Z : N.land a (b * 2 ^ 8) = 0).
  { apply N.bits_inj_0. intros i. rewrite N.land_spec.
    destruct (N.lt_ge_cases i 8). { rewrite N.mul_pow2_bits_low by lia. apply andb_false_r. }
    rewrite (N.bits_above_log2 a i); [reflexivity|].
    destruct (N.eq_dec a 0) as [->|]; [cbn; lia|]. apply N.log2_lt_pow2; [lia|].
    apply N.lt_le_trans with (2 ^ 8); [exact A|]. apply N.pow_le_mono_r; lia. }
  rewrite <- N.lxor_lor by exact Z. rewrite <- N.add_nocarry_lxor by exact Z. change (2 ^ 8) with 256. lia.
Qed.

Lemma get_of_take : forall (l w : list N) n i, takeN n l = w -> i < n -> getN l i = getN w i.
Proof. intros l w n i <- H. rewrite getN_take by lia. reflexivity. Qed.

(** One byte of a frame. *)
Lemma feed_frame : forall n d f w b v last now r,
  n <= 2 ^ 16 -> fits n f -> lenN d + 4 = n -> wire f = w ++ b :: v -> mid n d f w last r ->
  exists r', 
    match v with
    | [] => feed now b r = Ok (r', [(lenN (f_data f), f_data f ++ dropN (lenN (f_data f)) d)]) /\
            mid n (f_data f ++ dropN (lenN (f_data f)) d) f [] now r'
    | _ => feed now b r = Ok (r', []) /\ mid n d f (w ++ [b]) now r'
    end.
Proof.
  intros n d f w b v last now r N16 [F0 FB] D W [L I B O T TT S R].
  assert (LW : lenN w + lenN v + 1 = lenN (f_data f) + 4).
  { rewrite <- lenN_wire, W, lenN_app, lenN_cons. lia. }
  assert (IN : r_index r < lenN (r_buf r)) by lia.
  assert (B' : takeN (lenN w + 1) (updN (r_buf r) (r_index r) b) = w ++ [b]).
  { rewrite I. rewrite take_upd by lia. rewrite B. reflexivity. }
  assert (O' : dropN (N.max 4 (lenN w + 1)) (updN (r_buf r) (r_index r) b) = dropN (lenN w + 1 - 4) d).
  { rewrite drop_upd by lia. destruct (N.lt_ge_cases (lenN w) 4).
    - replace (N.max 4 (lenN w + 1)) with (N.max 4 (lenN w)) by lia. rewrite O.
      replace (lenN w - 4) with (lenN w + 1 - 4) by lia. reflexivity.
    - replace (N.max 4 (lenN w + 1)) with (N.max 4 (lenN w) + 1) by lia.
      rewrite <- drop_drop, O, drop_drop. f_equal. lia. }
  assert (L' : lenN (updN (r_buf r) (r_index r) b) = n) by (rewrite lenN_upd; exact L).
  unfold feed. replace (lenN (r_buf r) <=? r_index r) with false by lia.
  destruct w as [|w0 [|w1 w]].
  - (* idle *)
    rewrite S. destruct v as [|v0 v]. { cbn in LW. lia. }
    eexists. split; [reflexivity|]. cbn [app].
    constructor; cbn [r_buf r_state r_index r_remaining r_dlc r_ctr r_timer timeout_start t_value t_running].
    + exact L'.
    + rewrite I. reflexivity.
    + exact B'.
    + exact O'.
    + reflexivity.
    + reflexivity.
    + reflexivity.
    + intros X. cbn in X. lia.
  - rewrite S. destruct v as [|v0 v]. { cbn in LW. lia. }
    assert (I1 : r_index r = 1) by (rewrite I; reflexivity). rewrite I1 in *. change (1 =? 1) with true. cbv iota.
    change (lenN [w0] + 1) with 2 in B', O'. cbn [app] in B'.
    assert (G0 : getN (updN (r_buf r) 1 b) 0 = Some w0) by (rewrite (get_of_take _ _ 2 0 B') by lia; reflexivity).
    assert (G1 : getN (updN (r_buf r) 1 b) 1 = Some b) by (rewrite (get_of_take _ _ 2 1 B') by lia; reflexivity).
    unfold makeword. change (0 + 1) with 1. rewrite G0, G1. cbn [bind].
    assert (HB : w0 = lenN (f_data f) mod 256 /\ b = lenN (f_data f) / 256).
    { unfold wire in W. cbn [app] in W. split; congruence. }
    rewrite lor_word by (destruct HB; subst w0; apply N.mod_lt; lia).
    assert (HD : w0 + 256 * b = lenN (f_data f)) by (destruct HB; subst; lia). rewrite HD.
    eexists. split; [reflexivity|]. cbn [app].
    constructor; cbn [r_buf r_state r_index r_remaining r_dlc r_ctr r_timer timeout_reset t_value t_running].
    + exact L'.
    + reflexivity.
    + exact B'.
    + exact O'.
    + intros _. apply T. congruence.
    + reflexivity.
    + reflexivity.
    + intros _. unfold u16. change (lenN [w0; b]) with 2. split; lia.
  - rewrite S. specialize (R ltac:(rewrite !lenN_cons; lia)). destruct R as [R1 R2].
    assert (C : exists x, (if r_index r =? 3 then w2 <- makeword (updN (r_buf r) (r_index r) b) 2 ;; Ok (u16 w2) else Ok (r_ctr r)) = Ok x).
    { destruct (r_index r =? 3) eqn:E3; [|eauto]. unfold makeword.
      destruct (getN_lt_Some _ (updN (r_buf r) (r_index r) b) 2) as [x ->]; [lia|].
      destruct (getN_lt_Some _ (updN (r_buf r) (r_index r) b) (2 + 1)) as [y ->]; [lia|]. cbn [bind]. eauto. }
    destruct C as [ctr ->]. cbn [bind].
    assert (RR : u16 (r_remaining r + (2 ^ 16 - 1)) = lenN v).
    { rewrite R2. unfold u16. rewrite !lenN_cons in *. lia. }
    rewrite RR. destruct v as [|v0 v].
    + change (lenN [] =? 0) with true. cbv iota.
      assert (WF : wire f = (w0 :: w1 :: w) ++ [b]) by exact W.
      assert (DD : dropN 4 (updN (r_buf r) (r_index r) b) = f_data f ++ dropN (lenN (f_data f)) d).
      { rewrite <- (take_drop _ (lenN (w0 :: w1 :: w) + 1) (updN (r_buf r) (r_index r) b)).
        rewrite B', <- WF. change (lenN []) with 0 in LW.
        replace (N.max 4 (lenN (w0 :: w1 :: w) + 1)) with (lenN (w0 :: w1 :: w) + 1) in O' by lia. rewrite O'.
        unfold wire. rewrite <- app_assoc. 
        change 4 with (lenN [lenN (f_data f) mod 256; lenN (f_data f) / 256; f_ctr0 f; f_ctr1 f]) at 1. rewrite drop_app.
        f_equal. f_equal. lia. }
      rewrite DD, R1. eexists. split; [reflexivity|].
      constructor; cbn [reset_sm r_buf r_state r_index r_remaining r_dlc r_ctr r_timer timeout_reset timeout_stop t_value t_running].
      * exact L'.
      * reflexivity.
      * reflexivity.
      * change (N.max 4 (lenN [])) with 4. rewrite DD. reflexivity.
      * congruence.
      * congruence.
      * reflexivity.
      * cbn. lia.
    + replace (lenN (v0 :: v) =? 0) with false by (rewrite lenN_cons; lia). cbv iota.
      eexists. split; [reflexivity|].
      constructor; cbn [r_buf r_state r_index r_remaining r_dlc r_ctr r_timer timeout_reset t_value t_running].
      * exact L'.
      * rewrite lenN_app, I. change (lenN [b]) with 1. unfold u16. pose proof (lenN_cons _ v0 v). lia.
      * rewrite lenN_app. exact B'.
      * rewrite lenN_app. exact O'.
      * intros _. apply T. congruence.
      * reflexivity.
      * reflexivity.
      * intros _. rewrite lenN_app. change (lenN [b]) with 1. split; [exact R1|]. lia.
Qed.

Lemma quiet_check : forall n d f w last r t, mid n d f w last r -> elapsed last t <= last -> timeout_check t (r_timer r) = false.
Proof.
  intros n d f w last r t M Q. unfold timeout_check. destruct (t_running (r_timer r)) eqn:E; [|reflexivity].
  rewrite (mi_tt _ _ _ _ _ _ M E). unfold elapsed in Q. cbn [andb]. lia.
Qed.

Lemma mid_any : forall n d f g last r, mid n d f [] last r -> mid n d g [] last r.
Proof. intros n d f g last r [L I B O T TT S R]. constructor; auto. cbn. lia. Qed.

(** The general statement: the calls see a prefix of the rest of the current frame and
    the following ones. *)
Lemma run_frames : forall n l last r d f w v fs more,
  n <= 2 ^ 16 -> fits n f -> Forall (fits n) fs -> lenN d + 4 = n -> v <> [] ->
  wire f = w ++ v -> mid n d f w last r -> quiet last l -> octets l ++ more = v ++ wires fs ->
  exists r' done rest, sxi_run l r = Ok (r', commands d done) /\ f :: fs = done ++ rest /\
    lenN more <= lenN (wires rest) /\ match rest with [] => more = [] /\ r_state r' = Idle | _ :: t => lenN (wires t) < lenN more end.
Proof.
  intros n. induction l as [|p l IH]; intros last r d f w v fs more N16 F FS D V W M Q E.
  - exists r, [], (f :: fs). split; [reflexivity|]. split; [reflexivity|]. cbn [octets flat_map app] in E. subst more. split.
    + unfold wires. cbn [map concat]. fold (wires fs). rewrite W, !lenN_app. lia.
    + rewrite lenN_app. destruct v; [contradiction|]. rewrite lenN_cons. lia.
  - cbn [sxi_run]. unfold sxi_main. destruct Q as [Q0 Q]. cbn [octets flat_map] in E. fold (octets l) in E.
    destruct (p_byte p) as [b|].
    + destruct v as [|v0 v]; [contradiction|]. cbn [app] in E. injection E as <- E.
      destruct (feed_frame n d f w b v last (p_time p) r N16 F D W M) as [r1 X].
      destruct v as [|v1 v].
      * destruct X as [X M1]. rewrite X. cbn [bind]. rewrite (quiet_check _ _ _ _ _ _ _ M1 Q0).
        cbn [app] in E.
        assert (D1 : lenN (f_data f ++ dropN (lenN (f_data f)) d) + 4 = n).
        { rewrite lenN_app, lenN_drop. destruct F. lia. }
        destruct fs as [|g fs].
        -- cbn in E. apply app_eq_nil in E. destruct E as [E1 E2]. subst more.
           assert (Z : exists r2, sxi_run l r1 = Ok (r2, []) /\ r_state r2 = Idle).
           { clear -E1 M1 Q. revert r1 M1. induction l as [|p' l IH]; intros r1 M1.
             - exists r1. split; [reflexivity|]. exact (mi_st _ _ _ _ _ _ M1).
             - cbn [octets flat_map] in E1. destruct (p_byte p') eqn:P'; [discriminate|]. cbn [app] in E1.
               cbn [quiet] in Q. rewrite P' in Q. destruct Q as [Q0 Q].
               destruct (IH Q E1 r1 M1) as [r2 [Y1 Y2]]. exists r2. split; [|exact Y2].
               cbn [sxi_run]. unfold sxi_main. rewrite P'. cbn [bind]. rewrite (quiet_check _ _ _ _ _ _ _ M1 Q0). cbn [bind]. rewrite Y1. reflexivity. }
           destruct Z as [r2 [Z1 Z2]]. exists r2, [f], []. rewrite Z1. cbn [bind app]. split; [reflexivity|]. split; [reflexivity|]. split; [cbn; lia|]. auto.
        -- inversion FS as [|? ? FG FS']; subst.
           destruct (IH (p_time p) r1 _ g [] (wire g) fs more N16 FG FS' D1) as [r2 [done [rest [Y1 [Y2 [Y3 Y4]]]]]]; auto.
           { unfold wire. discriminate. } { apply mid_any with f. exact M1. }
           exists r2, (f :: done), rest. rewrite Y1. cbn [bind commands app]. split; [reflexivity|].
           split; [cbn; congruence|]. split; assumption.
      * destruct X as [X M1]. rewrite X. cbn [bind]. rewrite (quiet_check _ _ _ _ _ _ _ M1 Q0).
        destruct (IH (p_time p) r1 d f (w ++ [b]) (v1 :: v) fs more N16 F FS D) as [r2 [done [rest [Y1 [Y2 [Y3 Y4]]]]]]; auto.
        { discriminate. } { rewrite <- app_assoc. exact W. }
        exists r2, done, rest. rewrite Y1. cbn [bind app]. split; [reflexivity|]. split; [exact Y2|]. split; assumption.
    + cbn [app] in E. cbn [bind]. rewrite (quiet_check _ _ _ _ _ _ _ M Q0). cbn [bind].
      destruct (IH last r d f w v fs more N16 F FS D V W M Q E) as [r2 [done [rest [Y1 [Y2 [Y3 Y4]]]]]].
      exists r2, done, rest. rewrite Y1. cbn [bind app]. split; [reflexivity|]. split; [exact Y2|]. split; assumption.
Qed.

Lemma mid_init : forall buf f, 4 <= lenN buf -> mid (lenN buf) (dropN 4 buf) f [] 0 (sxi_init buf).
Proof.
  intros. constructor; cbn [sxi_init reset_sm r_buf r_state r_index r_remaining r_dlc r_ctr r_timer timeout_init t_running t_value]; auto; try congruence.
  cbn. lia.
Qed.

Lemma frames_from : forall buf fs more l,
  4 <= lenN buf <= 2 ^ 16 -> Forall (fits (lenN buf)) fs -> quiet 0 l -> octets l ++ more = wires fs -> fs <> [] ->
  exists r' done rest, sxi_run l (sxi_init buf) = Ok (r', commands (dropN 4 buf) done) /\ fs = done ++ rest /\
    lenN more <= lenN (wires rest) /\ match rest with [] => more = [] /\ r_state r' = Idle | _ :: t => lenN (wires t) < lenN more end.
Proof.
  intros buf fs more l B F Q E NE. destruct fs as [|f fs]; [contradiction|]. inversion F; subst.
  apply (run_frames (lenN buf) l 0 (sxi_init buf) (dropN 4 buf) f [] (wire f) fs more); auto.
  - lia.
  - rewrite lenN_drop. lia.
  - unfold wire. discriminate.
  - apply mid_init. lia.
Qed.

Lemma idle_polls : forall buf l, octets l = [] -> quiet 0 l -> 4 <= lenN buf -> exists r, sxi_run l (sxi_init buf) = Ok (r, []) /\ r_state r = Idle.
Proof.
  intros buf l. generalize (sxi_init buf) (mid_init buf (mkFrame 0 0 [])). intros r M E Q B. specialize (M B). revert r M.
  induction l as [|p l IH]; intros r M. { exists r. split; [reflexivity|]. exact (mi_st _ _ _ _ _ _ M). }
  cbn [octets flat_map] in E. destruct (p_byte p) eqn:P; [discriminate|]. cbn [app] in E.
  cbn [quiet] in Q. rewrite P in Q. destruct Q as [Q0 Q]. destruct (IH E Q r M) as [r2 [Y1 Y2]]. exists r2. split; [|exact Y2].
  cbn [sxi_run]. unfold sxi_main. rewrite P. cbn [bind]. rewrite (quiet_check _ _ _ _ _ _ _ M Q0). cbn [bind]. rewrite Y1. reflexivity.
Qed.

Theorem sxi_commands : forall buf fs l, 4 <= lenN buf <= 2 ^ 16 -> Forall (fits (lenN buf)) fs -> quiet 0 l -> octets l = wires fs ->
  exists r, sxi_run l (sxi_init buf) = Ok (r, commands (dropN 4 buf) fs) /\ r_state r = Idle.
Proof.
  intros buf fs l B F Q E. destruct fs as [|f fs].
  - apply idle_polls; auto. lia.
  - destruct (frames_from buf (f :: fs) [] l) as [r [done [rest [R [S [_ T]]]]]]; auto; [rewrite app_nil_r; exact E|discriminate|].
    destruct rest as [|g rest]; [|cbn in T; lia]. destruct T as [_ I]. rewrite app_nil_r in S. subst done. eauto.
Qed.

Lemma seen_commands : forall fs prev, map seen (commands prev fs) = map f_data fs.
Proof.
  induction fs as [|f fs IH]; intros; [reflexivity|]. cbn [commands map]. rewrite IH. f_equal. unfold seen. cbn [fst snd]. apply take_app.
Qed.

Theorem sxi_frames : forall buf fs l, 4 <= lenN buf <= 2 ^ 16 -> Forall (fits (lenN buf)) fs -> quiet 0 l -> octets l = wires fs ->
  exists r o, sxi_run l (sxi_init buf) = Ok (r, o) /\ map seen o = map f_data fs /\ map fst o = map (fun f => lenN (f_data f)) fs /\ r_state r = Idle.
Proof.
  intros buf fs l B F Q E. destruct (sxi_commands buf fs l B F Q E) as [r [R I]]. exists r, (commands (dropN 4 buf) fs).
  split; [exact R|]. split; [apply seen_commands|]. split; [|exact I].
  generalize (dropN 4 buf). clear. induction fs; intros; cbn [commands map fst]; [reflexivity|]. f_equal. apply IHfs.
Qed.

Theorem sxi_prefix : forall buf fs more l, 4 <= lenN buf <= 2 ^ 16 -> Forall (fits (lenN buf)) fs -> quiet 0 l ->
  octets l ++ more = wires fs -> exists r o, sxi_run l (sxi_init buf) = Ok (r, o).
Proof.
  intros buf fs more l B F Q E. destruct fs as [|f fs].
  - apply app_eq_nil in E. destruct E as [E _]. destruct (idle_polls buf l E Q) as [r [R _]]; [lia|]. eauto.
  - destruct (frames_from buf (f :: fs) more l) as [r [done [rest [R _]]]]; auto; [discriminate|]. eauto.
Qed.

(** ** Frames that do not fit *)

Definition oversize (len n : N) (r : rcv) (o : list N) : Prop :=
  lenN (r_buf r) = len /\
  ((r_state r = Idle /\ r_index r = 0 /\ exists bs, o = n mod 256 :: n / 256 :: bs /\ len <= lenN bs + 1) \/
   (r_state r = UntilLength /\ r_index r = 1 /\ getN (r_buf r) 0 = Some (n mod 256) /\ exists bs, o = n / 256 :: bs /\ len <= lenN bs + 1) \/
   (r_state r = Remaining /\ 2 <= r_index r <= len /\ r_remaining r < 2 ^ 16 /\
    len + 1 <= r_index r + (if r_remaining r =? 0 then 2 ^ 16 else r_remaining r) /\ len + 1 <= r_index r + lenN o)).

Lemma oversize_run : forall len n l last r, 4 <= len < 2 ^ 16 -> len < n + 4 -> n <= 65534 ->
  oversize len n r (octets l) -> (t_running (r_timer r) = true -> t_value (r_timer r) = last) -> quiet last l ->
  sxi_run l r = UB OobBuffer.
Proof.
  intros len n. induction l as [|p l IH]; intros last r LB LN N1 [L O] T Q.
  - exfalso. destruct O as [[_ [_ [bs [X _]]]]|[[_ [_ [_ [bs [X _]]]]]|[_ [A [_ [_ B]]]]]]; try discriminate. cbn in B. lia.
  - cbn [sxi_run]. unfold sxi_main. cbn [quiet] in Q. cbn [octets flat_map] in O. fold (octets l) in O.
    destruct (p_byte p) as [b|]; destruct Q as [Q0 Q].
    + assert (CH : forall t, (t_running t = true -> t_value t = p_time p) -> timeout_check (p_check p) t = false).
      { intros t X. unfold timeout_check. destruct (t_running t); [|reflexivity]. rewrite X by reflexivity. unfold elapsed in Q0. cbn [andb]. lia. }
      unfold feed. destruct O as [[S [I [bs [X Y]]]]|[[S [I [G [bs [X Y]]]]]|[S [A [R0 [R1 B]]]]]]; rewrite S.
      * rewrite I. replace (lenN (r_buf r) <=? 0) with false by lia. cbn [bind r_timer timeout_start]. rewrite CH by reflexivity.
        cbn [app] in X. injection X as -> X.
        rewrite (IH (p_time p)); auto. split; [cbn [r_buf]; rewrite lenN_upd; exact L|]. right. left. cbn [r_state r_index r_buf].
        split; [reflexivity|]. split; [reflexivity|]. split; [apply getN_upd_same; lia|]. eauto.
      * rewrite I. replace (lenN (r_buf r) <=? 1) with false by lia. change (1 =? 1) with true. cbv iota.
        cbn [app] in X. injection X as -> X.
        unfold makeword. rewrite getN_upd_other by lia. rewrite G. change (0 + 1) with 1. rewrite getN_upd_same by lia.
        rewrite lor_word by (apply N.mod_lt; lia). cbn [bind r_timer timeout_reset]. rewrite CH by (intros; reflexivity).
        replace (n mod 256 + 256 * (n / 256)) with n by lia.
        rewrite (IH (p_time p)); auto. split; [cbn [r_buf]; rewrite lenN_upd; exact L|]. right. right. cbn [r_state r_index r_buf r_remaining].
        change (u16 (1 + 1)) with 2. split; [reflexivity|]. split; [lia|]. unfold u16. rewrite X.
        destruct (N.eq_dec n 65534) as [->|]; [change ((65534 + 2) mod 2 ^ 16 =? 0) with true; cbv iota; lia|].
        replace ((n + 2) mod 2 ^ 16) with (n + 2) by lia. replace (n + 2 =? 0) with false by lia. lia.
      * destruct (lenN (r_buf r) <=? r_index r) eqn:E; [reflexivity|].
        assert (C : exists x, (if r_index r =? 3 then w2 <- makeword (updN (r_buf r) (r_index r) b) 2 ;; Ok (u16 w2) else Ok (r_ctr r)) = Ok x).
        { destruct (r_index r =? 3) eqn:E3; [|eauto]. unfold makeword.
          destruct (getN_lt_Some _ (updN (r_buf r) (r_index r) b) 2) as [x ->]; [rewrite lenN_upd; lia|].
          destruct (getN_lt_Some _ (updN (r_buf r) (r_index r) b) (2 + 1)) as [y ->]; [rewrite lenN_upd; lia|]. cbn [bind]. eauto. }
        destruct C as [ctr ->]. cbn [bind].
        assert (RR : u16 (r_remaining r + (2 ^ 16 - 1)) = (if r_remaining r =? 0 then 2 ^ 16 else r_remaining r) - 1).
        { unfold u16. destruct (r_remaining r =? 0) eqn:Z; lia. }
        rewrite RR.
        destruct ((if r_remaining r =? 0 then 2 ^ 16 else r_remaining r) - 1 =? 0) eqn:Z; [exfalso; destruct (r_remaining r =? 0); lia|].
        cbn [bind r_timer timeout_reset]. rewrite CH by (intros; reflexivity).
        rewrite (IH (p_time p)); auto. split; [cbn [r_buf]; rewrite lenN_upd; exact L|]. right. right. cbn [r_state r_index r_buf r_remaining].
        rewrite Z. cbn [app] in B. rewrite lenN_cons in B. unfold u16.
        replace ((r_index r + 1) mod 2 ^ 16) with (r_index r + 1) by lia. destruct (r_remaining r =? 0) eqn:Z1; repeat split; lia.
    + cbn [bind app]. unfold timeout_check at 1.
      replace (t_running (r_timer r) && (t_value (r_timer r) <? (p_check p + (2 ^ 32 - t_value (r_timer r))) mod 2 ^ 32)) with false.
      2:{ destruct (t_running (r_timer r)); [|reflexivity]. rewrite T by reflexivity. unfold elapsed in Q0. cbn [andb]. lia. }
      cbn [app] in O. rewrite (IH last); auto. split; assumption.
Qed.

Theorem sxi_overflow : forall buf n bs l, 4 <= lenN buf < 2 ^ 16 -> lenN buf < n + 4 -> n <= 65534 -> quiet 0 l ->
  octets l = n mod 256 :: n / 256 :: bs -> lenN buf <= lenN bs + 1 -> sxi_run l (sxi_init buf) = UB OobBuffer.
Proof.
  intros buf n bs l B N0 N1 Q O LB. apply (oversize_run (lenN buf) n l 0); auto.
  - split; [reflexivity|]. left. split; [reflexivity|]. split; [reflexivity|]. exists bs. auto.
  - cbn. congruence.
Qed.

Lemma elapsed_0 : forall t, t < 2 ^ 32 -> elapsed t t = 0.
Proof. intros. unfold elapsed. lia. Qed.

Theorem sxi_short : forall buf x t, 4 <= lenN buf -> t < 2 ^ 32 ->
  exists r, sxi_run [mkPoll (Some 255) t t; mkPoll (Some 255) t t; mkPoll (Some x) t t] (sxi_init buf) = Ok (r, [(65535, dropN 4 buf)]).
Proof.
  intros buf x t B T. destruct buf as [|b0 [|b1 [|b2 [|b3 buf]]]]; try (cbn in B; lia).
  assert (CH : forall k, timeout_check t (mkTimer t k) = false).
  { intros. unfold timeout_check. cbn [t_running t_value]. pose proof (elapsed_0 t T) as E. unfold elapsed in E. rewrite E. destruct k; cbn [andb]; lia. }
  cbn [sxi_run]. unfold sxi_main at 1. cbn [p_byte p_time p_check]. unfold feed at 1.
  cbn [sxi_init reset_sm r_index r_state r_buf r_remaining r_dlc r_ctr r_timer timeout_init]. 
  replace (lenN (b0 :: b1 :: b2 :: b3 :: buf) <=? 0) with false by lia. cbn [bind r_timer]. unfold timeout_start at 1. rewrite CH. cbn [bind].
  unfold sxi_main at 1. cbn [p_byte p_time p_check]. unfold feed at 1. cbn [r_index r_state r_buf r_remaining r_dlc r_ctr r_timer].
  change (u16 (0 + 1)) with 1. rewrite lenN_upd. replace (lenN (b0 :: b1 :: b2 :: b3 :: buf) <=? 1) with false by lia.
  change (1 =? 1) with true. cbv iota. change (updN (updN (b0 :: b1 :: b2 :: b3 :: buf) 0 255) 1 255) with (255 :: 255 :: b2 :: b3 :: buf).
  change (makeword (255 :: 255 :: b2 :: b3 :: buf) 0) with (Ok 65535). cbn [bind r_timer]. unfold timeout_reset at 1. cbn [t_running timeout_start]. rewrite CH.
  change (u16 (1 + 1)) with 2. change (u16 (65535 + 2)) with 1. change (u16 65535) with 65535. cbn [bind].
  unfold sxi_main at 1. cbn [p_byte p_time p_check]. unfold feed at 1. cbn [r_index r_state r_buf r_remaining r_dlc r_ctr r_timer].
  replace (lenN (255 :: 255 :: b2 :: b3 :: buf) <=? 2) with false by (rewrite !lenN_cons in *; lia).
  change (2 =? 3) with false. cbn [bind]. change (u16 (1 + (2 ^ 16 - 1)) =? 0) with true. cbn [bind reset_sm r_timer r_buf].
  unfold timeout_stop, timeout_reset, timeout_start. cbn [t_value t_running]. rewrite CH. cbn [bind app]. eexists. reflexivity.
Qed.

(** ** Time-outs *)

Record timed (last : N) (r : rcv) : Prop := mkTimed {
  ti_run : r_state r <> Idle -> t_running (r_timer r) = true /\ t_value (r_timer r) = last;
  ti_idx : r_state r = UntilLength -> r_index r = 1;
  ti_idle : r_state r = Idle -> r_index r = 0 }.

Lemma feed_timed : forall now b last r r' o, timed last r -> feed now b r = Ok (r', o) -> timed now r'.
Proof.
  intros now b last r r' o [A B C] F. unfold feed in F. destruct (lenN (r_buf r) <=? r_index r); [discriminate|].
  destruct (r_state r) eqn:S.
  - injection F as <- _. constructor; cbn [r_state r_timer r_index timeout_start t_running t_value]; auto; try discriminate.
    rewrite C by reflexivity. reflexivity.
  - rewrite B in F by reflexivity. change (1 =? 1) with true in F. cbv iota in F.
    destruct (makeword (updN (r_buf r) 1 b) 0) as [w|] eqn:M; cbn [bind] in F; [|discriminate]. injection F as <- _.
    constructor; cbn [r_state r_timer r_index timeout_reset t_running t_value]; auto; try discriminate.
    intros _. split; [apply A; discriminate|reflexivity].
  - destruct (if r_index r =? 3 then w <- makeword (updN (r_buf r) (r_index r) b) 2;; Ok (u16 w) else Ok (r_ctr r)); cbn [bind] in F; [|discriminate].
    destruct (u16 (r_remaining r + (2 ^ 16 - 1)) =? 0); injection F as <- _.
    + constructor; cbn [reset_sm r_state r_index]; auto; try discriminate; try contradiction.
    + constructor; cbn [r_state r_timer r_index timeout_reset t_running t_value]; auto; try discriminate.
      intros _. split; [apply A; discriminate|reflexivity].
Qed.

Lemma reset_timed : forall last r, timed last (reset_sm r).
Proof. intros. constructor; cbn [reset_sm r_state r_index]; auto; try discriminate; try contradiction. Qed.

Lemma run_timed : forall l last r r' o, timed last r -> sxi_run l r = Ok (r', o) -> timed (last_byte last l) r'.
Proof.
  induction l as [|p l IH]; intros last r r' o T R; [cbn in R; injection R as <- _; exact T|].
  cbn [sxi_run] in R. apply bind_Ok in R. destruct R as [[r1 o1] [M R]]. apply bind_Ok in R. destruct R as [[r2 o2] [R X]]. injection X as -> _.
  cbn [last_byte]. apply (IH _ r1 _ o2); auto. unfold sxi_main in M. apply bind_Ok in M. destruct M as [[r3 o3] [F M]]. injection M as <- _.
  assert (T3 : timed (match p_byte p with Some _ => p_time p | None => last end) r3).
  { destruct (p_byte p). eapply feed_timed; eauto. injection F as <- _. exact T. }
  destruct (timeout_check (p_check p) (r_timer r3)); [apply reset_timed|exact T3].
Qed.

Theorem timeout_exact : forall buf l r o t, sxi_run l (sxi_init buf) = Ok (r, o) -> r_state r <> Idle ->
  sxi_main (mkPoll None t t) r = Ok (if last_byte 0 l <? elapsed (last_byte 0 l) t then reset_sm r else r, []).
Proof.
  intros buf l r o t R S. pose proof (run_timed l 0 (sxi_init buf) r o (reset_timed 0 _) R) as [A _ _].
  destruct (A S) as [A1 A2]. unfold sxi_main. cbn [p_byte p_check bind]. unfold timeout_check. rewrite A1, A2. reflexivity.
Qed.

Theorem timeout_early : forall buf l r o t d, sxi_run l (sxi_init buf) = Ok (r, o) -> r_state r <> Idle ->
  last_byte 0 l = t -> t < d -> d <= 100 -> exists r', sxi_main (mkPoll None (t + d) (t + d)) r = Ok (r', []) /\ r_state r' = Idle.
Proof.
  intros buf l r o t d R S T D1 D2. rewrite (timeout_exact buf l r o) by auto. rewrite T.
  replace (t <? elapsed t (t + d)) with true by (unfold elapsed; lia). eexists. split; [reflexivity|]. reflexivity.
Qed.

Theorem timeout_late : forall buf l r o t d, sxi_run l (sxi_init buf) = Ok (r, o) -> r_state r <> Idle ->
  last_byte 0 l = t -> 100 < d -> d <= t -> t + d < 2 ^ 32 -> sxi_main (mkPoll None (t + d) (t + d)) r = Ok (r, []).
Proof.
  intros buf l r o t d R S T D1 D2 D3. rewrite (timeout_exact buf l r o) by auto. rewrite T.
  replace (t <? elapsed t (t + d)) with false by (unfold elapsed; lia). reflexivity.
Qed.

(** ** Frames with a check sum *)

Lemma commands_length : forall fs prev, length (commands prev fs) = length fs.
Proof. induction fs; intros; cbn [commands length]; auto. Qed.

Theorem sxi_checksum : forall buf f g k0 k1 l, 4 <= lenN buf <= 2 ^ 16 -> fits (lenN buf) f -> fits (lenN buf) g ->
  k0 < 256 -> k1 < 256 -> let k := k0 + 256 * k1 in k + 4 <= lenN buf -> lenN (f_data g) + 2 < k -> quiet 0 l ->
  octets l = wire f ++ [k0; k1] ++ wire g -> exists r, sxi_run l (sxi_init buf) = Ok (r, commands (dropN 4 buf) [f]) .
Proof.
  intros buf f g k0 k1 l B F G K0 K1 k KB KG Q O.
  set (h := mkFrame (lenN (f_data g) mod 256) (lenN (f_data g) / 256) 
              (f_ctr0 g :: f_ctr1 g :: f_data g ++ repeat 0 (N.to_nat (k - lenN (f_data g) - 2)))).
  assert (HL : lenN (f_data h) = k).
  { cbn [h f_data]. rewrite !lenN_cons, lenN_app, lenN_repeat. lia. }
  assert (HW : wire h = k0 :: k1 :: wire g ++ repeat 0 (N.to_nat (k - lenN (f_data g) - 2))).
  { unfold wire at 1. rewrite HL. replace (k mod 256) with k0 by (unfold k; lia). replace (k / 256) with k1 by (unfold k; lia). reflexivity. }
  destruct (frames_from buf [f; h] (repeat 0 (N.to_nat (k - lenN (f_data g) - 2))) l) as [r [done [rest [R [S [M X]]]]]]; auto.
  - constructor; [exact F|]. constructor; [|constructor]. split; [rewrite HL; exact KB|]. rewrite HW.
    constructor; [exact K0|]. constructor; [exact K1|]. apply Forall_app. split; [apply G|].
    apply Forall_forall. intros x X. apply repeat_spec in X. lia.
  - rewrite O. unfold wires. cbn [map concat]. rewrite HW, app_nil_r, <- !app_assoc. reflexivity.
  - discriminate.
  - assert (ML : lenN (repeat 0 (N.to_nat (k - lenN (f_data g) - 2))) = k - lenN (f_data g) - 2) by (rewrite lenN_repeat; lia).
    destruct done as [|d0 [|d1 [|? ?]]].
    + exfalso. cbn [app] in S. subst rest. unfold wires in X. cbn [map concat] in X.
      rewrite app_nil_r, lenN_wire, HL, ML in X. lia.
    + cbn [app] in S. injection S as <- _. eauto.
    + exfalso. cbn [app] in S. injection S as _ _ <-. destruct X as [X _]. rewrite X in ML. cbn in ML. lia.
    + cbn in S. discriminate.
Qed.
