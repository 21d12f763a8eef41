(** Proofs of the properties of reception by interrupt. *)
From Coq Require Import NArith ZArith List Bool Lia ZifyBool ZifyNat ZifyN.
From Verif Require Import Base Config Cfgs State Core Demo Lists Can Ino SpecIno.
Import ListNotations.
Open Scope N_scope.

Lemma irun_app : forall c a b x, irun c (a ++ b) x = r <- irun c a x ;; q <- irun c b (fst r) ;; Ok (fst q, snd r ++ snd q).
Proof.
  induction a as [|(e & o) t IH]; intros b x; cbn [irun app bind].
  - cbn [fst snd app]. destruct (irun c b x) as [(q & o)|]; reflexivity.
  - destruct (ido c e o x) as [(y & p)|]; [|reflexivity]. cbn [bind fst snd]. rewrite IH.
    destruct (irun c t y) as [(z & p2)|]; [|reflexivity]. cbn [bind fst snd]. destruct (irun c b z) as [(w & p3)|]; [|reflexivity].
    cbn [bind fst snd]. now rewrite app_assoc.
Qed.
Lemma steps_S : forall k e, steps (k + 1) e = (e, IMain) :: steps k e.
Proof. intros. unfold steps. replace (N.to_nat (k + 1)) with (S (N.to_nat k)) by lia. reflexivity. Qed.
Lemma steps_add : forall a b e, steps (a + b) e = steps a e ++ steps b e.
Proof. intros. unfold steps. rewrite N2Nat.inj_add. apply repeat_app. Qed.
Lemma steps_rest : forall c e k x, resting x -> irun c (steps k e) x = Ok (x, []).
Proof.
  intros c e k x (F & P & _). unfold steps. induction (N.to_nat k) as [|n IH]; [reflexivity|]. cbn [repeat irun ido]. unfold istep. rewrite P, F. cbn [bind fst].
  rewrite IH. reflexivity.
Qed.
Lemma one : forall c e k x y o, istep c e x = Ok (y, o) -> irun c (steps (k + 1) e) x = q <- irun c (steps k e) y ;; Ok (fst q, o ++ snd q).
Proof. intros. rewrite steps_S. cbn [irun ido]. rewrite H. reflexivity. Qed.
Lemma one0 : forall c e k x y, istep c e x = Ok (y, []) -> irun c (steps (k + 1) e) x = irun c (steps k e) y.
Proof. intros. rewrite (one _ _ _ _ _ _ H). destruct (irun c (steps k e) y) as [(q & o)|]; reflexivity. Qed.


Lemma splice_next : forall (l : list N) p b, splice (splice l 0 p) (lenN p) [b] = splice l 0 (p ++ [b]).
Proof.
  intros. unfold splice. rewrite take_0. cbn [app]. rewrite take_app. rewrite drop_app_ge by (change (lenN [b]) with 1; lia).
  change (lenN [b]) with 1. rewrite lenN_app. change (lenN [b]) with 1. replace (lenN p + 1 - lenN p) with 1 by lia. rewrite drop_drop.
  rewrite <- app_assoc. reflexivity.
Qed.
Lemma take_next : forall (l : list N) i k b, getN l i = Some b -> takeN (k + 1) (dropN i l) = b :: takeN k (dropN (i + 1) l).
Proof.
  intros l i k b H. replace (dropN i l) with (b :: dropN (i + 1) l).
  - rewrite take_cons by lia. f_equal. f_equal. lia.
  - apply getN_ext. intro j. destruct (N.eq_dec j 0) as [->|J].
    + rewrite getN_drop, N.add_0_r, H. reflexivity.
    + change (b :: dropN (i + 1) l) with ([b] ++ dropN (i + 1) l). rewrite getN_app2 by (change (lenN [b]) with 1; lia). rewrite !getN_drop.
      f_equal. change (lenN [b]) with 1. lia.
Qed.

(** ** The copy *)
Definition copying (l : list N) (p : list N) (s : st) buf dlc flag n : ino := mkI (set_s_in (splice l 0 p) s) buf dlc flag (PCopy (lenN p) n).
Lemma copy_k : forall c e l s buf dlc flag n, n <= lenN buf -> n <= c_ctobuf c -> forall k p, lenN p + N.of_nat k <= n ->
  irun c (steps (N.of_nat k) e) (copying l p s buf dlc flag n) = Ok (copying l (p ++ takeN (N.of_nat k) (dropN (lenN p) buf)) s buf dlc flag n, []).
Proof.
  intros c e l s buf dlc flag n B C. induction k as [|k IH]; intros p H.
  - cbn. rewrite app_nil_r. reflexivity.
  - rewrite Nat2N.inj_succ, <- N.add_1_r in *. destruct (getN_lt_Some _ buf (lenN p)) as (b & G); [lia|].
    rewrite (one0 c e _ _ (copying l (p ++ [b]) s buf dlc flag n)).
    + rewrite IH by (rewrite lenN_app; change (lenN [b]) with 1; lia). do 3 f_equal. rewrite <- app_assoc. f_equal. rewrite lenN_app. change (lenN [b]) with 1.
      rewrite (take_next _ _ _ _ G). reflexivity.
    + unfold istep, copying at 1. cbn [i_pc]. replace (lenN p <? n) with true by lia. unfold copying at 1. cbn [i_buf]. rewrite G.
      replace (c_ctobuf c <=? lenN p) with false by lia. unfold copying. cbn [i_st i_buf i_dlc i_flag]. rewrite <- splice_next.
      rewrite lenN_app. reflexivity.
Qed.
Lemma copy_some : forall c e l s buf dlc flag n k p, n <= lenN buf -> n <= c_ctobuf c -> lenN p + k <= n ->
  irun c (steps k e) (copying l p s buf dlc flag n) = Ok (copying l (p ++ takeN k (dropN (lenN p) buf)) s buf dlc flag n, []).
Proof. intros. rewrite <- (N2Nat.id k) at 1 2. rewrite copy_k; rewrite ?N2Nat.id; auto. Qed.

(** ** Execution of a complete frame *)
Lemma recv_eq : forall c e d s, 1 <= lenN d <= c_ctobuf c -> step c e (ORecv d) s = dispatch c e (set_s_in (splice (s_in s) 0 d) s).
Proof. intros. cbn [step]. unfold receive. replace (lenN d =? 0) with false by lia. replace (c_ctobuf c <? lenN d) with false by lia. reflexivity. Qed.
(** The slave executes [d] and continues with [k]. *)
Definition after (c : cfg) (e : env) (d : list N) (s : st) (k : st -> ires) : ires :=
  r <- step c e (ORecv d) s ;; q <- k (fst r) ;; Ok (fst q, snd r ++ snd q).
Lemma finish : forall c e d s buf dlc flag k, 1 <= lenN d <= c_ctobuf c ->
  irun c (steps (k + 1) e) (copying (s_in s) d s buf dlc flag (lenN d)) = after c e d s (fun s' => irun c (steps k e) (mkI s' buf dlc flag PIdle)).
Proof.
  intros. rewrite steps_S. cbn [irun ido]. unfold istep, copying at 1. cbn [i_pc]. rewrite N.ltb_irrefl. unfold after. rewrite recv_eq by auto.
  cbn [i_st copying i_buf i_dlc i_flag]. destruct (dispatch _ _ _) as [(s' & o)|]; reflexivity.
Qed.
Lemma same_in : forall s, set_s_in (s_in s) s = s. Proof. destruct s; reflexivity. Qed.
Lemma begin3 : forall c e s buf n k, n <> 0 ->
  irun c (steps (k + 3) e) (mkI s buf n true PIdle) = irun c (steps k e) (copying (s_in s) [] s buf n false n).
Proof.
  intros. replace (k + 3) with (k + 1 + 1 + 1) by lia. rewrite (one0 c e _ _ (mkI s buf n true PSeen)) by reflexivity.
  rewrite (one0 c e _ _ (mkI s buf n false PGo)) by reflexivity. apply one0. unfold istep. cbn [i_pc i_dlc i_st i_buf i_flag].
  replace (n =? 0) with false by lia. unfold copying. change (splice (s_in s) 0 []) with (s_in s). rewrite same_in. reflexivity.
Qed.
Lemma full_pass : forall c e s buf n k, 1 <= n <= lenN buf -> n <= c_ctobuf c ->
  irun c (steps (k + n + 4) e) (mkI s buf n true PIdle) =
  after c e (takeN n buf) s (fun s' => irun c (steps k e) (mkI s' buf n false PIdle)).
Proof.
  intros c e s buf n k H C. replace (k + n + 4) with (n + (k + 1) + 3) by lia. rewrite begin3 by lia. rewrite steps_add, irun_app.
  rewrite copy_some by (change (lenN (@nil N)) with 0; lia). cbn [app bind fst snd]. rewrite drop_0.
  assert (L : lenN (takeN n buf) = n) by (rewrite lenN_take; lia).
  replace (copying (s_in s) (takeN n buf) s buf n false n) with (copying (s_in s) (takeN n buf) s buf n false (lenN (takeN n buf))) by (now rewrite L).
  rewrite finish by (rewrite L; lia). destruct (after c e (takeN n buf) s _) as [(q & o)|]; reflexivity.
Qed.
Lemma isr_fine : forall c f x, fine c f -> isr f x = Ok (mkI (i_st x) (splice (i_buf x) 0 (n_data f)) (lenN (n_data f)) true (i_pc x)).
Proof.
  intros c f x (R & L & _). unfold isr. rewrite R. replace (64 <? lenN (n_data f)) with false by lia. unfold u8. rewrite N.mod_small by lia. reflexivity.
Qed.
Lemma len_splice0 : forall (b d : list N), lenN d <= lenN b -> lenN (splice b 0 d) = lenN b.
Proof. intros. apply lenN_splice. lia. Qed.
Lemma rest_after : forall s buf d n, lenN buf = 64 -> lenN d <= 64 -> resting (mkI s (splice buf 0 d) n false PIdle).
Proof. intros. repeat split. unfold i_buf. rewrite len_splice0; lia. Qed.
Lemma ends_after : forall c e d s k l, (forall s', ends c (k s') l s') -> ends c (after c e d s k) ((e, ORecv d) :: l) s.
Proof.
  intros c e d s k l H. unfold ends, after. cbn [run]. destruct (step c e (ORecv d) s) as [(s1 & o1)|w]; [|reflexivity]. cbn [andthen bind fst snd].
  specialize (H s1). unfold ends in H. destruct (run c l s1) as [(s2 & o2)|w].
  - destruct H as (x & -> & A & B). cbn [andthen bind fst snd]. eauto.
  - rewrite H. reflexivity.
Qed.
Lemma ends_rest : forall c e k s buf dlc, lenN buf = 64 -> ends c (irun c (steps k e) (mkI s buf dlc false PIdle)) [] s.
Proof. intros. rewrite steps_rest by (repeat split; auto). cbn. eexists. repeat split; auto. Qed.

(** ** C91 *)
Lemma paced_thm : forall c ws x, resting x -> Forall (paced c) ws -> ends c (irun c (flat_map as_run ws) x) (map as_op ws) (i_st x).
Proof.
  induction ws as [|(e & w) t IH]; intros x Rx F.
  - cbn. eauto.
  - inversion F as [|? ? P F']; subst. cbn [flat_map map]. rewrite irun_app. destruct w as [f k|o]; unfold as_run at 1, as_op at 1; cbn [fst snd].
    + destruct P as (Ff & K). cbn [snd] in *. cbn [irun ido]. rewrite (isr_fine c) by auto. cbn [bind fst snd].
      destruct x as [s buf dlc fl q]. destruct Rx as (R1 & R2 & R3). cbn [i_st i_buf i_dlc i_flag i_pc] in *. subst fl q.
      destruct Ff as (_ & L1 & L2). set (d := n_data f) in *. replace k with (k - lenN d - 4 + lenN d + 4) by lia.
      rewrite full_pass by (rewrite ?len_splice0; lia). rewrite take_splice0.
      unfold ends, after. cbn [run]. destruct (step c e (ORecv d) s) as [(s1 & o1)|w]; [|reflexivity]. cbn [andthen bind fst snd].
      rewrite steps_rest by (apply rest_after; lia). cbn [bind fst snd app].
      specialize (IH (mkI s1 (splice buf 0 d) (lenN d) false PIdle)). unfold ends in IH. cbn [i_st] in IH. rewrite app_nil_r.
      destruct (run c (map as_op t) s1) as [(s2 & o2)|w].
      * destruct IH as (y & E & A & B); [apply rest_after; lia|auto|]. rewrite E. cbn [bind fst snd]. eauto.
      * rewrite IH; [reflexivity|apply rest_after; lia|auto].
    + cbn [irun ido]. destruct x as [s buf dlc fl q]. destruct Rx as (R1 & R2 & R3). cbn [i_st i_buf i_dlc i_flag i_pc] in *. subst fl q.
      unfold ends. cbn [run]. destruct (step c e o s) as [(s1 & o1)|w]; [|reflexivity]. cbn [andthen bind fst snd]. rewrite app_nil_r.
      specialize (IH (mkI s1 buf dlc false PIdle)). unfold ends in IH. cbn [i_st] in IH.
      destruct (run c (map as_op t) s1) as [(s2 & o2)|w].
      * destruct IH as (y & E & A & B); [repeat split; auto|auto|]. rewrite E. cbn [bind fst snd]. eauto.
      * rewrite IH; [reflexivity|repeat split; auto|auto].
Qed.

(** ** C92 *)
Lemma resume : forall c e s p buf dlc flag n k, 1 <= n <= lenN buf -> n <= c_ctobuf c -> lenN p <= n ->
  irun c (steps (k + (n - lenN p) + 1) e) (copying (s_in s) p s buf dlc flag n) =
  after c e (p ++ takeN (n - lenN p) (dropN (lenN p) buf)) s (fun s' => irun c (steps k e) (mkI s' buf dlc flag PIdle)).
Proof.
  intros c e s p buf dlc flag n k H C P. replace (k + (n - lenN p) + 1) with (n - lenN p + (k + 1)) by lia. rewrite steps_add, irun_app.
  rewrite copy_some by lia. cbn [bind fst snd app]. set (d := p ++ _).
  assert (L : lenN d = n) by (unfold d; rewrite lenN_app, lenN_take, lenN_drop; lia).
  replace (copying (s_in s) d s buf dlc flag n) with (copying (s_in s) d s buf dlc flag (lenN d)) by (now rewrite L).
  rewrite finish by (rewrite L; lia). destruct (after c e d s _) as [(q & o)|]; reflexivity.
Qed.
Lemma from_seen : forall c e s buf n fl k, irun c (steps (k + 1) e) (mkI s buf n fl PSeen) = irun c (steps k e) (mkI s buf n false PGo).
Proof. intros. apply one0. reflexivity. Qed.
Lemma from_go : forall c e s buf n fl k, n <> 0 ->
  irun c (steps (k + 1) e) (mkI s buf n fl PGo) = irun c (steps k e) (copying (s_in s) [] s buf n fl n).
Proof.
  intros. apply one0. unfold istep. cbn [i_pc i_dlc i_st i_buf i_flag].
  replace (n =? 0) with false by lia. unfold copying. change (splice (s_in s) 0 []) with (s_in s). rewrite same_in. reflexivity.
Qed.
Lemma torn_eq : forall (d1 d2 buf : list N) i, i <= lenN d1 -> lenN d1 <= lenN buf -> lenN d2 <= lenN buf ->
  takeN i d1 ++ takeN (lenN d1 - i) (dropN i (splice (splice buf 0 d1) 0 d2)) = torn d1 d2 i.
Proof.
  intros d1 d2 buf i H B1 B2. unfold torn. f_equal. apply getN_ext. intro j. destruct (N.lt_ge_cases j (lenN d1 - i)) as [J|J].
  - rewrite getN_take by lia. rewrite !getN_drop. rewrite getN_take by lia. unfold splice. rewrite !take_0. cbn [app]. rewrite !N.add_0_l.
    destruct (N.lt_ge_cases (i + j) (lenN d2)) as [K|K].
    + now rewrite !getN_app1 by lia.
    + rewrite !getN_app2 by lia. rewrite !getN_drop. rewrite getN_app1 by lia. reflexivity.
  - assert (A : forall l : list N, lenN l <= j -> getN l j = None) by (intros; now apply getN_None). rewrite !A; auto;
     rewrite ?lenN_drop, lenN_take, ?lenN_drop; lia.
Qed.
(** The second frame, complete in the buffer, is executed next. *)
Lemma then_second : forall c e s b d k, 1 <= lenN d <= 64 -> lenN d <= c_ctobuf c -> lenN b = 64 ->
  ends c (irun c (steps (k + lenN d + 4) e) (mkI s (splice b 0 d) (lenN d) true PIdle)) [(e, ORecv d)] s.
Proof.
  intros. rewrite full_pass by (rewrite ?len_splice0; lia). rewrite take_splice0. apply ends_after. intro s'. apply ends_rest. rewrite len_splice0; lia.
Qed.
Lemma race_thm : forall c e f1 f2 j k x, resting x -> fine c f1 -> fine c f2 ->
  let d1 := n_data f1 in let d2 := n_data f2 in
  j <= lenN d1 + 3 -> lenN d1 + 2 * lenN d2 + 8 <= k ->
  ends c (irun c ((e, IFrame f1) :: steps j e ++ (e, IFrame f2) :: steps k e) x) (map (fun d => (e, ORecv d)) (executed d1 d2 j)) (i_st x).
Proof.
  intros c e f1 f2 j k x Rx F1 F2 d1 d2 J K. destruct x as [s buf dlc fl q]. destruct Rx as (R1 & R2 & R3). cbn [i_st i_buf i_dlc i_flag i_pc] in *. subst fl q.
  cbn [irun ido]. rewrite (isr_fine c) by auto. cbn [bind fst snd i_st i_buf i_pc]. fold d1.
  set (b1 := splice buf 0 d1). pose proof F1 as (_ & A1 & A2). pose proof F2 as (_ & B1 & B2). fold d1 in A1, A2. fold d2 in B1, B2.
  assert (L1 : lenN b1 = 64) by (unfold b1; rewrite len_splice0; lia).
  assert (L2 : lenN (splice b1 0 d2) = 64) by (rewrite len_splice0; lia).
  match goal with |- ends c (bind ?r ?g) _ _ => assert (E : bind r g = r) by (destruct r as [(y & o)|]; reflexivity); rewrite E; clear E end.
  rewrite irun_app. unfold executed. destruct (N.leb_spec j 1) as [J1|J1].
  - destruct (N.eq_dec j 0) as [->|J0].
    + cbn [steps N.to_nat repeat irun bind fst snd ido]. rewrite (isr_fine c) by auto. cbn [bind fst snd i_st i_buf i_pc app]. fold d2.
      match goal with |- ends c (bind (bind ?r ?g) ?h) _ _ => assert (E : bind (bind r g) h = r) by (destruct r as [(y & o)|]; reflexivity); rewrite E; clear E end.
      replace k with (k - lenN d2 - 4 + lenN d2 + 4) by lia. apply then_second; auto.
    + replace j with (0 + 1) by lia. rewrite (one0 c e 0 _ (mkI s b1 (lenN d1) true PSeen)) by reflexivity.
      cbn [steps N.to_nat repeat irun bind fst snd ido]. rewrite (isr_fine c) by auto. cbn [bind fst snd i_st i_buf i_pc app]. fold d2.
      match goal with |- ends c (bind (bind ?r ?g) ?h) _ _ => assert (E : bind (bind r g) h = r) by (destruct r as [(y & o)|]; reflexivity); rewrite E; clear E end.
      replace k with (k - lenN d2 - 3 + (lenN d2 - lenN (@nil N)) + 1 + 1 + 1) by (change (lenN (@nil N)) with 0; lia).
      rewrite from_seen, from_go by lia. rewrite resume by (change (lenN (@nil N)) with 0; lia). change (lenN (@nil N)) with 0. cbn [app].
      rewrite drop_0, N.sub_0_r, take_splice0. apply ends_after. intro. now apply ends_rest.
  - destruct (N.eqb_spec j 2) as [->|J2].
    + change 2 with (0 + 1 + 1) at 1. rewrite (one0 c e _ _ (mkI s b1 (lenN d1) true PSeen)) by reflexivity. rewrite from_seen.
      cbn [steps N.to_nat repeat irun bind fst snd ido]. rewrite (isr_fine c) by auto. cbn [bind fst snd i_st i_buf i_pc app]. fold d2.
      match goal with |- ends c (bind (bind ?r ?g) ?h) _ _ => assert (E : bind (bind r g) h = r) by (destruct r as [(y & o)|]; reflexivity); rewrite E; clear E end.
      replace k with (k - 2 * lenN d2 - 6 + lenN d2 + 4 + (lenN d2 - lenN (@nil N)) + 1 + 1) by (change (lenN (@nil N)) with 0; lia).
      rewrite from_go by lia. rewrite resume by (change (lenN (@nil N)) with 0; lia). change (lenN (@nil N)) with 0. cbn [app].
      rewrite drop_0, N.sub_0_r, take_splice0. apply ends_after. intro. apply then_second; auto.
    + replace j with (j - 3 + 3) at 1 by lia. rewrite begin3 by lia. set (i := j - 3).
      rewrite copy_some by (change (lenN (@nil N)) with 0; lia). change (lenN (@nil N)) with 0. rewrite drop_0. cbn [app].
      cbn [irun bind fst snd ido]. rewrite (isr_fine c) by auto. cbn [bind fst snd i_st i_buf i_pc app copying]. fold d2.
      match goal with |- ends c (bind (bind ?r ?g) ?h) _ _ => assert (E : bind (bind r g) h = r) by (destruct r as [(y & o)|]; reflexivity); rewrite E; clear E end.
      assert (T : takeN i b1 = takeN i d1) by (unfold b1, splice; rewrite take_0; cbn [app]; apply take_app_le; lia). rewrite T.
      assert (LT : lenN (takeN i d1) = i) by (rewrite lenN_take; lia).
      match goal with |- ends c (irun c (steps k e) ?y) _ _ => change y with (copying (s_in s) (takeN i d1) s (splice b1 0 d2) (lenN d2) true (lenN d1)) end.
      replace k with (k - (lenN d1 - i) - 1 - lenN d2 - 4 + lenN d2 + 4 + (lenN d1 - lenN (takeN i d1)) + 1) by lia.
      rewrite resume by lia. rewrite LT. unfold b1 at 1; rewrite torn_eq by lia. apply ends_after. intro. apply then_second; auto.
Qed.

(** ** C93 *)
Lemma any_ident : forall c e b i d k x, resting x -> 1 <= lenN d <= 64 -> lenN d <= c_ctobuf c -> lenN d + 4 <= k ->
  ends c (irun c ((e, IFrame (mkCan b false i d)) :: steps k e) x) [(e, ORecv d)] (i_st x).
Proof.
  intros c e b i d k x Rx L C K. pose proof (paced_thm c [(e, WFrame (mkCan b false i d) k)] x Rx) as P. cbn [flat_map map as_run as_op fst snd n_data] in P.
  rewrite app_nil_r in P. apply P. constructor; [|constructor]. repeat split; cbn [n_data]; lia.
Qed.
Lemma remote_any : forall c e b i z k x, resting x -> 1 <= lenN z <= 64 -> lenN z <= c_ctobuf c -> lenN z + 4 <= k ->
  ends c (irun c ((e, IFrame (mkCan b true i z)) :: steps k e) x) [(e, ORecv (takeN (lenN z) (i_buf x)))] (i_st x).
Proof.
  intros c e b i z k x Rx L C K. destruct x as [s buf dlc fl q]. destruct Rx as (R1 & R2 & R3). cbn [i_st i_buf i_dlc i_flag i_pc] in *. subst fl q.
  cbn [irun ido]. unfold isr. cbn [n_rtr n_data i_st i_buf i_pc bind fst snd app]. unfold u8. rewrite N.mod_small by lia.
  match goal with |- ends c (bind ?r ?g) _ _ => assert (E : bind r g = r) by (destruct r as [(y & o)|]; reflexivity); rewrite E; clear E end.
  replace k with (k - lenN z - 4 + lenN z + 4) by lia. rewrite full_pass by lia. apply ends_after. intro. now apply ends_rest.
Qed.
(** Repetition of the last command. *)
Lemma remote_again : forall c e f b i z k1 k2 x, resting x -> fine c f -> lenN z = lenN (n_data f) ->
  lenN (n_data f) + 4 <= k1 -> lenN (n_data f) + 4 <= k2 ->
  ends c (irun c ((e, IFrame f) :: steps k1 e ++ (e, IFrame (mkCan b true i z)) :: steps k2 e) x) [(e, ORecv (n_data f)); (e, ORecv (n_data f))] (i_st x).
Proof.
  intros c e f b i z k1 k2 x Rx Ff Z K1 K2. destruct x as [s buf dlc fl q]. destruct Rx as (R1 & R2 & R3). cbn [i_st i_buf i_dlc i_flag i_pc] in *. subst fl q.
  cbn [irun ido]. rewrite (isr_fine c) by auto. cbn [bind fst snd i_st i_buf i_pc].
  match goal with |- ends c (bind ?r ?g) _ _ => assert (E : bind r g = r) by (destruct r as [(y & o)|]; reflexivity); rewrite E; clear E end.
  destruct Ff as (_ & L & C). set (d := n_data f) in *. rewrite irun_app. replace k1 with (k1 - lenN d - 4 + lenN d + 4) by lia.
  rewrite full_pass by (rewrite ?len_splice0; lia). rewrite take_splice0.
  unfold ends, after. cbn [run]. destruct (step c e (ORecv d) s) as [(s1 & o1)|w]; [|reflexivity]. cbn [andthen bind fst snd].
  rewrite steps_rest by (apply rest_after; lia). cbn [bind fst snd app]. rewrite app_nil_r.
  pose proof (remote_any c e b i z k2 (mkI s1 (splice buf 0 d) (lenN d) false PIdle)) as P. cbn [i_buf i_st] in P. rewrite Z, take_splice0 in P.
  specialize (P ltac:(apply rest_after; lia) ltac:(lia) ltac:(lia) ltac:(lia)). unfold ends in P. cbn [run] in P.
  destruct (step c e (ORecv d) s1) as [(s2 & o2)|w]; cbn [andthen bind] in P |- *.
  - destruct P as (y & E & A & B). rewrite E. cbn [bind fst snd]. eauto.
  - rewrite P. reflexivity.
Qed.
Lemma empty_frame : forall c e f k x, resting x -> n_data f = [] -> 3 <= k -> irun c ((e, IFrame f) :: steps k e) x = UB Assert.
Proof.
  intros c e f k x Rx D K. destruct x as [s buf dlc fl q]. destruct Rx as (R1 & R2 & R3). cbn [i_st i_buf i_dlc i_flag i_pc] in *. subst fl q.
  assert (I : isr f (mkI s buf dlc false PIdle) = Ok (mkI s buf 0 true PIdle)).
  { unfold isr. rewrite D. destruct (n_rtr f); [reflexivity|]. cbn [i_buf]. change (splice buf 0 []) with buf. reflexivity. }
  cbn [irun ido]. rewrite I. cbn [bind fst snd]. replace k with (k - 3 + 1 + 1 + 1) by lia.
  rewrite (one0 c e _ _ (mkI s buf 0 true PSeen)) by reflexivity. rewrite from_seen. rewrite steps_S. reflexivity.
Qed.
Lemma long_frame : forall c e f k x, resting x -> n_rtr f = false -> c_ctobuf c < lenN (n_data f) -> 1 <= c_ctobuf c -> lenN (n_data f) <= 64 -> c_ctobuf c + 4 <= k ->
  irun c ((e, IFrame f) :: steps k e) x = UB OobBuffer.
Proof.
  intros c e f k x Rx D L C M K. destruct x as [s buf dlc fl q]. destruct Rx as (R1 & R2 & R3). cbn [i_st i_buf i_dlc i_flag i_pc] in *. subst fl q.
  cbn [irun ido]. unfold isr. rewrite D. set (d := n_data f) in *. replace (64 <? lenN d) with false by lia. unfold u8. rewrite N.mod_small by lia.
  cbn [bind fst snd i_st i_buf i_pc]. set (b := splice buf 0 d). assert (LB : lenN b = 64) by (unfold b; rewrite len_splice0; lia).
  replace k with (c_ctobuf c + (k - c_ctobuf c - 4 + 1) + 3) by lia. rewrite begin3 by lia. rewrite steps_add, irun_app.
  assert (X : irun c (steps (c_ctobuf c) e) (copying (s_in s) [] s b (lenN d) false (lenN d)) = Ok (copying (s_in s) (takeN (c_ctobuf c) b) s b (lenN d) false (lenN d), [])).
  { assert (G : forall j p, lenN p + N.of_nat j <= c_ctobuf c -> irun c (steps (N.of_nat j) e) (copying (s_in s) p s b (lenN d) false (lenN d)) =
        Ok (copying (s_in s) (p ++ takeN (N.of_nat j) (dropN (lenN p) b)) s b (lenN d) false (lenN d), [])).
    { induction j as [|j IH]; intros p H.
      - cbn. rewrite app_nil_r. reflexivity.
      - rewrite Nat2N.inj_succ, <- N.add_1_r in *. destruct (getN_lt_Some _ b (lenN p)) as (y & G); [lia|].
        rewrite (one0 c e _ _ (copying (s_in s) (p ++ [y]) s b (lenN d) false (lenN d))).
        + rewrite IH by (rewrite lenN_app; change (lenN [y]) with 1; lia). do 3 f_equal. rewrite <- app_assoc. f_equal. rewrite lenN_app. change (lenN [y]) with 1.
          rewrite (take_next _ _ _ _ G). reflexivity.
        + unfold istep, copying at 1. cbn [i_pc]. replace (lenN p <? lenN d) with true by lia. unfold copying at 1. cbn [i_buf]. rewrite G.
          replace (c_ctobuf c <=? lenN p) with false by lia. unfold copying. cbn [i_st i_buf i_dlc i_flag]. rewrite <- splice_next.
          rewrite lenN_app. reflexivity. }
    rewrite <- (N2Nat.id (c_ctobuf c)) at 1. rewrite G by (change (lenN (@nil N)) with 0; lia). rewrite N2Nat.id. reflexivity. }
  rewrite X. cbn [bind fst snd]. rewrite steps_S. cbn [irun ido]. unfold istep, copying. cbn [i_pc i_buf i_st].
  assert (LT : lenN (takeN (c_ctobuf c) b) = c_ctobuf c) by (rewrite lenN_take; lia). rewrite LT. replace (c_ctobuf c <? lenN d) with true by lia.
  destruct (getN_lt_Some _ b (c_ctobuf c)) as (y & ->); [lia|]. rewrite N.leb_refl. reflexivity.
Qed.

(** CONNECT, an event, SET_MTA, DOWNLOAD. *)
Definition c91_work : list (env * work) :=
  [(env_yes, WFrame (mkCan false false 0x300 [0xFF; 0]) 9); (env_yes, WCall (OTrigger 1));
   (env_yes, WFrame (mkCan false false 0x300 [0xF6; 0; 0; 0; 0; 0x10; 0; 0]) 12); (env_yes, WFrame (mkCan false false 0x300 [0xF0; 1; 0x55]) 7)].
