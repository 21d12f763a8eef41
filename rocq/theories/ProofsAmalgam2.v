(** Order of the headers in the one-file version of the sources. *)
From Coq Require Import NArith ZArith List Bool Relations Lia ZifyBool ZifyNat ZifyN.
From Verif Require Import Amalgam.
Import ListNotations.
Open Scope list_scope.

Notation cocc := (count_occ path_dec).

(** ** Nodes *)

Lemma once_spec l : forall seen, NoDup (once seen l) /\ forall p, In p (once seen l) <-> In p l /\ ~ In p seen.
Proof.
  induction l as [|a l IH]; intros seen; cbn [once].
  - split; [constructor|]. intros p. split; [intros []|intros [[] _]].
  - destruct (in_dec path_dec a seen) as [H|H].
    + destruct (IH seen) as [H1 H2]. split; auto. intros p. rewrite H2. cbn [In]. split; [tauto|].
      intros [[<-|K] J]; tauto.
    + destruct (IH (a :: seen)) as [H1 H2]. split.
      * constructor; auto. rewrite H2. cbn [In]. tauto.
      * intros p. cbn [In]. rewrite H2. cbn [In]. split.
        -- intros [<-|[K J]]; tauto.
        -- intros [[<-|K] J]; [tauto|]. destruct (path_dec a p) as [<-|N]; tauto.
Qed.
Lemma nodes_nodup g : NoDup (nodes g). Proof. apply once_spec. Qed.
Lemma nodes_in g p : In p (nodes g) <-> In p (mentions g).
Proof. unfold nodes. destruct (once_spec (mentions g) []) as [_ H]. rewrite H. cbn [In]. tauto. Qed.

(** [a] is named by [b]. *)
Definition edge (g : graph) (a b : path) : Prop := exists ps, In (b, ps) g /\ In a ps.
Lemma edge_nodes g a b : edge g a b -> In a (nodes g) /\ In b (nodes g).
Proof.
  intros (ps & H & K). rewrite !nodes_in. unfold mentions. rewrite !in_flat_map.
  split; exists (b, ps); cbn [fst snd In]; auto.
Qed.

(** ** Numbers of predecessors *)

Definition undone (P ps : list path) : list path :=
  filter (fun p => if in_dec path_dec p P then false else true) ps.
Fixpoint left (g : graph) (P : list path) (n : path) : nat :=
  match g with
  | [] => 0
  | (k, ps) :: r => ((if path_dec k n then List.length (undone P ps) else 0) + left r P n)%nat
  end.
Lemma undone_nil ps : undone [] ps = ps.
Proof. induction ps as [|p ps IH]; [reflexivity|]. unfold undone in *. cbn [filter]. destruct (in_dec path_dec p []) as [[]|_]. f_equal. exact IH. Qed.
Lemma npred_left g n : npred g n = left g [] n.
Proof.
  unfold npred. induction g as [|[k ps] g IH]; [reflexivity|]. cbn [flat_map fst snd left].
  rewrite app_length, IH, undone_nil. destruct (path_dec k n); reflexivity.
Qed.
Lemma left_zero g P n : left g P n = 0%nat <-> forall a, edge g a n -> In a P.
Proof.
  induction g as [|[k ps] g IH]; cbn [left].
  - split; [intros _ a (x & [] & _)|reflexivity].
  - split.
    + intros H a (qs & [E|Hq] & Ha).
      * inversion E; subst. destruct (path_dec n n) as [_|]; [|congruence].
        destruct (in_dec path_dec a P) as [|N]; auto. exfalso.
        assert (In a (undone P qs)) as K by (apply filter_In; split; auto; destruct (in_dec path_dec a P); congruence).
        destruct (undone P qs); [destruct K|cbn [List.length] in H; lia].
      * apply IH; [lia|]. exists qs; auto.
    + intros H. assert (left g P n = 0%nat) as -> by (apply IH; intros a (qs & Hq & Ha); apply H; exists qs; cbn [In]; auto).
      destruct (path_dec k n) as [->|]; [|reflexivity].
      assert (undone P ps = []) as ->; [|reflexivity].
      destruct (undone P ps) as [|a l] eqn:E; [reflexivity|].
      assert (In a (undone P ps)) as K by (rewrite E; left; auto).
      apply filter_In in K. destruct K as [K1 K2]. destruct (in_dec path_dec a P) as [|N]; [discriminate|].
      exfalso. apply N, H. exists ps. cbn [In]. auto.
Qed.
Lemma left_pos g P n : left g P n <> 0%nat -> exists a, edge g a n /\ ~ In a P.
Proof.
  induction g as [|[k ps] g IH]; cbn [left]; [congruence|]. intros H.
  destruct (left g P n) eqn:E.
  - destruct (path_dec k n) as [->|]; [|lia]. destruct (undone P ps) as [|a l] eqn:F; [cbn in H; lia|].
    assert (In a (undone P ps)) as K by (rewrite F; left; auto).
    apply filter_In in K. destruct K as [K1 K2]. destruct (in_dec path_dec a P) as [|N]; [discriminate|].
    exists a. split; auto. exists ps. cbn [In]. auto.
  - destruct IH as (a & (qs & Hq & Ha) & N); [congruence|]. exists a. split; auto. exists qs. cbn [In]. auto.
Qed.

Lemma undone_cons P n ps : ~ In n P ->
  (List.length (undone P ps) = cocc ps n + List.length (undone (n :: P) ps))%nat.
Proof.
  intros N. induction ps as [|p ps IH]; [reflexivity|]. unfold undone in *. cbn [filter count_occ].
  destruct (path_dec p n) as [->|E].
  - destruct (in_dec path_dec n P); [tauto|]. destruct (in_dec path_dec n (n :: P)) as [_|K]; [|cbn [In] in K; tauto].
    cbn [List.length]. lia.
  - destruct (in_dec path_dec p P) as [H|H], (in_dec path_dec p (n :: P)) as [H'|H']; cbn [In] in H'; cbn [List.length];
      try lia; exfalso; intuition congruence.
Qed.
Lemma cocc_app a b p : cocc (a ++ b) p = (cocc a p + cocc b p)%nat.
Proof. apply count_occ_app. Qed.
Lemma cocc_block k n ps p :
  cocc (map (fun _ => k) (filter (fun q => if path_dec q n then true else false) ps)) p
  = if path_dec k p then cocc ps n else 0%nat.
Proof.
  induction ps as [|q ps IH]; cbn [filter count_occ map]; [destruct (path_dec k p); reflexivity|].
  destruct (path_dec q n) as [->|E]; [|exact IH]. cbn [map count_occ]. rewrite IH.
  destruct (path_dec k p); lia.
Qed.
Lemma left_cons g P n p : ~ In n P -> (left g P p = cocc (succs g n) p + left g (n :: P) p)%nat.
Proof.
  intros N. induction g as [|[k ps] g IH]; [reflexivity|]. unfold succs in *. cbn [flat_map fst snd left].
  rewrite cocc_app, cocc_block, IH, (undone_cons P n ps N). destruct (path_dec k p); lia.
Qed.
Lemma succs_in g n p : In p (succs g n) <-> edge g n p.
Proof.
  unfold succs, edge. rewrite in_flat_map. split.
  - intros ([k ps] & H & K). cbn [fst snd] in K. apply in_map_iff in K. destruct K as (q & <- & K).
    apply filter_In in K. destruct K as [K1 K2]. destruct (path_dec q n) as [->|]; [|discriminate]. exists ps; auto.
  - intros (ps & H & K). exists (p, ps). split; auto. cbn [fst snd]. apply in_map_iff. exists n. split; auto.
    apply filter_In. split; auto. destruct (path_dec n n); congruence.
Qed.

(** ** Counting down *)

Lemma release_spec ss : forall (c : counts) c' l, (forall p, cocc ss p <= c p)%nat -> release ss c = (c', l) ->
  (forall p, c' p = (c p - cocc ss p)%nat) /\ NoDup l /\ (forall p, In p l <-> In p ss /\ c' p = 0%nat).
Proof.
  induction ss as [|s ss IH]; intros c c' l H E; cbn [release] in E.
  - inversion E; subst. cbn [count_occ]. split; [intros; lia|]. split; [constructor|]. cbn [In]. tauto.
  - set (c1 := fun p => if path_dec p s then Nat.pred (c s) else c p) in E.
    destruct (release ss c1) as [c2 l2] eqn:E2.
    assert (c' = c2 /\ l = if Nat.eqb (c1 s) 0 then s :: l2 else l2) as [-> ->] by (inversion E; auto). clear E.
    assert (forall p, cocc ss p <= c1 p)%nat as H1.
    { intros p. specialize (H p). cbn [count_occ] in H. unfold c1. destruct (path_dec s p) as [<-|N].
      - destruct (path_dec s s); [lia|congruence].
      - destruct (path_dec p s); [congruence|lia]. }
    destruct (IH _ _ _ H1 E2) as (A1 & A2 & A3).
    assert (forall p, c2 p = (c p - cocc (s :: ss) p)%nat) as B1.
    { intros p. rewrite A1. cbn [count_occ]. unfold c1. specialize (H p). cbn [count_occ] in H.
      destruct (path_dec s p) as [<-|N].
      - destruct (path_dec s s); [lia|congruence].
      - destruct (path_dec p s); [congruence|lia]. }
    split; [exact B1|].
    assert (c1 s = Nat.pred (c s)) as C by (unfold c1; destruct (path_dec s s); congruence).
    destruct (Nat.eqb (c1 s) 0) eqn:Z.
    + apply Nat.eqb_eq in Z. pose proof (H1 s) as Z1.
      assert (~ In s ss) as N by (intros K; apply (count_occ_In path_dec) in K; lia).
      split.
      * constructor; auto. rewrite A3. tauto.
      * intros p. cbn [In]. rewrite A3. split.
        -- intros [<-|[K1 K2]]; [|tauto]. split; [auto|]. rewrite A1. lia.
        -- intros [[<-|K] K2]; tauto.
    + apply Nat.eqb_neq in Z. split; auto. intros p. rewrite A3. cbn [In]. split; [tauto|].
      intros [[<-|K] K2]; [|tauto]. split; auto.
      rewrite A1 in K2. apply (count_occ_In path_dec). lia.
Qed.

(** ** The queue *)

Lemma nodup_two (a b : list path) : NoDup a -> NoDup b -> (forall p, In p a -> ~ In p b) -> NoDup (a ++ b).
Proof.
  intros Ha Hb H. induction Ha as [|x a N Ha IH]; [exact Hb|]. cbn [app]. constructor.
  - rewrite in_app_iff. intros [K|K]; [auto|]. apply (H x); [left; auto|auto].
  - apply IH. intros p K. apply H. right; auto.
Qed.
Lemma order_spec g fuel : forall q (c : counts) P,
  (forall p, c p = left g P p) -> NoDup P -> incl P (nodes g) -> NoDup q ->
  (forall p, In p q <-> In p (nodes g) /\ c p = 0%nat /\ ~ In p P) -> (forall p, In p P -> c p = 0%nat) ->
  (List.length (nodes g) <= List.length P + fuel)%nat ->
  let o := order fuel g q c in
  NoDup o /\ (forall p, In p o -> In p (nodes g) /\ ~ In p P)
  /\ (forall l1 b l2, o = l1 ++ b :: l2 -> forall a, edge g a b -> In a P \/ In a l1)
  /\ (forall n, In n (nodes g) -> ~ In n P -> ~ In n o -> exists a, edge g a n /\ ~ In a P /\ ~ In a o).
Proof.
  assert (forall (c : counts) P, (forall p, c p = left g P p) -> (forall p, ~ (In p (nodes g) /\ c p = 0%nat /\ ~ In p P)) ->
          forall n, In n (nodes g) -> ~ In n P -> exists a, edge g a n /\ ~ In a P) as Stuck.
  { intros c P HC H n H1 H2. apply left_pos. rewrite <- HC. intros Z. apply (H n); auto. }
  assert (forall q (c : counts) P, (forall p, c p = left g P p) -> (forall p, In p q <-> In p (nodes g) /\ c p = 0%nat /\ ~ In p P) ->
          q = [] -> NoDup (@nil path) /\ (forall p, In p (@nil path) -> In p (nodes g) /\ ~ In p P)
          /\ (forall l1 b l2, [] = l1 ++ b :: l2 -> forall a, edge g a b -> In a P \/ In a l1)
          /\ (forall n, In n (nodes g) -> ~ In n P -> ~ In n [] -> exists a, edge g a n /\ ~ In a P /\ ~ In a [])) as Base.
  { intros q c P HC HQ ->. split; [constructor|]. split; [intros ? []|]. split; [intros [|? ?]; discriminate|].
    intros n H1 H2 _. destruct (Stuck c P HC) with (n := n) as (a & Ha & N); auto.
    - intros p K. apply HQ in K. destruct K.
    - exists a. auto. }
  induction fuel as [|k IH]; intros q c P HC HP HI Hq HQ HD HF; cbn [order].
  - cbn zeta. apply (Base q c P); auto. destruct q as [|n r]; [reflexivity|]. exfalso.
    assert (In n (nodes g) /\ ~ In n P) as [H1 H2] by (destruct (proj1 (HQ n) (or_introl eq_refl)) as (? & _ & ?); auto).
    assert (incl (nodes g) P) as K by (apply NoDup_length_incl; [exact HP|lia|exact HI]). auto.
  - destruct q as [|n r]; [cbn zeta; apply (Base [] c P); auto|].
    destruct (proj1 (HQ n) (or_introl eq_refl)) as (Hn & Zn & Nn). inversion Hq as [|? ? Nr Hr]; subst.
    destruct (release (succs g n) c) as [c' l] eqn:ER.
    assert (forall p, cocc (succs g n) p <= c p)%nat as Hle by (intros p; rewrite HC, (left_cons g P n p Nn); lia).
    destruct (release_spec _ _ _ _ Hle ER) as (A1 & A2 & A3).
    assert (forall p, c' p = left g (n :: P) p) as HC'.
    { intros p. rewrite A1, HC, (left_cons g P n p Nn). lia. }
    assert (forall p, In p l -> c p <> 0%nat) as Lpos.
    { intros p K. apply A3 in K. destruct K as [K _]. apply (count_occ_In path_dec) in K. specialize (Hle p). lia. }
    assert (forall p, In p (r ++ l) <-> In p (nodes g) /\ c' p = 0%nat /\ ~ In p (n :: P)) as HQ'.
    { intros p. rewrite in_app_iff. split.
      - intros [K|K].
        + destruct (proj1 (HQ p) (or_intror K)) as (K1 & K2 & K3). repeat split; auto; [rewrite A1; lia|].
          intros [<-|J]; auto.
        + pose proof (Lpos _ K) as Kp. apply A3 in K. destruct K as [K1 K2]. apply succs_in in K1.
          pose proof (edge_nodes _ _ _ K1) as [_ K3]. repeat split; auto. intros [<-|J]; [auto|]. apply Kp, HD, J.
      - intros (K1 & K2 & K3). cbn [In] in K3. destruct (Nat.eq_dec (c p) 0) as [Z|Z].
        + left. assert (In p (n :: r)) as [E|E] by (apply HQ; tauto); [exfalso; auto|exact E].
        + right. apply A3. split; auto. apply (count_occ_In path_dec). rewrite A1 in K2. lia. }
    assert (forall p, In p (n :: P) -> c' p = 0%nat) as HD'.
    { intros p [<-|K]; rewrite A1; [lia|]. rewrite (HD p K). lia. }
    assert (NoDup (r ++ l)) as Hq'.
    { apply nodup_two; auto. intros p K J. apply (Lpos p J). apply (HQ p). right; auto. }
    assert (NoDup (n :: P)) as HP' by (constructor; auto).
    assert (incl (n :: P) (nodes g)) as HI' by (intros p [<-|K]; auto).
    assert (List.length (nodes g) <= List.length (n :: P) + k)%nat as HF' by (cbn [List.length]; lia).
    destruct (IH (r ++ l) c' (n :: P) HC' HP' HI' Hq' HQ' HD' HF') as (B1 & B2 & B3 & B4).
    cbn zeta. set (o := order k g (r ++ l) c') in *. split; [|split; [|split]].
    + constructor; auto. intros K. apply B2 in K. cbn [In] in K. tauto.
    + intros p [<-|K]; auto. apply B2 in K. cbn [In] in K. tauto.
    + intros [|x l1] b l2 E a Ha; cbn [app] in E; inversion E; subst.
      * left. apply (proj1 (left_zero g P b)); auto. rewrite <- HC. auto.
      * destruct (B3 l1 b l2 H1 a Ha) as [[<-|K]|K]; cbn [In]; auto.
    + intros m H1 H2 H3. cbn [In] in H3. destruct (B4 m) as (a & Ha & N1 & N2); cbn [In]; [auto|tauto|tauto|].
      cbn [In] in N1. exists a. split; [auto|]. split; cbn [In]; tauto.
Qed.

(** A finite set in which each node names a node of the set has a cycle. *)
Lemma walk (R : path -> path -> Prop) L k : (forall x, In x L -> exists y, In y L /\ R y x) ->
  forall x vs, In x L -> NoDup (x :: vs) -> incl (x :: vs) L -> (forall v, In v vs -> clos_trans _ R x v) ->
  (List.length L < List.length vs + 1 + k)%nat -> exists z, clos_trans _ R z z.
Proof.
  intros H. induction k as [|k IH]; intros x vs Hx Hn Hi Ht Hl.
  - exfalso. pose proof (NoDup_incl_length Hn Hi). cbn [List.length] in *. lia.
  - destruct (H x Hx) as (y & Hy & Ry). destruct (in_dec path_dec y (x :: vs)) as [[E|K]|N].
    + subst y. exists x. apply t_step. exact Ry.
    + exists y. apply t_trans with x; [apply t_step; exact Ry|auto].
    + apply (IH y (x :: vs)); auto.
      * constructor; auto.
      * intros z [<-|K]; auto.
      * intros v [<-|K]; [apply t_step; auto|]. apply t_trans with x; [apply t_step; auto|auto].
      * cbn [List.length]. lia.
Qed.

Definition good (g : graph) (o : list path) : Prop :=
  NoDup o /\ (forall p, In p o <-> In p (mentions g))
  /\ (forall a b l1 l2, o = l1 ++ b :: l2 -> edge g a b -> In a l1).
Theorem static_thm g : match static_order g with
  | Some o => good g o
  | None => exists p, clos_trans _ (edge g) p p
  end.
Proof.
  unfold static_order. cbn zeta. set (q := filter _ (nodes g)).
  destruct (order_spec g (List.length (nodes g)) q (npred g) []) as (B1 & B2 & B3 & B4).
  - apply npred_left.
  - constructor.
  - intros ? [].
  - apply NoDup_filter, nodes_nodup.
  - intros p. unfold q. rewrite filter_In. rewrite Nat.eqb_eq. cbn [In]. tauto.
  - intros ? [].
  - cbn [List.length]. lia.
  - set (o := order _ _ _ _) in *. destruct (Nat.eqb (List.length o) (List.length (nodes g))) eqn:E.
    + apply Nat.eqb_eq in E. split; auto. split.
      * intros p. rewrite <- nodes_in. split; [intros K; apply B2; auto|].
        assert (incl (nodes g) o) as K by (apply NoDup_length_incl; [auto|lia|intros x Hx; apply B2; auto]). apply K.
      * intros a b l1 l2 Eo Ha. destruct (B3 l1 b l2 Eo a Ha) as [[]|K]; auto.
    + apply Nat.eqb_neq in E.
      set (L := filter (fun p => if in_dec path_dec p o then false else true) (nodes g)).
      assert (forall p, In p L <-> In p (nodes g) /\ ~ In p o) as HL.
      { intros p. unfold L. rewrite filter_In. destruct (in_dec path_dec p o); intuition congruence. }
      destruct L as [|x L'] eqn:EL.
      * exfalso. apply E. assert (incl (nodes g) o) as K.
        { intros p Hp. destruct (in_dec path_dec p o) as [|N]; auto. exfalso. apply (proj2 (HL p)). auto. }
        assert (incl o (nodes g)) as K' by (intros p Hp; apply B2; auto).
        pose proof (NoDup_incl_length (nodes_nodup g) K). pose proof (NoDup_incl_length B1 K'). lia.
      * rewrite <- EL in HL. apply (walk (edge g) L (S (List.length L))) with (x := x) (vs := []).
        -- intros y Hy. apply HL in Hy. destruct Hy as [H1 H2]. destruct (B4 y H1 (fun K => K) H2) as (a & Ha & _ & N).
           exists a. split; auto. apply HL. split; auto. apply edge_nodes in Ha. tauto.
        -- rewrite EL. left; auto.
        -- constructor; [intros []|constructor].
        -- intros y [<-|[]]. rewrite EL. left; auto.
        -- intros ? [].
        -- cbn [List.length]. lia.
Qed.

(** An order like this leaves no room for a cycle. *)
Lemma good_trans g o : good g o -> forall a b, clos_trans _ (edge g) a b ->
  forall l1 l2, o = l1 ++ b :: l2 -> In a l1.
Proof.
  intros (H1 & H2 & H3) a b H. apply clos_trans_tn1 in H. induction H as [b H|b c H K IH]; intros l1 l2 E.
  - eapply H3; eauto.
  - pose proof (H3 _ _ _ _ E H) as J. apply in_split in J. destruct J as (m1 & m2 & ->).
    rewrite <- app_assoc in E. cbn [app] in E. apply in_or_app. left. eapply IH. exact E.
Qed.
Theorem good_acyclic g o : good g o -> ~ exists p, clos_trans _ (edge g) p p.
Proof.
  intros G (p & H). pose proof G as (H1 & H2 & H3).
  assert (In p o) as K.
  { apply H2, nodes_in. apply clos_trans_tn1 in H. inversion H; eapply edge_nodes; eauto. }
  apply in_split in K. destruct K as (l1 & l2 & ->).
  pose proof (good_trans _ _ G _ _ H l1 l2 eq_refl) as J.
  apply (NoDup_remove_2 _ _ _ H1). apply in_or_app. auto.
Qed.
