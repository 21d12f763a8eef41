(** Lemmas about buffers and memory, and the inversion tactics used by all
    proofs.  No model content. *)
From Coq Require Import NArith ZArith List Bool Lia ZifyBool ZifyNat ZifyN.
From Verif Require Import Base.
Import ListNotations.
Open Scope N_scope.

Ltac Zify.zify_post_hook ::= Z.div_mod_to_equations.

Lemma lenN_nil : forall A, lenN (@nil A) = 0. Proof. reflexivity. Qed.
Lemma lenN_cons : forall A (x : A) l, lenN (x :: l) = lenN l + 1.
Proof. intros. unfold lenN. cbn [length]. lia. Qed.
Lemma lenN_app : forall A (a b : list A), lenN (a ++ b) = lenN a + lenN b.
Proof. intros. unfold lenN. rewrite app_length. lia. Qed.
Lemma lenN_repeat : forall A (x : A) n, lenN (repeat x n) = N.of_nat n.
Proof. intros. unfold lenN. now rewrite repeat_length. Qed.
Lemma lenN_map : forall A B (f : A -> B) l, lenN (map f l) = lenN l.
Proof. intros. unfold lenN. now rewrite map_length. Qed.
Lemma lenN_take : forall A n (l : list A), lenN (takeN n l) = N.min n (lenN l).
Proof. intros. unfold lenN, takeN. rewrite firstn_length. lia. Qed.
Lemma lenN_drop : forall A n (l : list A), lenN (dropN n l) = lenN l - n.
Proof. intros. unfold lenN, dropN. rewrite skipn_length. lia. Qed.
Lemma lenN_0 : forall A (l : list A), lenN l = 0 -> l = [].
Proof. intros A [|x l] H; auto. rewrite lenN_cons in H. lia. Qed.

Lemma upd_length : forall A (l : list A) i x, length (upd l i x) = length l.
Proof. induction l; destruct i; cbn; intros; auto. Qed.
Lemma lenN_upd : forall A (l : list A) i x, lenN (updN l i x) = lenN l.
Proof. intros. unfold lenN, updN. now rewrite upd_length. Qed.

Lemma nth_error_upd : forall A (l : list A) i j x,
  nth_error (upd l i x) j = if Nat.eqb i j then (match nth_error l j with Some _ => Some x | None => None end) else nth_error l j.
Proof.
  induction l as [|h t IH]; intros i j x.
  - destruct i, j; cbn; try reflexivity. now destruct (Nat.eqb i j).
  - destruct i, j; cbn; auto.
Qed.
Lemma getN_upd_same : forall A (l : list A) i x, i < lenN l -> getN (updN l i x) i = Some x.
Proof.
  intros. unfold getN, updN. rewrite nth_error_upd, Nat.eqb_refl.
  destruct (nth_error l (N.to_nat i)) eqn:E; auto.
  apply nth_error_None in E. unfold lenN in H. lia.
Qed.
Lemma getN_upd_other : forall A (l : list A) i j x, i <> j -> getN (updN l i x) j = getN l j.
Proof.
  intros. unfold getN, updN. rewrite nth_error_upd.
  destruct (Nat.eqb_spec (N.to_nat i) (N.to_nat j)); auto. lia.
Qed.
Lemma getN_Some_lt : forall A (l : list A) i x, getN l i = Some x -> i < lenN l.
Proof.
  intros. unfold getN in H. unfold lenN.
  assert (nth_error l (N.to_nat i) <> None) by congruence. apply nth_error_Some in H0. lia.
Qed.
Lemma getN_lt_Some : forall A (l : list A) i, i < lenN l -> exists x, getN l i = Some x.
Proof.
  intros. unfold getN, lenN in *. destruct (nth_error l (N.to_nat i)) eqn:E; eauto.
  apply nth_error_None in E. lia.
Qed.
Lemma getN_None : forall A (l : list A) i, getN l i = None <-> lenN l <= i.
Proof. intros. unfold getN, lenN. rewrite nth_error_None. lia. Qed.

Lemma nth_error_firstn : forall A n (l : list A) i, (i < n)%nat -> nth_error (firstn n l) i = nth_error l i.
Proof. induction n; intros l i H; [lia|]. destruct l, i; cbn; auto. apply IHn. lia. Qed.
Lemma nth_error_skipn : forall A n (l : list A) i, nth_error (skipn n l) i = nth_error l (n + i).
Proof. induction n; intros; cbn; auto. destruct l; cbn; auto. now destruct i. Qed.
Lemma nth_error_repeat' : forall A (x : A) n i, nth_error (repeat x n) i = if Nat.ltb i n then Some x else None.
Proof.
  induction n; intros; cbn [repeat]. - now destruct i.
  - destruct i; cbn [nth_error]; auto. exact (IHn i).
Qed.
Lemma getN_repeat : forall A (x : A) n i, getN (repeat x n) i = if i <? N.of_nat n then Some x else None.
Proof.
  intros. unfold getN. rewrite nth_error_repeat'.
  destruct (Nat.ltb_spec (N.to_nat i) n), (N.ltb_spec i (N.of_nat n)); try lia; auto.
Qed.
Lemma getN_take : forall A n (l : list A) i, i < n -> getN (takeN n l) i = getN l i.
Proof. intros. unfold getN, takeN. apply nth_error_firstn. lia. Qed.
Lemma getN_drop : forall A n (l : list A) i, getN (dropN n l) i = getN l (n + i).
Proof. intros. unfold getN, dropN. rewrite nth_error_skipn. f_equal. lia. Qed.
Lemma getN_app1 : forall A (a b : list A) i, i < lenN a -> getN (a ++ b) i = getN a i.
Proof. intros. unfold getN, lenN in *. apply nth_error_app1. lia. Qed.
Lemma getN_app2 : forall A (a b : list A) i, lenN a <= i -> getN (a ++ b) i = getN b (i - lenN a).
Proof. intros. unfold getN, lenN in *. rewrite nth_error_app2 by lia. f_equal. lia. Qed.
Lemma getN_map : forall A B (f : A -> B) l i, getN (map f l) i = option_map f (getN l i).
Proof. intros. unfold getN. apply nth_error_map. Qed.
Lemma getN_ext : forall A (a b : list A), (forall i, getN a i = getN b i) -> a = b.
Proof.
  induction a as [|x a IH]; intros [|y b] H; auto.
  - specialize (H 0). discriminate H.
  - specialize (H 0). discriminate H.
  - f_equal. + specialize (H 0). cbn in H. congruence.
    + apply IH. intro i. specialize (H (i + 1)). unfold getN in H.
      replace (N.to_nat (i + 1)) with (S (N.to_nat i)) in H by lia. exact H.
Qed.

Lemma take_all : forall A n (l : list A), lenN l <= n -> takeN n l = l.
Proof. intros. apply firstn_all2. unfold lenN in H. lia. Qed.
Lemma take_app : forall A (a b : list A), takeN (lenN a) (a ++ b) = a.
Proof. intros. unfold takeN, lenN. rewrite Nnat.Nat2N.id, firstn_app, Nat.sub_diag, firstn_all. cbn. apply app_nil_r. Qed.
Lemma drop_app : forall A (a b : list A), dropN (lenN a) (a ++ b) = b.
Proof. intros. unfold dropN, lenN. rewrite Nnat.Nat2N.id, skipn_app, Nat.sub_diag, skipn_all. reflexivity. Qed.
Lemma take_drop : forall A n (l : list A), takeN n l ++ dropN n l = l.
Proof. intros. apply firstn_skipn. Qed.
Lemma take_app_le : forall A n (a b : list A), n <= lenN a -> takeN n (a ++ b) = takeN n a.
Proof.
  intros. unfold takeN, lenN in *. rewrite firstn_app.
  replace (N.to_nat n - length a)%nat with 0%nat by lia. cbn. apply app_nil_r.
Qed.
Lemma take_app_ge : forall A n (a b : list A), lenN a <= n -> takeN n (a ++ b) = a ++ takeN (n - lenN a) b.
Proof.
  intros. unfold takeN, lenN in *. rewrite firstn_app, firstn_all2 by lia. do 2 f_equal. lia.
Qed.
Lemma drop_app_ge : forall A n (a b : list A), lenN a <= n -> dropN n (a ++ b) = dropN (n - lenN a) b.
Proof.
  intros. unfold dropN, lenN in *. rewrite skipn_app, skipn_all2 by lia. cbn. f_equal. lia.
Qed.
Lemma drop_app_le : forall A n (a b : list A), n <= lenN a -> dropN n (a ++ b) = dropN n a ++ b.
Proof.
  intros. unfold dropN, lenN in *. rewrite skipn_app.
  replace (N.to_nat n - length a)%nat with 0%nat by lia. reflexivity.
Qed.
Lemma take_0 : forall A (l : list A), takeN 0 l = []. Proof. reflexivity. Qed.
Lemma drop_0 : forall A (l : list A), dropN 0 l = l. Proof. reflexivity. Qed.
Lemma drop_drop : forall A a b (l : list A), dropN a (dropN b l) = dropN (b + a) l.
Proof. intros. apply getN_ext; intro i. rewrite !getN_drop. f_equal. lia. Qed.
Lemma take_take : forall A a b (l : list A), takeN a (takeN b l) = takeN (N.min a b) l.
Proof. intros. unfold takeN. rewrite firstn_firstn. f_equal. lia. Qed.
Lemma drop_cons : forall A n (x : A) l, 0 < n -> dropN n (x :: l) = dropN (n - 1) l.
Proof. intros. unfold dropN. replace (N.to_nat n) with (S (N.to_nat (n - 1))) by lia. reflexivity. Qed.
Lemma take_cons : forall A n (x : A) l, 0 < n -> takeN n (x :: l) = x :: takeN (n - 1) l.
Proof. intros. unfold takeN. replace (N.to_nat n) with (S (N.to_nat (n - 1))) by lia. reflexivity. Qed.
Lemma take_split : forall A a b (l : list A), takeN (a + b) l = takeN a l ++ takeN b (dropN a l).
Proof.
  intros. apply getN_ext; intro i. destruct (N.ltb_spec i (a + b)) as [L|L].
  - rewrite getN_take by lia. destruct (N.ltb_spec i (lenN (takeN a l))) as [M|M].
    + rewrite getN_app1 by lia. rewrite lenN_take in M. rewrite getN_take by lia. reflexivity.
    + rewrite getN_app2 by lia. rewrite lenN_take in *. destruct (N.ltb_spec (lenN l) a).
      * replace (N.min a (lenN l)) with (lenN l) in * by lia.
        transitivity (@None A); [|symmetry]; apply getN_None; try lia.
        rewrite lenN_take, lenN_drop. lia.
      * replace (N.min a (lenN l)) with a in * by lia. rewrite getN_take, getN_drop by lia. f_equal; lia.
  - transitivity (@None A); [|symmetry]; apply getN_None; rewrite ?lenN_app, ?lenN_take, ?lenN_drop; lia.
Qed.
Lemma drop_split : forall A a b (l : list A), dropN a l = takeN b (dropN a l) ++ dropN (a + b) l.
Proof. intros. rewrite <- drop_drop. symmetry. apply take_drop. Qed.

Lemma lenN_splice : forall A (l : list A) off bs, off + lenN bs <= lenN l -> lenN (splice l off bs) = lenN l.
Proof. intros. unfold splice. rewrite !lenN_app, lenN_take, lenN_drop. lia. Qed.
Lemma take_splice0 : forall A (l : list A) bs, takeN (lenN bs) (splice l 0 bs) = bs.
Proof. intros. unfold splice. cbn [app]. rewrite take_0. cbn [app]. apply take_app. Qed.

Lemma take_nth : forall n (l : list N) i d, (i < N.to_nat n)%nat -> nth i (takeN n l) d = nth i l d.
Proof.
  intros n l i d H. unfold takeN. revert l i H. induction (N.to_nat n) as [|k IH]; intros l i H; [lia|].
  destruct l, i; cbn; auto. apply IH. lia.
Qed.

(** Memory *)
Lemma mread_nat_length : forall m n a, length (mread_nat m a n) = n.
Proof. induction n; intros; cbn; auto. Qed.
Lemma lenN_mread : forall m a n, lenN (mread m a n) = n.
Proof. intros. unfold lenN, mread. rewrite mread_nat_length. lia. Qed.
Lemma nth_mread_nat : forall m n a i, (i < n)%nat -> nth_error (mread_nat m a n) i = Some (m (a + N.of_nat i)).
Proof.
  induction n; intros a i H; [lia|]. destruct i; cbn [mread_nat nth_error].
  - do 2 f_equal. lia.
  - rewrite IHn by lia. do 2 f_equal. lia.
Qed.
Lemma getN_mread : forall m a n i, i < n -> getN (mread m a n) i = Some (m (a + i)).
Proof. intros. unfold getN, mread. rewrite nth_mread_nat by lia. do 2 f_equal. lia. Qed.
Lemma mread_ext : forall m m' a n, (forall x, a <= x < a + n -> m x = m' x) -> mread m a n = mread m' a n.
Proof.
  intros. apply getN_ext; intro i. destruct (N.ltb_spec i n).
  - rewrite !getN_mread by lia. rewrite H by lia. reflexivity.
  - transitivity (@None N); [|symmetry]; apply getN_None; rewrite lenN_mread; lia.
Qed.
Lemma mread_app : forall m a n k, mread m a (n + k) = mread m a n ++ mread m (a + n) k.
Proof.
  intros. apply getN_ext; intro i. destruct (N.ltb_spec i (n + k)).
  - rewrite getN_mread by lia. destruct (N.ltb_spec i n).
    + rewrite getN_app1 by (rewrite lenN_mread; lia). now rewrite getN_mread by lia.
    + rewrite getN_app2 by (rewrite lenN_mread; lia). rewrite lenN_mread, getN_mread by lia.
      do 2 f_equal. lia.
  - transitivity (@None N); [|symmetry]; apply getN_None; rewrite ?lenN_app, !lenN_mread; lia.
Qed.
Lemma mwrite_outside : forall bs m a x, x < a \/ a + lenN bs <= x -> mwrite m a bs x = m x.
Proof.
  induction bs as [|b t IH]; intros m a x H; cbn [mwrite]; auto.
  rewrite lenN_cons in H. destruct (N.eqb_spec x a); [lia|]. apply IH. lia.
Qed.
Lemma mwrite_inside : forall bs m a i, i < lenN bs -> Some (mwrite m a bs (a + i)) = getN bs i.
Proof.
  induction bs as [|b t IH]; intros m a i H; [cbn in H; lia|].
  cbn [mwrite]. destruct (N.eqb_spec (a + i) a).
  - replace i with 0 by lia. reflexivity.
  - replace (a + i) with (a + 1 + (i - 1)) by lia. rewrite lenN_cons in H. rewrite IH by lia.
    unfold getN. replace (N.to_nat i) with (S (N.to_nat (i - 1))) by lia. reflexivity.
Qed.
Lemma mread_mwrite : forall bs m a, mread (mwrite m a bs) a (lenN bs) = bs.
Proof.
  intros. apply getN_ext; intro i. destruct (N.ltb_spec i (lenN bs)).
  - rewrite getN_mread by lia. apply mwrite_inside; lia.
  - transitivity (@None N); [|symmetry]; apply getN_None; rewrite ?lenN_mread; lia.
Qed.
Lemma mwrite_app : forall a b m x, forall y, mwrite m x (a ++ b) y = mwrite (mwrite m (x + lenN a) b) x a y.
Proof.
  induction a as [|h t IH]; intros b m x y; cbn [mwrite app].
  - rewrite lenN_nil, N.add_0_r. reflexivity.
  - rewrite IH, lenN_cons. replace (x + 1 + lenN t) with (x + (lenN t + 1)) by lia. reflexivity.
Qed.

(** Outcomes *)
Lemma bind_Ok : forall A B (r : out A) (f : A -> out B) b,
  bind r f = Ok b <-> exists a, r = Ok a /\ f a = Ok b.
Proof.
  intros. destruct r; cbn; split; intro H.
  - eauto. - destruct H as (x & E & H). injection E as <-. exact H.
  - discriminate. - destruct H as (x & E & _). discriminate E.
Qed.
Lemma Ok_inj : forall A (a b : A), Ok a = Ok b -> a = b. Proof. congruence. Qed.

Ltac inv1 :=
  match goal with
  | H : UB _ = Ok _ |- _ => discriminate H
  | H : Ok _ = Ok _ |- _ => apply Ok_inj in H
  | H : (_, _) = (_, _) |- _ => injection H; clear H; intros
  | H : bind _ _ = Ok _ |- _ => apply bind_Ok in H; destruct H as (? & ? & ?)
  | H : exists _, _ |- _ => destruct H
  | H : _ /\ _ |- _ => destruct H
  end.
Ltac inv := repeat (inv1; subst).

(** Split the outermost conditional of a computation known to succeed. *)
Ltac split1 :=
  match goal with
  | H : (if ?b then _ else _) = Ok _ |- _ => destruct b eqn:?
  | H : match ?x with (_, _) => _ end = Ok _ |- _ => destruct x eqn:?
  | H : match ?x with Some _ => _ | None => _ end = Ok _ |- _ => destruct x eqn:?
  | H : match ?x with _ => _ end = Ok _ |- _ => destruct x eqn:?
  end.
Ltac invs := repeat (first [inv1 | split1]; subst; try discriminate).
