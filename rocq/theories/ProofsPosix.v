From Coq Require Import ZArith NArith List Bool Lia.
From Coq Require Import ZifyBool ZifyNat ZifyN.
From Verif Require Import Base Posix SpecPosix.
Import ListNotations.
Open Scope N_scope.

Lemma each_create : forall n, each create (repeat Raw n) = Ok (repeat Free n).
Proof. induction n as [|n IH]; cbn; [reflexivity|]. now rewrite IH. Qed.
Lemma init_ok : forall n, posix_init (posix_start n) = Ok (mkPosix (repeat Free n) Free Free).
Proof. intros n. unfold posix_init, posix_start. cbn [x_locks x_cond x_mutex]. now rewrite each_create. Qed.

Lemma nth_do_spec : forall f l k l', nth_do f l k = Ok l' -> length l' = length l /\
  (forall j, j <> k -> nth_error l' j = nth_error l j) /\
  (forall o, nth_error l k = Some o -> exists o', f o = Ok o' /\ nth_error l' k = Some o').
Proof.
  induction l as [|o l IH]; intros k l' H; cbn in H.
  - injection H as <-. split; [reflexivity|]. split; [reflexivity|]. intros o E. destruct k; discriminate.
  - destruct k as [|k].
    + destruct (f o) as [o1|] eqn:F; [|discriminate]. cbn in H. injection H as <-. split; [reflexivity|]. split.
      * intros [|j] J; [congruence|reflexivity].
      * intros o' E. cbn in E. injection E as <-. eauto.
    + destruct (nth_do f l k) as [t|] eqn:F; [|discriminate]. cbn in H. injection H as <-.
      destruct (IH _ _ F) as (A & B & C). cbn [length]. split; [now f_equal|]. split.
      * intros [|j] J; [reflexivity|]. cbn. apply B. congruence.
      * intros o' E. cbn in E. apply C in E. exact E.
Qed.

Definition pinv (n : nat) (a r : N -> N) (req : bool) (s : posix) : Prop :=
  length (x_locks s) = n /\ x_cond s = Free /\ x_mutex s = (if req then Held else Free) /\
  forall k, k < N.of_nat n -> (getN (x_locks s) k = Some Free /\ a k = r k) \/ (getN (x_locks s) k = Some Held /\ a k = r k + 1).

Definition is_req (u : use) : bool := match u with Request => true | _ => false end.

Lemma use_inv : forall n a r q u s s', pinv n a r q s -> use_step u s = Ok s' ->
  pinv n (fun k => acquired k [u] + a k) (fun k => released k [u] + r k) (q || is_req u) s'.
Proof.
  intros n a r q u s s' (L & C & M & K) H. destruct u as [j|j|]; cbn [use_step] in H; cbn [acquired released is_req]; rewrite ?orb_false_r.
  - unfold acquire_lock in H. rewrite L in H. destruct (N.of_nat n <=? j) eqn:B.
    + injection H as <-. split; [exact L|]. split; [exact C|]. split; [exact M|]. intros k Hk. destruct (K k Hk) as [(X & Y)|(X & Y)]; [left|right]; split; auto; replace (j =? k) with false by lia; lia.
    + destruct (nth_do lock (x_locks s) (N.to_nat j)) as [l|] eqn:E; [|discriminate]. cbn in H. injection H as <-.
      destruct (nth_do_spec _ _ _ _ E) as (A1 & A2 & A3). split; cbn [x_locks x_cond x_mutex]; [congruence|]. split; [exact C|]. split; [exact M|].
      intros k Hk. destruct (N.eq_dec k j) as [->|Nk].
      * rewrite N.eqb_refl. destruct (K j Hk) as [(X & Y)|(X & Y)]; destruct (A3 _ X) as (o' & F & G); cbn in F; [|discriminate].
        injection F as <-. right. split; [exact G|]. lia.
      * replace (j =? k) with false by lia. unfold getN in *. rewrite A2 by lia. destruct (K k Hk) as [(X & Y)|(X & Y)]; [left|right]; split; auto; lia.
  - unfold release_lock in H. rewrite L in H. destruct (N.of_nat n <=? j) eqn:B.
    + injection H as <-. split; [exact L|]. split; [exact C|]. split; [exact M|]. intros k Hk. destruct (K k Hk) as [(X & Y)|(X & Y)]; [left|right]; split; auto; replace (j =? k) with false by lia; lia.
    + destruct (nth_do unlock (x_locks s) (N.to_nat j)) as [l|] eqn:E; [|discriminate]. cbn in H. injection H as <-.
      destruct (nth_do_spec _ _ _ _ E) as (A1 & A2 & A3). split; cbn [x_locks x_cond x_mutex]; [congruence|]. split; [exact C|]. split; [exact M|].
      intros k Hk. destruct (N.eq_dec k j) as [->|Nk].
      * rewrite N.eqb_refl. destruct (K j Hk) as [(X & Y)|(X & Y)]; destruct (A3 _ X) as (o' & F & G); cbn in F; [discriminate|].
        injection F as <-. left. split; [exact G|]. lia.
      * replace (j =? k) with false by lia. unfold getN in *. rewrite A2 by lia. destruct (K k Hk) as [(X & Y)|(X & Y)]; [left|right]; split; auto; lia.
  - unfold signal_request in H. rewrite M, C in H. destruct q; cbn in H; [discriminate|]. injection H as <-.
    split; [exact L|]. split; [reflexivity|]. split; [reflexivity|]. intros k Hk. exact (K k Hk).
Qed.

Lemma uses_inv : forall l n a r q s s', pinv n a r q s -> uses l s = Ok s' ->
  pinv n (fun k => acquired k l + a k) (fun k => released k l + r k) (q || existsb is_req l) s'.
Proof.
  induction l as [|u l IH]; intros n a r q s s' P H; cbn [uses] in H.
  - injection H as <-. cbn [existsb acquired released]. rewrite orb_false_r. exact P.
  - destruct (use_step u s) as [s1|] eqn:E; [|discriminate]. cbn in H. specialize (IH _ _ _ _ _ _ (use_inv _ _ _ _ _ _ _ P E) H).
    destruct IH as (A & B & C & D). split; [exact A|]. split; [exact B|]. split.
    + cbn [existsb]. rewrite C. destruct q, (is_req u), (existsb is_req l); reflexivity.
    + intros k Hk. destruct (D k Hk) as [(X & Y)|(X & Y)]; [left|right]; (split; [exact X|]); destruct u; cbn [acquired released] in *; lia.
Qed.

Lemma after_inv : forall n l s, after n l s -> pinv n (fun k => acquired k l) (fun k => released k l) (existsb is_req l) s.
Proof.
  intros n l s (s0 & I & U). rewrite init_ok in I. injection I as <-.
  assert (P : pinv n (fun _ => 0) (fun _ => 0) false (mkPosix (repeat Free n) Free Free)).
  { split; [apply repeat_length|]. split; [reflexivity|]. split; [reflexivity|]. intros k Hk. left. split; [|reflexivity].
    unfold getN. cbn. assert (G : forall m j, (j < m)%nat -> nth_error (repeat Free m) j = Some Free) by (induction m; intros [|j] J; cbn; try lia; auto with arith).
    apply G. lia. }
  destruct (uses_inv _ _ _ _ _ _ _ P U) as (A & B & C & D). split; [exact A|]. split; [exact B|]. split; [exact C|].
  intros k Hk. destruct (D k Hk) as [(X & Y)|(X & Y)]; [left|right]; split; auto; lia.
Qed.

Lemma posix_lock : forall n l s k, after n l s -> k < N.of_nat n ->
  (getN (x_locks s) k = Some Free /\ acquired k l = released k l) \/ (getN (x_locks s) k = Some Held /\ acquired k l = released k l + 1).
Proof. intros n l s k A. now apply (after_inv n l s A). Qed.

Lemma in_req : forall l, existsb is_req l = true <-> In Request l.
Proof.
  intros l. rewrite existsb_exists. split.
  - intros (u & I & H). destruct u; try discriminate. exact I.
  - intros I. exists Request. auto.
Qed.
Lemma posix_mutex : forall n l s, after n l s -> (In Request l -> x_mutex s = Held) /\ (~ In Request l -> x_mutex s = Free).
Proof.
  intros n l s A. destruct (after_inv n l s A) as (_ & _ & M & _). rewrite <- in_req. destruct (existsb is_req l); split; intros H; auto; try discriminate.
  now destruct H.
Qed.

Lemma each_destroy : forall l, Forall (eq Free) l -> each destroy l = Ok (repeat Dead (length l)).
Proof. induction l as [|o l IH]; intros H; cbn; [reflexivity|]. inversion H; subst. cbn. now rewrite IH. Qed.
Lemma each_destroy_inv : forall l l', each destroy l = Ok l' -> Forall (eq Free) l.
Proof.
  induction l as [|o l IH]; intros l' H; [constructor|]. cbn in H. destruct o; try discriminate. cbn in H.
  destruct (each destroy l) as [t|] eqn:E; [|discriminate]. constructor; [reflexivity|]. eapply IH. reflexivity.
Qed.
Lemma balanced_free : forall n l s, after n l s ->
  (Forall (eq Free) (x_locks s) <-> forall k, k < N.of_nat n -> acquired k l = released k l).
Proof.
  intros n l s A. destruct (after_inv n l s A) as (L & _ & _ & K). split.
  - intros F k Hk. destruct (K k Hk) as [(_ & Y)|(X & _)]; [exact Y|]. unfold getN in X. apply nth_error_In in X.
    rewrite Forall_forall in F. specialize (F _ X). discriminate.
  - intros H. apply Forall_forall. intros o I.
    apply In_nth_error in I. destruct I as (j & I). assert (J : (j < length (x_locks s))%nat) by (apply nth_error_Some; congruence).
    specialize (K (N.of_nat j)). specialize (H (N.of_nat j)). unfold getN in K. rewrite Nat2N.id in K.
    destruct K as [(X & Y)|(X & Y)]; [lia|congruence|]. rewrite H in Y by lia. lia.
Qed.

Lemma posix_deinit_far : forall n l s, after n l s ->
  ((forall k, k < N.of_nat n -> acquired k l = released k l) ->
     calls (firstn 2 deinit_calls) s = Ok (mkPosix (repeat Dead n) Dead (x_mutex s)) /\
     calls (firstn 3 deinit_calls) s = UB Uninit) /\
  ((exists k, k < N.of_nat n /\ acquired k l <> released k l) -> calls (firstn 1 deinit_calls) s = UB Uninit).
Proof.
  intros n l s A. pose proof (balanced_free n l s A) as B. destruct (after_inv n l s A) as (L & C & _ & _). split.
  - intros H. apply B, each_destroy in H. rewrite L in H. cbn [firstn deinit_calls calls]. unfold deinit_locks. rewrite H. cbn [bind].
    unfold deinit_cond. cbn [x_cond]. rewrite C. cbn. split; reflexivity.
  - intros (k & Hk & N). cbn [firstn deinit_calls calls]. unfold deinit_locks.
    destruct (each destroy (x_locks s)) as [t|w] eqn:E; [exfalso; apply N; apply B; [|exact Hk]; eapply each_destroy_inv; exact E|].
    cbn. f_equal. clear - E. revert w E. induction (x_locks s) as [|o r IH]; intros w E; [discriminate|]. cbn in E.
    destruct o; cbn in E; try (injection E as <-; reflexivity). destruct (each destroy r) as [t|w'] eqn:F; [discriminate|]. cbn in E. injection E as <-. apply IH. reflexivity.
Qed.

Lemma posix_deinit_ub : forall n l s, after n l s -> exists w, posix_deinit s = UB w.
Proof.
  intros n l s A. destruct (after_inv n l s A) as (_ & C & _ & _). unfold posix_deinit, deinit_calls. cbn [calls]. unfold deinit_locks.
  destruct (each destroy (x_locks s)) as [t|w]; cbn [bind]; [|eauto]. unfold deinit_cond. cbn [x_cond]. rewrite C. cbn. eauto.
Qed.
Lemma posix_reinit_ub : forall n l s, after n l s -> posix_init s = UB Assert.
Proof.
  intros n l s A. destruct (after_inv n l s A) as (L & C & _ & K). unfold posix_init. rewrite C.
  destruct n as [|n].
  - destruct (x_locks s); [reflexivity|discriminate].
  - destruct (x_locks s) as [|o t] eqn:E; [discriminate|]. destruct (K 0) as [(X & _)|(X & _)]; [lia| |]; cbn in X; injection X as ->; reflexivity.
Qed.
