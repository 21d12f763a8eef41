(** Proofs about the utility functions. *)
From Coq Require Import NArith ZArith List Bool Lia ZifyBool ZifyNat ZifyN.
From Verif Require Import Base Lists Util SpecUtil.
Import ListNotations.
Open Scope N_scope.
Ltac Zify.zify_post_hook ::= Z.div_mod_to_equations.

(** ** MemCmp *)
Lemma cmp_equal : forall x y z, x = y -> forall a b, cmp_loop (x ++ a :: z) (y ++ b :: z) (lenN x) = Ok 0.
Proof.
  intros x y z <- a b. induction x as [|c x IH].
  - cbn. destruct (a =? b); reflexivity.
  - cbn [app cmp_loop]. rewrite lenN_cons, N.eqb_refl. destruct (N.eqb_spec (lenN x + 1) 0); [lia|]. cbn [negb andb].
    replace (lenN x + 1 - 1) with (lenN x) by lia. exact IH.
Qed.

Lemma cmp_exact : forall x, cmp_loop x x (lenN x) = UB OobBuffer.
Proof.
  induction x as [|c x IH]; [reflexivity|]. cbn [cmp_loop]. rewrite lenN_cons, N.eqb_refl.
  destruct (N.eqb_spec (lenN x + 1) 0); [lia|]. cbn [negb andb]. replace (lenN x + 1 - 1) with (lenN x) by lia. exact IH.
Qed.

Lemma cmp_val : forall n l r, n < lenN l -> n < lenN r ->
  exists k, cmp_loop l r n = Ok k /\ (k = 0 <-> takeN n l = takeN n r).
Proof.
  intros n l r. revert n r. induction l as [|a l IH]; intros n r Hl Hr; [cbn in Hl; lia|].
  destruct r as [|b r]; [cbn in Hr; lia|]. rewrite lenN_cons in *. cbn [cmp_loop].
  destruct (N.eqb_spec n 0) as [->|Hn].
  - exists 0. rewrite andb_false_r. split; [reflexivity|]. rewrite !take_0. tauto.
  - assert (En : n = N.succ (n - 1)) by lia.
    assert (T : forall x (l : list N), takeN n (x :: l) = x :: takeN (n - 1) l).
    { intros. unfold takeN. replace (N.to_nat n) with (S (N.to_nat (n - 1))) by lia. reflexivity. }
    rewrite !T. destruct (N.eqb_spec a b) as [->|Hab]; cbn [negb andb].
    + destruct (IH (n - 1) r ltac:(lia) ltac:(lia)) as (k & E & K). exists k. split; [exact E|]. rewrite K. split; [now intros ->|]. congruence.
    + exists n. split; [reflexivity|]. split; [lia|]. congruence.
Qed.

Lemma cmp_unequal : forall n l r, lenN l = n -> lenN r = n -> l <> r -> exists k, cmp_loop l r n = Ok k /\ k <> 0.
Proof.
  intros n l. revert n. induction l as [|a l IH]; intros n r Hl Hr Ne.
  - destruct r; [congruence|]. rewrite lenN_cons in Hr. cbn in Hl. lia.
  - destruct r as [|b r]; [rewrite lenN_cons in Hl; cbn in Hr; lia|]. rewrite lenN_cons in *. cbn [cmp_loop].
    destruct (N.eqb_spec a b) as [->|Hab]; cbn [andb].
    + destruct (N.eqb_spec n 0); [lia|]. cbn [negb]. apply IH; [lia|lia|]. congruence.
    + exists n. split; [reflexivity|lia].
Qed.

Lemma memcmp_value : forall l r n, n < lenN l -> n < lenN r ->
  exists v, mem_cmp (Some l) (Some r) n = Ok v /\ (v = true <-> 0 < n /\ takeN n l = takeN n r).
Proof.
  intros l r n Hl Hr. unfold mem_cmp. destruct (N.eqb_spec n 0) as [->|Hn].
  - exists false. split; [reflexivity|]. split; [discriminate|lia].
  - destruct (cmp_val n l r Hl Hr) as (k & -> & K). exists (k =? 0). split; [reflexivity|]. rewrite N.eqb_eq, K. split; [intro; split; [lia|auto]|tauto].
Qed.
Lemma memcmp_unequal : forall l r, lenN l = lenN r -> l <> r -> mem_cmp (Some l) (Some r) (lenN l) = Ok false.
Proof.
  intros l r H Ne. unfold mem_cmp. destruct (N.eqb_spec (lenN l) 0); [reflexivity|].
  destruct (cmp_unequal (lenN l) l r eq_refl (eq_sym H) Ne) as (k & -> & K). cbn [bind]. f_equal. now apply N.eqb_neq.
Qed.
Lemma memcmp_over : forall l, l <> [] -> mem_cmp (Some l) (Some l) (lenN l) = UB OobBuffer.
Proof.
  intros l H. unfold mem_cmp. destruct (N.eqb_spec (lenN l) 0) as [E|]; [apply lenN_0 in E; congruence|]. now rewrite cmp_exact.
Qed.

(** ** MemSet *)
Lemma set_ok : forall n p v, (n <= length p)%nat -> set_loop p v n = Ok (repeat v n ++ skipn n p).
Proof.
  induction n as [|n IH]; intros p v H; [reflexivity|]. destruct p as [|a p]; [cbn in H; lia|]. cbn [set_loop].
  rewrite IH by (cbn in H; lia). reflexivity.
Qed.
Lemma set_oob : forall n p v, (length p < n)%nat -> set_loop p v n = UB OobBuffer.
Proof.
  induction n as [|n IH]; intros p v H; [lia|]. destruct p as [|a p]; [reflexivity|]. cbn [set_loop].
  rewrite IH by (cbn in H; lia). reflexivity.
Qed.
Lemma memset_ok : forall p v n, n <= lenN p -> mem_set (Some p) v n = Ok (repeat v (N.to_nat n) ++ dropN n p).
Proof. intros. unfold mem_set. apply set_ok. unfold lenN in H. lia. Qed.
Lemma memset_oob : forall p v n, lenN p < n -> mem_set (Some p) v n = UB OobBuffer.
Proof. intros. unfold mem_set. apply set_oob. unfold lenN in H. lia. Qed.

(** ** MemCopy *)
Lemma copy_loop_out : forall n m d s x, x < d \/ d + N.of_nat n <= x -> copy_loop m d s n x = m x.
Proof.
  induction n as [|n IH]; intros m d s x H; [reflexivity|]. cbn [copy_loop]. rewrite IH by lia.
  destruct (N.eqb_spec x d); [lia|reflexivity].
Qed.
(** Copying downwards in memory, or to a disjoint range, moves the old contents. *)
Lemma copy_loop_in : forall n m d s i, (d <= s \/ s + N.of_nat n <= d) -> i < N.of_nat n -> copy_loop m d s n (d + i) = m (s + i).
Proof.
  induction n as [|n IH]; intros m d s i H Hi; [lia|]. cbn [copy_loop].
  destruct (N.eq_dec i 0) as [->|Ne].
  - rewrite copy_loop_out by lia. rewrite N.add_0_r, N.eqb_refl. f_equal; lia.
  - replace (d + i) with (d + 1 + (i - 1)) by lia. rewrite IH by lia. replace (s + 1 + (i - 1)) with (s + i) by lia.
    destruct (N.eqb_spec (s + i) d); [lia|reflexivity].
Qed.
(** Copying upwards within the range repeats the first bytes. *)
Lemma copy_loop_over : forall n m d s i, s < d -> i < N.of_nat n -> copy_loop m d s n (d + i) = m (s + i mod (d - s)).
Proof.
  induction n as [|n IH]; intros m d s i H Hi; [lia|]. cbn [copy_loop].
  destruct (N.eq_dec i 0) as [->|Ne].
  - rewrite copy_loop_out by lia. rewrite N.add_0_r, N.eqb_refl. f_equal. rewrite N.mod_0_l by lia. lia.
  - replace (d + i) with (d + 1 + (i - 1)) by lia. rewrite IH by lia. replace (d + 1 - (s + 1)) with (d - s) by lia.
    set (k := d - s) in *. assert (Hk : 0 < k) by lia.
    assert (Hm : (i - 1) mod k + 1 = k /\ i mod k = 0 \/ (i - 1) mod k + 1 < k /\ i mod k = (i - 1) mod k + 1).
    { pose proof (N.mod_lt (i - 1) k ltac:(lia)). pose proof (N.div_mod (i - 1) k ltac:(lia)) as D.
      destruct (N.eq_dec ((i - 1) mod k + 1) k) as [E|E]; [left|right]; split; try lia.
      - symmetry. apply (N.mod_unique _ _ ((i - 1) / k + 1)); [lia|]. nia.
      - symmetry. apply (N.mod_unique _ _ ((i - 1) / k)); [lia|]. nia. }
    destruct (N.eqb_spec (s + 1 + (i - 1) mod k) d).
    + destruct Hm as [(? & ->)|(? & ?)]; [f_equal; lia|lia].
    + destruct Hm as [(? & ?)|(? & ->)]; [lia|f_equal; lia].
Qed.

(** ** Numerals *)
Fixpoint lsd (k : nat) (v b : N) : list N :=
  match k with O => [] | S j => if v =? 0 then [] else v mod b :: lsd j (v / b) b end.

Lemma numeral_value_app : forall b x y, numeral_value b (x ++ y) = numeral_value b x * b ^ lenN y + numeral_value b y.
Proof.
  induction x as [|d x IH]; intro y; [reflexivity|]. cbn [app numeral_value]. rewrite IH, lenN_app, N.pow_add_r. lia.
Qed.

Lemma lsd_spec : forall k v b, 2 <= b -> v < 2 ^ N.of_nat k ->
  numeral_value b (rev (lsd k v b)) = v /\ Forall (fun d => d < b) (lsd k v b) /\ (v <> 0 -> exists d t, rev (lsd k v b) = d :: t /\ 0 < d) /\
  (v = 0 -> lsd k v b = []).
Proof.
  induction k as [|k IH]; intros v b Hb Hv.
  - change (2 ^ N.of_nat 0) with 1 in Hv. assert (v = 0) by lia. subst. cbn. repeat split; auto. congruence.
  - cbn [lsd]. destruct (N.eqb_spec v 0) as [->|Hn]; [cbn; repeat split; auto; congruence|].
    assert (Hd : v / b < 2 ^ N.of_nat k).
    { rewrite Nnat.Nat2N.inj_succ, N.pow_succ_r' in Hv. apply N.div_lt_upper_bound; [lia|]. nia. }
    destruct (IH (v / b) b Hb Hd) as (V & F & P & Z). pose proof (N.div_mod v b ltac:(lia)) as D. pose proof (N.mod_lt v b ltac:(lia)) as M.
    cbn [rev]. split; [|split; [|split]].
    + rewrite numeral_value_app, V. cbn [numeral_value]. change (lenN [v mod b]) with 1. change (lenN (@nil N)) with 0. rewrite N.pow_1_r, N.pow_0_r. lia.
    + constructor; auto.
    + intros _. destruct (N.eq_dec (v / b) 0) as [E|E].
      * rewrite (Z E). cbn. exists (v mod b), []. split; [reflexivity|]. rewrite E in D. lia.
      * destruct (P E) as (d & t & -> & ?). cbn. eauto.
    + congruence.
Qed.

Lemma numeral_value_lt : forall b ds, Forall (fun d => d < b) ds -> numeral_value b ds < b ^ lenN ds.
Proof.
  intros b ds F. induction F as [|d t Hd F IH]; [cbn; lia|]. cbn [numeral_value]. rewrite lenN_cons, N.pow_add_r, N.pow_1_r.
  set (p := b ^ lenN t) in *. clearbody p. nia.
Qed.

Lemma numeral_cong : forall b x y, 2 <= b -> Forall (fun d => d < b) x -> Forall (fun d => d < b) y -> length x = length y ->
  numeral_value b x = numeral_value b y -> x = y.
Proof.
  intros b x. induction x as [|c x IH]; intros y Hb Fx Fy L E; destruct y as [|d y]; try discriminate; auto.
  inversion Fx; inversion Fy; subst. cbn [numeral_value length] in *.
  assert (Lx : lenN x = lenN y) by (unfold lenN; lia). rewrite Lx in E.
  pose proof (numeral_value_lt b x ltac:(auto)) as B1. pose proof (numeral_value_lt b y ltac:(auto)) as B2. rewrite Lx in B1.
  set (p := b ^ lenN y) in *. clearbody p.
  assert (c = d) by nia. subst. f_equal. apply IH; auto. lia.
Qed.

Lemma numeral_len : forall b d t e u, 2 <= b -> Forall (fun d => d < b) (d :: t) -> Forall (fun d => d < b) (e :: u) ->
  0 < d -> numeral_value b (d :: t) = numeral_value b (e :: u) -> (length t <= length u)%nat.
Proof.
  intros b d t e u Hb F1 F2 Hd E. destruct (Nat.le_gt_cases (length t) (length u)) as [|G]; [auto|]. exfalso.
  pose proof (numeral_value_lt _ _ F2) as B. rewrite <- E in B. cbn [numeral_value] in B.
  rewrite lenN_cons in B. assert (Hp : b ^ (lenN u + 1) <= b ^ lenN t) by (apply N.pow_le_mono_r; unfold lenN; lia). nia.
Qed.

(** The numeral is unique. *)
Lemma numeral_unique : forall b x y v, 2 <= b -> numeral b x v -> numeral b y v -> x = y.
Proof.
  intros b x y v Hb (Vx & Fx & Lx) (Vy & Fy & Ly). destruct x as [|d t]; [destruct Lx|]. destruct y as [|e u]; [destruct Ly|].
  assert (E : numeral_value b (d :: t) = numeral_value b (e :: u)) by congruence.
  apply (numeral_cong b); auto. cbn [length]. f_equal.
  destruct (N.eq_dec d 0) as [->|Hd].
  - destruct t; [|exfalso; specialize (Lx ltac:(discriminate)); lia].
    destruct u; [reflexivity|]. specialize (Ly ltac:(discriminate)).
    pose proof (numeral_len b e (n :: u) 0 [] Hb Fy Fx Ly (eq_sym E)). cbn [length] in *. lia.
  - destruct (N.eq_dec e 0) as [->|He].
    + destruct u; [|exfalso; specialize (Ly ltac:(discriminate)); lia].
      pose proof (numeral_len b d t 0 [] Hb Fx Fy ltac:(lia) E). cbn [length] in *. lia.
    + pose proof (numeral_len b d t e u Hb Fx Fy ltac:(lia) E). pose proof (numeral_len b e u d t Hb Fy Fx ltac:(lia) (eq_sym E)). lia.
Qed.

Lemma lsd_len : forall k v b, (length (lsd k v b) <= k)%nat.
Proof. induction k as [|k IH]; intros v b; cbn [lsd]; [apply le_n|]. destruct (_ =? _); cbn [length]; [apply Nat.le_0_l|]. apply le_n_S, IH. Qed.

(** ** Itoa *)
Lemma put_app : forall pre x post v, put (pre ++ x :: post) (lenN pre) v = Ok (pre ++ v :: post).
Proof.
  intros. unfold put. rewrite lenN_app, lenN_cons. destruct (N.leb_spec (lenN pre + (lenN post + 1)) (lenN pre)); [lia|]. f_equal.
  unfold updN, lenN. rewrite Nnat.Nat2N.id. clear. induction pre as [|a p IH]; [reflexivity|]. cbn. now rewrite IH.
Qed.
Lemma put_oob : forall buf v i, lenN buf <= i -> put buf i v = UB OobBuffer.
Proof. intros. unfold put. destruct (N.leb_spec (lenN buf) i); [reflexivity|lia]. Qed.
Lemma fetch_app : forall pre x post, fetch (pre ++ x :: post) (lenN pre) = Ok x.
Proof.
  intros. unfold fetch, getN, lenN. rewrite Nnat.Nat2N.id. now rewrite nth_error_app2, Nat.sub_diag by lia.
Qed.

Lemma char_ok : forall m, m < 36 -> (if m <? 10 then 48 + m else u8 (65 + m - 10)) = digit_char m.
Proof. intros. unfold digit_char, u8. destruct (_ <? _); [reflexivity|]. change (2 ^ 8) with 256. lia. Qed.

Lemma digits_ok : forall k v b pre old, 2 <= b <= 36 -> v < 2 ^ N.of_nat k -> lenN pre + lenN (lsd k v b) < 256 ->
  lenN (lsd k v b) <= lenN old ->
  digits_loop k v b (pre ++ old) (lenN pre) = Ok (pre ++ map digit_char (lsd k v b) ++ dropN (lenN (lsd k v b)) old, lenN pre + lenN (lsd k v b)).
Proof.
  induction k as [|k IH]; intros v b pre old Hb Hv Hp Ho.
  - change (2 ^ N.of_nat 0) with 1 in Hv. assert (v = 0) by lia. subst. cbn. f_equal. f_equal. lia.
  - cbn [digits_loop lsd] in *. destruct (N.eqb_spec v 0) as [->|Hn].
    + cbn. f_equal. f_equal. lia.
    + destruct (N.eqb_spec b 0); [lia|]. rewrite lenN_cons in *. destruct old as [|x old]; [cbn in Ho; lia|]. rewrite lenN_cons in Ho.
      pose proof (N.mod_lt v b ltac:(lia)).
      assert (Em : u8 (v mod b) = v mod b) by (unfold u8; apply N.mod_small; change (2 ^ 8) with 256; lia).
      rewrite Em. rewrite char_ok by lia. rewrite put_app. cbn [bind].
      assert (Eu : u8 (lenN pre + 1) = lenN (pre ++ [digit_char (v mod b)])).
      { rewrite lenN_app. change (lenN [_]) with 1. unfold u8. apply N.mod_small. change (2 ^ 8) with 256. lia. }
      rewrite Eu. replace (pre ++ digit_char (v mod b) :: old) with ((pre ++ [digit_char (v mod b)]) ++ old) by (rewrite <- app_assoc; reflexivity).
      assert (Hd : v / b < 2 ^ N.of_nat k).
      { rewrite Nnat.Nat2N.inj_succ, N.pow_succ_r' in Hv. apply N.div_lt_upper_bound; [lia|]. nia. }
      rewrite IH; [|auto|auto|rewrite lenN_app; change (lenN [_]) with 1; lia|lia].
      f_equal. f_equal; [|rewrite lenN_app; change (lenN [_]) with 1; lia].
      rewrite <- app_assoc. cbn [app map]. do 3 f_equal. unfold dropN. replace (N.to_nat (lenN (lsd k (v / b) b) + 1)) with (S (N.to_nat (lenN (lsd k (v / b) b)))) by lia. reflexivity.
Qed.

Lemma digits_oob : forall k v b pre old, 2 <= b <= 36 -> v < 2 ^ N.of_nat k -> lenN pre + lenN (lsd k v b) < 256 ->
  lenN old < lenN (lsd k v b) -> digits_loop k v b (pre ++ old) (lenN pre) = UB OobBuffer.
Proof.
  induction k as [|k IH]; intros v b pre old Hb Hv Hp Ho; [cbn in Ho; lia|].
  cbn [digits_loop lsd] in *. destruct (N.eqb_spec v 0) as [->|Hn]; [cbn in Ho; lia|].
  destruct (N.eqb_spec b 0); [lia|]. rewrite lenN_cons in *. destruct old as [|x old].
  - rewrite app_nil_r. rewrite put_oob by lia. reflexivity.
  - rewrite lenN_cons in Ho. pose proof (N.mod_lt v b ltac:(lia)).
    rewrite put_app. cbn [bind].
    match goal with |- digits_loop _ _ _ (pre ++ ?y :: old) _ = _ => set (z := y) end.
    assert (Eu : u8 (lenN pre + 1) = lenN (pre ++ [z])).
    { rewrite lenN_app. change (lenN [_]) with 1. unfold u8. apply N.mod_small. change (2 ^ 8) with 256. lia. }
    rewrite Eu. replace (pre ++ z :: old) with ((pre ++ [z]) ++ old) by (rewrite <- app_assoc; reflexivity).
    assert (Hd : v / b < 2 ^ N.of_nat k).
    { rewrite Nnat.Nat2N.inj_succ, N.pow_succ_r' in Hv. apply N.div_lt_upper_bound; [lia|]. nia. }
    apply IH; auto; [rewrite lenN_app; change (lenN [_]) with 1; lia|lia].
Qed.

Lemma swap_ok : forall n mid fuel pre post, length mid = n -> mid <> [] -> (n <= fuel)%nat -> lenN pre + lenN mid <= 256 ->
  swap_loop fuel (pre ++ mid ++ post) (lenN pre + lenN mid - 1) (lenN pre) = Ok (pre ++ rev mid ++ post).
Proof.
  intro n. induction n as [n IH] using lt_wf_ind. intros mid fuel pre post Hn Ne Hf Hl.
  destruct mid as [|a mid]; [congruence|]. destruct (rev mid) as [|z r] eqn:Er.
  - assert (mid = []) by (rewrite <- (rev_involutive mid), Er; reflexivity). subst mid. change (lenN [a]) with 1.
    assert (E : (lenN pre <? lenN pre + 1 - 1) = false) by (apply N.ltb_ge; lia).
    destruct fuel; cbn [swap_loop]; rewrite E; reflexivity.
  - assert (Em : mid = rev r ++ [z]) by (rewrite <- (rev_involutive mid), Er; reflexivity). subst mid. clear Er.
    set (q := rev r) in *. clearbody q. clear r.
    assert (El : lenN (a :: q ++ [z]) = lenN q + 2) by (rewrite lenN_cons, lenN_app; change (lenN [z]) with 1; lia).
    rewrite El in *. assert (E : (lenN pre <? lenN pre + (lenN q + 2) - 1) = true) by (apply N.ltb_lt; lia).
    destruct fuel as [|fuel]; [cbn [length] in Hn; lia|]. cbn [swap_loop]. rewrite E.
    replace (pre ++ (a :: q ++ [z]) ++ post) with (pre ++ a :: (q ++ z :: post)) by (cbn; rewrite <- app_assoc; reflexivity).
    rewrite fetch_app. cbn [bind].
    assert (Ef : forall y, fetch (pre ++ y :: q ++ z :: post) (lenN pre + (lenN q + 2) - 1) = Ok z).
    { intro y. replace (pre ++ y :: q ++ z :: post) with ((pre ++ y :: q) ++ z :: post) by (rewrite <- app_assoc; reflexivity).
      replace (lenN pre + (lenN q + 2) - 1) with (lenN (pre ++ y :: q)) by (rewrite lenN_app, lenN_cons; lia). apply fetch_app. }
    rewrite Ef. cbn [bind]. rewrite put_app. cbn [bind].
    replace (pre ++ z :: q ++ z :: post) with ((pre ++ z :: q) ++ z :: post) by (rewrite <- app_assoc; reflexivity).
    replace (lenN pre + (lenN q + 2) - 1) with (lenN (pre ++ z :: q)) by (rewrite lenN_app, lenN_cons; lia).
    rewrite put_app. cbn [bind].
    assert (Eu : u8 (lenN pre + 1) = lenN (pre ++ [z])).
    { rewrite lenN_app. change (lenN [z]) with 1. unfold u8. apply N.mod_small. change (2 ^ 8) with 256. lia. }
    rewrite Eu. cbn [rev]. rewrite rev_app_distr. cbn [rev app].
    destruct q as [|b q].
    + cbn [app rev]. replace (lenN (pre ++ [z]) - 1) with (lenN pre) by (rewrite lenN_app; change (lenN [z]) with 1; lia).
      assert (E2 : (lenN (pre ++ [z]) <? lenN pre) = false) by (apply N.ltb_ge; rewrite lenN_app; lia).
      destruct fuel; cbn [swap_loop]; rewrite E2; rewrite <- app_assoc; reflexivity.
    + replace ((pre ++ z :: b :: q) ++ a :: post) with ((pre ++ [z]) ++ (b :: q) ++ (a :: post)) by (rewrite <- !app_assoc; reflexivity).
      replace (lenN (pre ++ z :: b :: q) - 1) with (lenN (pre ++ [z]) + lenN (b :: q) - 1) by (rewrite !lenN_app, !lenN_cons; change (lenN []) with 0; lia).
      rewrite (IH (length (b :: q))); [|cbn [length] in *; rewrite app_length in Hn; cbn [length] in Hn; lia|reflexivity|discriminate|cbn [length] in *; rewrite app_length in Hn; cbn [length] in Hn; lia|
        rewrite lenN_app; change (lenN [z]) with 1; lia].
      rewrite <- !app_assoc. reflexivity.
Qed.

Lemma app_drop : forall (x y : list N), dropN (lenN x) (x ++ y) = y.
Proof. intros. unfold dropN, lenN. rewrite Nnat.Nat2N.id, skipn_app, skipn_all, Nat.sub_diag. reflexivity. Qed.

Definition ndigits (v b : N) : list N := if v =? 0 then [0] else lsd 33 v b.

Lemma ndigits_num : forall v b, 2 <= b -> v < 2 ^ 32 -> numeral b (rev (ndigits v b)) v /\ 1 <= lenN (ndigits v b) <= 33 /\ Forall (fun d => d < b) (ndigits v b).
Proof.
  intros v b Hb Hv. unfold ndigits. destruct (N.eqb_spec v 0) as [->|Hn].
  - split; [split; [reflexivity|split; [repeat constructor; lia|cbn; congruence]]|]. split; [cbn; lia|repeat constructor; lia].
  - assert (H33 : v < 2 ^ N.of_nat 33) by (eapply N.lt_trans; [exact Hv|reflexivity]).
    destruct (lsd_spec 33 v b Hb H33) as (V & F & P & _). destruct (P Hn) as (d & t & E & Hd).
    split; [|split; [|exact F]].
    + split; [exact V|split; [now apply Forall_rev|]]. rewrite E. auto.
    + pose proof (lsd_len 33 v b) as L. assert (lenN (lsd 33 v b) <> 0).
      { intro Z. apply lenN_0 in Z. rewrite Z in E. discriminate. }
      unfold lenN in *. lia.
Qed.

(** Lines 97-116 for the value without sign. *)
Lemma itoa_core : forall v b pre old, 2 <= b <= 36 -> v < 2 ^ 32 -> lenN pre <= 1 ->
  (r <- (if v =? 0 then x <- put (pre ++ old) (lenN pre) 48 ;; Ok (x, lenN pre + 1) else Ok (pre ++ old, lenN pre)) ;;
   match r with (b1, p1) => r2 <- digits_loop 33 v b b1 p1 ;; match r2 with (b2, p2) =>
     b3 <- put b2 p2 0 ;; swap_loop 256 b3 (u8 (p2 + 255)) (lenN pre) end end) =
  (if lenN (ndigits v b) <? lenN old then Ok (pre ++ map digit_char (rev (ndigits v b)) ++ 0 :: dropN (lenN (ndigits v b) + 1) old) else UB OobBuffer).
Proof.
  intros v b pre old Hb Hv Hp. destruct (ndigits_num v b ltac:(lia) Hv) as (_ & Ln & _).
  set (ds := ndigits v b) in *.
  assert (A : (r <- (if v =? 0 then x <- put (pre ++ old) (lenN pre) 48 ;; Ok (x, lenN pre + 1) else Ok (pre ++ old, lenN pre)) ;;
     match r with (b1, p1) => digits_loop 33 v b b1 p1 end) =
     if lenN old <? lenN ds then UB OobBuffer else Ok (pre ++ map digit_char ds ++ dropN (lenN ds) old, lenN pre + lenN ds)).
  { unfold ds, ndigits. destruct (N.eqb_spec v 0) as [->|Hn].
    - change (lenN [0]) with 1. destruct old as [|x old].
      + rewrite app_nil_r, put_oob by lia. reflexivity.
      + rewrite put_app. cbn [bind]. rewrite lenN_cons. destruct (N.ltb_spec (lenN old + 1) 1); [lia|]. reflexivity.
    - assert (H33 : v < 2 ^ N.of_nat 33) by (eapply N.lt_trans; [exact Hv|reflexivity]).
      assert (E : ds = lsd 33 v b) by (unfold ds, ndigits; destruct (N.eqb_spec v 0); congruence).
      cbn [bind]. rewrite <- E. destruct (N.ltb_spec (lenN old) (lenN ds)).
      + apply digits_oob; auto; rewrite <- E; lia.
      + rewrite E in *. apply digits_ok; auto; lia. }
  match goal with |- ?L = _ => assert (EL : L = bind (bind (if v =? 0 then x <- put (pre ++ old) (lenN pre) 48 ;; Ok (x, lenN pre + 1) else Ok (pre ++ old, lenN pre)) (fun r => match r with (b1, p1) => digits_loop 33 v b b1 p1 end))
     (fun r2 => match r2 with (b2, p2) => b3 <- put b2 p2 0 ;; swap_loop 256 b3 (u8 (p2 + 255)) (lenN pre) end)) end.
  { destruct (if v =? 0 then _ else _) as [[? ?]|]; reflexivity. }
  rewrite EL, A. clear EL A. destruct (N.ltb_spec (lenN old) (lenN ds)) as [Lt|Ge].
  - destruct (N.ltb_spec (lenN ds) (lenN old)); [lia|reflexivity].
  - cbn [bind]. rewrite app_assoc. set (full := pre ++ map digit_char ds) in *.
    assert (Lf : lenN full = lenN pre + lenN ds) by (unfold full; rewrite lenN_app, lenN_map; reflexivity).
    rewrite <- Lf. destruct (N.ltb_spec (lenN ds) (lenN old)) as [L2|L2].
    + assert (Ex : exists y old', dropN (lenN ds) old = y :: old' /\ old' = dropN (lenN ds + 1) old).
      { destruct (dropN (lenN ds) old) as [|y o'] eqn:Ed.
        - assert (Z : lenN (dropN (lenN ds) old) = 0) by (now rewrite Ed). rewrite lenN_drop in Z. lia.
        - exists y, o'. split; [reflexivity|]. assert (Ed' : dropN 1 (dropN (lenN ds) old) = o') by (now rewrite Ed). rewrite <- Ed'.
          unfold dropN. replace (N.to_nat (lenN ds + 1)) with (N.to_nat (lenN ds) + 1)%nat by lia. clear. generalize (N.to_nat (lenN ds)) as k. induction old as [|q old IH]; intros [|k]; cbn; auto.  }
      destruct Ex as (y & o' & -> & Eo). rewrite put_app. cbn [bind].
      assert (Eu : u8 (lenN full + 255) = lenN pre + lenN (map digit_char ds) - 1).
      { rewrite Lf, lenN_map. unfold u8. change (2 ^ 8) with 256. lia. }
      rewrite Eu. unfold full. rewrite <- app_assoc. rewrite (swap_ok (length (map digit_char ds))).
      * rewrite <- map_rev, Eo. reflexivity.
      * reflexivity.
      * intro Z. apply map_eq_nil in Z. rewrite Z in Ln. cbn in Ln. lia.
      * rewrite map_length. unfold lenN in Ln. lia.
      * rewrite lenN_map. lia.
    + assert (Ed : dropN (lenN ds) old = []) by (apply lenN_0; rewrite lenN_drop; lia).
      rewrite Ed, app_nil_r. rewrite put_oob by lia. reflexivity.
Qed.

Lemma itoa_val : forall lb v b buf t, 2 <= b <= 36 -> v < 2 ^ 32 -> text v b t -> ~ (v = 2 ^ 31 /\ b = 10 /\ lb = 32) ->
  itoa lb v b buf = if lenN t <? lenN buf then Ok (t ++ 0 :: dropN (lenN t + 1) buf) else UB OobBuffer.
Proof.
  intros lb v b buf t Hb Hv T Nov. unfold itoa, text in *. destruct ((2 ^ 31 <=? v) && (b =? 10)) eqn:Neg.
  - apply andb_true_iff in Neg. destruct Neg as (N1 & N2). apply N.leb_le in N1. apply N.eqb_eq in N2. subst b.
    assert (Ov : (true && (v =? 2 ^ 31) && (lb =? 32)) = false).
    { destruct (N.eqb_spec v (2 ^ 31)), (N.eqb_spec lb 32); try reflexivity. exfalso. auto. }
    rewrite Ov. destruct T as (ds & Nu & ->).
    assert (Hw : 2 ^ 32 - v < 2 ^ 32) by (pose proof N1; change (2 ^ 31) with 2147483648 in *; change (2 ^ 32) with 4294967296 in *; lia).
    set (w := 2 ^ 32 - v) in *. destruct (ndigits_num w 10 ltac:(lia) Hw) as (Nw & Lw & _).
    assert (Eds : ds = rev (ndigits w 10)) by (eapply numeral_unique; eauto; lia). subst ds.
    assert (El : lenN (minus :: map digit_char (rev (ndigits w 10))) = lenN (ndigits w 10) + 1).
    { rewrite lenN_cons, lenN_map. unfold lenN. now rewrite rev_length. }
    rewrite El. destruct buf as [|x buf].
    + cbn. destruct (_ <? 0) eqn:Z; [apply N.ltb_lt in Z; lia|]. reflexivity.
    + replace (put (x :: buf) 0 45) with (Ok ([45] ++ buf)) by (symmetry; apply (put_app [] x buf 45)). cbn [bind].
      pose proof (itoa_core w 10 [45] buf Hb Hw ltac:(cbn; lia)) as X. change (lenN [45]) with 1 in X. etransitivity; [exact X|]. clear X.
      rewrite lenN_cons. destruct (N.ltb_spec (lenN (ndigits w 10)) (lenN buf)), (N.ltb_spec (lenN (ndigits w 10) + 1) (lenN buf + 1)); try lia; [|reflexivity].
      cbn [app]. do 4 f_equal. unfold dropN. replace (N.to_nat (lenN (ndigits w 10) + 1 + 1)) with (S (N.to_nat (lenN (ndigits w 10) + 1))) by lia. reflexivity.
  - cbn [andb]. destruct T as (ds & Nu & ->). destruct (ndigits_num v b ltac:(lia) Hv) as (Nw & Lw & _).
    assert (Eds : ds = rev (ndigits v b)) by (eapply numeral_unique; eauto; lia). subst ds.
    assert (El : lenN (map digit_char (rev (ndigits v b))) = lenN (ndigits v b)).
    { rewrite lenN_map. unfold lenN. now rewrite rev_length. }
    rewrite El. cbn [bind]. pose proof (itoa_core v b [] buf Hb Hv ltac:(cbn; lia)) as X. change (lenN (@nil N)) with 0 in X. cbn [app] in X. exact X.
Qed.

Lemma text_ex : forall v b, 2 <= b -> v < 2 ^ 32 -> exists t, text v b t.
Proof.
  intros v b Hb Hv. unfold text. destruct (_ && _) eqn:E.
  - apply andb_true_iff in E. destruct E as (E1 & E2). apply N.leb_le in E1.
    assert (Hw : 2 ^ 32 - v < 2 ^ 32) by (change (2 ^ 31) with 2147483648 in *; change (2 ^ 32) with 4294967296 in *; lia).
    destruct (ndigits_num _ _ Hb Hw) as (N & _). eauto.
  - destruct (ndigits_num _ _ Hb Hv) as (N & _). eauto.
Qed.
Lemma text_len : forall v b t, 2 <= b -> v < 2 ^ 32 -> text v b t -> lenN t <= 34.
Proof.
  intros v b t Hb Hv T. unfold text in T. destruct (_ && _) eqn:E; destruct T as (ds & N & ->).
  - apply andb_true_iff in E. destruct E as (E1 & E2). apply N.leb_le in E1.
    assert (Hw : 2 ^ 32 - v < 2 ^ 32) by (change (2 ^ 31) with 2147483648 in *; change (2 ^ 32) with 4294967296 in *; lia).
    destruct (ndigits_num _ _ Hb Hw) as (N' & L & _). rewrite (numeral_unique _ _ _ _ Hb N N'). rewrite lenN_cons, lenN_map.
    assert (El : lenN (rev (ndigits (2 ^ 32 - v) b)) = lenN (ndigits (2 ^ 32 - v) b)) by (unfold lenN; now rewrite rev_length). lia.
  - destruct (ndigits_num _ _ Hb Hv) as (N' & L & _). rewrite (numeral_unique _ _ _ _ Hb N N'). rewrite lenN_map.
    assert (El : lenN (rev (ndigits v b)) = lenN (ndigits v b)) by (unfold lenN; now rewrite rev_length). lia.
Qed.

Lemma mem_copy_ok : forall asp m d s n, 0 < d -> 0 < n -> in_range asp d s n -> d <= s \/ s + n <= d ->
  exists m', mem_copy asp m d s n = Ok m' /\ moved m m' d s n.
Proof.
  intros asp m d s n Hd Hn (R1 & R2) O. unfold mem_copy.
  destruct (N.eqb_spec d 0); [lia|]. destruct (N.eqb_spec n 0); [lia|].
  destruct (N.ltb_spec asp (d + n)); [lia|]. destruct (N.ltb_spec asp (s + n)); [lia|]. cbn [orb].
  eexists. split; [reflexivity|]. intro x. destruct (N.leb_spec d x), (N.ltb_spec x (d + n)); cbn [andb].
  - replace x with (d + (x - d)) at 1 by lia. apply copy_loop_in; lia.
  - apply copy_loop_out. lia.
  - apply copy_loop_out. lia.
  - apply copy_loop_out. lia.
Qed.
Lemma mem_copy_over : forall asp m d s n, s < d -> d < s + n -> in_range asp d s n ->
  exists m', mem_copy asp m d s n = Ok m' /\ (forall i, i < n -> m' (d + i) = m (s + i mod (d - s))) /\
    (m s <> m d -> ~ moved m m' d s n).
Proof.
  intros asp m d s n H1 H2 (R1 & R2). unfold mem_copy.
  destruct (N.eqb_spec d 0); [lia|]. destruct (N.eqb_spec n 0); [lia|].
  destruct (N.ltb_spec asp (d + n)); [lia|]. destruct (N.ltb_spec asp (s + n)); [lia|]. cbn [orb].
  eexists. split; [reflexivity|].
  assert (A : forall i, i < n -> copy_loop m d s (N.to_nat n) (d + i) = m (s + i mod (d - s))) by (intros; apply copy_loop_over; lia).
  split; [exact A|]. intros Ne M. specialize (A (d - s) ltac:(lia)). rewrite N.mod_same in A by lia. rewrite N.add_0_r in A.
  specialize (M (d + (d - s))). rewrite A in M. destruct (N.leb_spec d (d + (d - s))), (N.ltb_spec (d + (d - s)) (d + n)); try lia. cbn [andb] in M.
  replace (s + (d + (d - s) - d)) with d in M by lia. congruence.
Qed.
