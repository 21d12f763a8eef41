From Coq Require Import NArith ZArith List Bool Lia ZifyBool ZifyNat ZifyN.
From Verif Require Import Base Lists Util ProofsUtil Xcpsim.
Import ListNotations.
Open Scope N_scope.
Ltac Zify.zify_post_hook ::= Z.div_mod_to_equations.

Lemma lobyte_eq : forall w, lobyte w = w mod 256.
Proof. intros. unfold lobyte. change 0xFF with (N.ones 8). rewrite N.land_ones. apply N.mod_mod. discriminate. Qed.
Lemma hibyte_eq : forall w, hibyte w = w / 256 mod 256.
Proof.
  intros. unfold hibyte. rewrite N.shiftr_land. change (N.shiftr 0xFF00 8) with (N.ones 8). rewrite N.land_ones, N.shiftr_div_pow2. apply N.mod_mod. discriminate.
Qed.
Lemma hiword_small : forall w, w < 65536 -> hiword w = 0.
Proof.
  intros. unfold hiword. rewrite N.shiftr_land, N.shiftr_div_pow2. change (2 ^ 16) with 65536. rewrite N.div_small by assumption. reflexivity.
Qed.
Lemma loword_small : forall w, w < 65536 -> loword w = w.
Proof. intros. unfold loword. change 0xFFFF with (N.ones 16). rewrite N.land_ones. change (2 ^ 16) with 65536. lia. Qed.

Lemma seed_eq : forall ts, sim_seed ts = [0; 0; ts / 256 mod 256; ts mod 256].
Proof.
  intros. unfold sim_seed. rewrite hibyte_eq, lobyte_eq. rewrite !hiword_small, !loword_small by lia. rewrite !N.mod_mod by discriminate. reflexivity.
Qed.

Theorem seed_period : forall a b, sim_seed a = sim_seed b <-> a mod 65536 = b mod 65536.
Proof.
  intros. rewrite !seed_eq. split.
  - intros H. injection H as H1 H2. lia.
  - intros H. assert (a mod 256 = b mod 256) by lia. assert (a / 256 mod 256 = b / 256 mod 256) by lia. congruence.
Qed.

Lemma key_len : forall ts, lenN (sim_key ts) = 4.
Proof. intros. unfold sim_key. rewrite seed_eq. reflexivity. Qed.

Theorem key_of_seed : forall a b, sim_seed a = sim_seed b -> sim_key a = sim_key b.
Proof. intros a b H. unfold sim_key. rewrite H. reflexivity. Qed.

Lemma memcmp_val : forall l r n, n < lenN l -> n < lenN r -> exists v, mem_cmp (Some l) (Some r) n = Ok v /\ (v = true <-> 0 < n /\ takeN n l = takeN n r).
Proof. exact memcmp_value. Qed.

Theorem unlock_exact : forall ts behind data, behind <> [] -> 4 < lenN data ->
  exists v, sim_unlock (sim_key ts) behind data = Ok v /\ (v = true <-> takeN 4 data = sim_key ts).
Proof.
  intros ts behind data B L. assert (Lb : 0 < lenN behind) by (destruct behind; [congruence|rewrite lenN_cons; lia]).
  unfold sim_unlock. destruct (memcmp_value (sim_key ts ++ behind) data 4) as (v & E & V); [rewrite lenN_app, key_len; lia|assumption|].
  exists v. split; [exact E|]. rewrite V. replace (takeN 4 (sim_key ts ++ behind)) with (sim_key ts).
  - split; [intros [_ H]; auto|intros H; split; [reflexivity|auto]].
  - unfold sim_key. rewrite seed_eq. reflexivity.
Qed.

Theorem unlock_over : forall ts rest, sim_unlock (sim_key ts) [] (sim_key ts ++ rest) = UB OobBuffer.
Proof.
  intros. unfold sim_unlock, sim_key. rewrite seed_eq. rewrite app_nil_r. unfold mem_cmp. change (4 =? 0) with false. cbv iota.
  cbn [app cmp_loop]. rewrite !N.eqb_refl. reflexivity.
Qed.

(** Different seeds have different keys. *)
Lemma lxor_mod : forall a b n, N.lxor a b mod 2 ^ n = N.lxor (a mod 2 ^ n) (b mod 2 ^ n).
Proof.
  intros. rewrite <- !N.land_ones. apply N.bits_inj. intros k. rewrite N.land_spec, !N.lxor_spec, !N.land_spec. destruct (N.testbit (N.ones n) k); rewrite ?andb_true_r, ?andb_false_r; reflexivity.
Qed.
Lemma lxor_cancel : forall a b c, N.lxor a c = N.lxor b c -> a = b.
Proof. intros a b c H. rewrite <- (N.lxor_0_r a), <- (N.lxor_0_r b), <- (N.lxor_nilpotent c), <- !N.lxor_assoc, H. reflexivity. Qed.
Lemma lxor_byte : forall a b, a < 256 -> b < 256 -> N.lxor a b mod 256 = N.lxor a b.
Proof. intros. change 256 with (2 ^ 8) in *. rewrite lxor_mod, !N.mod_small by assumption. reflexivity. Qed.
Lemma lxor_lt : forall a b, a < 256 -> b < 256 -> N.lxor a b < 256.
Proof. intros. rewrite <- lxor_byte by assumption. apply N.mod_lt. discriminate. Qed.
Theorem key_inj : forall a b, sim_key a = sim_key b -> sim_seed a = sim_seed b.
Proof.
  intros a b. unfold sim_key. rewrite !seed_eq. cbv zeta.
  assert (A0 : a mod 256 < 256) by lia. assert (A1 : a / 256 mod 256 < 256) by lia.
  assert (B0 : b mod 256 < 256) by lia. assert (B1 : b / 256 mod 256 < 256) by lia.
  revert A0 A1 B0 B1. generalize (a mod 256) (a / 256 mod 256) (b mod 256) (b / 256 mod 256). clear a b. intros x y u v X Y U V.
  rewrite !N.add_0_l, !N.lxor_0_l. assert (K : 0xBC < 256) by reflexivity.
  pose proof (lxor_lt x 0xBC X K) as P. pose proof (lxor_lt u 0xBC U K) as Q.
  rewrite (lxor_byte x 0xBC), (lxor_byte u 0xBC) by assumption. rewrite (N.mod_small (N.lxor x 0xBC)), (N.mod_small (N.lxor u 0xBC)) by assumption.
  intros H. assert (H0 := f_equal (fun l => nth 0 l 0) H). assert (H2 := f_equal (fun l => nth 2 l 0) H). cbv beta iota delta [nth] in H0, H2.
  apply lxor_cancel in H0. subst u. rewrite !lxor_byte in H2 by assumption. apply lxor_cancel in H2. subst v. reflexivity.
Qed.

(** The key in terms of the clock. *)
Theorem key_closed : forall ts, let a := ts mod 256 in let b := ts / 256 mod 256 in let k := N.lxor a 0xBC in
  sim_key ts = [k; k; N.lxor k b; N.lxor (N.lxor k b) a].
Proof.
  intros ts a b k. unfold sim_key. rewrite seed_eq. cbv zeta. fold a b. assert (A : a < 256) by (unfold a; lia). assert (B : b < 256) by (unfold b; lia).
  rewrite N.add_0_l. assert (K : k < 256) by (apply lxor_lt; [exact A|reflexivity]). fold k. rewrite (N.mod_small k) by exact K. rewrite N.lxor_0_l, (N.mod_small k) by exact K.
  rewrite (lxor_byte b k B K). pose proof (lxor_lt b k B K) as Q. rewrite (lxor_byte a _ A Q). rewrite (N.lxor_comm b k), (N.lxor_comm a). reflexivity.
Qed.
