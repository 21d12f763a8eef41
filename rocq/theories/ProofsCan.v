From Coq Require Import NArith ZArith List Bool Lia ZifyBool ZifyNat ZifyN.
From Verif Require Import Base Config State Core Spec Lists ProofsFrames Can.
Import ListNotations.
Open Scope N_scope.

Definition ident_ok (f : canframe) : Prop := n_ident f < (if n_ext f then 2 ^ 29 else 2 ^ 11).

Lemma ext_std : forall i, i < 2 ^ 31 -> is_extended i = false.
Proof.
  intros i H. unfold is_extended. change 0x80000000 with (2 ^ 31).
  assert (E : N.land i (2 ^ 31) = 0). { apply N.bits_inj_0. intros n. rewrite N.land_spec, N.pow2_bits_eqb. destruct (N.eqb_spec 31 n) as [<-|]; [|apply andb_false_r].
    rewrite andb_true_r. destruct (N.eq_dec i 0) as [->|NZ]; [reflexivity|]. apply N.bits_above_log2. apply N.log2_lt_pow2; lia. }
  rewrite E. reflexivity.
Qed.
Lemma ext_ext : forall i, i < 2 ^ 31 -> is_extended (N.lor 0x80000000 i) = true /\ N.land (N.lor 0x80000000 i) 0x80000000 = 0x80000000.
Proof.
  intros i H. assert (E : N.land (N.lor 0x80000000 i) 0x80000000 = 0x80000000).
  { apply N.bits_inj. intros n. rewrite N.land_spec, N.lor_spec. destruct (N.testbit 0x80000000 n); [reflexivity|apply andb_false_r]. }
  unfold is_extended. rewrite E. split; reflexivity.
Qed.

Lemma land_7ff : forall x, N.land x 0x7FF = x mod 2 ^ 11.
Proof. intros. change 0x7FF with (N.ones 11). apply N.land_ones. Qed.

Lemma id_low : forall f, can_id f mod 2 ^ 11 = n_ident f mod 2 ^ 11.
Proof.
  intros f. rewrite <- !N.land_ones. unfold can_id. rewrite !N.land_lor_distr_l. destruct (n_ext f), (n_rtr f); reflexivity.
Qed.

(** Standard identifiers: the flags do not matter. *)
Theorem std_exact : forall a b f, a < 2 ^ 11 -> b < 2 ^ 11 -> accepted a b f = (n_ident f mod 2 ^ 11 =? a) || (n_ident f mod 2 ^ 11 =? b).
Proof.
  intros a b f A B. unfold accepted, filter_matches, can_mask. assert (2 ^ 11 < 2 ^ 31) by reflexivity. rewrite !ext_std by lia. rewrite !land_7ff, id_low. rewrite (N.mod_small a), (N.mod_small b) by lia. reflexivity.
Qed.

Theorem ext_all : forall a b f, a < 2 ^ 29 -> n_ext f = true -> accepted (N.lor 0x80000000 a) b f = true /\ accepted b (N.lor 0x80000000 a) f = true.
Proof.
  intros a b f A E. assert (2 ^ 29 < 2 ^ 31) by reflexivity. destruct (ext_ext a ltac:(lia)) as [E1 E2].
  assert (M : filter_matches (N.lor 0x80000000 a) f = true).
  { unfold filter_matches, can_mask. rewrite E1, E2. unfold can_id. rewrite E. apply N.eqb_eq. apply N.bits_inj. intros n. rewrite N.land_spec, N.lor_spec. destruct (N.testbit 0x80000000 n); [reflexivity|apply andb_false_r]. }
  unfold accepted. rewrite M. split; [reflexivity|apply orb_true_r].
Qed.

Theorem own_accepted : forall a b d, (a < 2 ^ 11 -> accepted a b (mkCan false false a d) = true /\ accepted b a (mkCan false false a d) = true) /\
  (a < 2 ^ 29 -> accepted (N.lor 0x80000000 a) b (mkCan true false a d) = true /\ accepted b (N.lor 0x80000000 a) (mkCan true false a d) = true).
Proof.
  intros a b d. split; intros A.
  - assert (M : filter_matches a (mkCan false false a d) = true).
    { unfold filter_matches, can_mask. assert (2 ^ 11 < 2 ^ 31) by reflexivity. rewrite ext_std by lia. unfold can_id. cbn [n_ext n_rtr n_ident N.lor]. apply N.eqb_refl. }
    unfold accepted. rewrite M. split; [reflexivity|apply orb_true_r].
  - apply ext_all; [exact A|reflexivity].
Qed.

(** ** Buffers *)
Theorem rx_same : forall c e f s, lenN (n_data f) <= c_ctobuf c -> can_receive c e f s = step c e (ORecv (n_data f)) s.
Proof.
  intros c e f s L. cbn [step]. unfold can_receive, receive. replace (c_ctobuf c <? lenN (n_data f)) with false by lia. reflexivity.
Qed.

Theorem rx_overflow : forall c e f s, c_ctobuf c < lenN (n_data f) -> can_receive c e f s = UB OobBuffer.
Proof.
  intros c e f s L. unfold can_receive. replace (lenN (n_data f) =? 0) with false by lia. replace (c_ctobuf c <? lenN (n_data f)) with true by lia. reflexivity.
Qed.

Theorem tx_fits : forall c m l s o p (fd : bool), reachable c m l s o -> In p o -> c_len_size c = 0 -> c_ctr_size c = 0 ->
  (let room := if fd then 64 else 8 in c_max_cto c <= room -> c_max_dto c <= room ->
   exists pad, can_tx fd (wire p) = Ok (p_data p ++ pad) /\ lenN (p_data p ++ pad) = room).
Proof.
  intros c m l s o p fd R I L0 C0 room M1 M2. destruct (frames_thm c m l s o p R I) as [[n [F1 [F2 _]]] _].
  rewrite L0, C0 in F2. cbn [N.to_nat] in F2. change (le_bytes 0 (lenN (p_data p)) ++ le_bytes 0 n) with (@nil N) in F2.
  unfold can_tx. fold room. unfold wire. rewrite F2. cbn [app]. assert (LE : lenN (p_data p) <= room) by (destruct (p_dto p); lia).
  replace (room <? lenN (p_data p)) with false by lia. eexists. split; [reflexivity|]. rewrite lenN_app, lenN_repeat. lia.
Qed.

Theorem tx_overflow : forall (fd : bool) buf, (if fd then 64 else 8) < lenN buf -> can_tx fd buf = UB OobBuffer.
Proof. intros fd buf H. unfold can_tx. replace ((if fd then 64 else 8) <? lenN buf) with true by (destruct fd; lia). reflexivity. Qed.

Theorem std_others : forall a b h d, a < 2 ^ 11 -> b < 2 ^ 11 -> h < 2 ^ 18 ->
  accepted a b (mkCan true false (h * 2 ^ 11 + a) d) = true /\ accepted a b (mkCan false true a d) = true.
Proof.
  intros a b h d A B H. rewrite !std_exact by assumption. cbn [n_ident]. rewrite N.add_comm, N.mod_add, N.mod_small by (try discriminate; assumption). rewrite N.eqb_refl. split; reflexivity.
Qed.
