(** Every handler preserves the basic invariant (ranges). *)
From Coq Require Import NArith ZArith List Bool Lia ZifyBool ZifyNat ZifyN.
From Verif Require Import Base Config Codec Checksum State Queue Daq Core Spec Lists Effects Handlers HTx HInv.
Import ListNotations.
Open Scope N_scope.

Lemma binv_conj : forall c s,
  lenN (s_in s) = c_ctobuf c /\ bytes (s_in s) /\ lenN (s_out s) = c_max_cto c /\ bytes (s_out s) /\
  s_prot s < 256 /\ s_seed s < 256 /\ s_mext s < 256 /\ s_maddr s < aspace c /\ s_srem s < 256 /\ s_mrem s < 256 /\
  s_held s = [] /\ (forall x, s_mem s x < 256) /\ s_ctr s < 2 ^ 16 /\ s_cros s < 2 ^ 32 -> binv c s.
Proof. intros. constructor; tauto. Qed.

Lemma dp_prot_lt : forall c s, s_prot s < 256 -> s_prot (default_prot c s) < 256.
Proof.
  intros. unfold default_prot. destruct (c_protect c); auto. cbn. unfold default_prot_bits.
  destruct (c_prot_cal c), (c_prot_daq c), (c_prot_stim c), (c_prot_pgm c); exact eq_refl.
Qed.
Lemma dp_seed_lt : forall c s, s_seed s < 256 -> s_seed (default_prot c s) < 256.
Proof. intros. unfold default_prot. destruct (c_protect c); auto. exact eq_refl. Qed.
Lemma bump_ctr_lt : forall c x, x < 2 ^ 16 -> (if c_ctr_size c =? 0 then x else u16 (x + 1)) < 2 ^ 16.
Proof. intros. destruct (_ =? _); auto. unfold u16. change (2 ^ 16) with 65536. lia. Qed.
Lemma bump_cros_lt : forall c x, x < 2 ^ 32 -> (if c_stats c then u32 (x + 1) else x) < 2 ^ 32.
Proof. intros. destruct (c_stats c); auto. unfold u32. change (2 ^ 32) with 4294967296. lia. Qed.
Lemma aspace_pos : forall c, 0 < aspace c.
Proof. intros. unfold aspace. pose proof (N.pow_nonzero 2 (c_ptr_bits c)). lia. Qed.
Lemma mod_aspace_lt : forall c x, x mod aspace c < aspace c.
Proof. intros. apply N.mod_lt. pose proof (aspace_pos c). lia. Qed.
Lemma aspace_32 : forall c, wf_cfg c -> 2 ^ 32 <= aspace c.
Proof. intros. unfold aspace. destruct (wf_ptr c H) as [-> | ->]; apply N.pow_le_mono_r; lia. Qed.

Ltac b_side :=
  first [ assumption | congruence | lia
    | apply bump_ctr_lt; b_side | apply bump_cros_lt; b_side | apply dp_prot_lt; ss; b_side | apply dp_seed_lt; ss; b_side
    | apply mod_aspace_lt | apply gb_lt; assumption | apply lor_lt8; b_side | apply u8_lt
    | intro; apply mwrite_bytes; [assumption | bytes_tac; try lia]
    | match goal with |- N.ldiff ?a _ < 256 => apply (N.le_lt_trans _ a); [apply ldiff_le|b_side] end
    | idtac ].

Lemma binv_entries : forall c e, wf_cfg c -> wf_env c e ->
  entries c (fun k h => forall s s' o, binv c s -> h e s = Ok (s', o) -> binv c s').
Proof.
  intros c e W1 W2. pose proof (wf_cto c W1) as Wc. pose proof (wf_ctr c W1) as Wr. pose proof (aspace_pos c) as Wa.
  pose proof (aspace_32 c W1) as Wb.
  apply table_each; intros; open_binv; crush_o; split_st; norm_hyps; use_bytes; apply binv_conj; ss.
  all: repeat match goal with |- _ /\ _ => split end; b_side.
  - destruct (_ =? 0); [injection Heqo0 as E; pose proof (wf_id0 c W1) as F; rewrite E in F; apply F|].
    destruct (_ =? 1); [injection Heqo0 as E; pose proof (wf_id1 c W1) as F; rewrite E in F; apply F|].
    destruct (c_idhook c); [|discriminate]. apply (wfe_id c e W2 _ _ _ Heqo0).
  - pose proof (gd_lt c (s_in s) 4 b_inb). lia.
  - pose proof (gb_lt (s_in s) 1 b_inb). lia.
  - pose proof (gb_lt (s_in s) 1 b_inb). lia.
  - pose proof (gb_lt (s_in s) 1 b_inb). lia.
  - pose proof (gb_lt (s_in s) 1 b_inb). lia.
  - pose proof (gb_lt (s_in s) 1 b_inb). lia.
  - destruct (c_host_be c); [apply Forall_rev|]; apply bytes_le32.
  - match goal with H : getN (c_events c) _ = Some _ |- _ => apply getN_In in H;
      pose proof (proj1 (Forall_forall _ _) (wf_evs c W1) _ H) as F; cbn in F; tauto end.
Qed.
