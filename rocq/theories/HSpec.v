(** Effects of the handlers on protection, programming and DAQ state. *)
From Coq Require Import NArith ZArith List Bool Lia ZifyBool ZifyNat ZifyN.
From Verif Require Import Base Config Codec Checksum State Queue Daq Core Spec Lists Effects Handlers HTx HInv DaqInv.
Import ListNotations.
Open Scope N_scope.

Definition relocked (c : cfg) (s s' : st) : Prop :=
  if c_protect c then s_prot s' = default_prot_bits c /\ s_seed s' = 0
  else s_prot s' = s_prot s /\ s_seed s' = s_seed s.

Lemma dp_relocked : forall c s, relocked c s (default_prot c s).
Proof. intros. unfold relocked, default_prot. destruct (c_protect c); cbn; auto. Qed.

Lemma prot_entries : forall c e, wf_cfg c -> entries c (fun k h => forall s s' o, h e s = Ok (s', o) ->
  (s_prot s' = s_prot s /\ s_seed s' = s_seed s) \/
  (k = 0xF8 /\ s_prot s' = s_prot s /\ s_seed s' = N.lor (s_seed s) (gb (s_in s) 2)) \/
  (k = 0xF7 /\ s_seed s <> 0 /\ e_unlock e (s_seed s) (gb (s_in s) 1) (dropN 2 (s_in s)) = true /\
     s_prot s' = N.ldiff (s_prot s) (s_seed s) /\ s_seed s' = 0) \/
  ((k = 0xFE \/ k = 0xF7 /\ e_unlock e (s_seed s) (gb (s_in s) 1) (dropN 2 (s_in s)) = false) /\ c_protect c = true /\
     s_prot s' = default_prot_bits c /\ s_seed s' = 0)).
Proof.
  intros c e W. apply table_each; intros; crush_o; split_st; ss.
  all: try (left; split; first [reflexivity | splitif; reflexivity]).
  all: try (destruct (c_protect c) eqn:?; [do 3 right; repeat split; auto | left; split; reflexivity]).
  all: try (right; left; repeat split; reflexivity).
  all: try (do 2 right; left; repeat split; auto; lia).
  all: assert (Hp : c_protect c = true) by (unfold c_protect; rewrite (wf_prot c W), H; reflexivity);
    rewrite Hp; do 3 right; repeat split; auto.
Qed.

(** DAQ processor functions and the running flag. *)
Lemma daq_init_run : forall c d d', daq_init c d = Ok d' ->
  d_run d' = false /\ d_ecnt d' = 0 /\ d_lcnt d' = 0 /\ d_ocnt d' = 0 /\ d_alloc d' = AFree.
Proof. unfold daq_init. intros. invs. cbn. auto. Qed.

Lemma seq_run : forall c d d' r, seq_error c d = Ok (d', r) -> d_run d' = d_run d \/ d_run d' = false.
Proof. unfold seq_error. intros. invs; auto. right. match goal with H : daq_init _ _ = _ |- _ => apply daq_init_run in H; tauto end. Qed.
Lemma alloc_run : forall c n d d' r, daq_alloc c n d = Ok (d', r) -> d_run d' = d_run d \/ d_run d' = false.
Proof. unfold daq_alloc. intros. invs; cbn; auto. eapply seq_run; eauto. Qed.
Lemma alloc_odt_run : forall c l n d d' r, daq_alloc_odt c l n d = Ok (d', r) -> d_run d' = d_run d \/ d_run d' = false.
Proof. unfold daq_alloc_odt. intros. invs; cbn; auto. eapply seq_run; eauto. Qed.
Lemma alloc_entry_run : forall c l o n d d' r, daq_alloc_entry c l o n d = Ok (d', r) -> d_run d' = d_run d \/ d_run d' = false.
Proof. unfold daq_alloc_entry. intros. invs; cbn; auto. eapply seq_run; eauto. Qed.
Lemma write_run : forall c a b d d', write_daq_entry c a b d = Ok d' -> d_run d' = d_run d.
Proof. unfold write_daq_entry. intros. invs. reflexivity. Qed.
Lemma multiple_run : forall c buf n i d d', write_multiple c buf n i d = Ok d' -> d_run d' = d_run d.
Proof. induction n; cbn; intros; invs; auto. match goal with H : write_multiple _ _ _ _ _ = _ |- _ => apply IHn in H; rewrite H end. eapply write_run; eauto. Qed.
Lemma event_run : forall l ev d d', add_event l ev d = Ok d' -> d_run d' = d_run d.
Proof. unfold add_event. intros. invs. reflexivity. Qed.

Ltac leaf_d :=
  match goal with
  | H : daq_init _ _ = Ok _ |- _ => apply daq_init_run in H; destruct H as (? & ? & ? & ? & ?)
  | H : daq_alloc _ _ _ = Ok _ |- _ => apply alloc_run in H
  | H : daq_alloc_odt _ _ _ _ = Ok _ |- _ => apply alloc_odt_run in H
  | H : daq_alloc_entry _ _ _ _ _ = Ok _ |- _ => apply alloc_entry_run in H
  | H : write_daq_entry _ _ _ _ = Ok _ |- _ => apply write_run in H
  | H : write_multiple _ _ _ _ _ = Ok _ |- _ => apply multiple_run in H
  | H : add_event _ _ _ = Ok _ |- _ => apply event_run in H
  end.

(** Programming mode and the running flag. *)
Definition pgm_on (s : st) : bool := match s_pgm s with PgmActive => true | _ => false end.

Lemma pgm_entries : forall c e, entries c (fun k h => forall s s' o, h e s = Ok (s', o) ->
  ((s_pgm s' = s_pgm s) \/
   (k = 0xD2 /\ c_pgm c = true /\ s_pgm s' = PgmActive /\ is_protected c 16 s = false /\ c_daq c && d_run (s_daq s) = false /\
    d_run (s_daq s') = d_run (s_daq s)) \/
   (k = 0xCF /\ s_pgm s = PgmActive /\ s_pgm s' = PgmIdle)) /\
  (d_run (s_daq s') = d_run (s_daq s) \/ d_run (s_daq s') = false \/
   (k = 0xDD /\ c_daq c = true /\ c_pgm c && pgm_on s = false /\ s_pgm s' = s_pgm s /\ is_protected c 4 s = false))).
Proof.
  intros c e. apply table_each; intros; crush_o; split_st; repeat leaf_d; ss.
  all: split; [first [left; splitif; reflexivity | right; left; repeat split; assumption || reflexivity
                     | do 2 right; repeat split; assumption || reflexivity | idtac ]|].
  all: first [ left; solve [splitif; first [reflexivity|assumption]] | right; left; solve [splitif; first [reflexivity|assumption]]
    | do 2 right; repeat split; assumption || reflexivity | intuition auto | idtac ].
Qed.

(** ** DAQ tables *)

Lemma dinv_start_stop : forall c b d, dinv c d -> dinv c (start_stop b d).
Proof.
  intros c b d I. destruct (start_stop_same b d) as (S & A & B & C & D & E & F & G).
  apply (dinv_same c d); auto. apply G. apply (d_modeb c d I).
Qed.
Lemma dinv_run : forall c b d, dinv c d -> dinv c (set_d_run b d).
Proof. intros c b d I. apply (dinv_same c d); auto. repeat split. apply (d_modeb c d I). Qed.
Lemma dinv_ptr : forall c k o l d, dinv c d -> dinv c (set_d_pent k (set_d_podt o (set_d_plist l d))).
Proof. intros c k o l d I. apply (dinv_same c d); auto. repeat split. apply (d_modeb c d I). Qed.
Lemma gw_mod_lt : forall c l i, bytes l -> gw c l i mod we c < 65536.
Proof.
  intros. pose proof (gw_lt c l i H). pose proof (we_pos c).
  pose proof (N.mod_le (gw c l i) (we c)). lia.
Qed.

Lemma dinv_entries : forall c e, wf_cfg c -> entries c (fun k h => forall s s' o,
  bytes (s_in s) -> dinv c (s_daq s) -> h e s = Ok (s', o) -> dinv c (s_daq s')).
Proof.
  intros c e W. apply table_each; intros; crush_o; split_st; ss.
  all: try assumption.
  all: first [ eapply dinv_init; eassumption | apply dinv_ptr; assumption | eapply dinv_write; eassumption
    | eapply dinv_multiple; eassumption
    | apply dinv_mode; [eapply dinv_event; eassumption | apply apply_mode_lt; eapply d_modeb; eapply dinv_event; eassumption]
    | apply dinv_mode; [assumption | apply lor_lt8; [eapply d_modeb; eassumption|exact eq_refl]]
    | apply dinv_run, dinv_start_stop; assumption | apply dinv_start_stop; assumption
    | apply dinv_free; assumption
    | eapply dinv_alloc; [| |eassumption|eassumption]; auto using gw_mod_lt
    | eapply dinv_alloc_odt; [| |eassumption|eassumption]; auto
    | eapply dinv_alloc_entry; [| |eassumption|eassumption]; auto
    | idtac ].
  all: try (pose proof (gb_lt (s_in s) 4 ltac:(assumption)); pose proof (gb_lt (s_in s) 5 ltac:(assumption)); lia).
  all: destruct (_ =? 2); cbn; try assumption; apply dinv_mode; [assumption | apply lor_lt8; [eapply d_modeb; eassumption|exact eq_refl]].
Qed.

(** A locked DAQ resource: nothing happens to the DAQ configuration, or it is
    reset. *)
Lemma daq_locked_entries : forall c e, entries c (fun k h => forall s s' o,
  is_protected c 4 s = true -> h e s = Ok (s', o) ->
  s_daq s' = s_daq s \/ ((k = 0xFE \/ k = 0xF7) /\ daq_init c (s_daq s) = Ok (s_daq s'))).
Proof.
  intros c e. apply table_each; intros; crush_o; split_st; ss; auto; try congruence.
Qed.

(** While DAQ runs, the pointer and assignment commands change nothing. *)
Lemma daq_frozen_entries : forall c e, entries c (fun k h => forall s s' o,
  c_daq c = true -> d_run (s_daq s) = true -> h e s = Ok (s', o) ->
  s_daq s' = s_daq s \/ In k [0xFE; 0xF7; 0xDE; 0xDD; 0xD6; 0xD5; 0xD4; 0xD3]).
Proof.
  intros c e. apply table_each; intros; try (right; cbn; now auto 10); left; crush_o; split_st; ss; auto; try congruence.
  all: match goal with H : ?b && ?d = false, A : ?b = true, B : ?d = true |- _ => rewrite A, B in H; discriminate end.
Qed.
