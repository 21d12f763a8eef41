(** Tools for the concrete cases shown beside the theorems: the sample
    configurations are well formed, and runs can be computed. *)
From Coq Require Import NArith List Bool Lia.
From Verif Require Import Base Config Codec Checksum State Queue Daq Core Spec.
Import ListNotations.
Open Scope N_scope.

(** Memory with recognisable contents. *)
Definition mem0 : mem := fun a => a mod 256.
Lemma wf_mem0 : wf_mem mem0.
Proof. intro a. unfold mem0. apply N.mod_lt. discriminate. Qed.

Lemma bytes_b : forall l, forallb (fun b => b <? 256) l = true -> Forall (fun b => b < 256) l.
Proof. intros l H. apply Forall_forall. intros x Hx. apply N.ltb_lt. now apply (proj1 (forallb_forall _ l) H). Qed.

(** An operation with decidable well-formedness. *)
Definition wf_opb (c : cfg) (o : op) : bool :=
  match o with
  | ORecv f => forallb (fun b => b <? 256) f
  | OEvent code info | OService code info => (code <? 256) && forallb (fun b => b <? 256) info
  | OAppWrite a bs => forallb (fun b => b <? 256) bs
  | OSetMta ext addr => (ext <? 256) && (addr <? aspace c)
  | OTrigger ev => ev <? 256
  | _ => true
  end.
Lemma wf_op_b : forall c e o, wf_env c e -> wf_opb c o = true -> wf_op c (e, o).
Proof.
  intros c e o W H. split; [exact W|]. destruct o; cbn [wf_opb snd] in *; try exact I; try (apply bytes_b; exact H);
    try (apply N.ltb_lt; exact H); apply andb_true_iff in H; destruct H as (H1 & H2);
    split; first [apply N.ltb_lt; assumption | apply bytes_b; assumption].
Qed.
Lemma wf_run_b : forall c e l, wf_env c e -> forallb (fun o => wf_opb c o) l = true -> wf_run c (map (pair e) l).
Proof.
  intros c e l W H. apply Forall_forall. intros x Hx. apply in_map_iff in Hx. destruct Hx as (o & <- & Ho).
  apply wf_op_b; auto. now apply (proj1 (forallb_forall _ l) H).
Qed.

(** Run of a list of operations under one environment from power-on. *)
Definition demo (c : cfg) (e : env) (l : list op) : res := s <- boot c mem0 ;; run c (map (pair e) l) s.
Lemma demo_reach : forall c e l s o, wf_cfg c -> wf_env c e -> forallb (fun o => wf_opb c o) l = true ->
  demo c e l = Ok (s, o) -> reachable c mem0 (map (pair e) l) s o.
Proof.
  intros c e l s o W We Hl H. split; [exact W|]. split; [exact wf_mem0|]. split; [now apply wf_run_b|].
  unfold demo, bind in H. destruct (boot c mem0) as [s0|] eqn:B; [|discriminate]. exists s0. auto.
Qed.

Lemma wf_envs : forall c, wf_cfg c -> wf_env c env_yes /\ wf_env c env_no.
Proof.
  intros c W.
  assert (H : 2 ^ 32 <= aspace c) by (unfold aspace; destruct (wf_ptr c W) as [-> | ->]; discriminate).
  assert (U : forall a, u32 a < aspace c)
    by (intro a; unfold u32; apply (N.lt_le_trans _ (2 ^ 32)); [apply N.mod_lt; discriminate|exact H]).
  assert (S : forall r, lenN [u8 r; 0x11; 0x22; 0x33] < 256 /\ Forall (fun b => b < 256) [u8 r; 0x11; 0x22; 0x33]).
  { intro r. split; [exact eq_refl|]. repeat constructor. apply N.mod_lt. discriminate. }
  split; constructor; cbn [e_seed e_map e_timer e_getid env_yes env_no]; auto; try exact eq_refl; try discriminate.
  intros t a l E. destruct (t =? 4); [|discriminate]. injection E as <- <-.
  split; [apply (N.lt_le_trans _ (2 ^ 32)); [exact eq_refl|exact H]|exact eq_refl].
Qed.
Lemma wf_yes : forall c, wf_cfg c -> wf_env c env_yes. Proof. intros. now apply wf_envs. Qed.
Lemma wf_no : forall c, wf_cfg c -> wf_env c env_no. Proof. intros. now apply wf_envs. Qed.

Ltac wf_cfg_tac := constructor; first [ exact eq_refl | intros; discriminate | intros _; split; discriminate
  | split; first [exact eq_refl | discriminate] | left; exact eq_refl | right; left; exact eq_refl | right; right; exact eq_refl
  | intros; split; (exact eq_refl || discriminate)
  | repeat constructor | idtac ].

Lemma wf_eth : wf_cfg cfg_eth. Proof. wf_cfg_tac. Qed.
Lemma wf_can : wf_cfg cfg_can. Proof. wf_cfg_tac. Qed.

(** State and frames at the end of such a run. *)
Definition demo_st (c : cfg) (e : env) (l : list op) : st :=
  match demo c e l with Ok (s, _) => s | UB _ => power_on c mem0 end.
Definition demo_out (c : cfg) (e : env) (l : list op) : list pkt :=
  match demo c e l with Ok (_, o) => o | UB _ => [] end.
Definition demo_ok (c : cfg) (e : env) (l : list op) : bool :=
  forallb (fun o => wf_opb c o) l && match demo c e l with Ok _ => true | UB _ => false end.
Lemma demo_at : forall c e l, wf_cfg c -> wf_env c e -> demo_ok c e l = true ->
  reachable c mem0 (map (pair e) l) (demo_st c e l) (demo_out c e l).
Proof.
  intros c e l W We H. apply andb_true_iff in H. destruct H as (H1 & H2). apply demo_reach; auto.
  unfold demo_st, demo_out. destruct (demo c e l) as [(s & o)|]; [reflexivity|discriminate].
Qed.
Lemma eth_at : forall l, demo_ok cfg_eth env_yes l = true ->
  reachable cfg_eth mem0 (map (pair env_yes) l) (demo_st cfg_eth env_yes l) (demo_out cfg_eth env_yes l).
Proof. intros. apply demo_at; auto using wf_eth, wf_yes. Qed.
Lemma can_at : forall l, demo_ok cfg_can env_yes l = true ->
  reachable cfg_can mem0 (map (pair env_yes) l) (demo_st cfg_can env_yes l) (demo_out cfg_can env_yes l).
Proof. intros. apply demo_at; auto using wf_can, wf_yes. Qed.

(** Computes the left part of a conjunction. *)
Ltac fact := match goal with |- _ /\ _ => split; [vm_compute; repeat split; congruence || reflexivity|] end.
Ltac facts := repeat fact.
