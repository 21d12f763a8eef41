(** The slave refines a reference slave (C119). *)
From Coq Require Import NArith List Bool.
From Verif Require Import Base Config State Core Spec SpecProt SpecMem SpecDaq SpecE2e Demo SpecRef ProofsWrite ProofsRef ProofsRef2 CasesRef.
Import ListNotations.
Open Scope N_scope.

(** ** C119 The slave behaves like the reference slave *)

(** Whatever a master requests for which the reference of SpecRef.v defines the
    replies, the slave sends exactly these replies, in this order, and nothing
    else: for all configurations, hooks, contents of memory, and lists of requests. *)
Theorem C119_refines : forall c m s0 l rs a, wf_cfg c -> wf_mem m -> dlc_ok c -> c_max_ent c < 65536 -> stamp_ok c -> boot c m = Ok s0 ->
  ref_run c (power_up c m) l rs a ->
  exists s o, reachable c m (operations c l) s o /\ Forall2 (shows c) rs o /\ related c a s.
Proof. exact refines_thm. Qed.
Print Assumptions C119_refines.

(** The same from any state that is related to one of the reference. *)
Theorem C119_continues : forall c m, dlc_ok c -> c_max_ent c < 65536 -> stamp_ok c -> forall l a rs a', ref_run c a l rs a' ->
  forall l0 s o0, reachable c m l0 s o0 -> related c a s ->
  exists s' o, run c (operations c l) s = Ok (s', o) /\ reachable c m (l0 ++ operations c l) s' (o0 ++ o) /\ Forall2 (shows c) rs o /\ related c a' s'.
Proof. exact run_thm. Qed.
Print Assumptions C119_continues.

(** Whatever happened before, a DISCONNECT makes the two agree again: the slave
    need not have behaved like the reference until then. *)
Theorem C119_resync : forall c m l s o e, reachable c m l s o -> dlc_ok c -> c_max_ent c < 65536 -> wf_env c e -> ready s -> ~ programming s -> s_sact s = false -> no_job s ->
  exists s' o', step c e (ORecv [0xFE]) s = Ok (s', o') /\ sends o' (padded c [0xFF]) /\
    related c (mkRef false false (Some (s_mext s, s_maddr s)) (s_mem s) (default_status c) 0 no_meas) s'.
Proof. exact resync_thm. Qed.
Print Assumptions C119_resync.

(** The reference leaves nothing open: requests determine replies and state. *)
Theorem C119_deterministic : forall c l a r1 a1, ref_run c a l r1 a1 -> forall r2 a2, ref_run c a l r2 a2 -> r1 = r2 /\ a1 = a2.
Proof. exact run_det. Qed.
Print Assumptions C119_deterministic.

(** A session of 40 requests with protection, download and upload, a change of two
    bits, a checksum, a packet of the application, a measurement and wrong requests,
    and a second connection. *)
Example C119_case : exists s o, reachable cfg_eth mem0 (operations cfg_eth ex_session) s o /\ Forall2 (shows cfg_eth) ex_replies o /\ s_conn s = true.
Proof.
  destruct session_run as (a & rs & H & -> & On). destruct eth_boots as (s0 & B).
  destruct (C119_refines cfg_eth mem0 s0 ex_session ex_replies a wf_eth wf_mem0 ltac:(discriminate) eq_refl ltac:(discriminate) B H) as (s & o & R & F & V).
  exists s, o. split; [exact R|]. split; [exact F|]. exact (v_on _ _ _ V On).
Qed.

(** CAN: its transport layer's commands, a service request. *)
Example C119_can_case : exists s o, reachable cfg_bus mem0 (operations cfg_bus ex_can) s o /\
  Forall2 (shows cfg_bus) ex_can_replies o.
Proof.
  destruct can_run as (a & rs & H & ->). destruct bus_boots as (s0 & B).
  destruct (C119_refines cfg_bus mem0 s0 ex_can _ a wf_bus wf_mem0 ltac:(discriminate) eq_refl ltac:(discriminate) B H) as (s & o & R & F & V).
  exists s, o. split; [exact R|exact F].
Qed.

(** A session that the reference does not describe, disconnected, then two requests. *)
Example C119_resync_case : exists s1 o1 s o, step cfg_eth env_yes (ORecv [0xFE]) strange = Ok (s1, o1) /\ run cfg_eth (operations cfg_eth ex_next) s1 = Ok (s, o) /\
  Forall2 (shows cfg_eth) [Response [0xFF; 0x15; 0x80; 64; 64; 0; 1; 1]; Response [0xFF; 0; 29; 0; 0; 0]] o.
Proof.
  assert (R : reachable cfg_eth mem0 (map (pair env_yes) ex_strange) strange (demo_out cfg_eth env_yes ex_strange)) by (apply eth_at; vm_compute; reflexivity).
  destruct (C119_resync cfg_eth mem0 _ _ _ env_yes R ltac:(discriminate) eq_refl (wf_yes _ wf_eth)) as (s1 & o1 & E & Se & V).
  { split; vm_compute; reflexivity. }
  { unfold programming. vm_compute. discriminate. }
  { vm_compute. reflexivity. }
  { vm_compute. reflexivity. }
  destruct (next_run (s_mem strange) (s_mext strange, s_maddr strange)) as (a & H).
  assert (R1 : reachable cfg_eth mem0 (map (pair env_yes) ex_strange ++ [(env_yes, ORecv [0xFE])]) s1 (demo_out cfg_eth env_yes ex_strange ++ o1))
    by (eapply reach_step; [exact R|split; [exact (wf_yes _ wf_eth)|repeat constructor]|exact E]).
  destruct (C119_continues cfg_eth mem0 ltac:(discriminate) eq_refl ltac:(discriminate) _ _ _ _ H _ _ _ R1 V) as (s & o & E2 & _ & F & _).
  exists s1, o1, s, o. auto.
Qed.
