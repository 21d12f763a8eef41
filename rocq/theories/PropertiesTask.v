(** The slave refines a reference slave with tasks of several steps (C131). *)
From Coq Require Import NArith List Bool.
From Verif Require Import Base Config State Core Spec SpecProt SpecMem SpecDaq SpecE2e SpecCks Demo SpecRef SpecTask ProofsRef ProofsTask CasesTask.
Import ListNotations.
Open Scope N_scope.

(** ** C131 Blocks and background checksums, as by the reference slave *)

(** The reference of SpecTask.v does all that the one of SpecRef.v does, and knows
    tasks that take several steps.  The slave sends exactly its replies, for all
    configurations, hooks, contents of memory, and lists of requests. *)
Theorem C131_refines : forall c m s0 l rs a t, wf_cfg c -> wf_mem m -> dlc_ok c -> c_max_ent c < 65536 -> stamp_ok c -> boot c m = Ok s0 ->
  task_run c (power_up c m) Free l rs a t ->
  exists s o, reachable c m (toperations c l) s o /\ Forall2 (shows c) rs o /\ trelated c a t s.
Proof. exact task_refines. Qed.
Print Assumptions C131_refines.

(** The same from any state that is related to one of the reference. *)
Theorem C131_continues : forall c m, dlc_ok c -> c_max_ent c < 65536 -> stamp_ok c -> forall l a t rs a' t', task_run c a t l rs a' t' ->
  forall l0 s o0, reachable c m l0 s o0 -> trelated c a t s ->
  exists s' o, run c (toperations c l) s = Ok (s', o) /\ reachable c m (l0 ++ toperations c l) s' (o0 ++ o) /\ Forall2 (shows c) rs o /\ trelated c a' t' s'.
Proof. exact task_run_thm. Qed.
Print Assumptions C131_continues.

(** The reference leaves nothing open. *)
Theorem C131_deterministic : forall c l a t r1 a1 t1, wf_cfg c -> task_run c a t l r1 a1 t1 ->
  forall r2 a2 t2, task_run c a t l r2 a2 t2 -> r1 = r2 /\ a1 = a2 /\ t1 = t2.
Proof. exact task_run_det. Qed.
Print Assumptions C131_deterministic.

(** 25 requests: a download and an upload in three frames each, a checksum in three
    parts while the application changes the last byte, requests that come too early,
    a download that is left. *)
Example C131_case : exists s o, reachable cfg_blocks mem0 (toperations cfg_blocks ex_tasks) s o /\ Forall2 (shows cfg_blocks) ex_task_replies o.
Proof.
  destruct tasks_run as (a & rs & H & ->). destruct blocks_boot as (s0 & B).
  destruct (C131_refines cfg_blocks mem0 s0 ex_tasks _ a Free wf_blocks wf_mem0 ltac:(discriminate) eq_refl ltac:(discriminate) B H) as (s & o & R & F & _).
  exists s, o. split; [exact R|exact F].
Qed.
Example C131_deterministic_case : forall rs a t, task_run cfg_blocks (power_up cfg_blocks mem0) Free ex_tasks rs a t -> rs = ex_task_replies /\ t = Free.
Proof.
  intros rs a t H. destruct tasks_run as (b & r & K & E). destruct (C131_deterministic _ _ _ _ _ _ _ wf_blocks H _ _ _ K) as (-> & _ & ->). auto.
Qed.
