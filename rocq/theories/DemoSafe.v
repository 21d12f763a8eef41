(** Tools for the concrete cases of C86. *)
From Coq Require Import NArith List Bool Lia.
From Verif Require Import Base Config Cfgs Codec State Core Spec Demo SpecMem SpecDaq DemoDaq SpecInfo SpecSafe Lists ProofsSafe ProofsSafe2.
Import ListNotations.
Open Scope N_scope.

(** Does reception of the frame end normally? *)
Definition ends (c : cfg) (e : env) (s : st) (f : list N) : bool := match step c e (ORecv f) s with Ok _ => true | UB _ => false end.

(** The configuration of the DAQ cases with all commands. *)
Definition cfg_all : cfg := w_mbm true (w_opt (optset (0xEF :: 0xC7 :: all_optional)) cfg_daq).
Lemma wf_all : wf_cfg cfg_all. Proof. wf_cfg_tac. Qed.
Lemma all_at : forall l, demo_ok cfg_all env_yes l = true ->
  reachable cfg_all mem0 (map (pair env_yes) l) (demo_st cfg_all env_yes l) (demo_out cfg_all env_yes l).
Proof. intros. apply demo_at; auto using wf_all, wf_yes. Qed.

Definition ex_safe : list op :=
  [ORecv [0xFF; 0]; ORecv [0xD6]; ORecv [0xD5; 0; 1; 0]; ORecv [0xD4; 0; 0; 0; 1]; ORecv [0xD3; 0; 0; 0; 0; 1];
   ORecv [0xE2; 0; 0; 0; 0; 0]; ORecv [0xE1; 0xFF; 4; 0; 0; 0x10; 0; 0]; ORecv [0xE0; 0x10; 0; 0; 0; 0; 1; 0]; ORecv [0xDE; 2; 0; 0]; ORecv [0xDD; 1];
   ORecv [0xF6; 0; 0; 0; 0; 0x20; 0; 0]; ORecv [0xF5; 4]; ORecv [0xF0; 1; 9]; OTrigger 0; OMain].

Local Ltac next := eapply abides_demo; [vm_compute; reflexivity| |cbn [List.app]].
Local Ltac frame := split; [vm_compute; discriminate|intros _].
Local Ltac easy_code := frame; vm_compute; discriminate.
Local Ltac tables := frame; repeat (intros _); eexists; split; [apply daq_rep; [vm_compute; reflexivity|vm_compute; reflexivity]|].
Lemma safe_abides : abides cfg_daq (map (pair env_yes) ex_safe) (demo_st cfg_daq env_yes []).
Proof.
  unfold ex_safe.
  next; [easy_code|]. next; [easy_code|].
  next; [tables; exact I|]. next; [tables; vm_compute; reflexivity|]. next; [tables; vm_compute; discriminate|].
  next; [tables; exact I|]. next; [tables; intros _; vm_compute; discriminate|].
  next; [frame; intros _ _ _ _ _ _; vm_compute; reflexivity|].
  next; [tables; exact I|]. next; [easy_code|]. next; [easy_code|].
  next; [frame; intros _ _ _ _; split; vm_compute; discriminate|].
  next; [frame; intros _ _ _ _; split; [vm_compute; discriminate|split; [vm_compute; discriminate|split; [vm_compute; discriminate|vm_compute; reflexivity]]]|].
  next.
  { intros _. eexists. split; [apply daq_rep; [vm_compute; reflexivity|vm_compute; reflexivity]|]. intros l os A G.
    vm_compute in A. injection A as <-. vm_compute in G. injection G as <-. split; [|right; vm_compute; reflexivity].
    intros i es H. pose proof (getN_Some_lt _ _ _ _ H) as Lt. change (i < 1) in Lt. assert (i = 0) by lia. subst i.
    vm_compute in H. injection H as <-. split; [repeat constructor; vm_compute; discriminate|vm_compute; discriminate]. }
  next; [split; [intros H; vm_compute in H; discriminate H|intros _ _; vm_compute; exact I]|]. exact I.
Qed.
