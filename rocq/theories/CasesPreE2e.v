(** Tables for the cases of the end-to-end properties of predefined DAQ lists. *)
From Coq Require Import NArith List Bool Lia.
From Verif Require Import Base Config Cfgs Codec State Core Spec Lists Demo SpecMem SpecDaq DemoDaq SpecE2e Predef SpecPre DemoPre SpecPreE2e.
Import ListNotations.
Open Scope N_scope.

(** One list of five ODTs. *)
Definition big_tables : predef := mkPre [(5, 0)] [(1, 0); (1, 1); (1, 2); (1, 3); (1, 4)].
Definition big_entries : list (N * N) := [(0x1000, 1); (0x1001, 1); (0x1002, 1); (0x1003, 1); (0x1004, 1)].
Definition big_tree : tree := [[[(0x1000, 1)]; [(0x1001, 1)]; [(0x1002, 1)]; [(0x1003, 1)]; [(0x1004, 1)]]].
Lemma big_wf : wf_pre cfg_pre big_tables big_entries.
Proof. constructor; [reflexivity| | |]; repeat constructor. Qed.
Lemma big_describes : describes cfg_pre big_tables big_entries big_tree.
Proof.
  split; [reflexivity|]. split; [reflexivity|]. intros l os G.
  assert (E : l = 0) by (apply getN_Some_lt in G; change (l < 1) in G; lia). subst. vm_compute in G; injection G as <-.
  exists 0. split; [reflexivity|]. intros o xs G.
  assert (E : o = 0 \/ o = 1 \/ o = 2 \/ o = 3 \/ o = 4) by (apply getN_Some_lt in G; change (o < 5) in G; lia).
  repeat (destruct E as [E|E]); subst; vm_compute in G; injection G as <-; (split; [reflexivity|]);
    [exists 0|exists 1|exists 2|exists 3|exists 4]; (split; [reflexivity|]); intros k x G;
    assert (k = 0) by (apply getN_Some_lt in G; change (k < 1) in G; lia); subst; vm_compute in G; injection G as <-; repeat split.
Qed.

(** Time stamps for list 0 only. *)
Definition pre_modes (k : N) : N := if k =? 0 then 0x10 else 0.
Definition pre_asg : list (N * N) := [(1, 0); (2, 1)].
(** What the master expects when event 1 occurs, then event 2. *)
Definition pre_frames : list (list N) := [[0; 4; 3; 2; 1; 0; 1; 2; 3; 0x20; 0x21]; [1; 0x30]; [2; 0x40; 0x41]].
Lemma pre_expected : forall l, s_mem (z_st (sdemo_st cfg_pre pre_tables pre_entries l)) = mem0 ->
  expected_own cfg_pre (s_mem (z_st (sdemo_st cfg_pre pre_tables pre_entries l))) pre_tree pre_modes pre_asg [(env_yes, 1); (env_yes, 2)] pre_frames.
Proof.
  intros l ->. pose proof (wf_yes _ wf_pre_cfg) as We.
  replace pre_frames with (dtos mem0 (stamp cfg_pre (e_timer env_yes)) (odts_before pre_tree 0) [[(0x1000, 4); (0x1020, 2)]; [(0x1030, 1)]] ++
    dtos mem0 [] (odts_before pre_tree 1) [[(0x1040, 2)]] ++ []) by (vm_compute; reflexivity).
  apply (eo_cons cfg_pre mem0 pre_tree pre_modes pre_asg env_yes 1 0); [exact We|cbn; auto|reflexivity|apply sampleable_b; vm_compute; reflexivity|].
  apply (eo_cons cfg_pre mem0 pre_tree pre_modes pre_asg env_yes 2 1); [exact We|cbn; auto|reflexivity|apply sampleable_b; vm_compute; reflexivity|]. constructor.
Qed.
Lemma pre_asg_ok : asg_ok cfg_pre pre_tree pre_asg /\ modes_ok pre_modes pre_asg.
Proof. split; [split; [repeat constructor; cbn; intuition discriminate|repeat constructor]|repeat constructor]. Qed.
Lemma performs_yes : forall d, performs cfg_pre d (map (fun x => (env_yes, ORecv (fst x))) d).
Proof.
  intro d. split; [rewrite map_map; reflexivity|]. apply Forall_forall. intros x H. apply in_map_iff in H. destruct H as (y & <- & _). apply (wf_yes _ wf_pre_cfg).
Qed.
