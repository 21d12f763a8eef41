(** Tools for the concrete cases of C130. *)
From Coq Require Import NArith List Bool Lia.
From Verif Require Import Base Config Cfgs Codec State Core Spec Lists Effects Demo SpecMem SpecDaq DemoDaq SpecInfo SpecSafe Predef SpecPre DemoPre SpecPreSafe ProofsPre2.
Import ListNotations.
Open Scope N_scope.

(** Does reception of the frame end normally? *)
Definition pre_ends (p : predef) (es : list (N * N)) (z : sst) (f : list N) : bool := match sstep cfg_pre p env_yes (ORecv f) z with Ok _ => true | UB _ => false end.

(** Tables without any list. *)
Definition no_tables : predef := mkPre [] [].
Lemma no_wf : wf_pre cfg_pre no_tables []. Proof. constructor; [reflexivity| | |]; constructor. Qed.
Lemma no_at : forall l, sdemo_ok cfg_pre no_tables [] l = true ->
  sreachable cfg_pre no_tables [] mem0 (map (pair env_yes) l) (sdemo_st cfg_pre no_tables [] l) (sdemo_out cfg_pre no_tables [] l).
Proof. intro l. apply sdemo_at. exact no_wf. Qed.

Lemma sdemo_snoc : forall p es l x, sdemo_ok cfg_pre p es (l ++ [x]) = true ->
  exists o, sstep cfg_pre p env_yes x (sdemo_st cfg_pre p es l) = Ok (sdemo_st cfg_pre p es (l ++ [x]), o).
Proof.
  intros p es l x H. apply andb_true_iff in H. destruct H as (_ & H). unfold sdemo_st, sdemo in *. destruct (sboot cfg_pre p es mem0) as [s0|]; [|discriminate].
  cbn [bind] in *. rewrite map_app in *. cbn [map] in *. destruct (srun cfg_pre p (map (pair env_yes) l ++ [(env_yes, x)]) s0) as [(s & o)|] eqn:E; [|discriminate].
  apply srun_app in E. destruct E as (s1 & o1 & o2 & E1 & E2 & _). rewrite E1. cbn [srun] in E2. unfold sthen in E2.
  apply bind_Ok in E2. destruct E2 as ((s2 & o3) & E2 & E3). cbn [bind] in E3. injection E3 as <- _. exists o3. exact E2.
Qed.
Lemma pre_abides_demo : forall p es t l x r, sdemo_ok cfg_pre p es (l ++ [x]) = true -> pre_rule cfg_pre p env_yes t (sdemo_st cfg_pre p es l) x ->
  pre_abides cfg_pre p t (map (pair env_yes) r) (sdemo_st cfg_pre p es (l ++ [x])) -> pre_abides cfg_pre p t (map (pair env_yes) (x :: r)) (sdemo_st cfg_pre p es l).
Proof.
  intros p es t l x r H Ru A. destruct (sdemo_snoc _ _ _ _ H) as (o & E). cbn [map pre_abides]. split; [exact Ru|].
  intros s' o' E'. rewrite E in E'. injection E' as <- _. exact A.
Qed.

Definition ex_pre_safe : list op :=
  [ORecv [0xFF; 0]; ORecv [0xE2; 0; 7; 0; 9; 9]; ORecv [0xE0; 0x10; 0; 0; 1; 0; 1; 0]; ORecv [0xDE; 2; 0; 0]; ORecv [0xDE; 1; 9; 0]; ORecv [0xD8; 0; 1; 0]; ORecv [0xDD; 1];
   ORecv [0xF6; 0; 0; 0; 0; 0x20; 0; 0]; ORecv [0xF5; 4]; OTrigger 1; OMain; ORecv [0xDD; 0]; ORecv [0xE1; 0xFF; 4; 0; 0; 0x10; 0; 0]; ORecv [0xFE]; OInit].
Local Ltac next := eapply pre_abides_demo; [vm_compute; reflexivity| |cbn [List.app]].
Local Ltac frame := split; [vm_compute; discriminate|intros _].
Local Ltac easy_code := frame; first [exact I | vm_compute; discriminate].
Lemma pre_safe_abides : pre_abides cfg_pre pre_tables pre_tree (map (pair env_yes) ex_pre_safe) (sdemo_st cfg_pre pre_tables pre_entries []).
Proof.
  unfold ex_pre_safe. next; [easy_code|]. next; [easy_code|].
  next; [frame; intros _ _ _ _; split; vm_compute; reflexivity|].
  next; [frame; intros _ _; vm_compute; reflexivity|].
  next; [frame; intros _ X; vm_compute in X; discriminate X|].
  next; [frame; intros _ _; vm_compute; reflexivity|].
  next; [easy_code|]. next; [easy_code|].
  next; [frame; intros _ _ _ _; split; vm_compute; discriminate|].
  next.
  { intros _ l os A G. vm_compute in A. injection A as <-. vm_compute in G. injection G as <-. split; [|vm_compute; discriminate].
    intros i es H. pose proof (getN_Some_lt _ _ _ _ H) as Lt. change (i < 2) in Lt. assert (E : i = 0 \/ i = 1) by lia.
    destruct E as [-> | ->]; vm_compute in H; injection H as <-; (split; [repeat constructor; vm_compute; discriminate|vm_compute; discriminate]). }
  next; [split; [intros H; vm_compute in H; discriminate H|intros _ _; vm_compute; exact I]|].
  next; [easy_code|]. next; [frame; intros _ _; vm_compute; discriminate|]. next; [easy_code|]. next; [exact I|]. exact I.
Qed.
