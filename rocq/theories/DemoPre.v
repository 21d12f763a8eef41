(** Tools and tables for the concrete cases with predefined DAQ lists. *)
From Coq Require Import NArith List Bool Lia.
From Verif Require Import Base Config Cfgs Codec State Core Spec Lists Demo SpecMem SpecDaq DemoDaq Predef SpecPre.
Import ListNotations.
Open Scope N_scope.

Definition sdemo (c : cfg) (p : predef) (es : list (N * N)) (l : list op) : sres := z <- sboot c p es mem0 ;; srun c p (map (pair env_yes) l) z.
Definition sdemo_st (c : cfg) (p : predef) (es : list (N * N)) (l : list op) : sst :=
  match sdemo c p es l with Ok (z, _) => z | UB _ => mkZ (power_on c mem0) es [] end.
Definition sdemo_out (c : cfg) (p : predef) (es : list (N * N)) (l : list op) : list pkt := match sdemo c p es l with Ok (_, o) => o | UB _ => [] end.
Definition sdemo_ok (c : cfg) (p : predef) (es : list (N * N)) (l : list op) : bool :=
  forallb (fun o => wf_opb c o) l && match sdemo c p es l with Ok _ => true | UB _ => false end.

(** The configuration of the DAQ cases without the commands to allocate lists. *)
Definition cfg_pre : cfg := w_opt (optset (0xC7 :: filter (fun k => negb (existsb (N.eqb k) [0xD6; 0xD5; 0xD4; 0xD3])) all_optional)) cfg_daq.
Lemma wf_pre_cfg : wf_cfg cfg_pre. Proof. wf_cfg_tac. Qed.
Lemma pre_static : static cfg_pre. Proof. split; [reflexivity|]. repeat constructor. Qed.

(** Two lists: two ODTs with two entries and one, one ODT with one entry. *)
Definition pre_tables : predef := mkPre [(2, 0); (1, 2)] [(2, 0); (1, 2); (1, 3)].
Definition pre_entries : list (N * N) := [(0x1000, 4); (0x1020, 2); (0x1030, 1); (0x1040, 2)].
Definition pre_tree : tree := [[[(0x1000, 4); (0x1020, 2)]; [(0x1030, 1)]]; [[(0x1040, 2)]]].
Lemma pre_wf : wf_pre cfg_pre pre_tables pre_entries.
Proof. constructor; [reflexivity| | |]; repeat constructor. Qed.
Lemma pre_describes : describes cfg_pre pre_tables pre_entries pre_tree.
Proof.
  split; [reflexivity|]. split; [reflexivity|]. intros l os G.
  assert (E : l = 0 \/ l = 1) by (apply getN_Some_lt in G; change (l < 2) in G; lia). destruct E as [-> | ->]; vm_compute in G; injection G as <-.
  - exists 0. split; [reflexivity|]. intros o xs G.
    assert (E : o = 0 \/ o = 1) by (apply getN_Some_lt in G; change (o < 2) in G; lia). destruct E as [-> | ->]; vm_compute in G; injection G as <-.
    + split; [reflexivity|]. exists 0. split; [reflexivity|]. intros k x G.
      assert (E : k = 0 \/ k = 1) by (apply getN_Some_lt in G; change (k < 2) in G; lia). destruct E as [-> | ->]; vm_compute in G; injection G as <-; repeat split.
    + split; [reflexivity|]. exists 2. split; [reflexivity|]. intros k x G.
      assert (k = 0) by (apply getN_Some_lt in G; change (k < 1) in G; lia). subst. vm_compute in G; injection G as <-; repeat split.
  - exists 2. split; [reflexivity|]. intros o xs G. assert (o = 0) by (apply getN_Some_lt in G; change (o < 1) in G; lia). subst. vm_compute in G; injection G as <-.
    split; [reflexivity|]. exists 3. split; [reflexivity|]. intros k x G.
    assert (k = 0) by (apply getN_Some_lt in G; change (k < 1) in G; lia). subst. vm_compute in G; injection G as <-; repeat split.
Qed.
Lemma sdemo_at : forall p es l, wf_pre cfg_pre p es -> sdemo_ok cfg_pre p es l = true ->
  sreachable cfg_pre p es mem0 (map (pair env_yes) l) (sdemo_st cfg_pre p es l) (sdemo_out cfg_pre p es l).
Proof.
  intros p es l Wp H. apply andb_true_iff in H. destruct H as (H1 & H2). split; [exact wf_pre_cfg|]. split; [exact pre_static|]. split; [exact Wp|]. split; [exact wf_mem0|].
  split; [apply wf_run_b; [apply wf_yes; exact wf_pre_cfg|exact H1]|]. unfold sdemo_st, sdemo_out. unfold sdemo, bind in *.
  destruct (sboot cfg_pre p es mem0) as [z0|] eqn:B; [|discriminate]. exists z0. split; [reflexivity|]. destruct (srun _ _ _ _) as [(z & o)|]; [reflexivity|discriminate].
Qed.
Lemma pre_at : forall l, sdemo_ok cfg_pre pre_tables pre_entries l = true ->
  sreachable cfg_pre pre_tables pre_entries mem0 (map (pair env_yes) l) (sdemo_st cfg_pre pre_tables pre_entries l) (sdemo_out cfg_pre pre_tables pre_entries l).
Proof. intro l. apply sdemo_at. exact pre_wf. Qed.

(** Event 1 is assigned to list 0 with time stamps, event 2 to list 1; list 0 is started. *)
Definition pre_run : list op :=
  [ORecv [0xFF; 0]; ORecv [0xE0; 0x10; 0; 0; 1; 0; 1; 0]; ORecv [0xE0; 0; 1; 0; 2; 0; 1; 0]; ORecv [0xDE; 2; 0; 0]; ORecv [0xDD; 1]].
(** One list whose only ODT has its entry at index 256 of the table. *)
Definition far_tables : predef := mkPre [(1, 0)] [(1, 256)].
Definition far_entries : list (N * N) := (0x1000, 1) :: repeat (0x1010, 1) 255 ++ [(0x1020, 1)].
Lemma far_wf : wf_pre cfg_pre far_tables far_entries.
Proof.
  constructor; [reflexivity|repeat constructor|repeat constructor|]. unfold far_entries. constructor; [split; reflexivity|]. apply Forall_app. split; [|repeat constructor].
  apply Forall_forall. intros x Hx. apply repeat_spec in Hx. subst. split; reflexivity.
Qed.

Definition far_run : list op := [ORecv [0xFF; 0]; ORecv [0xE0; 0; 0; 0; 1; 0; 1; 0]; ORecv [0xDE; 2; 0; 0]; ORecv [0xDD; 1]].
Lemma stopped_list : exists c p es m l z o e t ev l' md z' o' q,
  sreachable c p es m l z o /\ wf_env c e /\ describes c p es t /\ measuring (z_st z) /\ assigned (z_st z) ev l' /\
  mode_of z l' = Some md /\ started md = false /\ selected md = false /\ sstep c p e (OTrigger ev) z = Ok (z', o' ++ [q]).
Proof.
  exists cfg_pre, pre_tables, pre_entries, mem0, (map (pair env_yes) pre_run), (sdemo_st cfg_pre pre_tables pre_entries pre_run),
    (sdemo_out cfg_pre pre_tables pre_entries pre_run), env_yes, pre_tree, 2, 1, 0.
  remember (sstep cfg_pre pre_tables env_yes (OTrigger 2) (sdemo_st cfg_pre pre_tables pre_entries pre_run)) as r eqn:E. vm_compute in E.
  match type of E with _ = Ok (?z, [?q]) => exists z, [], q end.
  split; [apply pre_at; vm_compute; reflexivity|]. split; [apply wf_yes, wf_pre_cfg|]. split; [exact pre_describes|].
  do 4 (split; [vm_compute; reflexivity|]). split; [vm_compute; reflexivity|]. exact E.
Qed.
Lemma far_entry : exists c p es m l z o e ev z' q bs,
  sreachable c p es m l z o /\ wf_env c e /\ measuring (z_st z) /\ assigned (z_st z) ev 0 /\ getN (pr_lists p) 0 = Some (1, 0) /\
  getN (pr_odts p) 0 = Some (1, 256) /\ getN es 256 = Some (0x1020, 1) /\ getN es 0 = Some (0x1000, 1) /\
  sstep c p e (OTrigger ev) z = Ok (z', [q]) /\ emits [q] [[0; bs]] /\ bs = s_mem (z_st z) 0x1000 /\ bs <> s_mem (z_st z) 0x1020.
Proof.
  exists cfg_pre, far_tables, far_entries, mem0, (map (pair env_yes) far_run), (sdemo_st cfg_pre far_tables far_entries far_run),
    (sdemo_out cfg_pre far_tables far_entries far_run), env_yes, 1.
  remember (sstep cfg_pre far_tables env_yes (OTrigger 1) (sdemo_st cfg_pre far_tables far_entries far_run)) as r eqn:E. vm_compute in E.
  match type of E with _ = Ok (?z, [?q]) => exists z, q, 0 end.
  split; [apply sdemo_at; [exact far_wf|vm_compute; reflexivity]|]. split; [apply wf_yes, wf_pre_cfg|].
  do 6 (split; [vm_compute; reflexivity|]). split; [exact E|]. split; [|split; [vm_compute; reflexivity|vm_compute; discriminate]].
  repeat constructor.
Qed.
Lemma sready : forall z, match s_conn (z_st z), s_busy (z_st z) with true, false => true | _, _ => false end = true -> ready (z_st z).
Proof. intros z H. unfold ready. destruct (s_conn _), (s_busy _); try discriminate; auto. Qed.
(** A slave of the two-list tables after a run of operations, answering commands. *)
Ltac pre_case := cbv zeta; split; [apply pre_at; vm_compute; reflexivity|]; split; [apply sready; vm_compute; reflexivity|];
  split; [discriminate|]; split; [apply daq_open_b; vm_compute; reflexivity|].
