(** Sessions with the reference slave on a CAN bus. *)
From Coq Require Import NArith ZArith List Bool Lia ZifyBool ZifyNat ZifyN.
From Verif Require Import Base Config Cfgs State Core Spec SpecProt SpecMem SpecDaq SpecE2e SpecInfo Demo DemoDaq CasesSerial Can SpecCan Kv SpecKv CanBus Iocp Ino SpecIno SpecRef CasesRef SpecStack CasesMisc SpecBus.
Import ListNotations.
Open Scope N_scope.

(** CONNECT, SET_MTA, DOWNLOAD, SHORT_UPLOAD; the first and the third padded; a variable
    changes between the last two. *)
Definition bus_requests : list (env * req) := map (pair env_yes) [QConnect 0; QSetMta 0 0x1000; QDownload [0x55; 0x66]; QVariables 0x1001 [9; 9]; QShortUpload 3 0 0x1000].
Definition bus_replies : list reply := [Response [0xFF; 0x15; 0x80; 8; 8; 0; 1; 1]; Response [0xFF]; Response [0xFF]; Data [0xFF; 0x55; 9; 9]].
Definition bus_data : list (list N) :=
  [[0xFF; 0; 0xCC; 0xCC; 0xCC; 0xCC; 0xCC; 0xCC]; [0xF6; 0; 0; 0; 0; 0x10; 0; 0]; [0xF0; 2; 0x55; 0x66; 0xCC; 0xCC; 0xCC; 0xCC]; [0xF4; 3; 0; 0; 0; 0x10; 0; 0]].

Section Runs.
Variable c : cfg.
Hypothesis W : wf_cfg c.
Hypothesis E : c = cfg_can \/ c = w_max_dlc true cfg_can.
Ltac frc r := eapply fr_cons; [exact (wf_yes _ W)|enc|eapply r; side|nf].
Lemma bus_run : exists a rs, ref_run c (power_up c mem0) bus_requests rs a /\ rs = bus_replies.
Proof.
  destruct E; subst c; (eexists; eexists; split; unfold bus_requests; cbn [map];
   [frc f_connect; frc f_set_mta; frc f_download; frc f_variables; frc f_short_upload; apply fr_nil|vm_compute; reflexivity]).
Qed.
End Runs.

Definition ask (x : bool) (i : N) (k : nat) : env * busev canframe := (env_yes, BFrame (mkCan x false i (nth k bus_data []))).
(** Commands to the identifier 0x300, one of them to the broadcast identifier 0x18DA1234; in
    between a frame to 0x301 and an empty one. *)
Definition can_events : list (env * busev canframe) :=
  [ask false 0x300 0; (env_yes, BFrame (mkCan false false 0x301 [0xFE])); ask true 0x18DA1234 1; ask false 0x300 2; (env_yes, BFrame (mkCan false false 0x300 []));
   (env_yes, BOp (OAppWrite 0x1001 [9; 9])); ask false 0x300 3].
Ltac carr := split; [exact I|split; [split; vm_compute; discriminate|split; [eexists; reflexivity|vm_compute; discriminate]]].
Ltac own_l := split; [reflexivity|split; [reflexivity|left; reflexivity]].
Ltac own_r := split; [reflexivity|split; [reflexivity|right; reflexivity]].
Lemma can_traffic : traffic cfg_can (can_own (false, 0x300) (true, 0x18DA1234)) (can_noise (false, 0x300) (true, 0x18DA1234)) can_events bus_requests.
Proof.
  unfold can_events, bus_requests, ask. cbn [map].
  eapply tr_ask; [exact local_yes| |own_l|]; [carr|].
  eapply tr_noise; [right; repeat split; try reflexivity; discriminate|].
  eapply tr_ask; [exact local_yes| |own_r|]; [carr|].
  eapply tr_ask; [exact local_yes| |own_l|]; [carr|].
  eapply tr_noise; [left; reflexivity|].
  apply (tr_app _ _ _ env_yes (QVariables 0x1001 [9; 9])); [exact (fun H => H)|].
  eapply tr_ask; [exact local_yes| |own_l|]; [carr|]. constructor.
Qed.
Lemma can_boots : exists s0, boot cfg_can mem0 = Ok s0.
Proof. destruct (can_at [] eq_refl) as (_ & _ & _ & s0 & B & _). exists s0. exact B. Qed.

(** The Kvaser transport layer with XCP_ON_CAN_MAX_DLC_REQUIRED: all commands have eight bytes;
    one of two bytes is ignored. *)
Definition kv_ask (k : nat) : env * busev kvframe := (env_yes, BFrame (data_frame true 0x1234567 (nth k bus_data []))).
Definition kv_events : list (env * busev kvframe) :=
  [(env_yes, BFrame (data_frame true 0x1234567 [0xFF; 0])); kv_ask 0; kv_ask 1; (env_yes, BFrame (data_frame false 0x567 [0xFE; 0; 0; 0; 0; 0; 0; 0])); kv_ask 2;
   (env_yes, BOp (OAppWrite 0x1001 [9; 9])); kv_ask 3].
Lemma kv_traffic : traffic (w_max_dlc true cfg_can) (kv_own (w_max_dlc true cfg_can) (true, 0x1234567)) (kv_noise (w_max_dlc true cfg_can) (true, 0x1234567)) kv_events bus_requests.
Proof.
  unfold kv_events, bus_requests, kv_ask. cbn [map].
  eapply tr_noise. { eexists _, _, _. split; [reflexivity|]. split; [vm_compute; discriminate|]. right. right. intro H. specialize (H eq_refl). vm_compute in H. discriminate. }
  eapply tr_ask; [exact local_yes| |split; [reflexivity|intros _; reflexivity]|]; [carr|].
  eapply tr_ask; [exact local_yes| |split; [reflexivity|intros _; reflexivity]|]; [carr|].
  eapply tr_noise. { eexists _, _, _. split; [reflexivity|]. split; [vm_compute; discriminate|]. left. discriminate. }
  eapply tr_ask; [exact local_yes| |split; [reflexivity|intros _; reflexivity]|]; [carr|].
  apply (tr_app _ _ _ env_yes (QVariables 0x1001 [9; 9])); [exact (fun H => H)|].
  eapply tr_ask; [exact local_yes| |split; [reflexivity|intros _; reflexivity]|]; [carr|]. constructor.
Qed.
Lemma dlc_boots : exists s0, boot (w_max_dlc true cfg_can) mem0 = Ok s0.
Proof.
  assert (R : reachable (w_max_dlc true cfg_can) mem0 (map (pair env_yes) []) (demo_st (w_max_dlc true cfg_can) env_yes []) (demo_out (w_max_dlc true cfg_can) env_yes []))
    by (apply demo_at; [exact wf_dlc|exact (wf_yes _ wf_dlc)|vm_compute; reflexivity]).
  destruct R as (_ & _ & _ & s0 & B & _). exists s0. exact B.
Qed.

(** The session of CasesRef behind a completion port; a transmission completes after every event. *)
Definition is_app (q : req) : bool := match q with QEvent _ | QMain | QVariables _ _ | QNotice _ _ | QService _ _ => true | _ => false end.
Definition as_event (x : env * req) : list wevent :=
  [if is_app (snd x) then WOp (fst x) (operation cfg_eth (snd x)) else WRecv (fst x) 7 ([lenN (frame cfg_eth (snd x)); 0; 0; 0] ++ frame cfg_eth (snd x)); WSent (fst x)].
Definition iocp_events : list wevent := flat_map as_event ex_session.
Lemma as_completes : forall l, forallb (fun x => is_app (snd x) || (1 <=? lenN (frame cfg_eth (snd x))) && (lenN (frame cfg_eth (snd x)) <=? c_ctobuf cfg_eth)) l = true ->
  completes cfg_eth 7 (flat_map as_event l) l.
Proof.
  induction l as [|(e & q) l IH]; intro H; [constructor|]. cbn [forallb] in H. apply andb_prop in H. destruct H as (H & Hl). cbn [snd] in H.
  cbn [flat_map]. unfold as_event at 1. cbn [fst snd app]. destruct (is_app q) eqn:A.
  - apply cp_app; [destruct q; cbn in *; try discriminate; exact (fun X => X)|]. apply cp_sent, IH, Hl.
  - cbn [orb] in H. apply andb_prop in H. destruct H as (H1 & H2).
    apply (cp_ask cfg_eth 7 e q [lenN (frame cfg_eth q); 0; 0; 0]); [destruct q; cbn in *; try discriminate; exact I| |lia|reflexivity|]; [|apply cp_sent, IH, Hl].
    intro E. rewrite E in H1. discriminate.
Qed.
Lemma iocp_completes : completes cfg_eth 7 iocp_events ex_session.
Proof. apply as_completes. vm_compute. reflexivity. Qed.
Lemma iocp_boots : exists w0, wboot cfg_eth mem0 = Ok w0.
Proof. destruct eth_boots as (s0 & B). unfold wboot. rewrite B. eexists. reflexivity. Qed.

(** Arduino: the main loop takes 12, 13, 20 and 15 steps between the frames. *)
Definition ino_ask (k : nat) (n : N) : env * work := (env_yes, WFrame (mkCan false false 0x300 (nth k bus_data [])) n).
Definition ino_work : list (env * work) := [ino_ask 0 12; ino_ask 1 13; ino_ask 2 20; (env_yes, WCall (OAppWrite 0x1001 [9; 9])); ino_ask 3 15].
Lemma ino_paced : Forall (paced cfg_can) ino_work.
Proof. repeat constructor; vm_compute; discriminate. Qed.
Lemma ino_traffic : traffic cfg_can ino_own (fun _ => False) (map on_bus ino_work) bus_requests.
Proof.
  unfold ino_work, bus_requests, ino_ask. cbn [map]. unfold on_bus. cbn [fst snd].
  eapply tr_ask; [exact local_yes| |split; reflexivity|]; [carr|].
  eapply tr_ask; [exact local_yes| |split; reflexivity|]; [carr|].
  eapply tr_ask; [exact local_yes| |split; reflexivity|]; [carr|].
  apply (tr_app _ _ _ env_yes (QVariables 0x1001 [9; 9])); [exact (fun H => H)|].
  eapply tr_ask; [exact local_yes| |split; reflexivity|]; [carr|]. constructor.
Qed.
