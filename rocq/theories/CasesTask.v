(** A session with blocks and a checksum in the background. *)
From Coq Require Import NArith ZArith List Bool Lia ZifyBool ZifyNat ZifyN.
From Verif Require Import Base Config Cfgs State Core Spec SpecProt SpecMem SpecDaq SpecE2e SpecInfo SpecCks Demo DemoDaq CasesSerial SpecRef CasesRef SpecTask.
Import ListNotations.
Open Scope N_scope.

Definition cfg_blocks : cfg := w_sbm true cfg_bus.
Lemma wf_blocks : wf_cfg cfg_blocks. Proof. wf_cfg_tac. Qed.
Lemma blocks_boot : exists s0, boot cfg_blocks mem0 = Ok s0.
Proof. destruct (demo_at cfg_blocks env_yes [] wf_blocks (wf_yes _ wf_blocks) eq_refl) as (_ & _ & _ & s0 & B & _). exists s0. exact B. Qed.

(** The same with a header of four bytes. *)
Definition cfg_line : cfg := w_len_size 2 (w_ctr_size 2 cfg_blocks).
Lemma wf_line : wf_cfg cfg_line. Proof. wf_cfg_tac. Qed.
Lemma line_boots : exists s0, boot cfg_line mem0 = Ok s0.
Proof. destruct (demo_at cfg_line env_yes [] wf_line (wf_yes _ wf_line) eq_refl) as (_ & _ & _ & s0 & B & _). exists s0. exact B. Qed.

(** Write 14 bytes in three frames; read 16 bytes in three, with a request that
    comes too early, a packet of the application and a change of the last byte in
    between; the checksum of 192 bytes in three parts, of which the last changes
    while it runs; a download that is left. *)
Definition ex_tasks : list (env * treq) := map (pair env_yes)
  [Plain (QConnect 0); Plain (QSetMta 0 0x1000); QBlock 14 [1; 2; 3; 4; 5; 6]; QNext 8 [7; 8; 9; 10; 11; 12]; Plain QMain; QNext 2 [13; 14];
   Plain (QSetMta 0 0x1000); Plain (QUpload 16); Plain QStatus; Plain (QNotice 5 [1; 2]); Plain QMain; Plain (QVariables 0x100F [77]); Plain QMain;
   Plain (QShortUpload 2 0 0x100E);
   Plain (QSetMta 0 0x2000); Plain (QChecksum 192); Plain QMain; QBlock 9 [1; 2; 3; 4; 5; 6]; Plain (QVariables 0x20BF [0; 0]); Plain QMain; Plain QMain;
   Plain (QSetMta 0 0x1000); QBlock 9 [9; 8; 7; 6; 5; 4]; Plain QSynch; Plain QDisconnect].
Definition ex_task_replies : list reply :=
  [Response (connect_response cfg_blocks); Response [0xFF]; Response [0xFF];
   Response [0xFF]; Data [0xFF; 1; 2; 3; 4; 5; 6; 7]; Response [0xFE; 0x10]; Data [0xFD; 5; 1; 2]; Data [0xFF; 8; 9; 10; 11; 12; 13; 14]; Data [0xFF; 14; 77];
   Data [0xFF; 14; 77]; Response [0xFF]; Response [0xFE; 0x10];
   Response (checksum_answer CRC16CITT (checksum_spec CRC16CITT false (mem_at mem0 0x2000 191 ++ [0]))); Response [0xFF]; Response [0xFE; 0]; Response [0xFF]].
Ltac tnf := match goal with |- task_run _ ?a ?t _ _ _ _ => let b := eval cbv -[patch mem0 N.eqb host_bytes host_word modify_spec mem_at] in a in change a with b;
  let u := eval cbv -[patch mem0 mem_at app] in t in change t with u end.
Ltac tenc := cbn [tencodable]; repeat apply conj; first [ exact I | reflexivity | discriminate | repeat constructor | apply I | enc ].
Ltac tside := side; repeat lazymatch goal with
  | |- task_run _ _ _ _ _ _ _ => fail
  | |- _ < _ <= _ => split; [reflexivity|discriminate]
  | |- _ /\ _ => split
  | |- _ \/ _ => first [ left; reflexivity | right; reflexivity | right; eexists; reflexivity | left; vm_compute; reflexivity | right; vm_compute; reflexivity ]
  | |- _ => first [ reflexivity | discriminate | exact I | vm_compute; reflexivity | vm_compute; discriminate ] end.
Section Runs.
Variable c : cfg.
Hypothesis W : wf_cfg c.
Hypothesis E : c = cfg_blocks \/ c = cfg_line.
Ltac tr r := eapply tt_cons; [exact (wf_yes _ W)|tenc|eapply r; tside|tnf].
Ltac tp r := eapply tt_cons; [exact (wf_yes _ W)|tenc|eapply t_free; eapply r; tside|tnf].
Ltac steps :=
  tp f_connect; tp f_set_mta; tr t_block; tr t_next; tr t_main; tr t_next; tp f_set_mta; tr t_upload; tr t_busy;
  eapply tt_cons; [exact (wf_yes _ W)|tenc|eapply t_beside; [discriminate|exact I|eapply f_notice; side]|tnf];
  tr t_send;
  eapply tt_cons; [exact (wf_yes _ W)|tenc|eapply t_beside; [discriminate|exact I|eapply f_variables; side]|tnf]; tr t_send; tr t_short_upload; tp f_set_mta; tr t_checksum; tr t_sum; tr t_busy;
  eapply tt_cons; [exact (wf_yes _ W)|tenc|eapply t_beside; [discriminate|exact I|eapply f_variables; side]|tnf]; tr t_sum; tr t_sum_last; tp f_set_mta; tr t_block;
  eapply tt_cons; [exact (wf_yes _ W)|tenc|eapply t_leave; [exact I|eapply f_synch; side]|tnf]; tp f_disconnect; apply tt_nil.
Lemma tasks_run_in : exists a rs, task_run c (power_up c mem0) Free ex_tasks rs a Free /\ rs = ex_task_replies.
Proof.
  destruct E; subst c; eexists; eexists; (split; [unfold ex_tasks; cbn [map]|]).
  1,3: steps.
  all: vm_compute; reflexivity.
Qed.
End Runs.
Definition tasks_run := tasks_run_in cfg_blocks wf_blocks (or_introl eq_refl).
Definition tasks_run_line := tasks_run_in cfg_line wf_line (or_intror eq_refl).
