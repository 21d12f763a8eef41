(** A session of the reference slave. *)
From Coq Require Import NArith ZArith List Bool Lia ZifyBool ZifyNat ZifyN.
From Verif Require Import Base Config Cfgs State Core Spec SpecProt SpecMem SpecDaq SpecE2e SpecInfo SpecCks Demo DemoDaq CasesSerial SpecRef.
Import ListNotations.
Open Scope N_scope.

(** Connect, find measurement locked, unlock it; write a variable, change two of its bits, ask for its
    checksum and read it back;
    configure one list of two ODTs, measure, try to change the pointer while
    measuring; stop, disconnect, and find everything locked again. *)
Definition ex_session : list (env * req) := map (pair env_yes)
  [QConnect 0; QClock; QSeed 4; QUnlock [0x42]; QSeed 1; QUnlock [0x42]; QSetMta 0 0x1000; QDownload [1; 2; 3; 4]; QVariables 0x1020 [7; 8];
   QSetMta 0 0x1000; QModify 0 0xFDFF 1; QChecksum 4; QNotice 5 [1; 2];
   QShortUpload 4 0 0x1000; QMain; QFree; QAllocOdt 0 1; QAllocDaq 1; QAllocOdt 0 2; QAllocEntry 0 0 1; QAllocEntry 0 1 1;
   QSetPtr 0 0 0; QWrite 0x1000 4; QSetPtr 0 1 0; QWriteMany [(0x1020, 2)]; QSetPtr 0 1 1; QEventInfo 1; QEventInfo 77; QResolution; QMode 0 0 1; QSelect 0; QStart; QEvent 1; QSetPtr 0 0 0; QStop; QEvent 1;
   QDisconnect; QConnect 0; QFree; QStatus].
Definition ex_replies : list reply :=
  [Response [0xFF; 0x15; 0x80; 64; 64; 0; 1; 1]; Response [0xFE; 0x25];
   Response [0xFF; 4; 4; 0x11; 0x22; 0x33]; Response [0xFF; 25]; Response [0xFF; 4; 1; 0x11; 0x22; 0x33]; Response [0xFF; 24]; Response [0xFF]; Response [0xFF];
   Response [0xFF]; Response [0xFF]; Response [0xFF; 8; 0; 0; 0x17; 0x91; 0; 0];
   Data [0xFD; 5; 1; 2]; Data [0xFF; 0; 0; 3; 4]; Response [0xFF]; Response [0xFE; 0x29]; Response [0xFF]; Response [0xFF]; Response [0xFF]; Response [0xFF];
   Response [0xFF]; Response [0xFF]; Response [0xFF]; Response [0xFF]; Response [0xFE; 0x22]; Response [0xFF; 4; 1; 3; 100; 6; 0]; Response [0xFE; 0x22]; Response [0xFF; 1; 63; 1; 63; 0x34; 1; 0];
   Response [0xFF]; Response [0xFF; 0; 0; 0; 0; 0; 0; 0]; Response [0xFF];
   Sample [0; 0; 0; 3; 4]; Sample [1; 7; 8]; Response [0xFE; 0x11]; Response [0xFF];
   Response [0xFF]; Response [0xFF; 0x15; 0x80; 64; 64; 0; 1; 1]; Response [0xFE; 0x25]; Response [0xFF; 0; 29; 0; 0; 0]].

Ltac no := let H := fresh in intros (_ & H); vm_compute in H; discriminate.
Ltac side := repeat lazymatch goal with
  | |- key_local _ => exact local_yes
  | |- idle _ => split; reflexivity
  | |- still _ => reflexivity
  | |- daq_idle _ _ => split; [split; reflexivity|split; [reflexivity|no]]
  | |- shut _ _ _ => split; reflexivity
  | |- ~ shut _ _ _ => no
  | |- granted _ _ _ _ _ _ _ => intros _; reflexivity
  | |- fits _ _ => intros _; reflexivity
  | |- within_limit _ _ => left; reflexivity
  | |- at_once _ _ => right; discriminate
  | |- has_resource _ _ => unfold has_resource; auto
  | |- _ -> _ => intro
  | |- forall _, _ => intro
  | |- In _ _ => cbn; auto
  | |- _ \/ _ => first [ left; reflexivity | right; reflexivity ]
  | |- _ <= _ < _ => split; [discriminate|reflexivity]
  | |- _ => first [ reflexivity | discriminate | exact I ] end.
Ltac enc := cbn [encodable]; repeat apply conj; first [ exact I | reflexivity | discriminate | repeat constructor | apply I ].
(** One request by the rule [r]. *)
Ltac nf := match goal with |- ref_run _ ?a _ _ _ => let b := eval cbv -[patch mem0 N.eqb host_bytes host_word modify_spec mem_at] in a in change a with b end.
Ltac fr r := eapply fr_cons; [exact (wf_yes _ wf_eth)|enc|eapply r; side|nf].

Lemma session_run : exists a rs, ref_run cfg_eth (power_up cfg_eth mem0) ex_session rs a /\ rs = ex_replies /\ a_on a = true.
Proof.
  eexists. eexists. split; [unfold ex_session; cbn [map]|].
  fr f_connect. fr f_shut. fr f_seed. fr f_unlock. fr f_seed. fr f_unlock. fr f_set_mta. fr f_download. fr f_variables.
  fr f_set_mta. fr f_modify. fr f_checksum. fr f_notice.
  fr f_short_upload. fr f_main. fr f_free. 
  eapply fr_cons; [exact (wf_yes _ wf_eth)|enc|eapply (f_sequence _ _ _ _ 0xD4 1); [side|side|split; [reflexivity|split; reflexivity]|intros p H; inversion H|reflexivity]|nf].
  fr f_alloc_daq. fr f_alloc_odt. fr f_alloc_entry. fr f_alloc_entry. fr f_set_ptr. fr f_write. fr f_set_ptr.
  eapply fr_cons; [exact (wf_yes _ wf_eth)|enc|eapply f_write_many; [side|side|side|side|]|].
  { intros i Hi. assert (i = 0) by (change (lenN [(0x1020, 2)]) with 1 in Hi; lia). subst i. eexists. reflexivity. }
  nf. fr f_no_entry. fr f_event_info. fr f_no_event_info. fr f_resolution.
  fr f_mode. fr f_select. fr f_start. 
  eapply fr_cons; [exact (wf_yes _ wf_eth)|enc|eapply f_event; [side|side|side|side|side| |side]|].
  { apply sampleable_b. reflexivity. }
  nf. fr f_running. fr f_stop. fr f_no_event. fr f_disconnect. fr f_connect. fr f_shut. fr f_status. apply fr_nil.
  split; [vm_compute; reflexivity|reflexivity].
Qed.
Lemma eth_boots : exists s0, boot cfg_eth mem0 = Ok s0.
Proof. destruct (eth_at [] eq_refl) as (_ & _ & _ & s0 & B & _). exists s0. exact B. Qed.
(** On CAN, with the commands of its transport layer. *)
Definition cfg_bus : cfg := w_opt (optset (0xF2 :: 0xEF :: all_optional)) cfg_can.
Lemma wf_bus : wf_cfg cfg_bus. Proof. wf_cfg_tac. Qed.
Lemma bus_boots : exists s0, boot cfg_bus mem0 = Ok s0.
Proof. destruct (demo_at cfg_bus env_yes [] wf_bus (wf_yes _ wf_bus) eq_refl) as (_ & _ & _ & s0 & B & _). exists s0. exact B. Qed.
Definition ex_can : list (env * req) := map (pair env_yes) [QConnect 0; QSlaveId false; QSlaveId true; QDaqId 1; QDaqId 2; QService 1 [9; 8; 7; 6; 5; 4; 3]; QDisconnect].
Definition ex_can_replies : list reply :=
  [Response (connect_response cfg_bus); Response [0xFF; 0x58; 0x43; 0x50; 2; 1; 0; 0]; Response [0xFF; 0xA7; 0xBC; 0xAF; 2; 1; 0; 0];
   Response [0xFF; 1; 0; 0; 1; 3; 0; 0]; Response [0xFE; 0x22]; Data [0xFC; 1; 9; 8; 7; 6; 5; 4]; Response [0xFF]].
Lemma can_run : exists a rs, ref_run cfg_bus (power_up cfg_bus mem0) ex_can rs a /\ rs = ex_can_replies.
Proof.
  eexists. eexists. split; [unfold ex_can; cbn [map]|].
  Ltac frc r := eapply fr_cons; [exact (wf_yes _ wf_bus)|enc|eapply r; side|nf].
  frc f_connect. frc f_slave_id. frc f_slave_id. frc f_daq_id. frc f_no_daq_id. frc f_service. frc f_disconnect. apply fr_nil.
  vm_compute. reflexivity.
Qed.
(** A session with requests for which the reference has no rules. *)
Definition ex_strange : list op := [ORecv [0xFF; 0]; ORecv [0xF8; 0; 4]; ORecv [0xF7; 1; 0x42]; ORecv [0xD6]; ORecv [0xD5; 0; 2; 0]; ORecv [0xF3; 0; 0; 0; 9; 0; 0; 0]; OMain; ORecv [0xDD; 1]; OTrigger 3].
Definition strange : st := demo_st cfg_eth env_yes ex_strange.
Definition ex_next : list (env * req) := map (pair env_yes) [QConnect 0; QStatus].
Lemma next_run : forall m a0, exists a, ref_run cfg_eth (mkRef false false (Some a0) m (default_status cfg_eth) 0 no_meas) ex_next
  [Response [0xFF; 0x15; 0x80; 64; 64; 0; 1; 1]; Response [0xFF; 0; 29; 0; 0; 0]] a.
Proof.
  intros m a0. eexists. unfold ex_next; cbn [map].
  change [Response [0xFF; 0x15; 0x80; 64; 64; 0; 1; 1]; Response [0xFF; 0; 29; 0; 0; 0]] with ([Response [0xFF; 0x15; 0x80; 64; 64; 0; 1; 1]] ++ [Response [0xFF; 0; 29; 0; 0; 0]] ++ []).
  fr f_connect. fr f_status. apply fr_nil.
Qed.
