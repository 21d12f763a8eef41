(** The session of CasesTask.v behind the transport layers. *)
From Coq Require Import NArith ZArith List Bool Lia ZifyBool ZifyNat ZifyN.
From Verif Require Import Base Config Cfgs State Core Spec SpecProt SpecMem SpecDaq SpecE2e SpecInfo SpecCks Demo DemoDaq Sxi SpecSxi Serial SpecSerial CasesSxi CasesSerial Can SpecCan Kv SpecKv CanBus Iocp Ino SpecIno
  SpecRef CasesRef SpecStack SpecBus SpecTask CasesTask SpecConvey.
Import ListNotations.
Open Scope N_scope.

(** ** CAN *)
Definition padded8 (f : list N) : list N := f ++ repeat 0xCC (8 - length f).
(** Commands, padded to eight bytes. *)
Definition on_can (x : env * op) : env * busev canframe := (fst x, match snd x with ORecv f => BFrame (mkCan false false 0x300 (padded8 f)) | o => BOp o end).
Definition on_kv (x : env * op) : env * busev kvframe := (fst x, match snd x with ORecv f => BFrame (data_frame true 0x1234567 (padded8 f)) | o => BOp o end).
Definition on_ino (x : env * op) : env * work := (fst x, match snd x with ORecv f => WFrame (mkCan false false 0x300 (padded8 f)) 20 | o => WCall o end).
(** Before each of them a frame for another slave. *)
Definition other_can : env * busev canframe := (env_yes, BFrame (mkCan false false 0x301 [0xFE])).
Definition other_kv : env * busev kvframe := (env_yes, BFrame (data_frame false 0x567 [0xFE; 0])).
Definition with_others {A B} (o : B) (f : A -> B) (l : list A) : list B := flat_map (fun x => [o; f x]) l.
Definition conveyable (c : cfg) (x : env * op) : Prop :=
  key_local (fst x) /\ match snd x with ORecv f => complete c f /\ lenN (padded8 f) <= c_max_cto c | OInit => False | _ => True end.

Lemma can_conveys : forall c l, Forall (conveyable c) l -> conveys c (can_own (false, 0x300) (true, 0x18DA1234)) (can_noise (false, 0x300) (true, 0x18DA1234)) (with_others other_can on_can l) l.
Proof.
  intros c l F. induction F as [|(e & o) l (K & H) F IH]; [constructor|]. cbn [with_others flat_map app]. cbn [fst snd] in *.
  apply cv_noise; [right; repeat split; try reflexivity; discriminate|]. unfold on_can. cbn [fst snd].
  destruct o; cbn [fst snd] in *; try contradiction; try (apply cv_app; [exact I|exact IH]).
  destruct H as (H1 & H2). unfold padded8 in *. eapply cv_ask; [exact K|exact H1|exact H2| |exact IH]. split; [reflexivity|split; [reflexivity|left; reflexivity]].
Qed.
Lemma kv_conveys : forall c l, c_max_dlc c = false -> 2 <= c_max_cto c -> Forall (conveyable c) l -> conveys c (kv_own c (true, 0x1234567)) (kv_noise c (true, 0x1234567)) (with_others other_kv on_kv l) l.
Proof.
  intros c l D M F. induction F as [|(e & o) l (K & H) F IH]; [constructor|]. cbn [with_others flat_map app]. cbn [fst snd] in *.
  apply cv_noise. { eexists _, _, _. split; [reflexivity|]. split; [exact M|]. left. discriminate. }
  unfold on_kv. cbn [fst snd]. destruct o; cbn [fst snd] in *; try contradiction; try (apply cv_app; [exact I|exact IH]).
  destruct H as (H1 & H2). unfold padded8 in *. eapply cv_ask; [exact K|exact H1|exact H2| |exact IH]. split; [reflexivity|]. intro Z. congruence.
Qed.
Lemma ino_conveys : forall c l, Forall (conveyable c) l -> conveys c ino_own (fun _ => False) (map on_bus (map on_ino l)) l.
Proof.
  intros c l F. induction F as [|(e & o) l (K & H) F IH]; [constructor|]. cbn [map]. unfold on_ino at 1, on_bus at 1. cbn [fst snd] in *.
  destruct o; cbn [fst snd] in *; try contradiction; try (apply cv_app; [exact I|exact IH]).
  destruct H as (H1 & H2). unfold padded8 in *. eapply cv_ask; [exact K|exact H1|exact H2| |exact IH]. split; reflexivity.
Qed.
Ltac convey := cbn [toperations map fst snd toperation operation]; repeat (apply Forall_cons; [split; [exact local_yes|first [exact I | split; [split; vm_compute; discriminate|vm_compute; discriminate]]]|]); apply Forall_nil.
Lemma tasks_conveyable : Forall (conveyable cfg_blocks) (toperations cfg_blocks ex_tasks).
Proof. unfold ex_tasks. convey. Qed.
Lemma tasks_paced : Forall (paced cfg_blocks) (map on_ino (toperations cfg_blocks ex_tasks)).
Proof. unfold ex_tasks. cbn [toperations map fst snd toperation operation]. repeat constructor; vm_compute; discriminate. Qed.

(** Operations for which the reference has no rules: a memory access by a command of the flash
    programming, an event that the slave does not know, a wrong DOWNLOAD_NEXT; and one without defined behaviour. *)
Definition ex_odd : list (env * op) := map (pair env_yes) [ORecv [0xFF; 0]; ORecv [0xF6; 0; 0; 0; 0; 0x10; 0; 0]; ORecv [0xEF; 3; 1; 2; 3]; OTrigger 77; ORecv [0xD2]; ORecv [0xD0; 6; 1; 2; 3; 4; 5; 6]; ODisconnect].
Lemma odd_conveyable : Forall (conveyable cfg_blocks) ex_odd.
Proof. unfold ex_odd. convey. Qed.
Lemma odd_wf : wf_run cfg_blocks ex_odd.
Proof. unfold ex_odd. cbn [map]. repeat (apply Forall_cons; [split; [exact (wf_yes _ wf_blocks)|first [exact I | repeat constructor]]|]). apply Forall_nil. Qed.
Definition odd_frames : list canframe := match run cfg_blocks ex_odd (demo_st cfg_blocks env_yes []) with Ok (_, o) => can_frames (false, 0x222) o | UB _ => [] end.

(** ** Serial line *)
Definition number (l : list (env * op)) : list sframe := flat_map (fun x => match snd x with ORecv f => [mkFrame 0 0 f] | _ => [] end) l.
Definition on_line (x : env * op) : list sevent := match snd x with ORecv f => bytes_at 500 (mkFrame 0 0 f) | o => [SOp (fst x) o] end.
Definition line_ops : list (env * op) := toperations cfg_line ex_tasks.
Definition line_events : list sevent := flat_map on_line line_ops.
Lemma line_ok : Forall (SpecSxi.fits (lenN (repeat 0 12))) (number line_ops) /\ Forall (fun f => good cfg_line (f_data f)) (number line_ops) /\
  SpecSxi.quiet 0 (polls line_events) /\ octets (polls line_events) ++ [] = wires (number line_ops) /\ Forall around (others line_events) /\ Forall key_local (envs line_events) /\
  weave 0 (number line_ops) line_events = toperations cfg_line ex_tasks.
Proof.
  split; [vm_compute; repeat constructor; discriminate|]. split; [vm_compute; repeat constructor; discriminate|].
  split; [vm_compute; repeat split; congruence|]. split; [vm_compute; reflexivity|].
  split; [repeat constructor|]. split; [apply yes_local; vm_compute; reflexivity|vm_compute; reflexivity].
Qed.

(** ** Completion port *)

(** Write 14 bytes in three frames; read 16 bytes in three: each completed transmission leads
    to the next; two more completions send nothing. *)
Definition by_port (f : list N) : wevent := WRecv env_yes 7 ([lenN f; 0; 0; 0] ++ f).
Definition port_events : list wevent :=
  [by_port [0xFF; 0]; WSent env_yes; by_port [0xF6; 0; 0; 0; 0; 0x10; 0; 0]; WSent env_yes; by_port [0xF0; 14; 1; 2; 3; 4; 5; 6]; by_port [0xEF; 8; 7; 8; 9; 10; 11; 12]; by_port [0xEF; 2; 13; 14]; WSent env_yes;
   by_port [0xF6; 0; 0; 0; 0; 0x10; 0; 0]; WSent env_yes; by_port [0xF5; 16]; WOp env_yes (OAppWrite 0x100F [77]); WSent env_yes; WSent env_yes; WSent env_yes; by_port [0xFE]].
Definition port_replies : list reply :=
  [Response (connect_response cfg_line); Response [0xFF]; Response [0xFF]; Response [0xFF]; Data [0xFF; 1; 2; 3; 4; 5; 6; 7]; Data [0xFF; 8; 9; 10; 11; 12; 13; 14]; Data [0xFF; 14; 77]; Response [0xFF]].
Ltac pnf := match goal with |- port_run _ _ ?a ?t _ _ _ _ => let b := eval cbv -[patch mem0 N.eqb host_bytes host_word modify_spec mem_at] in a in change a with b;
  let u := eval cbv -[patch mem0 mem_at app] in t in change t with u end.
Ltac pq q r := eapply (pr_ask _ _ _ _ env_yes q _ [_; _; _; _]); [reflexivity|discriminate|vm_compute; discriminate|reflexivity|exact (wf_yes _ wf_line)|tenc|r|pnf].
Ltac ps := eapply pr_sent; [discriminate|].
Lemma port_session : exists a rs, port_run cfg_line 7 (power_up cfg_line mem0) Free port_events rs a Free /\ rs = port_replies.
Proof.
  eexists. eexists. split; unfold port_events, by_port; cbn [app].
  - pq (Plain (QConnect 0)) ltac:(eapply t_free; eapply f_connect; tside). ps.
    pq (Plain (QSetMta 0 0x1000)) ltac:(eapply t_free; eapply f_set_mta; tside). ps.
    pq (QBlock 14 [1; 2; 3; 4; 5; 6]) ltac:(eapply t_block; tside).
    pq (QNext 8 [7; 8; 9; 10; 11; 12]) ltac:(eapply t_next; tside).
    pq (QNext 2 [13; 14]) ltac:(eapply t_next; tside). ps.
    pq (Plain (QSetMta 0 0x1000)) ltac:(eapply t_free; eapply f_set_mta; tside). ps.
    pq (Plain (QUpload 16)) ltac:(eapply t_upload; tside).
    eapply (pr_app _ _ _ _ env_yes (Plain (QVariables 0x100F [77]))); [reflexivity|discriminate|exact (wf_yes _ wf_line)|tenc|eapply t_beside; [discriminate|exact I|eapply f_variables; side]|pnf].
    eapply pr_next; [exact (wf_yes _ wf_line)|eapply t_send; tside|pnf]. eapply pr_next; [exact (wf_yes _ wf_line)|eapply t_send; tside|pnf]. ps.
    pq (Plain QDisconnect) ltac:(eapply t_free; eapply f_disconnect; tside). apply pr_nil.
  - vm_compute. reflexivity.
Qed.
Lemma port_boots : exists w0, wboot cfg_line mem0 = Ok w0.
Proof. destruct line_boots as (s0 & B). unfold wboot. rewrite B. eexists. reflexivity. Qed.
