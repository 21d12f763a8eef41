(** The displayed DAQ configuration (C118). *)
From Coq Require Import NArith List Bool.
From Verif Require Import Base Config State Core Spec SpecDaq Demo DemoDaq Show SpecShow ProofsShow CasesShow.
Import ListNotations.
Open Scope N_scope.

(** ** C118 The displayed DAQ configuration is the requested one *)

(** After any history of a rule-abiding master since power-on (see [builds] in
    SpecDaq.v), the display lists exactly the requested configuration. *)
Theorem C118_details : forall c m l s0 s t, wf_cfg c -> wf_mem m -> dlc_ok c -> c_daq c = true -> c_max_ent c < 65536 ->
  boot c m = Ok s0 -> wf_run c l -> builds c s0 [] l s t ->
  exists words, show_daq c s = Ok (lists_text words 0 0 t) /\ says words (d_mode (s_daq s)).
Proof. intros c m l s0 s t W Wm D Hd Sm B Wl Bu. eexists. exact (details_thm c m l s0 s t W Wm D Hd Sm B Wl Bu). Qed.
Print Assumptions C118_details.

(** The text tells configurations apart, whatever the modes. *)
Theorem C118_readable : forall w w' t t' l p, lists_text w l p t = lists_text w' l p t' -> t = t'.
Proof. exact lists_inj. Qed.
Print Assumptions C118_readable.

(** The summary: whether a measurement runs, and how much of the pool is used. *)
Theorem C118_summary : forall c s t, represents c s t -> exists b,
  daq_info c s = (b, lenN t + lenN (concat t) + lenN (concat (concat t)), c_max_ent c) /\ (b = true <-> measuring s).
Proof. exact info_thm. Qed.
Print Assumptions C118_summary.

(** Refuted for the modes: all lists are shown with the same words, whichever of
    them were selected, started or configured. *)
Theorem C118_modes_refuted : forall c m l s0 s t ls, wf_cfg c -> wf_mem m -> dlc_ok c -> c_daq c = true -> c_max_ent c < 65536 ->
  boot c m = Ok s0 -> wf_run c l -> builds c s0 [] l s t -> show_daq c s = Ok ls ->
  forall l1 p1 w1 l2 p2 w2, In (LList l1 p1 w1) ls -> In (LList l2 p2 w2) ls -> w1 = w2.
Proof. exact shared_thm. Qed.
Print Assumptions C118_modes_refuted.

(** Two lists are configured; the master starts the first with time stamps and
    never touches the mode of the second. *)
Example C118_case :
  let s := demo_st cfg_daq env_yes ex_shown in
  (exists s0, boot cfg_daq mem0 = Ok s0 /\ builds cfg_daq s0 [] (map (pair env_yes) ex_shown) s ex_tree) /\
  show_daq cfg_daq s = Ok
    [LList 0 0 [FDaq; FStarted; FTimestamp]; LOdt 0; LEntry 0 0x1000 4; LEntry 1 0x1020 2; LOdt 1; LEntry 0 0x1030 1; LTotal 7;
     LList 1 2 [FDaq; FStarted; FTimestamp]; LOdt 0; LEntry 0 0x1040 3; LTotal 3] /\
  daq_info cfg_daq s = (true, 9, 100).
Proof. exact shown_case. Qed.
