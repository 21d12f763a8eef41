(** C151, C152: the hardware layer for macOS, and what depends on the clock. *)
From Coq Require Import NArith List Bool Lia.
From Verif Require Import Base Config Cfgs Codec State Daq Core Spec Demo SpecDaq DemoDaq Mac SpecMac ProofsMac.
Import ListNotations.
Open Scope N_scope.

(** ** C151 The slave runs until it is told to quit (macOS): refuted *)

(** Once timer 1 has fired twenty times, the process ends by itself, whatever else
    happened before or in between, and stays so. *)
Theorem C151_refuted : forall l l', 20 <= ticks1 l -> ~ alive (l ++ Cancelled1 :: l').
Proof. exact mac_ends. Qed.
Print Assumptions C151_refuted.

(** The same after twenty ticks of either timer and one more of timer 1. *)
Theorem C151_soon_refuted : forall l l1 l', 20 <= ticks1 l + ticks2 l -> ~ alive (l ++ Tick1 :: l1 ++ Cancelled1 :: l').
Proof. exact mac_soon. Qed.
Print Assumptions C151_soon_refuted.

(** Fewer than twenty ticks of both timers together do not end it. *)
Theorem C151_until : forall l, ticks1 l + ticks2 l < 20 -> alive l.
Proof. exact mac_lives. Qed.
Print Assumptions C151_until.

(** Nor does anything but the cancellation handler of timer 1. *)
Theorem C151_only : forall l, ~ In Cancelled1 l -> alive l.
Proof. exact mac_only. Qed.
Print Assumptions C151_only.

(** Both timers stop: the counter they share stays at 21 at most, however long the
    process lives. *)
Theorem C151_stops : forall l, mc_i (mac_run l mac_init) <= 21.
Proof. exact mac_counts. Qed.
Print Assumptions C151_stops.
Example C151_stops_case : mc_i (mac_run (repeat Tick2 100) mac_init) = 20 /\
  mc_i (mac_run (repeat Tick2 100 ++ repeat Tick1 100) mac_init) = 21 /\ alive (repeat Tick2 100 ++ repeat Tick1 100).
Proof. unfold alive. vm_compute. repeat split; reflexivity. Qed.

(** With exact timers it ends 2.6 s after they start (3.6 s after Xcp_Init). *)
Example C151_case : alive (tenths 26) /\ ~ alive (tenths 27) /\ ticks1 (tenths 26) + ticks2 (tenths 26) = 19 /\
  20 <= ticks1 (repeat Tick1 20 ++ [Tick2]) /\ alive (repeat Tick2 30 ++ repeat Cancelled1 5) /\
  alive (repeat Tick2 30 ++ [Cancelled2; Tick1]) /\ ~ alive (repeat Tick2 30 ++ [Cancelled2; Tick1; Cancelled1]).
Proof. unfold alive. vm_compute. repeat split; congruence. Qed.

(** ** C152 The clock matters only for GET_DAQ_CLOCK and time stamps *)

(** Any command but GET_DAQ_CLOCK and any other operation but an event: same
    answer, same frames, same state, same undefined behaviour at any time. *)
Theorem C152_commands : forall c e o s t, timeless o -> step c (at_time t e) o s = step c e o s.
Proof. exact step_timeless. Qed.
Print Assumptions C152_commands.

(** Events without time stamps. *)
Theorem C152_events : forall c e ev s t, c_ts c = false \/ N.testbit (d_mode (s_daq s)) 4 = false ->
  step c (at_time t e) (OTrigger ev) s = step c e (OTrigger ev) s.
Proof. exact event_timeless. Qed.
Print Assumptions C152_events.

(** Whole histories, each operation at another time. *)
Theorem C152_histories : forall c l l', other_times l l' ->
  (c_ts c = false /\ Forall (fun x => match snd x with OTrigger _ => True | o => timeless o end) l \/ Forall (fun x => timeless (snd x)) l) ->
  forall s, run c l' s = run c l s.
Proof. exact run_timeless. Qed.
Print Assumptions C152_histories.

(** So on macOS, whose clock has no value, these operations have their one result ... *)
Theorem C152_macos : forall c e o s, timeless o -> forall r, mac_outcome c e o s r <-> r = step c e o s.
Proof. exact mac_one. Qed.
Print Assumptions C152_macos.

(** ... but GET_DAQ_CLOCK is answered with any four bytes. *)
Theorem C152_macos_refuted : forall c m l s o e f bs, reachable c m l s o -> dlc_ok c -> ready s -> wf_env c e ->
  c_daq c = true -> c_opt c 0xDC = true -> ~ programming s -> ~ locked c 4 s -> lenN (0xDC :: f) <= c_ctobuf c ->
  lenN bs = 4 -> bytes bs ->
  exists s' o', mac_outcome c e (ORecv (0xDC :: f)) s (Ok (s', o')) /\ sends o' (padded c ([0xFF; 0; 0; 0] ++ bs)).
Proof. exact mac_any. Qed.
Print Assumptions C152_macos_refuted.

(** A session with an event between commands, at two times; the second clock reading
    differs. *)
Example C152_case :
  let ops := [ORecv [0xFF; 0]; OTrigger 0; ORecv [0xF6; 0; 0; 0; 0; 0x10; 0; 0]; ORecv [0xF5; 4]; OMain] in
  let s := demo_st cfg_daq env_yes ops in
  other_times (map (pair env_yes) ops) (map (pair (at_time 77 env_yes)) ops) /\
  timeless (ORecv [0xF5; 4]) /\ ~ timeless (ORecv [0xDC]) /\ c_ts cfg_daq = true /\ N.testbit (d_mode (s_daq s)) 4 = false /\
  reachable cfg_daq mem0 (map (pair env_yes) ops) s (demo_out cfg_daq env_yes ops) /\
  dlc_ok cfg_daq /\ ready s /\ daq_open cfg_daq s /\ c_daq cfg_daq = true /\ c_opt cfg_daq 0xDC = true /\
  step cfg_daq (at_time 77 env_yes) (ORecv [0xDC]) s <> step cfg_daq env_yes (ORecv [0xDC]) s.
Proof.
  cbv zeta. split; [cbn [map]; repeat apply ot_cons; apply ot_nil|]. split; [exact I|]. split; [intros H; exact H|].
  do 2 fact. split; [apply daq_at; vm_compute; reflexivity|]. do 2 fact. split; [apply daq_open_b; vm_compute; reflexivity|].
  do 2 fact. intros H. apply (f_equal (fun r => match r with Ok (_, o) => map p_data o | UB _ => [] end)) in H. vm_compute in H. discriminate.
Qed.
