(** C161, C162: the units of time stamps. *)
From Coq Require Import ZArith NArith List Bool Lia.
From Verif Require Import Base Config Cfgs Codec State Core Spec Demo SpecDaq DemoDaq Hw SpecHw SpecMac Units SpecUnits ProofsUnits.
Import ListNotations.
Open Scope N_scope.

(** ** C161 Every unit can be configured: refuted *)

(** The hardware layers compile with these units only: on Linux not with 10 us, 100 ms
    and 1 s, though there is code for them. *)
Theorem C161_linux_refuted : forall u size a b, clock_linux u size a b <> None <-> In u [0; 1; 2; 3; 5; 6; 7].
Proof. exact linux_compiles. Qed.
Print Assumptions C161_linux_refuted.
Theorem C161_win : forall u size tps a b, clock_win u size tps a b <> None <-> In u [3; 4; 5; 6; 7; 8; 9].
Proof. exact win_compiles. Qed.
Print Assumptions C161_win.
Theorem C161_arduino : forall u e, clock_arduino u e <> None <-> In u [3; 6].
Proof. exact arduino_compiles. Qed.
Print Assumptions C161_arduino.

(** On Windows, if a unit is a whole number of ticks, and on Arduino boards the clock then counts
    units of 10^u ns.  (On Linux it does not: C68.) *)
Theorem C161_win_counts : forall u tps start e k, In u [3; 4; 5; 6; 7; 8; 9] -> 0 < k -> tps = k * 10 ^ (9 - u) ->
  clock_win u 4 tps start (start + e) = Some (Ok ((e * 10 ^ (9 - u) / tps) mod 2 ^ 32)).
Proof. exact win_value. Qed.
Print Assumptions C161_win_counts.
Theorem C161_arduino_counts : forall u e v, clock_arduino u e = Some v -> v = (e / 10 ^ u) mod 2 ^ 32.
Proof. exact arduino_value. Qed.
Print Assumptions C161_arduino_counts.

(** Five seconds on Windows (10 MHz) in units of 1 us and 100 ms, and on a board. *)
Example C161_case :
  clock_win 3 4 10000000 7 (7 + 50000000) = Some (Ok 5000000) /\ clock_win 8 4 10000000 7 (7 + 50000000) = Some (Ok 50) /\
  clock_arduino 3 5000000000 = Some 5000000 /\ clock_arduino 6 5000000000 = Some 5000 /\ clock_arduino 4 5000000000 = None /\
  clock_linux 4 4 (mkTs 1 0) (mkTs 6 0) = None /\ clock_linux 3 4 (mkTs 1 0) (mkTs 2 0) = Some 1000000000.
Proof. vm_compute. repeat split; reflexivity. Qed.

(** ** C162 A master reads time stamps right *)

(** It is told the time in microseconds, whatever the unit: src/xcp.c does not use
    XCP_DAQ_TIMESTAMP_UNIT. *)
Theorem C162_told : forall c m l s o en, reachable c m l s o -> ready s -> dlc_ok c -> wf_env c en -> daq_open c s ->
  c_opt c 0xD9 = true -> c_opt c 0xDC = true -> c_motorola c = false -> tells c en s 3 (e_timer en).
Proof. exact tells_thm. Qed.
Print Assumptions C162_told.

(** With units of 1 us that is right on Windows, if the tick divides 1 us, and on Arduino boards. *)
Theorem C162_win : forall c m l s o en tps start e k, reachable c m l s o -> ready s -> dlc_ok c -> wf_env c en -> daq_open c s ->
  c_opt c 0xD9 = true -> c_opt c 0xDC = true -> c_motorola c = false ->
  0 < k -> tps = k * 10 ^ 6 -> clock_win 3 4 tps start (start + e) = Some (Ok (e_timer en)) ->
  tells c en s 3 ((e * 10 ^ 6 / tps) mod 2 ^ 32).
Proof. exact win_told. Qed.
Print Assumptions C162_win.
Theorem C162_arduino : forall c m l s o en e, reachable c m l s o -> ready s -> dlc_ok c -> wf_env c en -> daq_open c s ->
  c_opt c 0xD9 = true -> c_opt c 0xDC = true -> c_motorola c = false ->
  clock_arduino 3 e = Some (e_timer en) -> tells c en s 3 ((e / 10 ^ 3) mod 2 ^ 32).
Proof. exact arduino_told. Qed.
Print Assumptions C162_arduino.

(** With any other unit it is wrong there, from the first microsecond on until the clock wraps ... *)
Theorem C162_win_refuted : forall c m l s o en u tps start e k, reachable c m l s o -> ready s -> dlc_ok c -> wf_env c en -> daq_open c s ->
  c_opt c 0xD9 = true -> c_opt c 0xDC = true -> c_motorola c = false ->
  In u [4; 5; 6; 7; 8; 9] -> 0 < k -> tps = k * 10 ^ (9 - u) -> clock_win u 4 tps start (start + e) = Some (Ok (e_timer en)) ->
  tps <= e * 10 ^ 6 -> e * 10 ^ 6 < tps * 2 ^ 32 ->
  exists w v, tells c en s w v /\ v <> (e * 10 ^ (9 - w) / tps).
Proof. exact win_mistold. Qed.
Print Assumptions C162_win_refuted.
Theorem C162_arduino_refuted : forall c m l s o en e, reachable c m l s o -> ready s -> dlc_ok c -> wf_env c en -> daq_open c s ->
  c_opt c 0xD9 = true -> c_opt c 0xDC = true -> c_motorola c = false ->
  clock_arduino 6 e = Some (e_timer en) -> 10 ^ 3 <= e -> e < 10 ^ 3 * 2 ^ 32 ->
  exists w v, tells c en s w v /\ v <> e / 10 ^ w.
Proof. exact arduino_mistold. Qed.
Print Assumptions C162_arduino_refuted.

(** ... and on Linux with every unit, from the first nanosecond on. *)
Theorem C162_linux_refuted : forall c m l s o en u a b e, reachable c m l s o -> ready s -> dlc_ok c -> wf_env c en -> daq_open c s ->
  c_opt c 0xD9 = true -> c_opt c 0xDC = true -> c_motorola c = false ->
  passed a b e -> 1 <= e -> e < 2 ^ 32 - 1 -> clock_linux u 4 a b = Some (e_timer en) ->
  exists w v, tells c en s w v /\ v <> e / 10 ^ w.
Proof. exact linux_told. Qed.
Print Assumptions C162_linux_refuted.

(** One second after the start on Linux, configured for 1 us. *)
Example C162_case : let l := [ORecv [0xFF; 0]] in let s := demo_st cfg_daq env_yes l in let en := at_time 1000000000 env_yes in
  reachable cfg_daq mem0 (map (pair env_yes) l) s (demo_out cfg_daq env_yes l) /\ ready s /\ dlc_ok cfg_daq /\ wf_env cfg_daq en /\ daq_open cfg_daq s /\
  c_opt cfg_daq 0xD9 = true /\ c_opt cfg_daq 0xDC = true /\ c_motorola cfg_daq = false /\
  passed (mkTs 1 0) (mkTs 2 0) (10 ^ 9) /\ clock_linux 3 4 (mkTs 1 0) (mkTs 2 0) = Some (e_timer en) /\
  clock_arduino 3 (10 ^ 12) = Some (e_timer en) /\ clock_arduino 6 (10 ^ 15) = Some (e_timer en) /\
  clock_win 3 4 (10 ^ 7) 5 (5 + 10 ^ 10) = Some (Ok (e_timer en)) /\
  match run cfg_daq (map (pair en) (map ORecv [[0xD9]; [0xDC]])) s with Ok (_, o) => map p_data o | UB _ => [] end
  = [[0xFF; 1; 63; 1; 63; 0x34; 1; 0]; [0xFF; 0; 0; 0; 0; 0xCA; 0x9A; 0x3B]].
Proof.
  cbv zeta. split; [apply daq_at; vm_compute; reflexivity|]. split; [vm_compute; split; reflexivity|]. split; [intro H; discriminate H|].
  split; [destruct (wf_yes cfg_daq wf_daq) as [A B C E]; constructor; auto; reflexivity|].
  split; [apply daq_open_b; vm_compute; reflexivity|]. do 3 (split; [vm_compute; reflexivity|]).
  split; [repeat split; discriminate|]. repeat (split; [vm_compute; reflexivity|]). vm_compute. reflexivity.
Qed.
