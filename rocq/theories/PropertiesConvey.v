(** Transport layers convey what the slave does (C132), blocks and background checksums included (C133). *)
From Coq Require Import NArith List Bool.
From Verif Require Import Base Config State Core Spec SpecMem SpecDaq SpecE2e Demo Can SpecCan Kv SpecKv CanBus Net Iocp Ino SpecIno Sxi SpecSxi Serial SpecSerial
  SpecRef SpecStack SpecBus SpecTask CasesTask SpecConvey ProofsConvey ProofsRef CasesConvey.
Import ListNotations.
Open Scope N_scope.

(** ** C132 On CAN, the slave does what it is told *)

(** SocketCAN: traffic that conveys operations - commands with all their parameters, padded or not, to one of the
    two identifiers, among frames for others - has exactly the effect of these operations: same packets, in
    frames with the slave's identifier, same state, same undefined behaviour; from any reachable state. *)
Theorem C132_socketcan : forall c m l0 s o0 fd xi i xb b xo o l lo, reachable c m l0 s o0 -> in_range xi i -> in_range xb b -> in_range xo o -> c_len_size c = 0 -> c_ctr_size c = 0 ->
  c_max_cto c <= frame_room fd -> c_max_dto c <= frame_room fd -> conveys c (can_own (xi, i) (xb, b)) (can_noise (xi, i) (xb, b)) l lo -> wf_run c lo ->
  like (run c lo s) (sock_run c fd (configured xi i) (configured xb b) (configured xo o) l s) (fun y => y) (can_frames (xo, o)).
Proof. exact sock_convey. Qed.
Print Assumptions C132_socketcan.

(** Kvaser, commands to the slave's own identifier. *)
Theorem C132_kvaser : forall c m l0 s o0 fr xi i xb b xo o l lo, reachable c m l0 s o0 -> in_range xi i -> in_range xb b -> in_range xo o -> c_len_size c = 0 -> c_ctr_size c = 0 ->
  c_max_cto c <= 8 -> c_max_dto c <= 8 -> conveys c (kv_own c (xi, i)) (kv_noise c (xi, i)) l lo -> wf_run c lo ->
  like (run c lo s) (kv_run c (configured xi i) (configured xb b) (configured xo o) l (s, (fr, 0))) (fun y => y) (fun o' => (fr ++ kv_frames (xo, o) o', 0)).
Proof. exact kv_convey. Qed.
Print Assumptions C132_kvaser.

(** Arduino, if each frame comes after the one before has been executed. *)
Theorem C132_arduino : forall c m l0 x o0 ws lo, reachable c m l0 (i_st x) o0 -> resting x -> Forall (paced c) ws -> conveys c ino_own (fun _ => False) (map on_bus ws) lo -> wf_run c lo ->
  like (run c lo (i_st x)) (irun c (flat_map as_run ws) x) i_st (fun o => o).
Proof. exact ino_convey. Qed.
Print Assumptions C132_arduino.

(** Seven operations, beyond what the reference slave has rules for: DOWNLOAD_NEXT without DOWNLOAD, an event, programming. *)
Example C132_case : exists s s', reachable cfg_blocks mem0 [] s [] /\
  sock_run cfg_blocks false 0x300 (configured true 0x18DA1234) 0x222 (with_others other_can on_can ex_odd) s = Ok (s', odd_frames) /\
  map n_data odd_frames = [[0xFF; 0x15; 0xC0; 8; 8; 0; 1; 1]; [0xFF]; [0xFE; 0x29]; [0xFF; 0; 0; 8; 0; 0; 0]; [0xFF]].
Proof.
  assert (R : reachable cfg_blocks mem0 [] (demo_st cfg_blocks env_yes []) []) by (apply (demo_at cfg_blocks env_yes [] wf_blocks (wf_yes _ wf_blocks) eq_refl)).
  pose proof (C132_socketcan cfg_blocks mem0 [] _ [] false false 0x300 true 0x18DA1234 false 0x222 _ _ R eq_refl eq_refl eq_refl eq_refl eq_refl ltac:(discriminate) ltac:(discriminate)
    (can_conveys cfg_blocks ex_odd odd_conveyable) odd_wf) as L.
  assert (E : exists s1 o1, run cfg_blocks ex_odd (demo_st cfg_blocks env_yes []) = Ok (s1, o1) /\ can_frames (false, 0x222) o1 = odd_frames).
  { unfold odd_frames. destruct (run cfg_blocks ex_odd (demo_st cfg_blocks env_yes [])) as [(s1 & o1)|w] eqn:E; [eauto|]. exfalso. vm_compute in E. discriminate. }
  destruct E as (s1 & o1 & E & F). rewrite E in L. destruct L as (y & A & _). exists (demo_st cfg_blocks env_yes []), y. rewrite <- F at 1. split; [exact R|]. split; [exact A|vm_compute; reflexivity].
Qed.

(** ** C133 Blocks and background checksums behind the transport layers *)

(** Whatever the reference slave of C131 replies is on the bus, in frames with the slave's identifier, in this order,
    and nothing else is. *)
Theorem C133_socketcan : forall c m l0 s o0 fd xi i xb b xo o l lr a t rs a' t', dlc_ok c -> c_max_ent c < 65536 -> stamp_ok c -> reachable c m l0 s o0 -> trelated c a t s ->
  in_range xi i -> in_range xb b -> in_range xo o -> c_len_size c = 0 -> c_ctr_size c = 0 -> c_max_cto c <= frame_room fd -> c_max_dto c <= frame_room fd ->
  conveys c (can_own (xi, i) (xb, b)) (can_noise (xi, i) (xb, b)) l (toperations c lr) -> task_run c a t lr rs a' t' ->
  exists s' fs, sock_run c fd (configured xi i) (configured xb b) (configured xo o) l s = Ok (s', fs) /\ Forall2 (can_shows c (xo, o)) rs fs /\ trelated c a' t' s'.
Proof. exact sock_tasks. Qed.
Print Assumptions C133_socketcan.

Theorem C133_kvaser : forall c m l0 s o0 fr xi i xb b xo o l lr a t rs a' t', dlc_ok c -> c_max_ent c < 65536 -> stamp_ok c -> reachable c m l0 s o0 -> trelated c a t s ->
  in_range xi i -> in_range xb b -> in_range xo o -> c_len_size c = 0 -> c_ctr_size c = 0 -> c_max_cto c <= 8 -> c_max_dto c <= 8 ->
  conveys c (kv_own c (xi, i)) (kv_noise c (xi, i)) l (toperations c lr) -> task_run c a t lr rs a' t' ->
  exists s' fs, kv_run c (configured xi i) (configured xb b) (configured xo o) l (s, (fr, 0)) = Ok (s', (fr ++ fs, 0)) /\ Forall2 (kv_shows c (xo, o)) rs fs /\ trelated c a' t' s'.
Proof. exact kv_tasks. Qed.
Print Assumptions C133_kvaser.

Theorem C133_arduino : forall c m l0 x o0 ws lr a t rs a' t', dlc_ok c -> c_max_ent c < 65536 -> stamp_ok c -> reachable c m l0 (i_st x) o0 -> trelated c a t (i_st x) -> resting x ->
  Forall (paced c) ws -> conveys c ino_own (fun _ => False) (map on_bus ws) (toperations c lr) -> task_run c a t lr rs a' t' ->
  exists x' o, irun c (flat_map as_run ws) x = Ok (x', o) /\ Forall2 (shows c) rs o /\ trelated c a' t' (i_st x').
Proof. exact ino_tasks. Qed.
Print Assumptions C133_arduino.

(** A serial line, byte by byte. *)
Theorem C133_serial : forall c m l0 s o0 buf fs l more lr a t rs a' t', dlc_ok c -> c_max_ent c < 65536 -> stamp_ok c -> reachable c m l0 s o0 -> trelated c a t s ->
  12 <= lenN buf <= 2 ^ 16 -> Forall (SpecSxi.fits (lenN buf)) fs -> Forall (fun f => good c (f_data f)) fs ->
  SpecSxi.quiet 0 (polls l) -> octets (polls l) ++ more = wires fs -> Forall around (others l) -> Forall key_local (envs l) ->
  weave 0 fs l = toperations c lr -> task_run c a t lr rs a' t' ->
  exists r s' o, serial_run c l (sxi_init buf) s = Ok (r, s', o) /\ Forall2 (shows c) rs o /\ trelated c a' t' s'.
Proof. exact serial_tasks. Qed.
Print Assumptions C133_serial.

(** A completion port, UDP or TCP: here the completion of a transmission sends the next part of an upload, too. *)
Theorem C133_iocp : forall c m w0 udp p l rs a t, dlc_ok c -> c_max_ent c < 65536 -> stamp_ok c -> wf_cfg c -> wf_mem m -> wboot c m = Ok w0 -> (udp = true -> comes p l) ->
  port_run c p (power_up c m) Free l rs a t ->
  exists w o, wrun c udp ((if udp then [] else [WAccept p]) ++ l) w0 = Ok (w, o) /\ Forall2 (fun r x => gets c (p, r) x) rs o /\ trelated c a t (w_st w).
Proof. exact iocp_tasks. Qed.
Print Assumptions C133_iocp.

(** The session of C131 on all of them. *)
Example C133_can_case : exists s0 s fs, boot cfg_blocks mem0 = Ok s0 /\
  sock_run cfg_blocks false 0x300 (configured true 0x18DA1234) 0x222 (with_others other_can on_can (toperations cfg_blocks ex_tasks)) s0 = Ok (s, fs) /\
  Forall2 (can_shows cfg_blocks (false, 0x222)) ex_task_replies fs.
Proof.
  destruct blocks_boot as (s0 & B). destruct tasks_run as (a & rs & H & ->). destruct (boot_start cfg_blocks mem0 s0 wf_blocks wf_mem0 eq_refl B) as (R & V).
  destruct (C133_socketcan cfg_blocks mem0 [] s0 [] false false 0x300 true 0x18DA1234 false 0x222 _ _ _ _ _ _ _ ltac:(discriminate) eq_refl ltac:(discriminate) R V
    eq_refl eq_refl eq_refl eq_refl eq_refl ltac:(discriminate) ltac:(discriminate) (can_conveys _ _ tasks_conveyable) H) as (s & fs & A & F & _).
  exists s0, s, fs. auto.
Qed.
Example C133_kvaser_case : exists s0 s fs, boot cfg_blocks mem0 = Ok s0 /\
  kv_run cfg_blocks (configured true 0x1234567) 0x7FF 0x222 (with_others other_kv on_kv (toperations cfg_blocks ex_tasks)) (s0, ([], 0)) = Ok (s, (fs, 0)) /\
  Forall2 (kv_shows cfg_blocks (false, 0x222)) ex_task_replies fs.
Proof.
  destruct blocks_boot as (s0 & B). destruct tasks_run as (a & rs & H & ->). destruct (boot_start cfg_blocks mem0 s0 wf_blocks wf_mem0 eq_refl B) as (R & V).
  destruct (C133_kvaser cfg_blocks mem0 [] s0 [] [] true 0x1234567 false 0x7FF false 0x222 _ _ _ _ _ _ _ ltac:(discriminate) eq_refl ltac:(discriminate) R V
    eq_refl eq_refl eq_refl eq_refl eq_refl ltac:(discriminate) ltac:(discriminate) (kv_conveys cfg_blocks _ eq_refl ltac:(discriminate) tasks_conveyable) H) as (s & fs & A & F & _).
  exists s0, s, fs. auto.
Qed.
Example C133_arduino_case : exists s0 x o, boot cfg_blocks mem0 = Ok s0 /\
  irun cfg_blocks (flat_map as_run (map on_ino (toperations cfg_blocks ex_tasks))) (iboot s0) = Ok (x, o) /\ Forall2 (shows cfg_blocks) ex_task_replies o.
Proof.
  destruct blocks_boot as (s0 & B). destruct tasks_run as (a & rs & H & ->). destruct (boot_start cfg_blocks mem0 s0 wf_blocks wf_mem0 eq_refl B) as (R & V).
  destruct (C133_arduino cfg_blocks mem0 [] (iboot s0) [] _ _ _ _ _ _ _ ltac:(discriminate) eq_refl ltac:(discriminate) R V
    ltac:(repeat split) tasks_paced (ino_conveys cfg_blocks _ tasks_conveyable) H) as (x & o & A & F & _).
  exists s0, x, o. auto.
Qed.
Example C133_serial_case : exists s0 r s o, boot cfg_line mem0 = Ok s0 /\ serial_run cfg_line line_events (sxi_init (repeat 0 12)) s0 = Ok (r, s, o) /\
  Forall2 (shows cfg_line) ex_task_replies o.
Proof.
  destruct line_boots as (s0 & B). destruct tasks_run_line as (a & rs & H & ->). destruct (boot_start cfg_line mem0 s0 wf_line wf_mem0 eq_refl B) as (R & V).
  destruct line_ok as (X1 & X2 & X3 & X4 & X5 & X6 & X7).
  destruct (C133_serial cfg_line mem0 [] s0 [] (repeat 0 12) (number line_ops) line_events [] ex_tasks _ _ _ _ _ ltac:(discriminate) eq_refl ltac:(discriminate) R V
    ltac:(split; discriminate) X1 X2 X3 X4 X5 X6 X7 H) as (r & s & o & A & F & _).
  exists s0, r, s, o. auto.
Qed.
Example C133_iocp_case : forall udp, exists w0 w o, wboot cfg_line mem0 = Ok w0 /\ wrun cfg_line udp ((if udp then [] else [WAccept 7]) ++ port_events) w0 = Ok (w, o) /\
  Forall2 (fun r x => gets cfg_line (7, r) x) port_replies o.
Proof.
  intro udp. destruct port_boots as (w0 & B). destruct port_session as (a & rs & H & ->).
  destruct (C133_iocp cfg_line mem0 w0 udp 7 port_events port_replies a Free ltac:(discriminate) eq_refl ltac:(discriminate) wf_line wf_mem0 B (fun _ => eq_refl) H) as (w & o & A & F & _).
  exists w0, w, o. auto.
Qed.
