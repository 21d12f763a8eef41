(** The reference slave on a CAN bus (C126, C127) behind a completion port (C128), on an Arduino board (C129). *)
From Coq Require Import NArith List Bool.
From Verif Require Import Base Config Cfgs State Core Spec SpecMem SpecDaq Demo Can SpecCan Kv SpecKv CanBus Iocp Ino SpecIno SpecRef CasesRef SpecStack CasesMisc SpecBus ProofsBus CasesBus.
Import ListNotations.
Open Scope N_scope.

(** ** C126 A master on SocketCAN talks to the reference slave *)

(** Commands arrive in frames with one of the two identifiers, padded with arbitrary
    bytes or not, among frames with other standard identifiers, empty frames, and operations
    of the application.  If the reference slave defines the replies, exactly these are on the
    bus, in order, in frames with the outbound identifier, and nothing is written beyond a
    buffer: for classic and FD frames, standard and extended identifiers. *)
Theorem C126_socketcan : forall c m, dlc_ok c -> c_max_ent c < 65536 -> stamp_ok c -> forall s0 fd xi i xb b xo o l lr rs a,
  wf_cfg c -> wf_mem m -> boot c m = Ok s0 ->
  in_range xi i -> in_range xb b -> in_range xo o -> c_len_size c = 0 -> c_ctr_size c = 0 -> c_max_cto c <= frame_room fd -> c_max_dto c <= frame_room fd ->
  traffic c (can_own (xi, i) (xb, b)) (can_noise (xi, i) (xb, b)) l lr -> ref_run c (power_up c m) lr rs a ->
  exists s fs, sock_run c fd (configured xi i) (configured xb b) (configured xo o) l s0 = Ok (s, fs) /\
    Forall2 (can_shows c (xo, o)) rs fs /\ related c a s.
Proof. exact can_ref_thm. Qed.
Print Assumptions C126_socketcan.

Example C126_case : exists s0 s fs, boot cfg_can mem0 = Ok s0 /\ sock_run cfg_can false 0x300 (configured true 0x18DA1234) 0x222 can_events s0 = Ok (s, fs) /\
  Forall2 (can_shows cfg_can (false, 0x222)) bus_replies fs.
Proof.
  destruct can_boots as (s0 & B). destruct (bus_run cfg_can wf_can (or_introl eq_refl)) as (a & rs & H & ->).
  destruct (C126_socketcan cfg_can mem0 ltac:(discriminate) eq_refl ltac:(discriminate) s0 false false 0x300 true 0x18DA1234 false 0x222 can_events bus_requests bus_replies a
    wf_can wf_mem0 B eq_refl eq_refl eq_refl eq_refl eq_refl ltac:(discriminate) ltac:(discriminate) can_traffic H) as (s & fs & A & F & _).
  exists s0, s, fs. auto.
Qed.

(** ** C127 A master on a Kvaser interface talks to the reference slave *)

(** The same with frames of up to eight bytes, one identifier for commands (the broadcast
    identifier is not answered, see C98) and, where it is demanded, the full length of frames;
    no lock stays held.  Noise are all other data frames, also those with extended identifiers. *)
Theorem C127_kvaser : forall c m, dlc_ok c -> c_max_ent c < 65536 -> stamp_ok c -> forall s0 xi i xb b xo o l lr rs a,
  wf_cfg c -> wf_mem m -> boot c m = Ok s0 ->
  in_range xi i -> in_range xb b -> in_range xo o -> c_len_size c = 0 -> c_ctr_size c = 0 -> c_max_cto c <= 8 -> c_max_dto c <= 8 ->
  traffic c (kv_own c (xi, i)) (kv_noise c (xi, i)) l lr -> ref_run c (power_up c m) lr rs a ->
  exists s fs, kv_run c (configured xi i) (configured xb b) (configured xo o) l (s0, ([], 0)) = Ok (s, (fs, 0)) /\
    Forall2 (kv_shows c (xo, o)) rs fs /\ related c a s.
Proof. exact kv_ref_thm. Qed.
Print Assumptions C127_kvaser.

Example C127_case : exists s0 s fs, boot (w_max_dlc true cfg_can) mem0 = Ok s0 /\
  kv_run (w_max_dlc true cfg_can) (configured true 0x1234567) 0x7FF 0x222 kv_events (s0, ([], 0)) = Ok (s, (fs, 0)) /\
  Forall2 (kv_shows (w_max_dlc true cfg_can) (false, 0x222)) bus_replies fs.
Proof.
  destruct dlc_boots as (s0 & B). destruct (bus_run (w_max_dlc true cfg_can) wf_dlc (or_intror eq_refl)) as (a & rs & H & ->).
  destruct (C127_kvaser (w_max_dlc true cfg_can) mem0 ltac:(intros _; reflexivity) eq_refl ltac:(discriminate) s0 true 0x1234567 false 0x7FF false 0x222 kv_events bus_requests bus_replies a
    wf_dlc wf_mem0 B eq_refl eq_refl eq_refl eq_refl eq_refl ltac:(discriminate) ltac:(discriminate) kv_traffic H) as (s & fs & A & F & _).
  exists s0, s, fs. auto.
Qed.

(** ** C128 A master talks to the reference slave on Windows *)

(** Ethernet with a completion port, UDP or TCP: the master's commands arrive each in one
    completion (C94), among operations of the application and completions of
    transmissions.  Exactly the replies of the reference slave are sent, in order, to the master. *)
Theorem C128_iocp : forall c m, dlc_ok c -> c_max_ent c < 65536 -> stamp_ok c -> forall w0 udp p l lr rs a,
  wf_cfg c -> wf_mem m -> wboot c m = Ok w0 -> (udp = true -> comes p l) -> completes c p l lr -> ref_run c (power_up c m) lr rs a ->
  exists w o, wrun c udp ((if udp then [] else [WAccept p]) ++ l) w0 = Ok (w, o) /\
    Forall2 (fun r x => gets c (p, r) x) rs o /\ related c a (w_st w).
Proof. exact iocp_ref_thm. Qed.
Print Assumptions C128_iocp.

(** The 36 requests of C119, by UDP and by TCP. *)
Example C128_case : forall udp, exists w0 w o, wboot cfg_eth mem0 = Ok w0 /\
  wrun cfg_eth udp ((if udp then [] else [WAccept 7]) ++ iocp_events) w0 = Ok (w, o) /\ Forall2 (fun r x => gets cfg_eth (7, r) x) ex_replies o.
Proof.
  intro udp. destruct iocp_boots as (w0 & B). destruct session_run as (a & rs & H & -> & _).
  destruct (C128_iocp cfg_eth mem0 ltac:(discriminate) eq_refl ltac:(discriminate) w0 udp 7 iocp_events ex_session ex_replies a wf_eth wf_mem0 B (fun _ => eq_refl) iocp_completes H) as (w & o & A & F & _).
  exists w0, w, o. auto.
Qed.

(** ** C129 A master talks to the reference slave on an Arduino board *)

(** CAN frames arrive by interrupt, each after the previous one has been executed (C91, C92), with any
    identifier (C93), padded with arbitrary bytes or not, among operations of the application. *)
Theorem C129_arduino : forall c m, dlc_ok c -> c_max_ent c < 65536 -> stamp_ok c -> forall s0 ws lr rs a,
  wf_cfg c -> wf_mem m -> boot c m = Ok s0 -> Forall (paced c) ws ->
  traffic c ino_own (fun _ => False) (map on_bus ws) lr -> ref_run c (power_up c m) lr rs a ->
  exists x o, irun c (flat_map as_run ws) (iboot s0) = Ok (x, o) /\ Forall2 (shows c) rs o /\ related c a (i_st x).
Proof. exact ino_ref_thm. Qed.
Print Assumptions C129_arduino.

Example C129_case : exists s0 x o, boot cfg_can mem0 = Ok s0 /\ irun cfg_can (flat_map as_run ino_work) (iboot s0) = Ok (x, o) /\ Forall2 (shows cfg_can) bus_replies o.
Proof.
  destruct can_boots as (s0 & B). destruct (bus_run cfg_can wf_can (or_introl eq_refl)) as (a & rs & H & ->).
  destruct (C129_arduino cfg_can mem0 ltac:(discriminate) eq_refl ltac:(discriminate) s0 ino_work bus_requests bus_replies a wf_can wf_mem0 B ino_paced ino_traffic H) as (x & o & A & F & _).
  exists s0, x, o. auto.
Qed.
