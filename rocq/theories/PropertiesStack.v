(** The reference slave behind TCP and the serial line (C120, C121). *)
From Coq Require Import NArith List Bool.
From Verif Require Import Base Config State Core Spec SpecMem SpecDaq SpecFrames Demo Eth SpecSxi SpecEth Net Tcp SpecTcp CasesTcp Sxi Serial SpecSerial CasesSerial SpecRef CasesRef SpecStack ProofsStack CasesStack.
Import ListNotations.
Open Scope N_scope.

(** ** C120 A TCP client talks to the reference slave *)

(** Peers come one after the other, each sends commands in frames that arrive in
    whatever portions (whole headers, see C59), and goes.  If the reference slave
    defines the replies, they are sent, in order, to the peer that asked, and
    nothing else; each peer can split what it gets into these replies, numbered
    one after the other. *)
Theorem C120_tcp : forall c m E, dlc_ok c -> c_max_ent c < 65536 -> stamp_ok c -> forall s0 blen vs qs ws os a n,
  wf_cfg c -> wf_mem m -> boot c m = Ok s0 -> t_st n = s0 -> t_tl n = false -> blen < 65536 ->
  (forall k, wf_env c (E k)) -> c_len_size c <> 0 -> Forall2 (finished blen (c_ctobuf c)) vs qs -> Forall2 (asks c) vs ws -> talks c E 0 (power_up c m) ws os a ->
  exists n' o, tcp_serve c blen E qs n = Ok (n', o) /\ Forall2 (gets c) os o /\ related c a (t_st n') /\
    (NoDup (map fst ws) -> forall p, In p (map fst ws) -> exists fr ctr, decode c (length (replies_to p os)) (bytes_to p o) = Some fr /\
       Forall2 (fun r x => reads c r (snd x)) (replies_to p os) fr /\ map fst fr = map (fun i => (ctr + N.of_nat i) mod 256 ^ c_ctr_size c) (seq 0 (length fr))).
Proof. exact tcp_thm. Qed.
Print Assumptions C120_tcp.

(** The same if the last peer stays, whoever waits behind it. *)
Theorem C120_tcp_open : forall c m E, dlc_ok c -> c_max_ent c < 65536 -> stamp_ok c -> forall s0 blen vs v qs q r ws os a n,
  wf_cfg c -> wf_mem m -> boot c m = Ok s0 -> t_st n = s0 -> t_tl n = false -> blen < 65536 ->
  (forall k, wf_env c (E k)) -> c_len_size c <> 0 -> Forall2 (finished blen (c_ctobuf c)) vs qs -> open_end blen (c_ctobuf c) v q ->
  Forall2 (asks c) (vs ++ [v]) ws -> talks c E 0 (power_up c m) ws os a ->
  exists n' o, tcp_serve c blen E (qs ++ q :: r) n = Ok (n', o) /\ Forall2 (gets c) os o /\ related c a (t_st n') /\
    (NoDup (map fst ws) -> forall p, In p (map fst ws) -> exists fr ctr, decode c (length (replies_to p os)) (bytes_to p o) = Some fr /\
       Forall2 (fun r x => reads c r (snd x)) (replies_to p os) fr /\ map fst fr = map (fun i => (ctr + N.of_nat i) mod 256 ^ c_ctr_size c) (seq 0 (length fr))).
Proof. exact tcp_open_thm. Qed.
Print Assumptions C120_tcp_open.

(** Peer 1 connects and unlocks, in four portions, and goes; peer 2 asks for the status. *)
Example C120_case : exists n' o, tcp_serve cfg_eth 68 always [conn1; conn2] net0 = Ok (n', o) /\ Forall2 (gets cfg_eth) ex_gets o /\ replies_to 2 ex_gets = [Response [0xFF; 0; 25; 0; 0; 0]].
Proof.
  destruct ex_talks as (a & os & T & ->).
  destruct (C120_tcp cfg_eth mem0 always ltac:(discriminate) eq_refl ltac:(discriminate) (t_st net0) 68 [one; two] [conn1; conn2] ex_asks ex_gets a net0 wf_eth wf_mem0 net0_boots eq_refl eq_refl eq_refl
    (fun _ => wf_yes _ wf_eth) ltac:(discriminate) ex_finished ex_carried T) as (n' & o & A & B & _).
  exists n', o. split; [exact A|]. split; [exact B|reflexivity].
Qed.

(** ** C121 A serial master talks to the reference slave *)

(** Frames arrive byte by byte, among calls that find no byte and operations of the
    application.  If the reference slave defines the replies to the commands (each
    when its last byte arrives) and operations, the slave sends them, in order, and nothing else. *)
Theorem C121_serial : forall c m, dlc_ok c -> c_max_ent c < 65536 -> stamp_ok c -> forall s0 buf fs l more lr rs a,
  wf_cfg c -> wf_mem m -> boot c m = Ok s0 -> 12 <= lenN buf <= 2 ^ 16 ->
  Forall (SpecSxi.fits (lenN buf)) fs -> Forall (fun f => good c (f_data f)) fs ->
  SpecSxi.quiet 0 (polls l) -> octets (polls l) ++ more = wires fs -> Forall around (others l) -> Forall key_local (envs l) ->
  weave 0 fs l = operations c lr -> ref_run c (power_up c m) lr rs a ->
  exists r s o, serial_run c l (sxi_init buf) s0 = Ok (r, s, o) /\ Forall2 (shows c) rs o /\ related c a s.
Proof. exact serial_ref_thm. Qed.
Print Assumptions C121_serial.

(** CONNECT, SET_MTA and DOWNLOAD; the application changes a variable while DOWNLOAD arrives. *)
Example C121_case : exists s0 r s o, boot cfg_sxi mem0 = Ok s0 /\ serial_run cfg_sxi sl_events (sxi_init (repeat 0 12)) s0 = Ok (r, s, o) /\
  Forall2 (shows cfg_sxi) sl_replies o /\ map (s_mem s) [0x1000; 0x1001; 0x1002; 0x1003] = [0x55; 0x66; 9; 3].
Proof.
  destruct sl_run as (a & rs & H & -> & M). destruct sxi_boots as (s0 & B). destruct sl_ok as (A1 & A2 & A3 & A4 & A5 & A6).
  destruct (C121_serial cfg_sxi mem0 ltac:(intro; reflexivity) eq_refl ltac:(discriminate) s0 (repeat 0 12) dl_frames sl_events [] sl_requests sl_replies a wf_sxi wf_mem0 B
    ltac:(split; discriminate) A1 A2 A3 A4 A5 A6 sl_woven H) as (r & s & o & E & F & V).
  exists s0, r, s, o. split; [exact B|]. split; [exact E|]. split; [exact F|]. rewrite <- M. apply map_ext. exact (v_mem _ _ _ V).
Qed.
