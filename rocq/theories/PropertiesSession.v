(** C01 - C06: sessions and dispatch. *)
From Coq Require Import NArith List Bool Lia.
From Verif Require Import Base Config Codec State Core Spec Demo Steps ProofsSession CasesSession.
Import ListNotations.
Open Scope N_scope.

(** ** C01 Silence before CONNECT *)

(** Whatever happened before, as long as no CONNECT was received: the slave is not
    connected, and any further frame that is not CONNECT is swallowed. *)
Theorem C01_frame_before_connect : forall c m l s o,
  reachable c m l s o -> no_connect l ->
  s_conn s = false /\
  forall e f, ~ is_cmd 0xFF f -> lenN f <= c_ctobuf c ->
  exists s', step c e (ORecv f) s = Ok (s', []) /\ same_session s s' /\
    s_out s' = s_out s /\ s_ctr s' = s_ctr s /\ s_cros s' = s_cros s /\ s_crosb s' = s_crosb s.
Proof. exact frame_before_connect. Qed.
Print Assumptions C01_frame_before_connect.

(** A power-on history of frames other than CONNECT, main-function calls and event
    triggers sends nothing and leaves the session as initialised. *)
Theorem C01_silence : forall c m l s o,
  reachable c m l s o -> Forall quiet l ->
  o = [] /\ exists s0, boot c m = Ok s0 /\ same_session s0 s.
Proof. exact silence. Qed.
Print Assumptions C01_silence.

Example C01_case :
  reachable cfg_eth mem0 (map (pair env_yes) ex_quiet) (demo_st cfg_eth env_yes ex_quiet) (demo_out cfg_eth env_yes ex_quiet) /\
  Forall quiet (map (pair env_yes) ex_quiet) /\ no_connect (map (pair env_yes) ex_quiet) /\ ~ is_cmd 0xFF [0xE1; 1; 2].
Proof.
  split; [apply eth_at; vm_compute; reflexivity|]. split; [|split].
  - repeat constructor; discriminate.
  - intros e f H. repeat (destruct H as [H|H]; [try discriminate; injection H as _ <-; discriminate|]). destruct H.
  - discriminate.
Qed.

(** ** C02 CONNECT succeeds and reports the compiled parameters *)
Theorem C02_connect : forall c m l s o e f,
  reachable c m l s o -> dlc_ok c -> s_conn s && s_busy s = false -> is_cmd 0xFF f -> lenN f <= c_ctobuf c ->
  exists s' o', step c e (ORecv f) s = Ok (s', o') /\ sends o' (connect_response c) /\ same_session (set_s_conn true s) s'.
Proof. exact connect_thm. Qed.
Print Assumptions C02_connect.

Example C02_case :
  reachable cfg_eth mem0 (map (pair env_yes) ex_quiet) (demo_st cfg_eth env_yes ex_quiet) (demo_out cfg_eth env_yes ex_quiet) /\
  dlc_ok cfg_eth /\ s_conn (demo_st cfg_eth env_yes ex_quiet) && s_busy (demo_st cfg_eth env_yes ex_quiet) = false /\
  is_cmd 0xFF [0xFF; 0] /\ lenN [0xFF; 0] <= c_ctobuf cfg_eth /\
  connect_response cfg_eth = [0xFF; 0x15; 0x80; 64; 64; 0; 1; 1].
Proof.
  split; [apply eth_at; vm_compute; reflexivity|]. repeat split; try discriminate.
Qed.

(** ** C03 DISCONNECT ends the session: false *)

(** A slave acknowledges DISCONNECT and then still answers GET_STATUS. *)
Theorem C03_refuted : exists c m l e s o s' o' p,
  reachable c m (l ++ [(e, ORecv [0xFE])]) s o /\ s_busy s = false /\
  (exists o1, o = o1 ++ [p] /\ p_data p = [0xFF]) /\
  step c e (ORecv [0xFD]) s = Ok (s', o') /\ o' <> [].
Proof. exact disconnect_refuted. Qed.
Print Assumptions C03_refuted.

(** The only operation that ends a session is Xcp_Init. *)
Theorem C03_connected_until_init : forall c e op s s' o,
  wf_op c (e, op) -> s_conn s = true -> op <> OInit -> step c e op s = Ok (s', o) -> s_conn s' = true.
Proof. exact connected_until_init. Qed.
Print Assumptions C03_connected_until_init.

Example C03_case :
  let s := demo_st cfg_eth env_yes [ORecv [0xFF; 0]] in
  s_conn s = true /\ exists s' o, step cfg_eth env_yes (ORecv [0xFE]) s = Ok (s', o).
Proof. split; [vm_compute; reflexivity|]. eexists. eexists. vm_compute. reflexivity. Qed.

(** ** C04 A busy slave answers only ERR_CMD_BUSY *)
Theorem C04_busy : forall c m l s o e f,
  reachable c m l s o -> dlc_ok c -> s_conn s = true -> s_busy s = true -> f <> [] -> lenN f <= c_ctobuf c ->
  exists s' o', step c e (ORecv f) s = Ok (s', o') /\ sends o' (padded c [0xFE; 0x10]) /\ same_session s s' /\
    s_ctos s' = s_ctos s.
Proof. exact busy_thm. Qed.
Print Assumptions C04_busy.

(** Busy during a background checksum (200 bytes in chunks of 64). *)
Example C04_case :
  reachable cfg_eth mem0 (map (pair env_yes) ex_busy) (demo_st cfg_eth env_yes ex_busy) (demo_out cfg_eth env_yes ex_busy) /\
  s_conn (demo_st cfg_eth env_yes ex_busy) = true /\ s_busy (demo_st cfg_eth env_yes ex_busy) = true.
Proof. split; [apply eth_at; vm_compute; reflexivity|]. split; vm_compute; reflexivity. Qed.

(** ** C05 Every command byte is handled within the command table: false below 0xC7 *)

(** Codes that the build does not implement but that lie within the table. *)
Theorem C05_unimplemented : forall c m l s o e k t,
  reachable c m l s o -> dlc_ok c -> s_conn s = true -> s_busy s = false ->
  0xC7 <= k <= 0xFF -> implemented c k = false -> lenN (k :: t) <= c_ctobuf c ->
  exists s' o', step c e (ORecv (k :: t)) s = Ok (s', o') /\ sends o' (padded c [0xFE; 0x20]) /\ same_session s s'.
Proof. exact unknown_thm. Qed.
Print Assumptions C05_unimplemented.

(** Every code below 0xC7 reads a function pointer beyond the end of the table. *)
Theorem C05_refuted : forall c m l s o e k t,
  reachable c m l s o -> s_conn s = true -> s_busy s = false -> k < 0xC7 -> lenN (k :: t) <= c_ctobuf c ->
  step c e (ORecv (k :: t)) s = UB OobTable.
Proof. exact below_table_thm. Qed.
Print Assumptions C05_refuted.

Example C05_case :
  reachable cfg_eth mem0 (map (pair env_yes) ex_conn) (demo_st cfg_eth env_yes ex_conn) (demo_out cfg_eth env_yes ex_conn) /\
  s_conn (demo_st cfg_eth env_yes ex_conn) = true /\ s_busy (demo_st cfg_eth env_yes ex_conn) = false /\
  implemented cfg_eth 0xEB = false /\ implemented cfg_eth 0xF5 = true.
Proof. split; [apply eth_at; vm_compute; reflexivity|]. repeat split; vm_compute; reflexivity. Qed.

(** ** C06 Each command gets exactly one response *)

(** True of all commands but START_STOP_DAQ_LIST and GET_DAQ_LIST_INFO with a list
    number that does not exist. *)
Theorem C06_one_response : forall c m l s o e k t s' o',
  reachable c m l s o -> dlc_ok c -> s_conn s = true -> s_busy s = false -> k < 256 ->
  step c e (ORecv (k :: t)) s = Ok (s', o') ->
  (exists p, o' = [p] /\ resp p) \/
  (o' = [] /\ silent c k (rxbuf s (k :: t)) s s') \/
  ((k = 0xDE \/ k = 0xD8) /\ d_lcnt (s_daq s) <= gw c (rxbuf s (k :: t)) 2 mod we c /\
   exists p q, o' = [p; q] /\ resp p /\ resp q).
Proof. exact one_response_thm. Qed.
Print Assumptions C06_one_response.

(** Those two commands answer twice: ERR_OUT_OF_RANGE is followed by a positive
    response (START_STOP_DAQ_LIST) or by a second error (GET_DAQ_LIST_INFO). *)
Theorem C06_refuted : exists c m l e s o,
  reachable c m l s o /\ s_conn s = true /\ s_busy s = false /\
  (exists s' p q, step c e (ORecv [0xDE; 0; 7; 0]) s = Ok (s', [p; q]) /\ p_data p = [0xFE; 0x22] /\ hd_error (p_data q) = Some 0xFF) /\
  (exists s' p q, step c e (ORecv [0xD8; 0; 7; 0]) s = Ok (s', [p; q]) /\ p_data p = [0xFE; 0x22] /\ p_data q = [0xFE; 0x21]).
Proof. exact two_responses. Qed.
Print Assumptions C06_refuted.

Example C06_case :
  let s := demo_st cfg_eth env_yes ex_conn in
  s_conn s = true /\ s_busy s = false /\
  (exists s' o, step cfg_eth env_yes (ORecv [0xF5; 4]) s = Ok (s', o) /\ o <> []) /\
  (exists s' o, step cfg_eth env_yes (ORecv [0xF1]) s = Ok (s', o) /\ o = []).
Proof.
  split; [vm_compute; reflexivity|]. split; [vm_compute; reflexivity|]. split.
  - eexists. eexists. split; [vm_compute; reflexivity|discriminate].
  - eexists. eexists. split; vm_compute; reflexivity.
Qed.
