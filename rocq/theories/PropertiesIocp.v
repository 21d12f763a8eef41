(** C94 to C96: the Windows completion port. *)
From Coq Require Import NArith List Bool.
From Verif Require Import Base Config State Core Spec SpecProt Demo Iocp SpecIocp ProofsIocp DemoIocp.
Import ListNotations.
Open Scope N_scope.

(** ** C94 The frames of a stream are executed, each once *)

(** True if every completion carries exactly one frame: *)
Theorem C94_one_each : forall c udp p l w, headed c w -> serves udp p w ->
  Forall (fun x => lenN (snd (fst x)) = c_offset c /\ 1 <= lenN (snd x) <= c_ctobuf c) l ->
  same_as udp p (run c (map (fun x => (fst (fst x), ORecv (snd x))) l) (w_st w))
    (wrun c udp (map (fun x => WRecv (fst (fst x)) p (snd (fst x) ++ snd x)) l) w).
Proof. exact frames_run. Qed.
Print Assumptions C94_one_each.

(** In general each completion executes one command: not less, if it holds only part of a
    frame (then the previous command is repeated, or executed with mixed bytes), and not
    more, if it holds several frames (then all but the first are lost). *)
Theorem C94_refuted : forall c udp e p bs w, headed c w -> heard udp p w -> lenN (s_in (w_st w)) = c_ctobuf c -> 1 <= c_ctobuf c ->
  1 <= lenN bs <= c_offset c + c_ctobuf c -> (udp = true \/ w_sock w = true) ->
  same_as udp (if udp then p else w_cur w)
    (step c e (ORecv (if lenN bs <=? c_offset c then takeN 1 (s_in (w_st w)) else dropN (c_offset c) bs)) (w_st w)) (wstep c udp (WRecv e p bs) w).
Proof. exact any_chunk. Qed.
Print Assumptions C94_refuted.

(** CONNECT and GET_STATUS, in two completions: two answers.  In one: one.  The second cut in
    two: three. *)
Example C94_case : c_offset cfg_eth = 4 /\
  match (w <- wboot cfg_eth mem0 ;; wstep cfg_eth false (WAccept 7) w) with
  | Ok (w, _) => headed cfg_eth w /\ serves false 7 w /\ heard false 7 w /\ lenN (s_in (w_st w)) = c_ctobuf cfg_eth | UB _ => False end /\
  c94_run [[2; 0; 0; 0; 0xFF; 0]; [1; 0; 1; 0; 0xFD]] = [(7, 8); (7, 6)] /\
  c94_run [[2; 0; 0; 0; 0xFF; 0; 1; 0; 1; 0; 0xFD]] = [(7, 8)] /\
  c94_run [[2; 0; 0; 0; 0xFF; 0]; [1; 0]; [1; 0; 0xFD]] = [(7, 8); (7, 8); (7, 8)].
Proof.
  vm_compute. split; [reflexivity|]. split; [|repeat split]. split; [reflexivity|]. split; [|split; [now left|reflexivity]].
  split; [now right|]. split; [reflexivity|discriminate].
Qed.

(** ** C95 UDP: the session belongs to the master that connected *)

(** True of commands: a datagram from any other peer, CONNECT included, is not executed. *)
Theorem C95_foreign : forall c e q bs w, w_xcp w = true -> q <> w_con w ->
  exists h i, wstep c true (WRecv e q bs) w = Ok (mkW (set_s_in i (w_st w)) h true (w_sock w) q (w_con w), []).
Proof. exact foreign. Qed.
Print Assumptions C95_foreign.

(** False of data: from that datagram on all frames go to that peer. *)
Theorem C95_refuted : forall c e q bs l w w' o, w_xcp w = true -> q <> w_con w -> Forall local l -> wrun c true (WRecv e q bs :: l) w = Ok (w', o) ->
  w_cur w' = q /\ forall d x, In (d, x) o -> d = q.
Proof. exact redirected. Qed.
Print Assumptions C95_refuted.

(** Peer 1 connects and reads 100 bytes in block mode (two frames); a datagram of peer 2 before
    the second one has that frame sent to peer 2. *)
Example C95_case :
  match c95_run [WRecv env_yes 1 [2; 0; 0; 0; 0xFF; 0]] with Ok (w, _) => w_xcp w = true /\ 2 <> w_con w | UB _ => False end /\
  Forall local [WSent env_yes; WSent env_yes] /\
  match c95_run [WRecv env_yes 1 [2; 0; 0; 0; 0xFF; 0]; WRecv env_yes 1 [8; 0; 1; 0; 0xF6; 0; 0; 0; 0; 0x20; 0; 0];
                 WRecv env_yes 1 [2; 0; 2; 0; 0xF5; 100];
                 WRecv env_yes 2 [2; 0; 0; 0; 0xFF; 0]; WSent env_yes] with
  | Ok (w, o) => map (fun x => (fst x, lenN (p_data (snd x)))) o = [(1, 8); (1, 1); (1, 64); (2, 38)] /\ w_con w = 1 | UB _ => False end.
Proof. vm_compute. split; [split; [reflexivity|discriminate]|]. split; [repeat constructor|]. split; reflexivity. Qed.

(** ** C96 TCP: the session ends with the connection *)

(** True of protection and measurement: *)
Theorem C96_stopped : forall c m l w o, reachable c m l (w_st w) o ->
  exists w', wstep c false WEnd w = Ok (w', []) /\ w_xcp w' = false /\ w_sock w' = false /\ relocked_st c (w_st w') /\ same_rest (w_st w) (w_st w') /\
    (c_daq c = true -> ~ measuring (w_st w')).
Proof. exact end_thm. Qed.
Print Assumptions C96_stopped.

(** False of the session: it stays connected, and the next peer's commands are executed
    without CONNECT. *)
Theorem C96_refuted : forall c m l w o q, reachable c m l (w_st w) o -> headed c w ->
  exists w', wrun c false [WEnd; WAccept q] w = Ok (w', []) /\ s_conn (w_st w') = s_conn (w_st w) /\
    forall e h f, lenN h = c_offset c -> 1 <= lenN f <= c_ctobuf c -> same_as false q (step c e (ORecv f) (w_st w')) (wstep c false (WRecv e q (h ++ f)) w').
Proof. exact next_peer. Qed.
Print Assumptions C96_refuted.

(** Xcp_Init releases the transport: whoever comes next, by UDP or TCP, is served. *)
Theorem C96_init : forall c udp w e q w1 x, headed c w -> wstep c udp (WOp e OInit) w = Ok (w1, x) -> x = [] /\
  exists w', wstep c udp (WAccept q) w1 = Ok (w', []) /\ w_st w' = w_st w1 /\
    forall e1 h f, lenN h = c_offset c -> 1 <= lenN f <= c_ctobuf c -> same_as udp q (step c e1 (ORecv f) (w_st w1)) (wstep c udp (WRecv e1 q (h ++ f)) w').
Proof. exact init_serves. Qed.
Print Assumptions C96_init.

(** Peer 1 connects, unlocks DAQ and leaves; peer 2 is told by GET_STATUS that everything is locked, and
    writes the memory (calibration is not protected by a lock, C15). *)
Example C96_case :
  (let s := demo_st cfg_eth env_yes [ORecv [0xFF; 0]; ORecv [0xF8; 0; 4]; ORecv [0xF7; 1; 0x42]] in
   exists l o, reachable cfg_eth mem0 l s o /\ s_prot s = 0x19 /\ default_status cfg_eth = 0x1D) /\
  match (w <- wboot cfg_eth mem0 ;;
         wrun cfg_eth false
           [WAccept 1; WRecv env_yes 1 [2; 0; 0; 0; 0xFF; 0]; WRecv env_yes 1 [3; 0; 1; 0; 0xF8; 0; 4]; WRecv env_yes 1 [3; 0; 2; 0; 0xF7; 1; 0x42]; WEnd;
            WAccept 2; WRecv env_yes 2 [1; 0; 0; 0; 0xFD]; WRecv env_yes 2 [8; 0; 1; 0; 0xF6; 0; 0; 0; 0; 0x20; 0; 0];
            WRecv env_yes 2 [4; 0; 2; 0; 0xF0; 2; 0xAA; 0xBB]] w) with
  | Ok (w, o) => map (fun x => (fst x, takeN 3 (p_data (snd x)))) (skipn 2 o) = [(1, [0xFF; 0x19]); (2, [0xFF; 0; 0x1D]); (2, [0xFF]); (2, [0xFF])] /\
      map (s_mem (w_st w)) [0x1FFF; 0x2000; 0x2001; 0x2002] = [0xFF; 0xAA; 0xBB; 2] /\ headed cfg_eth w /\ s_conn (w_st w) = true
  | UB _ => False end.
Proof.
  split.
  - cbv zeta. eexists. eexists. split; [apply eth_at; vm_compute; reflexivity|]. split; vm_compute; reflexivity.
  - vm_compute. do 3 (split; [reflexivity|]). reflexivity.
Qed.
(** Peer 1 is connected by UDP; after Xcp_Init peer 2 connects. *)
Example C96_init_case :
  match (w <- wboot cfg_eth mem0 ;; wrun cfg_eth true [WRecv env_yes 1 [2; 0; 0; 0; 0xFF; 0]] w) with
  | Ok (w, _) => headed cfg_eth w /\ w_xcp w = true /\ w_con w = 1 /\
      match wrun cfg_eth true [WRecv env_yes 2 [2; 0; 0; 0; 0xFF; 0]; WOp env_yes OInit; WRecv env_yes 2 [2; 0; 0; 0; 0xFF; 0]] w with
      | Ok (w', o) => map fst o = [2] /\ w_con w' = 2 | UB _ => False end
  | UB _ => False end.
Proof. vm_compute. repeat split. Qed.
