(** C110 and C111: the slave behind TCP. *)
From Coq Require Import NArith List Bool Lia.
From Verif Require Import Base Config State Core Spec Demo SpecFrames Steps Eth SpecSxi SpecEth Net Tcp SpecTcp ProofsTcp CasesTcp.
Import ListNotations.
Open Scope N_scope.

(** ** C110 Commands in, responses out *)

(** Peers come one after the other, send their frames, in whatever portions (whole headers, see
    C59), and go: the slave does what it would do for the commands alone, and everything it sends goes to the peer
    whose command it executes.  The same if the last peer stays, and whoever
    waits behind it is neither read nor answered. *)
Theorem C110_visits : forall c blen E vs qs n, blen < 65536 -> Forall2 (finished blen (c_ctobuf c)) vs qs -> t_tl n = false ->
  seen (tcp_serve c blen E qs n) = visits c E 0 vs (t_st n) /\
  forall v q r, open_end blen (c_ctobuf c) v q -> seen (tcp_serve c blen E (qs ++ q :: r) n) = visits c E 0 (vs ++ [v]) (t_st n).
Proof. exact visits_thm. Qed.
Print Assumptions C110_visits.

(** Each peer can tell the frames apart: the bytes it gets are the frames that its commands produce, complete and numbered. *)
Theorem C110_streams : forall c m l s o E vs s' o', reachable c m l s o -> (forall k, wf_env c (E k)) -> Forall (fun v => Forall bytes (said v)) vs ->
  c_len_size c <> 0 -> NoDup (map fst vs) -> visits c E 0 vs s = Ok (s', o') ->
  forall vs1 v vs2, vs = vs1 ++ v :: vs2 ->
  exists s1 s2 ov, let mine := filter (fun x => fst x =? fst v) o' in
    run c (commands E (lenN (concat (map said vs1))) (said v)) s1 = Ok (s2, ov) /\ map snd mine = ov /\
    decode c (length ov) (bytes_to (fst v) o') = Some (numbered c (s_ctr s1) ov).
Proof. exact decodes_thm. Qed.
Print Assumptions C110_streams.

(** An empty frame is not ignored, unless the peer has a session: before CONNECT, after DISCONNECT and after a wrong key the peer is
    abandoned; whatever it sends after the empty frame ([y] and [tl]) is not even read, and the slave turns to the next peers. *)
Theorem C110_empty_refuted : forall c m l o E blen vs qs n p fs e0 y cs tl, reachable c m l (t_st n) o -> dlc_ok c -> (forall k, wf_env c (E k)) -> blen < 65536 ->
  Forall bytes (map f_data fs) -> Forall (sendable blen (c_ctobuf c)) fs -> empty e0 -> y <> [] -> portions cs ->
  concat cs = wires (fs ++ [e0]) ++ y -> headers_whole (fs ++ [e0]) cs -> Forall2 (finished blen (c_ctobuf c)) vs qs -> t_tl n = false ->
  held c E 0 (map f_data fs) false (t_st n) = false ->
  seen (tcp_serve c blen E (mkConn p (map Data cs ++ tl) :: qs) n) = visits c E 0 ((p, fs) :: vs) (t_st n).
Proof. exact abandoned_thm. Qed.
Print Assumptions C110_empty_refuted.

(** During a session it is. *)
Theorem C110_empty_session : forall c m l o E blen vs qs n p fs e0 gs cs, reachable c m l (t_st n) o -> dlc_ok c -> (forall k, wf_env c (E k)) -> blen < 65536 ->
  Forall bytes (map f_data fs) -> Forall (sendable blen (c_ctobuf c)) (fs ++ gs) -> empty e0 -> gs <> [] -> portions cs ->
  concat cs = wires (fs ++ e0 :: gs) -> headers_whole (fs ++ e0 :: gs) cs -> Forall2 (finished blen (c_ctobuf c)) vs qs -> t_tl n = false ->
  held c E 0 (map f_data fs) false (t_st n) = true ->
  seen (tcp_serve c blen E (mkConn p (map Data cs ++ [Eof]) :: qs) n) = visits c E 0 ((p, fs ++ gs) :: vs) (t_st n).
Proof. exact kept_thm. Qed.
Print Assumptions C110_empty_session.

(** Peer 1 comes in four portions, peer 2 follows: all hypotheses hold, and the answers; with peer 1 staying,
    peer 2 gets no answer. *)
Example C110_case :
  Forall2 (finished 68 (c_ctobuf cfg_eth)) [one; two] [conn1; conn2] /\ open_end 68 (c_ctobuf cfg_eth) one (mkConn 1 (map Data one_cs)) /\
  reachable cfg_eth mem0 [] (t_st net0) [] /\ Forall (fun v => Forall bytes (said v)) [one; two] /\ NoDup (map fst [one; two]) /\
  letters (tcp_serve cfg_eth 68 always [conn1; conn2] net0) =
    Some [(1, [255; 21; 128; 64; 64; 0; 1; 1]); (1, [255; 4; 4; 17; 34; 51]); (1, [255; 25]); (2, [255; 0; 25; 0; 0; 0])] /\
  letters (tcp_serve cfg_eth 68 always [mkConn 1 (map Data one_cs); conn2] net0) =
    Some [(1, [255; 21; 128; 64; 64; 0; 1; 1]); (1, [255; 4; 4; 17; 34; 51]); (1, [255; 25])].
Proof.
  assert (B : forall v, In v [one; two] -> Forall bytes (said v)).
  { intros v [<-|[<-|[]]]; repeat constructor. }
  assert (C1 : carries 68 (c_ctobuf cfg_eth) one one_cs).
  { split; [repeat constructor; vm_compute; congruence|]. split; [repeat constructor; discriminate|]. split; [reflexivity|apply whole_ok; reflexivity]. }
  assert (C2 : carries 68 (c_ctobuf cfg_eth) two two_cs).
  { split; [repeat constructor; vm_compute; congruence|]. split; [repeat constructor; discriminate|]. split; [reflexivity|apply whole_ok; reflexivity]. }
  split; [constructor; [exists one_cs; split; [exact C1|reflexivity]|constructor; [exists two_cs; split; [exact C2|reflexivity]|constructor]]|].
  split; [exists one_cs; split; [exact C1|reflexivity]|].
  split; [exact (eth_at [] eq_refl)|]. split; [apply Forall_forall; exact B|].
  split; [repeat constructor; cbn; intuition discriminate|]. split; vm_compute; reflexivity.
Qed.

(** CONNECT after an empty frame, in one portion with it; GET_STATUS after DISCONNECT and an empty frame; and GET_STATUS
    after CONNECT and an empty frame. *)
Example C110_empty_case :
  let before := [wires ([nil_frame] ++ late)] in let after := [wires (done ++ [nil_frame] ++ snd two)] in let within := [wires (late ++ [nil_frame] ++ snd two)] in
  concat before = wires ([] ++ [nil_frame]) ++ wires late /\ headers_whole ([] ++ [nil_frame]) before /\
  held cfg_eth always 0 [] false (t_st net0) = false /\ held cfg_eth always 0 (map f_data done) false (t_st net0) = false /\
  held cfg_eth always 0 (map f_data late) false (t_st net0) = true /\ headers_whole (late ++ nil_frame :: snd two) within /\
  letters (tcp_serve cfg_eth 68 always [mkConn 1 (map Data before ++ [Eof]); conn2] net0) = Some [] /\
  letters (tcp_serve cfg_eth 68 always [mkConn 1 (map Data after ++ [Eof])] net0) = Some [(1, [255; 21; 128; 64; 64; 0; 1; 1]); (1, [255])] /\
  letters (tcp_serve cfg_eth 68 always [mkConn 1 (map Data within ++ [Eof])] net0) = Some [(1, [255; 21; 128; 64; 64; 0; 1; 1]); (1, [255; 0; 29; 0; 0; 0])].
Proof.
  cbv zeta. split; [reflexivity|]. split; [apply whole_ok; reflexivity|]. split; [reflexivity|]. split; [vm_compute; reflexivity|]. split; [vm_compute; reflexivity|].
  split; [apply whole_ok; reflexivity|]. repeat split; vm_compute; reflexivity.
Qed.

(** ** C111 Short sends *)

(** send() may take fewer bytes than the frame has; the rest is never sent: the receiver can
    split the stream into the frames of the slave exactly if that has not happened to any of them. *)
Theorem C111_short_refuted : forall c m l s o l' s' (o' : list (pkt * N)), reachable c m l s o -> wf_run c l' -> no_init l' ->
  run c l' s = Ok (s', map fst o') -> c_len_size c <> 0 ->
  ((exists fuel, decode c fuel (tcp_sent o') = Some (numbered c (s_ctr s) (map fst o'))) <-> forall x, In x o' -> lenN (State.wire (fst x)) <= snd x).
Proof. exact short_thm. Qed.
Print Assumptions C111_short_refuted.

(** CONNECT and twice GET_STATUS; the first answer loses two bytes: the receiver takes them from the second frame, and what
    is left of that is no frame. *)
Example C111_case :
  let o := demo_out cfg_eth env_yes [ORecv [0xFF; 0]; ORecv [0xFD]; ORecv [0xFD]] in
  let short := combine o [10; 100; 100] in
  map fst short = o /\ map (fun p => lenN (State.wire p)) o = [12; 10; 10] /\
  decode cfg_eth 3 (concat (map State.wire o)) =
    Some [(0, [255; 21; 128; 64; 64; 0; 1; 1]); (1, [255; 0; 29; 0; 0; 0]); (2, [255; 0; 29; 0; 0; 0])] /\
  firstn 1 (match decode cfg_eth 1 (firstn 12 (tcp_sent short)) with Some r => r | None => [] end) = [(0, [255; 21; 128; 64; 64; 0; 6; 0])] /\
  decode cfg_eth 30 (tcp_sent short) = None.
Proof. vm_compute. repeat split; reflexivity. Qed.
