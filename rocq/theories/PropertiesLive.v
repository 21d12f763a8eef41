(** C122 and C123: TCP connections that break. *)
From Coq Require Import NArith List Bool Lia.
From Verif Require Import Base Config State Core Spec Demo SpecFrames Eth SpecSxi SpecEth ProofsEth Net Tcp SpecTcp ProofsTcp Live SpecLive ProofsLive CasesTcp CasesLive.
Import ListNotations.
Open Scope N_scope.

(** ** C122 However a peer leaves, the next one is served *)

(** Peers come one after the other; each sends its frames and then closes the connection, or is reset, or disappears in the middle of
    another frame.  The complete frames are executed and answered, nothing else is, and the next peer is served.  The same if the last peer stays. *)
Theorem C122_leaves : forall c blen E vs qs n, blen < 65536 -> Forall2 (leaves blen (c_ctobuf c)) vs qs -> t_tl n = false ->
  seen (tcp_serve c blen E qs n) = visits c E 0 vs (t_st n) /\
  forall v q r, open_end blen (c_ctobuf c) v q -> seen (tcp_serve c blen E (qs ++ q :: r) n) = visits c E 0 (vs ++ [v]) (t_st n).
Proof. exact leaves_thm. Qed.
Print Assumptions C122_leaves.

(** Four peers, leaving in the four ways: all hypotheses hold, and the answers. *)
Example C122_case :
  Forall2 (leaves 68 (c_ctobuf cfg_eth)) [one; three; four; two] [reset1; conn3; conn4; conn2] /\ t_tl net0 = false /\
  letters (tcp_serve cfg_eth 68 always [reset1; conn3; conn4; conn2] net0) =
    Some [(1, [255; 21; 128; 64; 64; 0; 1; 1]); (1, [255; 4; 4; 17; 34; 51]); (1, [255; 25]);
          (3, [255; 21; 128; 64; 64; 0; 1; 1]);
          (4, [255; 21; 128; 64; 64; 0; 1; 1]); (4, [255]);
          (2, [255; 0; 29; 0; 0; 0])].
Proof.
  assert (C1 : carries 68 (c_ctobuf cfg_eth) one one_cs).
  { split; [repeat constructor; vm_compute; congruence|]. split; [repeat constructor; discriminate|]. split; [reflexivity|apply whole_ok; reflexivity]. }
  assert (C2 : carries 68 (c_ctobuf cfg_eth) two two_cs).
  { split; [repeat constructor; vm_compute; congruence|]. split; [repeat constructor; discriminate|]. split; [reflexivity|apply whole_ok; reflexivity]. }
  split; [|split; [reflexivity|vm_compute; reflexivity]].
  constructor; [exact (leaves_reset _ _ one _ C1)|]. constructor.
  { apply (leaves_header 68 _ three three_cs [7; 0; 3]); [repeat constructor; vm_compute; congruence|repeat constructor; discriminate|reflexivity|reflexivity|apply whole_ok; reflexivity]. }
  constructor; [|constructor; [exact (leaves_close _ _ two _ C2)|constructor]].
  apply (leaves_data 68 _ four four_cs half 7); [repeat constructor; vm_compute; congruence|repeat constructor; vm_compute; congruence|lia|reflexivity|repeat constructor; discriminate|reflexivity|apply whole_ok; reflexivity].
Qed.

(** ** C123 A frame that cannot be sent *)

(** Frame by frame (a command is executed and answered before the next frame is read), if everything can be sent: the slave
    does what it would do for the commands alone. *)
Theorem C123_taken : forall c win blen E k p cs fs n, blen < 65536 -> Forall (sendable blen (c_ctobuf c)) fs -> portions cs -> concat cs = wires fs -> headers_whole fs cs ->
  t_sock n = Some p ->
  ('(n1, o, e, rest) <- live_handler c win blen E k p (map Data cs ++ [Eof]) [] n ;; Ok (t_st n1, o, e, rest)) =
  ('(s', o) <- run c (commands E k (map f_data fs)) (t_st n) ;; Ok (s', map (pair p) o, Released, [])).
Proof. exact taken_thm. Qed.
Print Assumptions C123_taken.

(** But if send() refuses any frame that the slave sends, the slave is not able to serve another peer: whatever the frames, and
    whichever of the answers it is, the program is terminated by the signal SIGPIPE (Linux; connection broken), or goes on reading from the socket
    that it has just closed and evaluates a header that was never received. *)
Theorem C123_refused_refuted : forall c win blen E k p cs fs tl n s' o i r t, blen < 65536 -> Forall (sendable blen (c_ctobuf c)) fs -> portions cs -> concat cs = wires fs -> headers_whole fs cs ->
  tl = [] \/ tl = [Eof] -> t_sock n = Some p -> run c (commands E k (map f_data fs)) (t_st n) = Ok (s', o) ->
  (i < length o)%nat -> r <> Taken -> Forall (fun x => x = Refused) t ->
  live_handler c win blen E k p (map Data cs ++ tl) (fails_at i r t) n = UB (match r with Pipe => if win then Uninit else Exit | _ => Uninit end).
Proof. exact broken_thm. Qed.
Print Assumptions C123_refused_refuted.

(** Peer 1 of C122: everything is sent; the second answer is refused. *)
Example C123_case :
  carries 68 (c_ctobuf cfg_eth) one one_cs /\ t_sock net1 = Some 1 /\
  match run cfg_eth (commands always 0 (said one)) (t_st net1) with Ok (_, o) => length o = 3%nat | UB _ => False end /\
  ended_ok (live1 false []) = Some Released /\
  why_of (live1 false (fails_at 1 Pipe [])) = Some Exit /\ why_of (live1 true (fails_at 1 Pipe [])) = Some Uninit /\
  why_of (live1 false (fails_at 1 Refused [Refused])) = Some Uninit.
Proof.
  split; [split; [repeat constructor; vm_compute; congruence|]; split; [repeat constructor; discriminate|]; split; [reflexivity|apply whole_ok; reflexivity]|].
  split; [reflexivity|]. split; [vm_compute; reflexivity|]. repeat split; vm_compute; reflexivity.
Qed.
