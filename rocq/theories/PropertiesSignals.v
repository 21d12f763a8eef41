(** C164: the timer signal of the Linux port. *)
From Coq Require Import NArith List Bool Lia.
From Verif Require Import Base Config State Core Spec Demo SpecFrames Eth SpecSxi SpecEth ProofsEth Net Tcp SpecTcp ProofsTcp Live SpecLive Can CanBus CasesTcp CasesLive Signals ProofsSignals.
Import ListNotations.
Open Scope N_scope.

(** ** C164 The timer signal does not disturb the slave *)

(** If the signal never arrives while the thread waits, the slave is that of the other theorems. *)
Theorem C164_quiet : forall c blen E l n fd i b o bus s,
  sig_serve c blen E (map Some l) n = tcp_serve c blen E l n /\
  sock_sig_run c fd i b o (map (fun x => (fst x, Some (snd x))) bus) s = sock_run c fd i b o bus s.
Proof. intros. split; [apply quiet_thm|apply can_quiet]. Qed.
Print Assumptions C164_quiet.

(** Refuted: if a TCP master pauses, after any frames, for up to 248 signals (at least one), the next bytes it sends are written behind the header
    buffer, on the stack; if it pauses for 252 signals, even without sending anything, a header that was never received is evaluated. *)
Theorem C164_pause_refuted : forall blen cbuf fs cs j, blen < 65536 -> Forall (sendable blen cbuf) fs -> portions cs -> concat cs = wires fs -> headers_whole fs cs ->
  ((1 <= j <= 248)%nat -> forall bs ps, bs <> [] -> rx_handler false blen cbuf (map Data cs ++ repeat Failed j ++ Data bs :: ps) = UB OobBuffer) /\
  ((252 <= j)%nat -> forall ps, rx_handler false blen cbuf (map Data cs ++ repeat Failed j ++ ps) = UB Uninit).
Proof. exact idle_thm. Qed.
Print Assumptions C164_pause_refuted.

(** The same before the first frame, TCP and UDP. *)
Theorem C164_first_refuted : forall d blen cbuf j tl,
  ((1 <= j <= 248)%nat -> forall bs ps, bs <> [] -> tl = Data bs :: ps -> rx_handler d blen cbuf (repeat Failed j ++ tl) = UB OobBuffer) /\
  ((252 <= j)%nat -> rx_handler d blen cbuf (repeat Failed j ++ tl) = UB Uninit).
Proof. exact idle_any. Qed.
Print Assumptions C164_first_refuted.

(** If the signal arrives between the header and the contents of a frame, the contents are written outside of the receive buffer. *)
Theorem C164_header_refuted : forall blen cbuf fs cs g bs ps, blen < 65535 -> Forall (sendable blen cbuf) fs -> sendable blen cbuf g -> portions cs -> concat cs = wires fs -> headers_whole fs cs -> bs <> [] ->
  rx_handler false blen cbuf (map Data cs ++ Data (takeN 4 (wire g)) :: Failed :: Data bs :: ps) = UB OobBuffer.
Proof. exact contents_none. Qed.
Print Assumptions C164_header_refuted.

(** If it arrives inside of the contents, after [p], the slave executes a command that nobody sent: the last byte of [p] is missing, and the
    first byte [x] of the next frame is appended. *)
Theorem C164_contents_refuted : forall blen cbuf g p q x y ps ms e r, blen < 65535 -> sendable blen cbuf g -> f_data g = p ++ q -> p <> [] -> q <> [] ->
  rx_handler false blen cbuf (Data (takeN 4 (wire g) ++ p) :: Failed :: Data (q ++ x :: y) :: ps) = Ok (ms, e, r) ->
  exists more, ms = (removelast p ++ q ++ [x]) :: more.
Proof. exact contents_some. Qed.
Print Assumptions C164_contents_refuted.

(** If it arrives while the slave waits for a connection, after any peers that came and left, a header that was never received is evaluated. *)
Theorem C164_accept_refuted : forall c blen E vs qs l n, blen < 65536 -> Forall2 (leaves blen (c_ctobuf c)) vs qs -> t_tl n = false ->
  seen (sig_serve c blen E (map Some qs ++ None :: l) n) = ('(_, _) <- visits c E 0 vs (t_st n) ;; UB Uninit).
Proof. exact accept_thm. Qed.
Print Assumptions C164_accept_refuted.

(** On a CAN bus the first signal that arrives while the slave waits for a frame ends the program. *)
Theorem C164_can_refuted : forall c fd i b o l e t s,
  sock_sig_run c fd i b o (map (fun x => (fst x, Some (snd x))) l ++ (e, None) :: t) s = ('(_, _) <- sock_run c fd i b o l s ;; UB Exit).
Proof. exact can_thm. Qed.
Print Assumptions C164_can_refuted.

(** Peer 1 (CONNECT, GET_SEED, UNLOCK) pauses for one signal, or four minutes and a quarter; a pause of 249 signals and one byte is survived, so the bound is sharp.
    DOWNLOAD of one byte, 7, is interrupted after its second byte: a download of no bytes is executed.
    Nobody has connected yet when the signal arrives; a CAN master connects and pauses. *)
Example C164_case :
  carries 68 68 one one_cs /\
  rx_handler false 68 68 (map Data one_cs ++ [Failed; Data [1; 0; 3; 0; 0xFC]]) = UB OobBuffer /\
  rx_handler false 68 68 (map Data one_cs ++ repeat Failed 255) = UB Uninit /\
  rx_handler true 68 68 (repeat Failed 249 ++ [Data [1]]) = Ok ([], Blocked, []) /\
  rx_handler false 68 68 [Data [3; 0; 0; 0; 0xF0; 1]; Failed; Data [7; 2; 0; 1; 0]] = Ok ([[0xF0; 7; 2]], Blocked, []) /\
  t_tl net0 = false /\ why_of (sig_serve cfg_eth 68 always [Some conn1; None; Some conn2] net0) = Some Uninit /\
  letters (sig_serve cfg_eth 68 always [Some conn1; Some conn2] net0) =
    Some [(1, [255; 21; 128; 64; 64; 0; 1; 1]); (1, [255; 4; 4; 17; 34; 51]); (1, [255; 25]); (2, [255; 0; 25; 0; 0; 0])] /\
  why_of (sock_sig_run cfg_eth true 0x501 0x500 0x502 [(env_yes, Some (BFrame (mkCan false false 0x501 [0xFF; 0])))] (demo_st cfg_eth env_yes [])) = None /\
  why_of (sock_sig_run cfg_eth true 0x501 0x500 0x502 [(env_yes, Some (BFrame (mkCan false false 0x501 [0xFF; 0]))); (env_yes, None)] (demo_st cfg_eth env_yes [])) = Some Exit.
Proof.
  split. { split; [repeat constructor; vm_compute; congruence|]. split; [repeat constructor; discriminate|]. split; [reflexivity|apply whole_ok; reflexivity]. }
  repeat split; vm_compute; reflexivity.
Qed.
