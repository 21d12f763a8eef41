(** C59, C60 and C73: the Ethernet transport layer. *)
From Coq Require Import NArith List Bool Lia.
From Verif Require Import Base Eth SpecSxi SpecEth ProofsEth.
Import ListNotations.
Open Scope N_scope.

(** ** C59 Fragmentation *)

(** As long as no header is cut, each frame is delivered once, complete and in order,
    however the stream is cut. *)
Theorem C59_stream : forall blen cbuf fs cs, blen < 65536 -> Forall (sendable blen cbuf) fs -> portions cs ->
  concat cs = wires fs -> headers_whole fs cs ->
  rx_handler false blen cbuf (map Data cs) = Ok (map f_data fs, Blocked, []) /\
  rx_handler false blen cbuf (map Data cs ++ [Eof]) = Ok (map f_data fs, Released, []).
Proof. exact eth_frames. Qed.
Print Assumptions C59_stream.

(** Otherwise the header is read from the wrong place.  If the last portion of the header
    begins with its third byte, the counter is taken for the length, ... *)
Theorem C59_halves_refuted : forall blen cbuf cs h0 h1 h2 h3 x ps, portions cs -> concat cs = [h0; h1] -> forall y z,
  rx_handler false blen cbuf (map Data cs ++ Data (h2 :: h3 :: x) :: ps) = rx_handler false blen cbuf (Data (h2 :: h3 :: y :: z :: x) :: ps).
Proof. exact header_halves. Qed.
Print Assumptions C59_halves_refuted.

(** ... if it begins with the second, a mixture of both, ... *)
Theorem C59_one_refuted : forall blen cbuf h0 h1 h2 h3 x ps y z,
  rx_handler false blen cbuf (Data [h0] :: Data (h1 :: h2 :: h3 :: x) :: ps) = rx_handler false blen cbuf (Data (h1 :: h2 :: y :: z :: x) :: ps).
Proof. exact header_one. Qed.
Print Assumptions C59_one_refuted.

(** ... and if it is the fourth byte, an uninitialised byte. *)
Theorem C59_last_refuted : forall blen cbuf cs h0 h1 h2 h3 x ps, portions cs -> concat cs = [h0; h1; h2] ->
  rx_handler false blen cbuf (map Data cs ++ Data (h3 :: x) :: ps) = UB Uninit.
Proof. exact header_last. Qed.
Print Assumptions C59_last_refuted.

(** A failing call is not noticed: what comes next is written behind the header buffer. *)
Theorem C59_error_refuted : forall d blen cbuf bs ps, bs <> [] -> rx_handler d blen cbuf (Failed :: Data bs :: ps) = UB OobBuffer.
Proof. exact recv_fails. Qed.
Print Assumptions C59_error_refuted.

(** Two frames in three portions, the second header in the middle of one; and a CONNECT,
    with counter 0, whose header comes in two halves: no frame is delivered. *)
Example C59_case :
  let f := mkFrame 0 0 [0xFF; 0] in let g := mkFrame 1 0 [0xF4; 4; 0; 0; 0; 0x10; 0; 0] in
  let cs := [[2; 0; 0; 0; 0xFF]; [0; 8; 0; 1; 0; 0xF4; 4]; [0; 0; 0; 0x10; 0; 0]] in
  Forall (sendable 68 68) [f; g] /\ portions cs /\ concat cs = wires [f; g] /\ headers_whole [f; g] cs /\
  rx_handler false 68 68 (map Data [[2; 0]; [0; 0; 0xFF; 0]]) = Ok ([], EmptyData, [Data [0xFF; 0]]).
Proof.
  cbv zeta. split; [repeat constructor; vm_compute; congruence|]. split; [repeat constructor; discriminate|].
  split; [reflexivity|]. split; [|reflexivity].
  intros fs1 f fs2 cs1 cs2 E1 E2. cbv zeta.
  assert (C : lenN (concat cs1) = 0 \/ lenN (concat cs1) = 5 \/ lenN (concat cs1) = 12 \/ lenN (concat cs1) = 18).
  { destruct cs1 as [|a [|b [|d [|k cs1]]]]; cbn [app] in E2.
    - left. reflexivity.
    - injection E2 as <- _. right. left. reflexivity.
    - injection E2 as <- <- _. right. right. left. reflexivity.
    - injection E2 as <- <- <- _. right. right. right. reflexivity.
    - discriminate. }
  assert (H : lenN (wires fs1) = 0 \/ lenN (wires fs1) = 6).
  { destruct fs1 as [|f1 [|f2 fs1]]; cbn [app] in E1.
    - left. reflexivity.
    - injection E1 as <- _ _. right. reflexivity.
    - injection E1 as _ _ E1. destruct fs1; discriminate. }
  lia.
Qed.

(** ** C60 Lengths *)

(** Whatever the length field says, the contents are written to the buffer: a longer
    frame is written behind it, in whatever portions it comes, ... *)
Theorem C60_refuted : forall blen cbuf n k0 k1 x cs tl, portions cs -> blen < n -> n < 65536 -> blen < lenN (x ++ concat cs) ->
  rx_handler false blen cbuf (map Data ((n mod 256 :: n / 256 :: k0 :: k1 :: x) :: cs) ++ tl) = UB OobBuffer.
Proof. exact eth_overflow. Qed.
Print Assumptions C60_refuted.

(** ... and one that fits that buffer, but not the command buffer, ends the process
    (in builds with assertions). *)
Theorem C60_assert_refuted : forall blen cbuf n k0 k1 x cs tl, portions cs -> 1 <= n -> cbuf < n -> n <= blen -> n < 65536 -> n <= lenN (x ++ concat cs) ->
  rx_handler false blen cbuf (map Data ((n mod 256 :: n / 256 :: k0 :: k1 :: x) :: cs) ++ tl) = UB Assert.
Proof. exact eth_assert. Qed.
Print Assumptions C60_assert_refuted.

Example C60_case :
  portions [repeat 1 30; repeat 2 40] /\ lenN (repeat 0 5 ++ concat [repeat 1 30; repeat 2 40]) = 75 /\
  is_ok (rx_handler false 68 68 (map Data (([68; 0; 0; 0] ++ repeat 0 5) :: [repeat 1 30; repeat 2 33]))) = true.
Proof. split; [repeat constructor; discriminate|]. split; vm_compute; reflexivity. Qed.

(** ** C73 UDP *)

(** A frame in one datagram, as the protocol demands, is not delivered: its contents
    are cut off when the header is read, ... *)
Theorem C73_lost_refuted : forall blen cbuf f, blen < 65536 -> sendable blen cbuf f -> rx_handler true blen cbuf [Data (wire f)] = Ok ([], Blocked, []).
Proof. exact udp_lost. Qed.
Print Assumptions C73_lost_refuted.

(** ... and the beginning of the next datagram, header included, is executed in its place. *)
Theorem C73_mixed_refuted : forall blen cbuf f g, blen < 65536 -> sendable blen cbuf f -> sendable blen cbuf g -> lenN (f_data f) <= lenN (wire g) ->
  rx_handler true blen cbuf [Data (wire f); Data (wire g)] = Ok ([takeN (lenN (f_data f)) (wire g)], Blocked, []).
Proof. exact udp_mixed. Qed.
Print Assumptions C73_mixed_refuted.

(** It takes two datagrams per frame. *)
Theorem C73_apart : forall blen cbuf fs, blen < 65536 -> Forall (sendable blen cbuf) fs ->
  rx_handler true blen cbuf (flat_map apart fs) = Ok (map f_data fs, Blocked, []).
Proof. exact udp_apart. Qed.
Print Assumptions C73_apart.

Example C73_case :
  let f := mkFrame 0 0 [0xFF; 0] in let g := mkFrame 1 0 [0xF4; 4; 0; 0; 0; 0x10; 0; 0] in
  sendable 68 68 f /\ sendable 68 68 g /\ lenN (f_data f) <= lenN (wire g) /\ takeN (lenN (f_data f)) (wire g) = [8; 0].
Proof. cbv zeta. unfold sendable. repeat split; vm_compute; congruence. Qed.
