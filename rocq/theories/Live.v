(** Model of XcpTl_RxHandler (src/tl/eth/common.c) together with what it calls, frame by frame: the command is
    dispatched before the next frame is read, and the answers are sent from inside.  Here sending can fail.
    Refines Tcp.v, in which all frames are read before the first one is dispatched and sending does not fail. *)
From Coq Require Import NArith List Bool.
From Verif Require Import Base Config State Core Eth Net Tcp.
Import ListNotations.
Open Scope N_scope.

(** What send() does with one frame: takes it; fails because the connection is broken (EPIPE); fails
    for another reason (ECONNRESET, ...). *)
Inductive shipped := Taken | Pipe | Refused.

(** recv() on a descriptor that was closed: fails every time.  Simplification: only so many
    calls as XcpTl_ReadHeader makes at most are listed, and the descriptor is not used again for another file. *)
Definition dead : list piece := repeat Failed 256.

(** linuxeth.c 130-134 and wineth.c 187-191, ../bt/winbt.c 127-130: XcpTl_Send for each of the [n] frames that a
    command causes.  [rs] lists what send() does, frame after frame; when the list is used up every frame is taken.
    If send() fails the socket is closed, but the connection is still regarded as open; what else is sent goes to the closed socket.
    On Linux the first send() that fails with EPIPE raises SIGPIPE, which is not handled (linux/hw.c 179-185) and ends the program. *)
Fixpoint transmit (win : bool) (n : nat) (rs : list shipped) (ps : list piece) : out (list shipped * list piece) :=
  match n with
  | O => Ok (rs, ps)
  | S j =>
      match rs with
      | [] => Ok ([], ps)
      | Taken :: t => transmit win j t ps
      | Pipe :: t => if win then transmit win j t dead else UB Exit
      | Refused :: t => transmit win j t dead
      end
  end.

(** Lines 143-188 of common.c: XcpTl_RxHandler as in [rx_loop] of Eth.v, with Xcp_DispatchCommand (line 183) and
    XcpTl_Send.  The k-th frame since the start is dispatched in environment [E k]. *)
Fixpoint rx_live (fuel : nat) (c : cfg) (win : bool) (E : N -> env) (k p : N) (rx : list N) (ps : list piece) (rs : list shipped) (n : net)
  : out (net * list (N * pkt) * ending * list piece) :=
  match fuel with
  | O => UB Hang
  | S j =>
      '(h, ps1) <- read_header (S (weight ps)) false (repeat None 8) 4 0 ps ;;
      match h with
      | Wait => Ok (n, [], Blocked, ps1)
      | Zero => Ok (n, [], Released, ps1)
      | Got dlc =>
          '(d, rx1, ps2) <- read_data (S (weight ps1)) false rx dlc 0 ps1 ;;
          match d with
          | Wait => Ok (n, [], Blocked, ps2)
          | Zero => Ok (n, [], EmptyData, ps2)
          | Got _ =>
              if c_ctobuf c <? dlc then UB Assert
              else
                '(n1, o1) <- net_step c false (EFrame (E k) p (takeN dlc rx1)) n ;;
                '(rs1, ps3) <- transmit win (length o1) rs ps2 ;;
                '(n2, o2, e, ps4) <- rx_live j c win E (k + 1) p rx1 ps3 rs1 n1 ;;
                Ok (n2, o1 ++ o2, e, ps4)
          end
      end
  end.
Definition live_handler (c : cfg) (win : bool) (blen : N) (E : N -> env) (k p : N) (ps : list piece) (rs : list shipped) (n : net)
  : out (net * list (N * pkt) * ending * list piece) :=
  rx_live (S (weight ps)) c win E k p (repeat 0 (N.to_nat blen)) ps rs n.
