(** Model of the main loop of src/tl/eth/common.c with TCP: XcpTl_MainFunction, on top of
    Eth.v (reading from the socket), Net.v (connections) and Core.v (commands); and of what
    XcpTl_Send puts in the stream. *)
From Coq Require Import NArith List Bool.
From Verif Require Import Base Config State Core Eth Net.
Import ListNotations.
Open Scope N_scope.

(** A connection that some peer makes, with what its socket has to offer (see [piece]). *)
Record conn := mkConn { k_peer : N; k_in : list piece }.

(** Lines 181-183: the frames read from the connection of peer [p] are dispatched one after the other, the
    k-th frame since the start in environment [E k]. *)
Fixpoint deliver (c : cfg) (E : N -> env) (k p : N) (fs : list (list N)) (n : net) : out (net * list (N * pkt)) :=
  match fs with
  | [] => Ok (n, [])
  | f :: t =>
      '(n1, o1) <- net_step c false (EFrame (E k) p f) n ;;
      '(n2, o2) <- deliver c E (k + 1) p t n1 ;;
      Ok (n2, o1 ++ o2)
  end.

(** Lines 58-71, 190-215: XcpTl_MainFunction in an endless loop: XcpTl_Accept, unless connected, XcpTl_RxHandler.
    [cur] is the connection of connectedSocket, [conns] the connections peers make, in this
    order.  The result is what was sent, and to whom, when the slave waits: in accept() or recv().
    Simplifications: accept() does not fail (but see Signals.v); frames are dispatched when the call of
    XcpTl_RxHandler has read all it can (dispatching does not influence reading). *)
Fixpoint tcp_main (fuel : nat) (c : cfg) (blen : N) (E : N -> env) (k : N) (cur : conn) (conns : list conn) (n : net)
  : out (net * list (N * pkt)) :=
  match fuel with
  | O => UB Hang
  | S j =>
      let serve cur conns n :=
        '(fs, e, rest) <- rx_handler false blen (c_ctobuf c) (k_in cur) ;;
        '(n1, o1) <- deliver c E k (k_peer cur) fs n ;;
        let again n2 :=
          '(n3, o3) <- tcp_main j c blen E (k + lenN fs) (mkConn (k_peer cur) rest) conns n2 ;;
          Ok (n3, o1 ++ o3) in
        match e with
        | Blocked => Ok (n1, o1)
        | Released => '(n2, _) <- net_step c false EEof n1 ;; again n2
        | EmptyData => again n1
        end in
      if t_tl n then serve cur conns n
      else match conns with
           | [] => Ok (n, [])                                                    (* waits in accept() *)
           | q :: r => '(n1, _) <- net_step c false (EAccept (k_peer q)) n ;; serve q r n1
           end
  end.

(** Everything from the start of the transport layer on; enough fuel for any input. *)
Definition tcp_fuel (conns : list conn) : nat := S (length conns + list_sum (map (fun q => weight (k_in q)) conns)).
Definition tcp_serve (c : cfg) (blen : N) (E : N -> env) (conns : list conn) (n : net) : out (net * list (N * pkt)) :=
  tcp_main (tcp_fuel conns) c blen E 0 (mkConn 0 []) conns n.

(** linuxeth.c 130-133: XcpTl_Send; send() takes the first [snd x] bytes of the frame and returns their
    number, which is only compared with -1. *)
Definition tcp_sent (o : list (pkt * N)) : list N := concat (map (fun x => takeN (snd x) (wire (fst x))) o).
