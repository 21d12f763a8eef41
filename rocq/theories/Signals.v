(** The timer of the Linux port, src/hw/linux/hw.c 202-239 (XcpHw_Init): from the start on it sends the signal SIGRTMIN once a second
    (lines 97, 172, 229-235).  The handler is installed without SA_RESTART (line 204), the signal is not blocked when the threads are created (line 237), so a
    blocking call of the thread of the transport layer that is waiting when the signal is delivered to it returns -1 with errno EINTR (POSIX: to which of the
    threads that do not block it a signal for the process is delivered is not specified; signal(7) for the calls concerned). *)
From Coq Require Import NArith List Bool.
From Verif Require Import Base Config State Core Eth Net Tcp Live Can CanBus.
Import ListNotations.
Open Scope N_scope.

(** ** Ethernet *)

(** In recv() and recvfrom(): the piece [Failed] of Eth.v.  In accept(), src/tl/eth/common.c 200-213: connectedSocket becomes
    INVALID_SOCKET (-1), a message is printed; XcpTl_MainFunction (67-70) then calls XcpTl_RxHandler all the same, and recv()
    with descriptor -1 fails every time ([dead], Live.v).  [None] is a call of accept() that the signal interrupts.  Otherwise as [tcp_main]. *)
Fixpoint sig_main (fuel : nat) (c : cfg) (blen : N) (E : N -> env) (k : N) (cur : conn) (l : list (option conn)) (n : net)
  : out (net * list (N * pkt)) :=
  match fuel with
  | O => UB Hang
  | S j =>
      let serve cur l n :=
        '(fs, e, rest) <- rx_handler false blen (c_ctobuf c) (k_in cur) ;;
        '(n1, o1) <- deliver c E k (k_peer cur) fs n ;;
        let again n2 :=
          '(n3, o3) <- sig_main j c blen E (k + lenN fs) (mkConn (k_peer cur) rest) l n2 ;;
          Ok (n3, o1 ++ o3) in
        match e with
        | Blocked => Ok (n1, o1)
        | Released => '(n2, _) <- net_step c false EEof n1 ;; again n2
        | EmptyData => again n1
        end in
      if t_tl n then serve cur l n
      else match l with
           | [] => Ok (n, [])
           | Some q :: r => '(n1, _) <- net_step c false (EAccept (k_peer q)) n ;; serve q r n1
           | None :: r => serve (mkConn 0 dead) r n
           end
  end.
Definition sig_fuel (l : list (option conn)) : nat :=
  S (length l + list_sum (map (fun a => match a with Some q => weight (k_in q) | None => O end) l)).
Definition sig_serve (c : cfg) (blen : N) (E : N -> env) (l : list (option conn)) (n : net) : out (net * list (N * pkt)) :=
  sig_main (sig_fuel l) c blen E 0 (mkConn 0 []) l n.

(** ** SocketCAN *)

(** src/tl/can/linux_socket_can.c 143-156: read() is interrupted ([None]): the result is neither CANFD_MTU nor CAN_MTU, and
    errno_abort (lines 51-55) ends the program with abort().  Otherwise as [sock_run]. *)
Fixpoint sock_sig_run (c : cfg) (fd : bool) (inbound broadcast outbound : N) (l : list (env * option (busev canframe))) (s : st) : out (st * list canframe) :=
  match l with
  | [] => Ok (s, [])
  | (e, None) :: t => UB Exit
  | (e, Some ev) :: t =>
      '(s1, f1) <- sock_step c fd inbound broadcast outbound e ev s ;;
      '(s2, f2) <- sock_sig_run c fd inbound broadcast outbound t s1 ;; Ok (s2, f1 ++ f2)
  end.
