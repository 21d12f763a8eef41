(** The slave behind the Ethernet transport layer: which peer commands come from and where
    frames are sent.  src/tl/eth/common.c and src/tl/eth/linuxeth.c on top of Core.v. *)
From Coq Require Import NArith List Bool.
From Verif Require Import Base Config Codec State Core.
Import ListNotations.
Open Scope N_scope.

(** XcpTl_Connection; peers are numbered, 0 is no address (for the addresses themselves see Addr.v).  [t_sock] is the peer at the other
    end of connectedSocket (TCP), [None] before accept() and after the end of the stream.
    [t_cur] is currentAddress, [t_conn] connectionAddress, [t_tl] connected. *)
Record net := mkNet { t_st : st; t_tl : bool; t_sock : option N; t_cur : N; t_conn : N }.

(** src/xcp.c 1033: the received frame makes Xcp_Connect_Res call XcpTl_SaveConnection (before it
    answers), see [dispatch]. *)
Definition saves (s : st) (f : list N) : bool :=
  match f with cmd :: _ => (cmd =? 0xFF) && negb (s_conn s && s_busy s) | [] => false end.

(** src/xcp.c 699, 1044-1050, 1206-1231: with [b] in the receive buffer, Xcp_Disconnect_Res, or Xcp_Unlock_Res with a
    wrong key, calls XcpTl_ReleaseConnection (by way of Xcp_Disconnect). *)
Definition releases (c : cfg) (e : env) (s : st) (b : list N) : bool :=
  s_conn s && negb (s_busy s) && negb (c_pgm c && match s_pgm s with PgmActive => true | _ => false end) &&
  ((gb b 0 =? 0xFE) ||
   (gb b 0 =? 0xF7) && c_opt c 0xF7 && negb (s_seed s =? 0) && negb (e_unlock e (s_seed s) (gb b 1) (dropN 2 b))).

(** What happens: a frame from a peer is complete (see Eth.v; with TCP, a frame can only come from the
    peer of the connection), a peer has connected (accept()), the stream has ended,
    another operation of the slave. *)
Inductive nevent := EFrame (e : env) (p : N) (f : list N) | EAccept (p : N) | EEof | EOp (e : env) (o : op).

(** linuxeth.c 120-138: XcpTl_Send: with UDP to connectionAddress, with TCP to connectedSocket, 0 for
    frames that are lost. *)
Definition dest (udp : bool) (n : net) : N := if udp then t_conn n else match t_sock n with Some p => p | None => 0 end.
Definition sent (udp : bool) (n : net) (o : list pkt) : list (N * pkt) := map (fun p => (dest udp n, p)) o.

Definition net_step (c : cfg) (udp : bool) (ev : nevent) (n : net) : out (net * list (N * pkt)) :=
  match ev with
  | EFrame e p f =>
      let n1 := if udp then mkNet (t_st n) (t_tl n) (t_sock n) p (t_conn n) else n in     (* common.c 89-92: recvfrom() *)
      let n2 := if saves (t_st n) f then mkNet (t_st n) true (t_sock n) (t_cur n1) (t_cur n1)   (* 221-224 *)
                else if negb (lenN f =? 0) && releases c e (t_st n) (splice (s_in (t_st n)) 0 f) then mkNet (t_st n) false (t_sock n) (t_cur n1) (t_conn n)     (* 226-228 *)
                else n1 in
      '(s, o) <- receive c e f (t_st n) ;;
      Ok (mkNet s (t_tl n2) (t_sock n2) (t_cur n2) (t_conn n2), sent udp n2 o)
  | EAccept p =>                                                                    (* 190-215: XcpTl_Accept *)
      if udp || t_tl n then Ok (n, [])
      else Ok (mkNet (t_st n) (t_tl n) (Some p) p (t_conn n), [])
  | EEof =>                                                                         (* 159-162 *)
      Ok (mkNet (t_st n) false None (t_cur n) (t_conn n), [])
  | EOp e o =>
      '(s, out) <- step c e o (t_st n) ;;
      let n1 := match o with
                | ODisconnect => mkNet s false (t_sock n) (t_cur n) (t_conn n)          (* xcp.c 699 *)
                | OInit => mkNet s false None 0 0                                       (* linuxeth.c 79 *)
                | _ => mkNet s (t_tl n) (t_sock n) (t_cur n) (t_conn n)
                end in
      Ok (n1, sent udp n1 out)
  end.

Fixpoint net_run (c : cfg) (udp : bool) (l : list nevent) (n : net) : out (net * list (N * pkt)) :=
  match l with
  | [] => Ok (n, [])
  | ev :: t => '(n1, o1) <- net_step c udp ev n ;; '(n2, o2) <- net_run c udp t n1 ;; Ok (n2, o1 ++ o2)
  end.

Definition net_boot (c : cfg) (m : mem) : out net := s <- boot c m ;; Ok (mkNet s false None 0 0).
