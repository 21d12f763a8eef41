(** Model of src/tl/eth/wineth_iocp.c: the slave behind a Windows completion port. *)
From Coq Require Import NArith List Bool.
From Verif Require Import Base Config State Core Net.
Import ListNotations.
Open Scope N_scope.

(** Lines 50-59: XcpTl_Connection, with peers as in Net.v, and recvOlap.buf.  Xcp_CtoIn.data
    points into this buffer, behind the header [w_hdr]; so [s_in] is its rest.
    Simplification: the rest is taken to be as long as Xcp_CtoInBuffer; sends complete before
    the next one begins (sendOlap and the transmit buffer exist once). *)
Record iocp := mkW { w_st : st; w_hdr : list N; w_xcp : bool; w_sock : bool; w_cur : N; w_con : N }.

(** Completions (lines 352-405): bytes received (from a peer, UDP), end of the stream, bytes sent;
    a peer connects (lines 256-291); another operation of the slave. *)
Inductive wevent := WRecv (e : env) (p : N) (bs : list N) | WEnd | WSent (e : env) | WAccept (p : N) | WOp (e : env) (o : op).

(** Lines 293-318: XcpTl_Send: to currentAddress (UDP), to connectedSocket, whose peer is
    currentAddress (TCP); 0 if there is none. *)
Definition wdest (udp : bool) (w : iocp) : N := if udp || w_sock w then w_cur w else 0.
Definition wsent (udp : bool) (w : iocp) (o : list pkt) : list (N * pkt) := map (fun p => (wdest udp w, p)) o.

Definition wstep (c : cfg) (udp : bool) (ev : wevent) (w : iocp) : out (iocp * list (N * pkt)) :=
  match ev with
  | WRecv e p bs =>
      let cur := if udp then p else w_cur w in                                      (* 459-465 *)
      let b := splice (w_hdr w ++ s_in (w_st w)) 0 bs in
      let s := set_s_in (dropN (c_offset c) b) (w_st w) in
      let h := takeN (c_offset c) b in
      if negb (w_xcp w) || (w_con w =? cur) then                                    (* 483, 329-332 *)
        let w1 := if saves s (s_in s) then mkW s h true (w_sock w) cur cur          (* 320-323 *)
                  else if releases c e s (s_in s) then mkW s h false (w_sock w) cur (w_con w)   (* 325-327 *)
                  else mkW s h (w_xcp w) (w_sock w) cur (w_con w) in
        '(s', o) <- dispatch c e s ;;                                               (* 484-486 *)
        Ok (mkW s' h (w_xcp w1) (w_sock w1) cur (w_con w1), wsent udp w1 o)
      else Ok (mkW s h (w_xcp w) (w_sock w) cur (w_con w), [])
  | WEnd =>                                                                         (* 378-387, 477: Feed(0) does nothing *)
      s <- xcp_disconnect c (w_st w) ;; Ok (mkW s (w_hdr w) false false (w_cur w) (w_con w), [])
  | WSent e =>                                                                      (* 389-394 *)
      if c_sbm c then '(s, o) <- upload_block c e (w_st w) ;; Ok (mkW s (w_hdr w) (w_xcp w) (w_sock w) (w_cur w) (w_con w), wsent udp w o)
      else Ok (w, [])
  | WAccept p => if udp || w_xcp w then Ok (w, []) else Ok (mkW (w_st w) (w_hdr w) (w_xcp w) true p (w_con w), [])
  | WOp e o =>
      '(s, out) <- step c e o (w_st w) ;;
      let w1 := match o with
                | ODisconnect => mkW s (w_hdr w) false (w_sock w) (w_cur w) (w_con w)       (* xcp.c 699 *)
                | OInit => mkW s (w_hdr w) false false 0 0                                  (* 142 *)
                | _ => mkW s (w_hdr w) (w_xcp w) (w_sock w) (w_cur w) (w_con w)
                end in
      Ok (w1, wsent udp w1 out)
  end.
Fixpoint wrun (c : cfg) (udp : bool) (l : list wevent) (w : iocp) : out (iocp * list (N * pkt)) :=
  match l with
  | [] => Ok (w, [])
  | ev :: t => '(w1, o1) <- wstep c udp ev w ;; '(w2, o2) <- wrun c udp t w1 ;; Ok (w2, o1 ++ o2)
  end.
Definition wboot (c : cfg) (m : mem) : out iocp := s <- boot c m ;; Ok (mkW s (repeat 0 (N.to_nat (c_offset c))) false false 0 0).
