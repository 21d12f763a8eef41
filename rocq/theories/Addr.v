(** The addresses of UDP peers, src/tl/eth/common.c and linuxeth.c: what Net.v abstracts from by numbering the peers. *)
From Coq Require Import NArith List Bool.
From Verif Require Import Base Config State Core Net.
Import ListNotations.
Open Scope N_scope.

(** IPv4: port and address; IPv6: port, flow information, address, scope.  Bytes in the order in which they are stored. *)
Inductive peer := V4 (port addr : list N) | V6 (port flow addr scope : list N).

(** <netinet/in.h>, Linux, little endian: struct sockaddr_in (AF_INET = 2) and struct sockaddr_in6 (AF_INET6 = 10). *)
Definition sockaddr (p : peer) : list N :=
  match p with
  | V4 port addr => [2; 0] ++ port ++ addr ++ repeat 0 8
  | V6 port flow addr scope => [10; 0] ++ port ++ flow ++ addr ++ scope
  end.

(** inc/xcp_eth.h 59-60: connectionAddress and currentAddress, struct sockaddr_storage (128 bytes); linuxeth.c 79: zero at first. *)
Definition no_addr : list N := repeat 0 128.

(** common.c 85, 89-92 and 120, 124-127: recvfrom() with &from_len.  [from_len] is a uint16_t with the size of a pointer, [ptr]; recvfrom()
    takes it for a socklen_t of four bytes, of which the other two are whatever is next to it on the stack, [h].  So much of the address is
    stored as fits into ptr + 65536 * h bytes.  If that is negative as an int the call fails; then see C59 and C164. *)
Definition recv_addr (ptr h : N) (cur : list N) (p : peer) : list N :=
  if 0x8000 <=? h then cur else splice cur 0 (takeN (ptr + 0x10000 * h) (sockaddr p)).

(** Where sendto() sends to (linuxeth.c 126-129); [None] if the family is neither. *)
Definition recipient (a : list N) : option peer :=
  match a with
  | 2 :: 0 :: r => Some (V4 (takeN 2 r) (takeN 4 (dropN 2 r)))
  | 10 :: 0 :: r => Some (V6 (takeN 2 r) (takeN 4 (dropN 2 r)) (takeN 16 (dropN 6 r)) (takeN 4 (dropN 22 r)))
  | _ => None
  end.

(** UDP, [net_step] with the addresses: peer number i is [A i].  A frame takes two calls of recvfrom(), for the header and for the contents
    (common.c 151, 165); [H k] is what is next to from_len in the two calls for the k-th event.  XcpTl_SaveConnection: common.c 221-224. *)
Definition addr_step (c : cfg) (ptr : N) (A : N -> peer) (hh : N * N) (ev : nevent) (x : net * list N * list N)
  : out (net * list N * list N * list (option peer * pkt)) :=
  let '(n, cur, conn) := x in
  let cur1 := match ev with
              | EFrame e p f => recv_addr ptr (snd hh) (recv_addr ptr (fst hh) cur (A p)) (A p)
              | EOp e OInit => no_addr
              | _ => cur
              end in
  let conn1 := match ev with
               | EFrame e p f => if saves (t_st n) f then cur1 else conn
               | EOp e OInit => no_addr
               | _ => conn
               end in
  '(n1, o) <- net_step c true ev n ;; Ok (n1, cur1, conn1, map (fun y => (recipient conn1, snd y)) o).
Fixpoint addr_run (c : cfg) (ptr : N) (A : N -> peer) (H : N -> N * N) (k : N) (l : list nevent) (x : net * list N * list N)
  : out (net * list N * list N * list (option peer * pkt)) :=
  match l with
  | [] => Ok (x, [])
  | ev :: t =>
      '(x1, o1) <- addr_step c ptr A (H k) ev x ;;
      '(x2, o2) <- addr_run c ptr A H (k + 1) t x1 ;; Ok (x2, o1 ++ o2)
  end.
