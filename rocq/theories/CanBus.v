(** The slave as a node on a CAN bus: src/tl/can/linux_socket_can.c and
    src/tl/can/kvaser.c around the protocol layer. *)
From Coq Require Import NArith List Bool.
From Verif Require Import Base Config State Core Can Kv.
Import ListNotations.
Open Scope N_scope.

(** ** SocketCAN *)

(** src/tl/can/linux_socket_can.c 201-218: XcpTl_Send.  linux/can.h: the word can_id holds
    CAN_EFF_FLAG, CAN_RTR_FLAG and 29 or 11 bits of identifier; len says how many bytes of
    data go on the bus.  Simplification: write() does not fail, and the length of an FD frame
    is not rounded up to one of the lengths that exist on a real bus. *)
Definition sock_send (fd : bool) (outbound : N) (buf : list N) : out canframe :=
  _ <- can_tx fd buf ;;
  Ok (mkCan (is_extended outbound) (N.testbit outbound 30) (N.land outbound (if is_extended outbound then 0x1FFFFFFF else 0x7FF)) buf).
Fixpoint sock_sends (fd : bool) (outbound : N) (o : list pkt) : out (list canframe) :=
  match o with
  | [] => Ok []
  | p :: t => f <- sock_send fd outbound (wire p) ;; fs <- sock_sends fd outbound t ;; Ok (f :: fs)
  end.

(** A frame on the bus, or an operation of the application. *)
Inductive busev (A : Type) := BFrame (f : A) | BOp (o : op).
Arguments BFrame {A}. Arguments BOp {A}.

(** src/tl/can/linux_socket_can.c 118-123 (filters), 131-167 (XcpTl_Thread, XcpTl_MainFunction,
    XcpTl_RxHandler): every frame that the filters let through is read and executed. *)
Definition sock_step (c : cfg) (fd : bool) (inbound broadcast outbound : N) (e : env) (ev : busev canframe) (s : st) : out (st * list canframe) :=
  '(s1, o) <- match ev with
              | BFrame f => if accepted inbound broadcast f then can_receive c e f s else Ok (s, [])
              | BOp x => step c e x s
              end ;;
  fs <- sock_sends fd outbound o ;; Ok (s1, fs).
Fixpoint sock_run (c : cfg) (fd : bool) (inbound broadcast outbound : N) (l : list (env * busev canframe)) (s : st) : out (st * list canframe) :=
  match l with
  | [] => Ok (s, [])
  | (e, ev) :: t =>
      '(s1, f1) <- sock_step c fd inbound broadcast outbound e ev s ;;
      '(s2, f2) <- sock_run c fd inbound broadcast outbound t s1 ;; Ok (s2, f1 ++ f2)
  end.

(** ** Kvaser *)

(** src/tl/can/kvaser.c 110-140, 238-284: frames that pass the acceptance filter are given to
    Kv_Notification; what the slave sends is written with canWrite.  canMSG_EXT is bit 2 of the
    flags.  [x]: frames written so far and depth of the lock, see Kv.v. *)
Definition kv_step (c : cfg) (inbound broadcast outbound : N) (e : env) (ev : busev kvframe) (z : st * (list (N * bool * list N) * N)) :
  out (st * (list (N * bool * list N) * N)) :=
  let '(s, x) := z in
  '(s1, o) <- match ev with
              | BFrame f => if kv_passes (kv_filter inbound broadcast) (N.testbit (k_flag f) 2) (k_id f) then kv_notify c inbound broadcast e f s else Ok (s, [])
              | BOp p => step c e p s
              end ;;
  Ok (s1, fold_left (fun x b => kv_send outbound b x) (map wire o) x).
Fixpoint kv_run (c : cfg) (inbound broadcast outbound : N) (l : list (env * busev kvframe)) (z : st * (list (N * bool * list N) * N)) :
  out (st * (list (N * bool * list N) * N)) :=
  match l with [] => Ok z | (e, ev) :: t => z1 <- kv_step c inbound broadcast outbound e ev z ;; kv_run c inbound broadcast outbound t z1 end.
