(** Model of the receive path of src/tl/eth/common.c (TCP and UDP). *)
From Coq Require Import NArith List Bool.
From Verif Require Import Base.
Import ListNotations.
Open Scope N_scope.

(** What the socket has to offer, in order: bytes (for a stream: in the portions in
    which they arrive; for UDP: a datagram each), a call that fails with -1, the end
    of the stream.  At the end of the list the next call blocks. *)
Inductive piece := Data (bs : list N) | Failed | Eof.

(** Result of recv() or recvfrom() asked for [n] bytes.  A stream keeps what was not
    asked for, a datagram is cut off.  Asked for no bytes the call returns 0. *)
Inductive got := GBytes (bs : list N) | GZero | GFailed | GWait.
Definition recv (dgram : bool) (n : N) (ps : list piece) : got * list piece :=
  match ps with
  | [] => (GWait, [])
  | Eof :: t => (GZero, t)
  | Failed :: t => (GFailed, t)
  | Data bs :: t =>
      if n =? 0 then (GZero, if dgram then t else ps)
      else if lenN bs =? 0 then (GZero, t)
      else (GBytes (takeN n bs), if dgram || (lenN bs <=? n) then t else Data (dropN n bs) :: t)
  end.

(** An upper bound for the number of calls that return. *)
Fixpoint weight (ps : list piece) : nat :=
  match ps with [] => O | Data bs :: t => S (length bs + weight t) | _ :: t => S (weight t) end.

(** The socket writes what it received to [buf + off]. *)
Definition store {A} (buf : list A) (off : N) (bs : list A) : out (list A) :=
  if lenN buf <? off + lenN bs then UB OobBuffer else Ok (splice buf off bs).

(** How a reading function ends: with its result, or with 0, or it is blocked. *)
Inductive got_all (A : Type) := Got (a : A) | Zero | Wait.
Arguments Got {A} a. Arguments Zero {A}. Arguments Wait {A}.

(** Lines 80-114: XcpTl_ReadHeader; the bytes of [header_buffer] are [None] before they
    are written, [nbytes], [bytes_remaining] and [offset] are uint8_t, and so -1 becomes 255.
    Simplification: the counter, which the caller does not use, is not returned, and
    the slave is not shutting down. *)
Definition header_word (hb : list (option N)) (off : N) : out N :=
  match getN hb (off + 1), getN hb off with
  | Some (Some h), Some (Some l) => Ok (N.lor (N.shiftl h 8) l)
  | Some _, Some _ => UB Uninit
  | _, _ => UB OobBuffer
  end.
Fixpoint read_header (fuel : nat) (dgram : bool) (hb : list (option N)) (remaining offset : N) (ps : list piece)
  : out (got_all N * list piece) :=
  match fuel with
  | O => UB Hang
  | S k =>
      let '(g, ps1) := recv dgram remaining ps in                                    (* 88-101 *)
      let next (hb1 : list (option N)) (nbytes : N) :=                                            (* 105-109 *)
        let rem := u8 (remaining + (256 - nbytes)) in
        if rem =? 0 then w <- header_word hb1 offset ;; Ok (Got w, ps1)              (* 111 *)
        else read_header k dgram hb1 rem (u8 (offset + nbytes)) ps1 in
      match g with
      | GWait => Ok (Wait, ps1)
      | GZero => Ok (Zero, ps1)                                                      (* 102-104 *)
      | GFailed => next hb 255
      | GBytes bs => hb1 <- store hb offset (map Some bs) ;; next hb1 (lenN bs)
      end
  end.

(** Lines 116-141: XcpTl_ReadData, into [buf]; here the variables are uint16_t. *)
Fixpoint read_data (fuel : nat) (dgram : bool) (buf : list N) (remaining offset : N) (ps : list piece)
  : out (got_all unit * list N * list piece) :=
  match fuel with
  | O => UB Hang
  | S k =>
      let '(g, ps1) := recv dgram remaining ps in
      let next (buf1 : list N) (nbytes : N) :=
        let rem := u16 (remaining + (65536 - nbytes)) in
        if rem =? 0 then Ok (Got tt, buf1, ps1)
        else read_data k dgram buf1 rem (u16 (offset + nbytes)) ps1 in
      match g with
      | GWait => Ok (Wait, buf, ps1)
      | GZero => Ok (Zero, buf, ps1)
      | GFailed => next buf 65535
      | GBytes bs => buf1 <- store buf offset bs ;; next buf1 (lenN bs)
      end
  end.

(** How XcpTl_RxHandler ends: blocked; after XcpTl_ReleaseConnection (lines 159-162);
    with "Empty data" (lines 173-176). *)
Inductive ending := Blocked | Released | EmptyData.

(** Lines 143-188: XcpTl_RxHandler.  [cbuf] is XCP_TRANSPORT_LAYER_CTO_BUFFER_SIZE.
    The result lists what is handed, by way of Xcp_CtoIn, to Xcp_DispatchCommand (whose
    effects are those of [receive] in Core.v).  Since the reading functions return unsigned
    numbers, their result is never -1, and the calls of exit() are unreachable. *)
Fixpoint rx_loop (fuel : nat) (dgram : bool) (cbuf : N) (rx : list N) (ps : list piece)
  : out (list (list N) * ending * list piece) :=
  match fuel with
  | O => UB Hang
  | S k =>
      '(h, ps1) <- read_header (S (weight ps)) dgram (repeat None 8) 4 0 ps ;;
      match h with
      | Wait => Ok ([], Blocked, ps1)
      | Zero => Ok ([], Released, ps1)
      | Got dlc =>
          '(d, rx1, ps2) <- read_data (S (weight ps1)) dgram rx dlc 0 ps1 ;;
          match d with
          | Wait => Ok ([], Blocked, ps2)
          | Zero => Ok ([], EmptyData, ps2)
          | Got _ =>
              if cbuf <? dlc then UB Assert                                          (* 181 *)
              else
                '(more, e, ps3) <- rx_loop k dgram cbuf rx1 ps2 ;;
                Ok (takeN dlc rx1 :: more, e, ps3)
          end
      end
  end.

(** Line 148: the buffer of [blen] = XCP_COMM_BUFLEN bytes (line 57) is cleared first. *)
Definition rx_handler (dgram : bool) (blen cbuf : N) (ps : list piece) : out (list (list N) * ending * list piece) :=
  rx_loop (S (weight ps)) dgram cbuf (repeat 0 (N.to_nat blen)) ps.
