(** An event that is sampled while other threads execute operations: the loops
    of XcpDaq_TriggerEvent, one access of shared data after the other. *)
From Coq Require Import NArith List Bool.
From Verif Require Import Base Config State Queue Daq Core.
Import ListNotations.
Open Scope N_scope.

(** src/xcp_daq.c 487-554: where XcpDaq_TriggerEvent is, with its local variables:
    [ev] eventChannelNumber, [tm] timestamp, [l] daqListNumber, [pid], [i] odtIdx,
    [oi] the entity [odt] points to, [k] odtEntryIdx, [data] the bytes data[0 ..
    offset), [ts] the bytes of the time stamp, if any.  Simplification: reading the
    processor state and the list of the event is one access, XcpDaq_GetFirstPid
    and reading the list's mode is another one, finding an ODT or an entry is one
    access, storing a frame in the queue is one (C103, C104 split it), taking it
    from there and sending it is one (C100 splits the latter). *)
Inductive sampler :=
| Rest
| Called (ev tm : N)
| Begun (l tm : N)
| Loop (l i pid : N) (ts : list N)
| Entries (l i pid : N) (ts : list N) (oi k : N) (data : list N)
| Copy (l i pid : N) (ts : list N) (oi k : N) (data : list N) (addr : N) (n : nat)
| Put (l i pid : N) (ts : list N) (data : list N)
| Send.

Definition sres := out (sampler * st * list pkt).
Definition stay (x : sampler) (s : st) : sres := Ok (x, s, []).

(** src/xcp_daq.c 487-554: the next access. *)
Definition next (c : cfg) (x : sampler) (s : st) : sres :=
  let d := s_daq s in
  match x with
  | Rest => stay Rest s
  | Called ev tm =>
      if negb (d_run d) then stay Rest s
      else if u8 (c_nevents c) <=? ev then stay Rest s
      else match getN (d_lfe d) ev with None => UB OobEvent | Some l => stay (Begun l tm) s end
  | Begun l tm =>
      p <- first_pid c d l ;;
      match p with
      | None => stay Rest s
      | Some pid => stay (Loop l 0 pid (if c_ts c && (N.land (d_mode d) 0x10 =? 0x10) then ts_bytes c tm else [])) s
      end
  | Loop l i pid ts =>
      '(n, _) <- hdr_at d l ;;
      if i <? n then oi <- odt_index c d l i ;; stay (Entries l i pid ts oi 0 (u8 pid :: if i =? 0 then ts else [])) s
      else stay Send s
  | Entries l i pid ts oi k data =>
      '(n, _) <- hdr_at d oi ;;
      if k <? n then
        j <- entry_index c d l i k ;;
        e <- ent_at d j ;;
        '(addr, len) <- entry_of (en_body e) ;;
        if c_max_dto c - lenN data <? len then UB Assert
        else if len =? 0 then UB Assert
        else if aspace c <? addr + len then UB WildAddr
        else stay (Copy l i pid ts oi k data addr (N.to_nat len)) s
      else stay (Put l i pid ts data) s
  | Copy l i pid ts oi k data addr n =>
      match n with
      | O => stay (Entries l i pid ts oi (k + 1) data) s
      | S n' => stay (Copy l i pid ts oi k (data ++ [s_mem s addr]) (addr + 1) n') s
      end
  | Put l i pid ts data =>
      q <- enqueue c data (d_q d) ;;
      stay (Loop l (i + 1) ((pid + 1) mod we c) ts) (upd_daq (set_d_q q) s)
  | Send =>
      if q_head (d_q d) =? q_tail (d_q d) then stay Rest s
      else
        '(data, q) <- dequeue c (d_q d) ;;
        let '(s1, o) := send_dto c data (upd_daq (set_d_q q) s) in
        Ok (Send, s1, o)
  end.

(** What happens next: the sampling thread makes its next access, or another
    thread executes an operation of the slave.  Simplification: such an operation
    is not interrupted by the sampling thread. *)
Inductive turn := Go | Other (e : env) (o : op).
Definition take (c : cfg) (u : turn) (x : sampler) (s : st) : sres :=
  match u with
  | Go => next c x s
  | Other e o => '(s1, p) <- step c e o s ;; Ok (x, s1, p)
  end.
Fixpoint take_all (c : cfg) (w : list turn) (x : sampler) (s : st) : sres :=
  match w with
  | [] => Ok (x, s, [])
  | u :: w' =>
      '(x1, s1, o1) <- take c u x s ;;
      '(x2, s2, o2) <- take_all c w' x1 s1 ;;
      Ok (x2, s2, o1 ++ o2)
  end.
