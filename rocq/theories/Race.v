(** Transmission by several threads: the variables that Xcp_SendCto, Xcp_SendDto and
    Xcp_UploadSingleBlock share.  In the example application Xcp_DispatchCommand is called
    by the transport layer thread, Xcp_MainFunction by a thread of its own
    (src/hw/threads.c 101-132) and XcpDaq_TriggerEvent by the application. *)
From Coq Require Import NArith List Bool.
From Verif Require Import Base Config Conc.
Import ListNotations.
Open Scope N_scope.

(** The two transmit buffers, src/xcp.c: Xcp_CtoOut and Xcp_DtoOut. *)
Inductive chan := Cto | Dto.
Definition chan_eqb (a b : chan) : bool := match a, b with Cto, Cto | Dto, Dto => true | _, _ => false end.

(** [h_len], [h_data]: members len and data of the buffers, the data including the transport
    header.  [h_ctr]: Xcp_State.counter.  [h_lock]: the lock XCP_HW_LOCK_TL is held.
    [h_wire]: the frames handed over to the network, with the buffer they were sent from.
    [h_rem], [h_act], [h_mta]: remaining and blockTransferActive of
    Xcp_State.slaveBlockModeState, and Xcp_State.mta.address.  [h_mem]: the memory read by
    uploads.  Simplification: the extent of the buffers is left out (properties C14 and
    C75 are about it); the statistics are left out. *)
Record sh := mkSh {
  h_len : chan -> N; h_data : chan -> N -> N; h_ctr : N; h_lock : bool;
  h_wire : list (chan * list N); h_rem : N; h_act : bool; h_mta : N; h_mem : N -> N }.

Definition set_len (ch : chan) (n : N) (s : sh) : sh :=
  mkSh (fun x => if chan_eqb x ch then n else h_len s x) (h_data s) (h_ctr s) (h_lock s)
    (h_wire s) (h_rem s) (h_act s) (h_mta s) (h_mem s).
Definition set_byte (ch : chan) (i v : N) (s : sh) : sh :=
  mkSh (h_len s) (fun x => if chan_eqb x ch then (fun j => if j =? i then v else h_data s ch j) else h_data s x)
    (h_ctr s) (h_lock s) (h_wire s) (h_rem s) (h_act s) (h_mta s) (h_mem s).
Definition set_ctr (n : N) (s : sh) : sh :=
  mkSh (h_len s) (h_data s) n (h_lock s) (h_wire s) (h_rem s) (h_act s) (h_mta s) (h_mem s).
Definition set_lock (b : bool) (s : sh) : sh :=
  mkSh (h_len s) (h_data s) (h_ctr s) b (h_wire s) (h_rem s) (h_act s) (h_mta s) (h_mem s).
Definition add_wire (ch : chan) (bs : list N) (s : sh) : sh :=
  mkSh (h_len s) (h_data s) (h_ctr s) (h_lock s) (h_wire s ++ [(ch, bs)]) (h_rem s) (h_act s) (h_mta s) (h_mem s).
Definition set_rem (n : N) (s : sh) : sh :=
  mkSh (h_len s) (h_data s) (h_ctr s) (h_lock s) (h_wire s) n (h_act s) (h_mta s) (h_mem s).
Definition set_act (b : bool) (s : sh) : sh :=
  mkSh (h_len s) (h_data s) (h_ctr s) (h_lock s) (h_wire s) (h_rem s) b (h_mta s) (h_mem s).
Definition set_mta (n : N) (s : sh) : sh :=
  mkSh (h_len s) (h_data s) (h_ctr s) (h_lock s) (h_wire s) (h_rem s) (h_act s) n (h_mem s).

(** send() and sendto() read the buffer byte by byte. *)
Fixpoint rd_bytes (ch : chan) (i : N) (n : nat) (acc : list N) (k : list N -> prog sh) : prog sh :=
  match n with
  | O => k (rev acc)
  | S m => rd (fun s => h_data s ch i) (fun b => rd_bytes ch (i + 1) m (b :: acc) k)
  end.

(** src/tl/eth/linuxeth.c 122-139: XcpTl_Send; all bytes are sent. *)
Definition tl_send (ch : chan) (n : N) (k : prog sh) : prog sh :=
  acquire h_lock (set_lock true)
    (rd_bytes ch 0 (N.to_nat n) [] (fun bs => wr (add_wire ch bs) (wr (set_lock false) k))).

(** src/xcp.c 737-742: the length field. *)
Definition put_len (c : cfg) (ch : chan) (len : N) (k : prog sh) : prog sh :=
  if c_len_size c =? 1 then wr (set_byte ch 0 (lobyte len)) k
  else if c_len_size c =? 2 then wr (set_byte ch 0 (lobyte len)) (wr (set_byte ch 1 (hibyte len)) k)
  else k.

(** src/xcp.c 744-751: the counter field; the counter is read for every byte and once more
    by the increment. *)
Definition put_ctr (c : cfg) (ch : chan) (k : prog sh) : prog sh :=
  let inc := rd h_ctr (fun n => wr (set_ctr (u16 (n + 1))) k) in
  let at_ := c_len_size c in
  if c_ctr_size c =? 1 then rd h_ctr (fun n => wr (set_byte ch at_ (lobyte n)) inc)
  else if c_ctr_size c =? 2 then
    rd h_ctr (fun n => wr (set_byte ch at_ (lobyte n))
      (rd h_ctr (fun m => wr (set_byte ch (at_ + 1) (hibyte m)) inc)))
  else k.

(** src/xcp.c 732-758 and 762-790: Xcp_SendCto, Xcp_SendDto. *)
Definition send (c : cfg) (ch : chan) (k : prog sh) : prog sh :=
  rd (fun s => h_len s ch) (fun len =>
  put_len c ch len
  (put_ctr c ch
  (rd (fun s => h_len s ch) (fun n => tl_send ch (u16 (n + c_offset c)) k)))).

(** The bytes [bs] are written from the buffer position [i] upwards. *)
Fixpoint put_up (ch : chan) (i : N) (bs : list N) (k : prog sh) : prog sh :=
  match bs with [] => k | b :: t => wr (set_byte ch i b) (put_up ch (i + 1) t k) end.
(** The same from the last byte downwards. *)
Fixpoint put_down (ch : chan) (i : N) (bs : list N) (k : prog sh) : prog sh :=
  match bs with [] => k | b :: t => put_down ch (i + 1) t (wr (set_byte ch i b) k) end.

(** src/xcp.c 808-856: Xcp_Send8 of the bytes [bs] (at most 8), without
    XCP_ON_CAN_MAX_DLC_REQUIRED.  Longer responses are built the same way in place. *)
Definition response (c : cfg) (bs : list N) (k : prog sh) : prog sh :=
  wr (set_len Cto (lenN bs)) (put_down Cto (c_offset c) bs (send c Cto k)).

(** src/xcp_daq.c 604-612: one frame of XcpDaq_TransmitDtos; the frame has been taken out of
    the queue (see Ring.v). *)
Definition sample (c : cfg) (bs : list N) (k : prog sh) : prog sh :=
  put_up Dto (c_offset c) bs (wr (set_len Dto (lenN bs)) (send c Dto k)).

Fixpoint responses (c : cfg) (ps : list (list N)) : prog sh :=
  match ps with [] => Halt | p :: t => response c p (responses c t) end.
Fixpoint samples (c : cfg) (ps : list (list N)) : prog sh :=
  match ps with [] => Halt | p :: t => sample c p (samples c t) end.

(** Xcp_CopyMemory to the buffer position [i], byte by byte. *)
Fixpoint copy_mem (i a : N) (n : nat) (k : prog sh) : prog sh :=
  match n with
  | O => k
  | S m => rd (fun s => h_mem s a) (fun b => wr (set_byte Cto i b) (copy_mem (i + 1) (a + 1) m k))
  end.

(** src/xcp.c 871-911: Xcp_UploadSingleBlock, without XCP_ON_CAN_MAX_DLC_REQUIRED.
    remaining is a uint8_t; `-=` reads and writes it.  Simplification: the two assignments
    of Xcp_SlaveBlockTransferSetActive (lines 863-869) are one access; with locks that are
    not recursive the call does not return at all (property C50). *)
Definition upload_single (c : cfg) (k : prog sh) : prog sh :=
  rd h_act (fun a =>
  if negb a then k else
  wr (set_byte Cto (c_offset c) 255)
  (rd h_rem (fun r =>
   let part (len : N) (k : prog sh) : prog sh :=
     wr (set_len Cto (u16 (len + 1)))
     (rd h_mta (fun m => copy_mem (c_offset c + 1) m (N.to_nat len)
     (rd h_mta (fun m => wr (set_mta (m + len))
     (rd h_rem (fun r => wr (set_rem ((r + 256 - len) mod 256)) k)))))) in
   let rest :=
     send c Cto (rd h_rem (fun r => if r =? 0 then wr (set_act false) k else k)) in
   if r <=? c_max_cto c - 1 then rd h_rem (fun len => part len rest)
   else part (c_max_cto c - 1) rest))).

(** src/xcp.c 914-937: Xcp_Upload with block mode. *)
Definition upload (c : cfg) (len : N) (k : prog sh) : prog sh :=
  wr (set_rem len) (wr (set_act true) (upload_single c k)).
