(** The checksum of a large block while commands keep coming: the variables that
    Xcp_DispatchCommand and Xcp_ChecksumMainFunction share.  In the example application the
    former is called by the transport layer thread, the latter, through Xcp_MainFunction, by
    a thread of its own (src/hw/threads.c 101-132). *)
From Coq Require Import NArith List Bool.
From Verif Require Import Base Config Codec Checksum State Core Conc.
Import ListNotations.
Open Scope N_scope.

(** src/xcp_checksum.c 328: Xcp_ChecksumJob, its members state ([y_state]), mta.address
    ([y_addr]), size ([y_size]) and interimChecksum ([y_sum]); Xcp_State.busy ([y_busy]); the
    lock XCP_HW_LOCK_XCP with its owner and the number of acquisitions ([y_lock]; [true]: the
    transport layer thread); the memory ([y_mem]); the responses sent, each with the thread
    that sent it ([y_wire]); a read outside of the address space has happened, the behaviour
    is undefined from there on ([y_wild]). *)
Record jm := mkJm {
  y_state : jstate; y_addr : N; y_size : N; y_sum : N; y_busy : bool;
  y_lock : option (bool * nat); y_mem : mem; y_wire : list (bool * list N); y_wild : bool }.

Definition set_state (x : jstate) (s : jm) : jm :=
  mkJm x (y_addr s) (y_size s) (y_sum s) (y_busy s) (y_lock s) (y_mem s) (y_wire s) (y_wild s).
Definition set_addr (x : N) (s : jm) : jm :=
  mkJm (y_state s) x (y_size s) (y_sum s) (y_busy s) (y_lock s) (y_mem s) (y_wire s) (y_wild s).
Definition set_size (x : N) (s : jm) : jm :=
  mkJm (y_state s) (y_addr s) x (y_sum s) (y_busy s) (y_lock s) (y_mem s) (y_wire s) (y_wild s).
Definition set_sum (x : N) (s : jm) : jm :=
  mkJm (y_state s) (y_addr s) (y_size s) x (y_busy s) (y_lock s) (y_mem s) (y_wire s) (y_wild s).
Definition set_flag (x : bool) (s : jm) : jm :=
  mkJm (y_state s) (y_addr s) (y_size s) (y_sum s) x (y_lock s) (y_mem s) (y_wire s) (y_wild s).
Definition set_lock (x : option (bool * nat)) (s : jm) : jm :=
  mkJm (y_state s) (y_addr s) (y_size s) (y_sum s) (y_busy s) x (y_mem s) (y_wire s) (y_wild s).
Definition add_frame (t : bool) (f : list N) (s : jm) : jm :=
  mkJm (y_state s) (y_addr s) (y_size s) (y_sum s) (y_busy s) (y_lock s) (y_mem s) (y_wire s ++ [(t, f)]) (y_wild s).
Definition set_wild (s : jm) : jm :=
  mkJm (y_state s) (y_addr s) (y_size s) (y_sum s) (y_busy s) (y_lock s) (y_mem s) (y_wire s) true.

(** XcpHw_AcquireLock and XcpHw_ReleaseLock, called by the thread [t]: src/hw/posix/hw.c
    119-131 (mutexes with default attributes, [LockNormal]: a thread that acquires the lock
    again waits for itself) and src/hw/win/hw.c 178-190 (critical sections, [LockRecursive]). *)
Definition enter (c : cfg) (t : bool) (k : prog jm) : prog jm :=
  Do (fun s =>
    match y_lock s with
    | None => Some (set_lock (Some (t, 0%nat)) s, k)
    | Some (t', d) =>
        match c_lock c with
        | LockRecursive => if eqb t t' then Some (set_lock (Some (t, S d)) s, k) else None
        | LockNormal => None
        end
    end).
Definition leave (k : prog jm) : prog jm :=
  wr (fun s => set_lock (match y_lock s with Some (t, S d) => Some (t, d) | _ => None end) s) k.

(** src/xcp.c 2223-2227: Xcp_SetBusy. *)
Definition set_busy (c : cfg) (t b : bool) (k : prog jm) : prog jm :=
  enter c t (wr (set_flag b) (leave k)).

(** A response handed over to the transport layer by the thread [t].  Simplification: one
    access; C100 and C101 are about the buffer the response is built in. *)
Definition reply (t : bool) (f : list N) (k : prog jm) : prog jm := wr (add_frame t f) k.

(** Reads [n] bytes of memory.  Simplification: one access; the threads considered here do
    not write to the memory. *)
Definition look (c : cfg) (a n : N) (k : list N -> prog jm) : prog jm :=
  Do (fun s => if aspace c <? a + n then Some (set_wild s, Halt) else Some (s, k (mread (y_mem s) a n))).

(** src/xcp.c 1295-1303: the frame of Xcp_SendChecksumPositiveResponse. *)
Definition checksum_frame (c : cfg) (v : N) : list N := [0xFF; cksum_code (c_cks c); 0; 0] ++ le32 v.

Definition is_idle (x : jstate) : bool := match x with JIdle => true | _ => false end.

(** src/xcp_checksum.c 338-350: Xcp_StartChecksumCalculation. *)
Definition start_job (c : cfg) (a n : N) (k : prog jm) : prog jm :=
  enter c true
    (rd y_state (fun x =>
       if negb (is_idle x) then leave k
       else
         rd y_busy (fun b =>
           if b then leave k
           else
             set_busy c true true
               (wr (set_state JInit) (wr (set_addr a) (wr (set_size n) (leave k))))))).

(** The commands: BUILD_CHECKSUM over [n] bytes from the MTA [a] on, with access to them and
    within the limit, or any other command, by its response.  Simplification: the other
    commands touch none of the variables above (none but the block upload does). *)
Inductive request := Build (a n : N) | Plain (f : list N).

(** src/xcp.c 1311-1343: Xcp_BuildChecksum_Res after its checks (chunked calculation). *)
Definition build (c : cfg) (a n : N) (k : prog jm) : prog jm :=
  if n <=? c_chunk c then look c a n (fun bs => reply true (checksum_frame c (calc (c_cks c) (c_host_be c) bs 0 true)) k)
  else start_job c a n k.

(** src/xcp.c 945-959: Xcp_DispatchCommand of a connected slave, command after command. *)
Fixpoint serve (c : cfg) (qs : list request) : prog jm :=
  match qs with
  | [] => Halt
  | q :: qs =>
      rd y_busy (fun b =>
        if b then reply true [0xFE; 0x10] (serve c qs)
        else match q with Build a n => build c a n (serve c qs) | Plain f => reply true f (serve c qs) end)
  end.

(** The checksum of the next [n] bytes, of all that remain if [None]; the first one starts
    from zero. *)
Definition sum_next (c : cfg) (n : option N) (first : bool) (k : prog jm) : prog jm :=
  rd y_addr (fun a =>
    let go n := rd y_sum (fun v => look c a n (fun bs => wr (set_sum (calc (c_cks c) (c_host_be c) bs (if first then 0 else v) first)) k)) in
    match n with Some n => go n | None => rd y_size go end).
(** src/xcp_checksum.c 363-364, 373-374. *)
Definition advance (c : cfg) (k : prog jm) : prog jm :=
  rd y_size (fun n => wr (set_size (sub32 n (c_chunk c)))
    (rd y_addr (fun a => wr (set_addr ((a + c_chunk c) mod aspace c)) k))).

(** src/xcp_checksum.c 356-388: Xcp_ChecksumMainFunction; no lock is held. *)
Definition main_job (c : cfg) (k : prog jm) : prog jm :=
  rd y_state (fun x => if is_idle x then k else
  rd y_state (fun x => match x with
    | JInit => sum_next c (Some (c_chunk c)) true (advance c (wr (set_state JRem) k))
    | _ =>
  rd y_state (fun x => match x with
    | JRem => sum_next c (Some (c_chunk c)) false
                (advance c (rd y_size (fun n => if n <=? c_chunk c then wr (set_state JFinal) k else k)))
    | _ =>
  rd y_state (fun x => match x with
    | JFinal => sum_next c None false
                  (set_busy c false false
                     (rd y_sum (fun v => reply false (checksum_frame c v) (wr (set_state JIdle) k))))
    | _ => k
    end) end) end)).

(** src/hw/threads.c 125-131: the main function called [n] times. *)
Fixpoint mains (c : cfg) (n : nat) : prog jm :=
  match n with O => Halt | S n => main_job c (mains c n) end.
