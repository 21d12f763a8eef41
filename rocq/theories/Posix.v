(** Locks, condition variable and mutex of src/hw/posix/hw.c over their life: created
    by XcpHw_PosixInit, used, destroyed by XcpHw_Deinit.  What POSIX leaves
    undefined is [UB]: creating an object that exists, using or destroying one that
    does not, destroying a mutex that is held.  Simplification: which thread holds a
    mutex is not recorded; an attempt to lock a held one is [UB Deadlock] (the
    calling thread waits). *)
From Coq Require Import NArith List Bool.
From Verif Require Import Base.
Import ListNotations.
Open Scope N_scope.

Inductive obj := Raw | Free | Held | Dead.
Record posix := mkPosix { x_locks : list obj; x_cond : obj; x_mutex : obj }.

(** pthread_mutex_init, pthread_cond_init *)
Definition create (o : obj) : out obj := match o with Raw | Dead => Ok Free | _ => UB Assert end.
(** pthread_mutex_destroy, pthread_cond_destroy *)
Definition destroy (o : obj) : out obj := match o with Free => Ok Dead | _ => UB Uninit end.
(** pthread_mutex_lock, pthread_mutex_unlock *)
Definition lock (o : obj) : out obj := match o with Free => Ok Held | Held => UB Deadlock | _ => UB Uninit end.
Definition unlock (o : obj) : out obj := match o with Held => Ok Free | _ => UB Uninit end.

Fixpoint each (f : obj -> out obj) (l : list obj) : out (list obj) :=
  match l with [] => Ok [] | o :: t => o1 <- f o ;; t1 <- each f t ;; Ok (o1 :: t1) end.
Fixpoint nth_do (f : obj -> out obj) (l : list obj) (k : nat) : out (list obj) :=
  match l, k with
  | [], _ => Ok []
  | o :: t, O => o1 <- f o ;; Ok (o1 :: t)
  | o :: t, S j => t1 <- nth_do f t j ;; Ok (o :: t1)
  end.

(** Statics before main(): src/hw/posix/hw.c 85-88. *)
Definition posix_start (n : nat) : posix := mkPosix (repeat Raw n) Raw Raw.

(** src/hw/posix/hw.c 90-94, 103-109: XcpHw_PosixInit with XcpHw_InitLocks. *)
Definition posix_init (s : posix) : out posix :=
  l <- each create (x_locks s) ;; c <- create (x_cond s) ;; m <- create (x_mutex s) ;; Ok (mkPosix l c m).

(** src/hw/posix/hw.c 111-117: XcpHw_DeinitLocks. *)
Definition deinit_locks (s : posix) : out posix :=
  l <- each destroy (x_locks s) ;; Ok (mkPosix l (x_cond s) (x_mutex s)).
Definition deinit_cond (s : posix) : out posix := c <- destroy (x_cond s) ;; Ok (mkPosix (x_locks s) c (x_mutex s)).
Definition deinit_mutex (s : posix) : out posix := m <- destroy (x_mutex s) ;; Ok (mkPosix (x_locks s) (x_cond s) m).

(** src/hw/posix/hw.c 96-101: the calls of XcpHw_Deinit, one after the other. *)
Definition deinit_calls : list (posix -> out posix) := [deinit_locks; deinit_cond; deinit_cond; deinit_mutex].
Fixpoint calls (l : list (posix -> out posix)) (s : posix) : out posix :=
  match l with [] => Ok s | f :: t => s1 <- f s ;; calls t s1 end.
Definition posix_deinit (s : posix) : out posix := calls deinit_calls s.

(** src/hw/posix/hw.c 119-124, 126-131: XcpHw_AcquireLock, XcpHw_ReleaseLock. *)
Definition acquire_lock (k : N) (s : posix) : out posix :=
  if N.of_nat (length (x_locks s)) <=? k then Ok s
  else l <- nth_do lock (x_locks s) (N.to_nat k) ;; Ok (mkPosix l (x_cond s) (x_mutex s)).
Definition release_lock (k : N) (s : posix) : out posix :=
  if N.of_nat (length (x_locks s)) <=? k then Ok s
  else l <- nth_do unlock (x_locks s) (N.to_nat k) ;; Ok (mkPosix l (x_cond s) (x_mutex s)).
(** src/hw/posix/hw.c 133-136: XcpHw_SignalTransmitRequest. *)
Definition signal_request (s : posix) : out posix :=
  m <- lock (x_mutex s) ;;
  match x_cond s with Free => Ok (mkPosix (x_locks s) (x_cond s) m) | _ => UB Uninit end.

Inductive use := Acquire (k : N) | Release (k : N) | Request.
Definition use_step (u : use) (s : posix) : out posix :=
  match u with Acquire k => acquire_lock k s | Release k => release_lock k s | Request => signal_request s end.
Fixpoint uses (l : list use) (s : posix) : out posix :=
  match l with [] => Ok s | u :: t => s1 <- use_step u s ;; uses t s1 end.
