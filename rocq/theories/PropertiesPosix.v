(** C153: the locks of the POSIX hardware layer over their life. *)
From Coq Require Import NArith List Bool Lia.
From Verif Require Import Base Posix SpecPosix ProofsPosix.
Import ListNotations.
Open Scope N_scope.

(** ** C153 Locks and condition are created once, used, and destroyed once: refuted *)

(** A lock is held exactly between a call of XcpHw_AcquireLock and the next of
    XcpHw_ReleaseLock; calls for other indices do not matter. *)
Theorem C153_lock : forall n l s k, after n l s -> k < N.of_nat n ->
  (getN (x_locks s) k = Some Free /\ acquired k l = released k l) \/ (getN (x_locks s) k = Some Held /\ acquired k l = released k l + 1).
Proof. exact posix_lock. Qed.
Print Assumptions C153_lock.

(** If each was released as often as acquired, XcpHw_Deinit destroys all of them and the
    condition variable, and then, with its third call, the latter again; if not, it already
    destroys a lock that is held. *)
Theorem C153_locks_destroyed : forall n l s, after n l s ->
  ((forall k, k < N.of_nat n -> acquired k l = released k l) ->
     calls (firstn 2 deinit_calls) s = Ok (mkPosix (repeat Dead n) Dead (x_mutex s)) /\
     calls (firstn 3 deinit_calls) s = UB Uninit) /\
  ((exists k, k < N.of_nat n /\ acquired k l <> released k l) -> calls (firstn 1 deinit_calls) s = UB Uninit).
Proof. exact posix_deinit_far. Qed.
Print Assumptions C153_locks_destroyed.

(** But the first request to transmit leaves its mutex locked for ever ... *)
Theorem C153_mutex_refuted : forall n l s, after n l s ->
  (In Request l -> x_mutex s = Held) /\ (~ In Request l -> x_mutex s = Free).
Proof. exact posix_mutex. Qed.
Print Assumptions C153_mutex_refuted.

(** ... and XcpHw_Deinit is undefined after any history: it destroys the condition
    variable twice. *)
Theorem C153_deinit_refuted : forall n l s, after n l s -> exists w, posix_deinit s = UB w.
Proof. exact posix_deinit_ub. Qed.
Print Assumptions C153_deinit_refuted.

(** A second Xcp_Init is undefined, too. *)
Theorem C153_reinit_refuted : forall n l s, after n l s -> posix_init s = UB Assert.
Proof. exact posix_reinit_ub. Qed.
Print Assumptions C153_reinit_refuted.

(** Four locks, nested sections, a request to transmit, an index out of range. *)
Example C153_case :
  let l := [Acquire 0; Acquire 2; Request; Release 2; Acquire 9; Release 0; Acquire 3] in
  after 4 l (mkPosix [Free; Free; Free; Held] Free Held) /\
  after 4 (l ++ [Release 3]) (mkPosix [Free; Free; Free; Free] Free Held) /\
  acquired 0 l = 1 /\ released 0 l = 1 /\ acquired 3 l = 1 /\ released 3 l = 0 /\
  after 4 [] (mkPosix [Free; Free; Free; Free] Free Free) /\
  posix_deinit (mkPosix [Free; Free; Free; Free] Free Free) = UB Uninit.
Proof. cbv zeta. repeat split; eexists; split; reflexivity. Qed.
