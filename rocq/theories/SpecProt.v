(** Vocabulary of the protection properties. *)
From Coq Require Import NArith List Bool.
From Verif Require Import Base Config Codec State Core Spec.
Import ListNotations.
Open Scope N_scope.

(** The DAQ configuration: all DAQ state but the transmit queue. *)
Definition same_config (d d' : daqst) : Prop :=
  d_run d' = d_run d /\ d_plist d' = d_plist d /\ d_podt d' = d_podt d /\ d_pent d' = d_pent d /\
  d_alloc d' = d_alloc d /\ d_ents d' = d_ents d /\ d_ecnt d' = d_ecnt d /\ d_lcnt d' = d_lcnt d /\
  d_ocnt d' = d_ocnt d /\ d_mode d' = d_mode d /\ d_lfe d' = d_lfe d.

(** Stopped, no lists, ODTs or entries, no event assigned, DAQ pointer at zero,
    nothing queued. *)
Definition empty_config (d : daqst) : Prop :=
  d_run d = false /\ d_lcnt d = 0 /\ d_ocnt d = 0 /\ d_ecnt d = 0 /\
  Forall (fun e => e = mkEnt KUnused BZero) (d_ents d) /\ Forall (fun l => l = 0) (d_lfe d) /\
  d_plist d = 0 /\ d_podt d = 0 /\ d_pent d = 0.
Definition empty_queue (d : daqst) : Prop := q_head (d_q d) = q_tail (d_q d).

(** [P] holds in every state of the execution of [l] from [s], the first and the
    last included. *)
Fixpoint throughout (c : cfg) (P : st -> Prop) (l : list (env * op)) (s : st) : Prop :=
  P s /\ match l with
         | [] => True
         | (e, x) :: t => match step c e x s with Ok (s1, _) => throughout c P t s1 | UB _ => True end
         end.

(** Protection status that Xcp_Init establishes: bit 0 CAL/PAG, 2 DAQ, 3 STIM,
    4 PGM; without GET_SEED and UNLOCK in the build nothing is protected. *)
Definition default_status (c : cfg) : N :=
  if c_protect c then
    (if c_prot_cal c then 1 else 0) + (if c_prot_daq c then 4 else 0) + (if c_prot_stim c then 8 else 0) +
    (if c_prot_pgm c then 16 else 0)
  else 0.

(** One bit of the protection status or of the set of requested seeds. *)
Definition protected_bit (s : st) (i : N) : Prop := N.testbit (s_prot s) i = true.
Definition pending_bit (s : st) (i : N) : Prop := N.testbit (s_seed s) i = true.

(** The key hook accepts the key in the receive buffer [b]: byte 1 is the length,
    the key starts at byte 2. *)
Definition key_accepted (e : env) (s : st) (b : list N) : Prop :=
  e_unlock e (s_seed s) (nth 1 b 0) (skipn 2 b) = true.

(** Everything re-locked, no seed pending, measurement configuration gone. *)
Definition relocked_st (c : cfg) (s : st) : Prop :=
  s_prot s = default_status c /\ s_seed s = 0 /\ (c_daq c = true -> empty_config (s_daq s) /\ empty_queue (s_daq s)).

(** Nothing but protection, seeds and DAQ changed (and buffers, counters). *)
Definition same_rest (s s' : st) : Prop :=
  s_conn s' = s_conn s /\ s_busy s' = s_busy s /\ s_pgm s' = s_pgm s /\ s_mext s' = s_mext s /\ s_maddr s' = s_maddr s /\
  s_sact s' = s_sact s /\ s_srem s' = s_srem s /\ s_mact s' = s_mact s /\ s_mrem s' = s_mrem s /\ s_held s' = s_held s /\
  s_mem s' = s_mem s /\ s_job s' = s_job s.
