(** Vocabulary for the properties of checksums computed while commands keep coming. *)
From Coq Require Import NArith List Bool.
From Verif Require Import Base Config State SpecMem SpecCks Conc Job.
Import ListNotations.
Open Scope N_scope.

(** The responses sent by the thread that computes the checksum, and by the one that
    receives the commands. *)
Definition from_job (s : jm) : list (list N) := map snd (filter (fun f => negb (fst f)) (y_wire s)).
Definition from_commands (s : jm) : list (list N) := map snd (filter fst (y_wire s)).

(** ERR_CMD_BUSY. *)
Definition busy_answer : list N := [0xFE; 0x10].

(** The answer to BUILD_CHECKSUM over the bytes [bs]. *)
Definition sum_answer (c : cfg) (bs : list N) : list N :=
  checksum_answer (c_cks c) (checksum_spec (c_cks c) (c_host_be c) bs).

(** No checksum is being computed: the slave accepts commands; nothing has been sent yet. *)
Definition at_rest (s : jm) : Prop :=
  y_state s = JIdle /\ y_busy s = false /\ y_lock s = None /\ y_wire s = [] /\ y_wild s = false.

(** The checksum over [n] bytes from [a] on is about to be computed; nothing has been sent
    yet. *)
Definition started (a n : N) (s : jm) : Prop :=
  y_state s = JInit /\ y_addr s = a /\ y_size s = n /\ y_busy s = true /\ y_lock s = None /\
  y_wire s = [] /\ y_wild s = false.

(** What the code takes for granted. *)
Definition wf_job (c : cfg) (s : jm) : Prop :=
  1 <= c_chunk c < 2 ^ 32 /\ (forall x, y_mem s x < 256).

(** A block the code computes correctly in the background: at least two chunks (C48), in the
    address space, with a method that can be continued from chunk to chunk. *)
Definition computable (c : cfg) (a n : N) : Prop :=
  2 * c_chunk c <= n < 2 ^ 32 /\ in_space c a n /\ composes (c_cks c) (c_chunk c).

(** Commands whose blocks lie in the address space. *)
Definition in_range (c : cfg) (q : request) : Prop :=
  match q with Build a n => in_space c a n | Plain _ => True end.

(** Turns given to the first ([true]) or to the second thread. *)
Definition turns_of (t : bool) (sched : list bool) : nat := count_occ bool_dec sched t.

(** Accesses that one call of Xcp_ChecksumMainFunction takes at most. *)
Definition accesses : nat := 15.

(** Commands that are answered at once, and the answer, with memory contents [m]. *)
Definition small (c : cfg) (q : request) : Prop :=
  match q with Build a n => n <= c_chunk c /\ in_space c a n | Plain _ => True end.
Definition answer_to (c : cfg) (m : mem) (q : request) : list N :=
  match q with Build a n => sum_answer c (mem_at m a n) | Plain f => f end.
