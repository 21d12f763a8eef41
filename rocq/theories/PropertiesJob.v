(** Checksums computed while commands keep coming: C140-C142. *)
From Coq Require Import NArith List Bool.
From Verif Require Import Base Config Cfgs State SpecMem SpecCks Conc DemoConc Job SpecJob ProofsJob ProofsJob2 CasesJob.
Import ListNotations.
Open Scope N_scope.

(** ** C140 Once the job has been set up *)

(** A command that is not interrupted sets it up. *)
Theorem C140_start : forall c a n s, c_lock c = LockRecursive -> c_chunk c < n -> at_rest s ->
  exists s1, started a n s1 /\ y_mem s1 = y_mem s /\
  forall qs b, exists sched, ~ In false sched /\ run sched (serve c (Build a n :: qs)) b s = (serve c qs, b, s1).
Proof. exact start_thm. Qed.
Print Assumptions C140_start.

(** For every schedule: until the last call of the main function every command is refused as
    busy, and nothing else is sent ... *)
Theorem C140_busy : forall c a n s qs m sched, wf_job c s -> computable c a n -> started a n s -> m < calls (c_chunk c) n ->
  let s' := shared (run sched (serve c qs) (mains c (N.to_nat m)) s) in
  y_wild s' = false /\ from_job s' = [] /\
  exists i, (i <= length qs)%nat /\ from_commands s' = repeat busy_answer i /\
    ((2 * length qs <= turns_of true sched)%nat -> i = length qs).
Proof. exact busy_thm. Qed.
Print Assumptions C140_busy.

(** ... and with it the checksum of the block is sent, once, whatever the commands do. *)
Theorem C140_exact : forall c a n s qs sched, wf_job c s -> computable c a n -> started a n s -> Forall (in_range c) qs ->
  let s' := shared (run sched (serve c qs) (mains c (N.to_nat (calls (c_chunk c) n))) s) in
  y_wild s' = false /\ (from_job s' = [] \/ from_job s' = [sum_answer c (mem_at (y_mem s) a n)]) /\
  ((accesses * N.to_nat (calls (c_chunk c) n) <= turns_of false sched)%nat -> from_job s' = [sum_answer c (mem_at (y_mem s) a n)]).
Proof. exact exact_thm. Qed.
Print Assumptions C140_exact.

(** While none is computed in the background, every command is answered at once and in
    order, blocks of up to one chunk with their checksum, whatever the main function does. *)
Theorem C140_small : forall c s qs m sched, wf_job c s -> at_rest s -> c_cks c <> CRC32 -> Forall (small c) qs ->
  let s' := shared (run sched (serve c qs) (mains c m) s) in
  y_wild s' = false /\ from_job s' = [] /\ y_state s' = JIdle /\ y_busy s' = false /\
  exists i, (i <= length qs)%nat /\ from_commands s' = firstn i (map (answer_to c (y_mem s)) qs) /\
    ((3 * length qs <= turns_of true sched)%nat -> i = length qs).
Proof. exact small_thm. Qed.
Print Assumptions C140_small.

Example C140_small_case : wf_job cfg_sum (resting 0x90) /\ at_rest (resting 0x90) /\ c_cks cfg_sum = ADD14 /\
  Forall (small cfg_sum) [Build 0x20 4; Plain [255; 1]; Build 3 2] /\
  let x := run (turns 30) (serve cfg_sum [Build 0x20 4; Plain [255; 1]; Build 3 2]) (mains cfg_sum 3) (resting 0x90) in
  from_commands (shared x) = [[0xFF; 0x03; 0; 0; 0x86; 0; 0; 0]; [255; 1]; [0xFF; 0x03; 0; 0; 7; 0; 0; 0]].
Proof. split; [apply sum_wf|]. split; [repeat split; reflexivity|]. split; [reflexivity|]. split; [|vm_compute; reflexivity]. repeat constructor; vm_compute; discriminate. Qed.

Example C140_case : wf_job cfg_sum (resting 0x90) /\ at_rest (resting 0x90) /\ computable cfg_sum 0x20 10 /\
  wf_job cfg_sum (running 0x20 10) /\ started 0x20 10 (running 0x20 10) /\ calls (c_chunk cfg_sum) 10 = 3 /\
  let x := run (repeat true 12 ++ turns 60) (serve cfg_sum [Build 0x20 10; Plain [255; 1]; Build 3 50; Plain [255; 2]]) (mains cfg_sum 3) (resting 0x90) in
  finished x /\
  y_wire (shared x) = [(true, [0xFE; 0x10]); (true, [0xFE; 0x10]); (true, [0xFE; 0x10]); (false, [0xFF; 0x03; 0; 0; 0x6D; 0x01; 0; 0])].
Proof.
  split; [apply sum_wf|]. split; [repeat split|]. split; [exact sum_computable|]. split; [apply sum_wf2|]. split; [repeat split|].
  vm_compute. repeat split.
Qed.

(** ** C141 The job is marked as running before it is set up *)

(** A schedule adds the bytes at the address of the preceding job, zero for the first one. *)
Theorem C141_stale : forall c a n s, wf_job c s -> c_lock c = LockRecursive -> at_rest s -> c_chunk c < n < 2 ^ 32 -> in_space c a n ->
  in_space c (y_addr s) (c_chunk c) -> composes (c_cks c) (c_chunk c) ->
  exists m sched, let x := run sched (serve c [Build a n]) (mains c m) s in
    finished x /\
    y_wire (shared x) = [(false, sum_answer c (mem_at (y_mem s) (y_addr s) (c_chunk c) ++ mem_at (y_mem s) a n))].
Proof. exact stale_thm. Qed.
Print Assumptions C141_stale.

(** The answer is wrong. *)
Theorem C141_refuted : forall c a n s, wf_job c s -> c_lock c = LockRecursive -> at_rest s -> c_chunk c < n < 2 ^ 32 -> in_space c a n ->
  in_space c (y_addr s) (c_chunk c) -> c_cks c = ADD14 -> sum (mem_at (y_mem s) (y_addr s) (c_chunk c)) mod 2 ^ 32 <> 0 ->
  exists m sched f, let x := run sched (serve c [Build a n]) (mains c m) s in
    finished x /\ y_wire (shared x) = [(false, f)] /\ f <> sum_answer c (mem_at (y_mem s) a n).
Proof. exact wrong_thm. Qed.
Print Assumptions C141_refuted.

Example C141_case : wf_job cfg_sum (resting 0x90) /\ c_lock cfg_sum = LockRecursive /\ at_rest (resting 0x90) /\ in_space cfg_sum 0x20 10 /\
  in_space cfg_sum 0x90 4 /\ c_cks cfg_sum = ADD14 /\ sum (mem_at (y_mem (resting 0x90)) 0x90 4) = 0x246 /\
  let x := run (repeat true 8 ++ repeat false 12 ++ repeat true 3 ++ repeat false 60) (serve cfg_sum [Build 0x20 10]) (mains cfg_sum 4) (resting 0x90) in
  finished x /\ y_wire (shared x) = [(false, [0xFF; 0x03; 0; 0; 0xB3; 0x03; 0; 0])] /\
  sum_answer cfg_sum (mem_at (y_mem (resting 0x90)) 0x20 10) = [0xFF; 0x03; 0; 0; 0x6D; 0x01; 0; 0].
Proof. split; [apply sum_wf|]. split; [reflexivity|]. split; [repeat split|]. vm_compute. repeat split; discriminate. Qed.

(** ** C142 Every BUILD_CHECKSUM is answered *)

(** The slave is no longer busy, but the job is not yet marked as done: a command between the
    two is dropped, whatever follows. *)
Theorem C142_refuted : forall c a n s b m, wf_job c s -> computable c a n -> started a n s -> c_chunk c < m ->
  exists i, forall j, exists sched, let x := run sched (serve c [Build b m]) (mains c (i + j)) s in
    finished x /\ y_wire (shared x) = [(false, sum_answer c (mem_at (y_mem s) a n))] /\
    y_state (shared x) = JIdle /\ y_busy (shared x) = false.
Proof. exact lost_thm. Qed.
Print Assumptions C142_refuted.

(** With POSIX mutexes no schedule answers the command or any later one. *)
Theorem C142_stuck : forall c a n s qs m sched, c_lock c = LockNormal -> at_rest s -> c_chunk c < n ->
  let x := run sched (serve c (Build a n :: qs)) (mains c m) s in
  fst (fst x) <> Halt /\ y_wire (shared x) = [] /\ y_state (shared x) = JIdle.
Proof. exact stuck_thm. Qed.
Print Assumptions C142_stuck.

Example C142_case : wf_job cfg_sum (running 0x20 10) /\ computable cfg_sum 0x20 10 /\ started 0x20 10 (running 0x20 10) /\
  (let x := run (repeat false 37 ++ repeat true 10 ++ repeat false 60) (serve cfg_sum [Build 0x40 12]) (mains cfg_sum 9) (running 0x20 10) in
   finished x /\ y_wire (shared x) = [(false, [0xFF; 0x03; 0; 0; 0x6D; 0x01; 0; 0])]) /\
  (let x := run (repeat false 39 ++ repeat true 12 ++ repeat false 60) (serve cfg_sum [Build 0x40 10]) (mains cfg_sum 9) (running 0x20 10) in
   finished x /\ y_wire (shared x) = [(false, [0xFF; 0x03; 0; 0; 0x6D; 0x01; 0; 0]); (false, [0xFF; 0x03; 0; 0; 0xAD; 0x02; 0; 0])]) /\
  c_lock (w_lock LockNormal cfg_sum) = LockNormal /\ at_rest (resting 0x90) /\
  let y := run (turns 500) (serve (w_lock LockNormal cfg_sum) [Build 0x20 10; Plain [255]]) (mains cfg_sum 99) (resting 0x90) in
  y_wire (shared y) = [] /\ snd (fst y) = Halt.
Proof.
  split; [apply sum_wf2|]. split; [exact sum_computable|]. split; [repeat split|].
  vm_compute. repeat split.
Qed.
