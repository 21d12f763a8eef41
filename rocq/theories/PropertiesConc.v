(** C100 to C104: transmission by several threads. *)
From Coq Require Import NArith List Bool.
From Verif Require Import Base Config Cfgs Conc Race Ring SpecConc DemoConc ProofsRing ProofsRing2 ProofsRace ProofsRace2 ProofsRace3.
Import ListNotations.
Open Scope N_scope.

(** ** C100 Responses and DAQ frames sent by two threads *)

(** True of the payloads: whatever the schedule, the frames from either buffer carry the
    payloads in their order, unaltered; and all of them once the threads have finished. *)
Theorem C100_payloads : forall c ps qs sched s, wf_sizes c -> Forall (sendable c) ps -> Forall (sendable c) qs ->
  quiet s ->
  let x := run sched (responses c ps) (samples c qs) s in
  (exists i, Forall2 (carries c) (sent Cto (shared x)) (firstn i ps)) /\
  (exists j, Forall2 (carries c) (sent Dto (shared x)) (firstn j qs)) /\
  (finished x -> Forall2 (carries c) (sent Cto (shared x)) ps /\ Forall2 (carries c) (sent Dto (shared x)) qs).
Proof. exact payload_thm. Qed.
Print Assumptions C100_payloads.

(** Not of the frame counter: in every state a schedule gives a response and a DAQ frame
    the same counter, and the counter advances by one only, *)
Theorem C100_refuted : forall c p q s, wf_sizes c -> c_ctr_size c <> 0 -> sendable c p -> sendable c q -> quiet s ->
  exists sched, let x := run sched (responses c [p]) (samples c [q]) s in
  finished x /\ h_wire (shared x) = [(Cto, numbered_frame c (h_ctr s) p); (Dto, numbered_frame c (h_ctr s) q)] /\
  h_ctr (shared x) = u16 (h_ctr s + 1).
Proof. exact same_counter. Qed.
Print Assumptions C100_refuted.

(** and with a counter of two bytes a frame can carry a number the counter has not had. *)
Theorem C100_torn_refuted : forall c p q s, wf_sizes c -> c_ctr_size c = 2 -> sendable c p -> sendable c q -> quiet s ->
  h_ctr s mod 256 = 255 -> h_ctr s < 65535 ->
  exists sched, let x := run sched (responses c [p]) (samples c [q]) s in
  finished x /\ h_wire (shared x) = [(Cto, numbered_frame c (h_ctr s) p); (Dto, numbered_frame c (h_ctr s + 256) q)].
Proof. exact torn_counter. Qed.
Print Assumptions C100_torn_refuted.

Example C100_case : wf_sizes cfg_eth /\ quiet (sh_at 0x1FF 0 0 false) /\ sendable cfg_eth [255; 1] /\
  h_ctr (sh_at 0x1FF 0 0 false) mod 256 = 255 /\
  let x := run (turns 60) (responses cfg_eth [[255; 1]]) (samples cfg_eth [[0; 7; 8; 9]]) (sh_at 0x1FF 0 0 false) in
  finished x /\
  h_wire (shared x) = [(Cto, [2; 0; 0xFF; 1; 255; 1]); (Dto, [4; 0; 0xFF; 1; 0; 7; 8; 9])].
Proof. vm_compute. repeat split; discriminate. Qed.

(** ** C101 A command during a block upload *)

(** The answer to a command that arrives while Xcp_MainFunction builds a frame of the block
    is written into the same buffer: a schedule sends it twice and the bytes of the block
    are lost, though they count as sent. *)
Theorem C101_refuted : forall c s, wf_sizes c -> quiet s -> h_act s = true -> h_rem s < 256 ->
  let len := frame_bytes c (h_rem s) in
  sendable c (upload_response (h_mem s) (h_mta s) len) ->
  exists sched, let x := run sched (responses c [busy_response]) (upload_single c Halt) s in
  finished x /\
  h_wire (shared x) = [(Cto, numbered_frame c (h_ctr s) busy_response);
    (Cto, numbered_frame c (next_counter c (h_ctr s)) busy_response)] /\
  h_rem (shared x) = h_rem s - len /\ h_mta (shared x) = h_mta s + len.
Proof. exact busy_lost. Qed.
Print Assumptions C101_refuted.

(** With the threads one after the other the block and the answer are sent. *)
Example C101_case : quiet (sh_at 5 100 0x20 true) /\ frame_bytes cfg_can 100 = 7 /\
  let x := run (repeat false 60 ++ repeat true 20) (responses cfg_can [busy_response]) (upload_single cfg_can Halt) (sh_at 5 100 0x20 true) in
  finished x /\
  h_wire (shared x) = [(Cto, [255; 0x20; 0x21; 0x22; 0x23; 0x24; 0x25; 0x26]); (Cto, [0xFE; 0x10])] /\
  h_rem (shared x) = 93 /\ h_mta (shared x) = 0x27.
Proof. vm_compute. repeat split. Qed.

(** ** C102 UPLOAD while the main function runs *)

(** UPLOAD marks the transfer as active before it sends the first frame; a schedule in which
    Xcp_MainFunction finds the mark makes both threads serve it: the memory behind the
    requested range is sent, twice, and the transfer does not end. *)
Theorem C102_refuted : forall c n s, wf_sizes c -> quiet s -> 1 <= n <= 255 -> n <= c_max_cto c - 1 ->
  n + 1 + c_offset c < 2 ^ 16 ->
  let p := upload_response (h_mem s) (h_mta s + n) n in
  exists sched, let x := run sched (upload c n Halt) (upload_single c Halt) s in
  finished x /\
  h_wire (shared x) = [(Cto, numbered_frame c (h_ctr s) p); (Cto, numbered_frame c (next_counter c (h_ctr s)) p)] /\
  h_act (shared x) = true /\ h_rem (shared x) = 256 - n /\ h_mta (shared x) = h_mta s + 2 * n.
Proof. exact upload_twice. Qed.
Print Assumptions C102_refuted.

(** With the threads one after the other the requested bytes are sent, once. *)
Example C102_case : quiet (sh_at 0 0 0x10 false) /\ 4 <= c_max_cto cfg_eth - 1 /\
  let x := run (repeat true 60 ++ repeat false 20) (upload cfg_eth 4 Halt) (upload_single cfg_eth Halt) (sh_at 0 0 0x10 false) in
  finished x /\
  h_wire (shared x) = [(Cto, [5; 0; 0; 0; 255; 0x10; 0x11; 0x12; 0x13])] /\
  h_act (shared x) = false /\ h_rem (shared x) = 0 /\ h_mta (shared x) = 0x14.
Proof. vm_compute. repeat split; discriminate. Qed.

(** ** C103 The queue of DAQ frames between two threads *)

(** For every schedule: the frames taken out are the first of the accepted ones in their
    order, unaltered; the accepted ones are the offered ones in their order, and one is
    missing only when the overload has been recorded. *)
Theorem C103_fifo : forall slots ps n sched, Forall queueable ps ->
  let x := run sched (producer slots ps) (consumer slots n) ring0 in
  (exists l, g_put (shared x) = g_got (shared x) ++ l /\ lenN l <= slots) /\
  (finished x -> thinned (g_put (shared x)) ps /\ (g_ovl (shared x) = false -> g_put (shared x) = ps)).
Proof. exact ring_fifo. Qed.
Print Assumptions C103_fifo.

(** As long as no more frames are offered than there are slots none is refused and no slot
    outside of the array is accessed. *)
Theorem C103_small : forall slots ps n sched, Forall queueable ps -> lenN ps <= slots ->
  let x := run sched (producer slots ps) (consumer slots n) ring0 in
  g_bad (shared x) = false /\ g_ovl (shared x) = false /\ (finished x -> g_put (shared x) = ps).
Proof. exact ring_small. Qed.
Print Assumptions C103_small.

(** Once more have been accepted the array has been overrun, whatever the schedule. *)
Theorem C103_refuted : forall slots ps n sched, Forall queueable ps ->
  let x := run sched (producer slots ps) (consumer slots n) ring0 in
  slots < lenN (g_put (shared x)) -> g_bad (shared x) = true.
Proof. exact ring_overrun. Qed.
Print Assumptions C103_refuted.

Example C103_case :
  let x := run (turns 60) (producer 2 [[1; 2]; [3]; [4; 5]]) (consumer 2 8) ring0 in
  finished x /\ g_put (shared x) = [[1; 2]; [3]; [4; 5]] /\ g_got (shared x) = [[1; 2]; [3]; [4; 5]] /\ g_ovl (shared x) = false /\
  g_bad (shared x) = true /\
  let y := run (repeat true 60) (producer 2 [[1; 2]; [3]; [4; 5]]) (consumer 2 8) ring0 in
  g_put (shared y) = [[1; 2]; [3]] /\ g_ovl (shared y) = true /\ g_bad (shared y) = false.
Proof. vm_compute. repeat split. Qed.

(** ** C104 Events signalled by two threads *)

(** Two threads that put a frame into the queue can pick the same slot: both frames are
    accepted, but one is lost and an empty frame is sent in its place. *)
Theorem C104_refuted : forall slots p q, 2 <= slots -> queueable p -> queueable q -> lenN p = lenN q ->
  exists sched, let x := run sched (producer slots [p]) (producer slots [q]) ring0 in
  finished x /\ g_put (shared x) = [q; p] /\ g_ovl (shared x) = false /\
  exists sched', let y := run sched' (consumer slots 2) Halt (shared x) in
  finished y /\ g_got (shared y) = [p; []].
Proof. exact two_writers. Qed.
Print Assumptions C104_refuted.

(** One after the other both are kept. *)
Example C104_case : queueable [1; 2] /\ queueable [3; 4] /\
  let x := run (repeat true 20 ++ repeat false 20) (producer 4 [[1; 2]]) (producer 4 [[3; 4]]) ring0 in
  finished x /\
  let y := run (repeat true 40) (consumer 4 2) Halt (shared x) in
  finished y /\ g_got (shared y) = [[1; 2]; [3; 4]].
Proof. vm_compute. repeat split; discriminate. Qed.
