(** C56-C58: the serial transport layer. *)
From Coq Require Import NArith List Bool Lia.
From Verif Require Import Base Sxi SpecSxi ProofsSxi CasesSxi.
Import ListNotations.
Open Scope N_scope.

(** ** C56 Reassembly *)

(** Each frame leads to one command with its length and contents, in order, however
    calls that find no byte are mixed in. *)
Theorem C56_frames : forall buf fs l, 4 <= lenN buf <= 2 ^ 16 -> Forall (fits (lenN buf)) fs -> quiet 0 l -> octets l = wires fs ->
  exists r o, sxi_run l (sxi_init buf) = Ok (r, o) /\ map seen o = map f_data fs /\
    map fst o = map (fun f => lenN (f_data f)) fs /\ r_state r = Idle.
Proof. exact sxi_frames. Qed.
Print Assumptions C56_frames.

(** The commands including what lies behind the contents.  For an empty frame the
    command processor, which looks at the first byte whatever the length, is called
    with the contents of the frame before. *)
Theorem C56_commands : forall buf fs l, 4 <= lenN buf <= 2 ^ 16 -> Forall (fits (lenN buf)) fs -> quiet 0 l -> octets l = wires fs ->
  exists r, sxi_run l (sxi_init buf) = Ok (r, commands (dropN 4 buf) fs) /\ r_state r = Idle.
Proof. exact sxi_commands. Qed.
Print Assumptions C56_commands.

(** The check sum that is part of the configuration of this transport layer is not
    expected by the receiver: it is taken for the length of the next frame, which is
    lost (here for the values that do not lead to an overflow, see C57). *)
Theorem C56_checksum_refuted : forall buf f g k0 k1 l, 4 <= lenN buf <= 2 ^ 16 -> fits (lenN buf) f -> fits (lenN buf) g ->
  k0 < 256 -> k1 < 256 -> let k := k0 + 256 * k1 in k + 4 <= lenN buf -> lenN (f_data g) + 2 < k -> quiet 0 l ->
  octets l = wire f ++ [k0; k1] ++ wire g -> exists r, sxi_run l (sxi_init buf) = Ok (r, commands (dropN 4 buf) [f]).
Proof. exact sxi_checksum. Qed.
Print Assumptions C56_checksum_refuted.


Example C56_case :
  let buf := repeat 0 70 in let f := mkFrame 1 0 [0xF4; 1; 0; 0; 0; 0x10; 0; 0] in let g := mkFrame 2 0 [] in
  let l := map (at_ms 500) (wire f) ++ [nothing 700; nothing 800] ++ map (at_ms 900) (wire g) in
  fits (lenN buf) f /\ fits (lenN buf) g /\ quiet 0 l /\ octets l = wires [f; g] /\
  (match sxi_run l (sxi_init buf) with Ok (_, [(8, d1); (0, d2)]) => takeN 8 d1 = f_data f /\ takeN 8 d2 = f_data f | _ => False end) /\
  (let h := map (at_ms 500) (wire f ++ [30; 0] ++ wire (mkFrame 2 0 [0xFE])) in
   quiet 0 h /\ match sxi_run h (sxi_init buf) with Ok (_, [(8, _)]) => True | _ => False end).
Proof.
  cbv zeta. split; [split; [vm_compute; congruence|vm_compute; repeat constructor]|].
  split; [split; [vm_compute; congruence|vm_compute; repeat constructor]|].
  split; [vm_compute; repeat split; congruence|]. split; [vm_compute; reflexivity|].
  split; [vm_compute; split; reflexivity|]. split; [vm_compute; repeat split; congruence|]. vm_compute. exact I.
Qed.

(** ** C57 Any input *)

(** As long as the bytes are (the beginning of) frames that fit, all is well. *)
Theorem C57_well_formed : forall buf fs more l, 4 <= lenN buf <= 2 ^ 16 -> Forall (fits (lenN buf)) fs -> quiet 0 l ->
  octets l ++ more = wires fs -> exists r o, sxi_run l (sxi_init buf) = Ok (r, o).
Proof. exact sxi_prefix. Qed.
Print Assumptions C57_well_formed.

(** Otherwise the receiver writes behind its buffer: for every length field too large
    for the buffer, whatever follows. *)
Theorem C57_refuted : forall buf n bs l, 4 <= lenN buf < 2 ^ 16 -> lenN buf < n + 4 -> n <= 65534 -> quiet 0 l ->
  octets l = n mod 256 :: n / 256 :: bs -> lenN buf <= lenN bs + 1 -> sxi_run l (sxi_init buf) = UB OobBuffer.
Proof. exact sxi_overflow. Qed.
Print Assumptions C57_refuted.

(** The largest length field leads, after three bytes, to a command of which no byte
    has been received. *)
Theorem C57_wrap_refuted : forall buf x t, 4 <= lenN buf -> t < 2 ^ 32 ->
  exists r, sxi_run [mkPoll (Some 255) t t; mkPoll (Some 255) t t; mkPoll (Some x) t t] (sxi_init buf) = Ok (r, [(65535, dropN 4 buf)]).
Proof. exact sxi_short. Qed.
Print Assumptions C57_wrap_refuted.

Example C57_case :
  let buf := repeat 0 70 in let l := map (at_ms 500) ([67; 0] ++ repeat 1 69) in
  lenN buf < 67 + 4 /\ quiet 0 l /\ octets l = 67 mod 256 :: 67 / 256 :: repeat 1 69 /\
  lenN buf <= lenN (repeat 1 69) + 1 /\ is_ok (sxi_run (removelast l) (sxi_init buf)) = true.
Proof.
  cbv zeta. split; [vm_compute; congruence|]. split; [vm_compute; repeat split; congruence|].
  split; [vm_compute; reflexivity|]. split; [vm_compute; congruence|]. vm_compute. reflexivity.
Qed.

(** ** C58 Time-out *)

(** Inside a frame, the check falls back to idle exactly if the time since the last
    byte is longer than the clock reading at that byte. *)
Theorem C58_exact : forall buf l r o t, sxi_run l (sxi_init buf) = Ok (r, o) -> r_state r <> Idle ->
  sxi_main (mkPoll None t t) r = Ok (if last_byte 0 l <? elapsed (last_byte 0 l) t then reset_sm r else r, []).
Proof. exact timeout_exact. Qed.
Print Assumptions C58_exact.

(** So it may be too early or too late; the configured 100 ms play no part. *)
Theorem C58_early_refuted : forall buf l r o t d, sxi_run l (sxi_init buf) = Ok (r, o) -> r_state r <> Idle ->
  last_byte 0 l = t -> t < d -> d <= 100 -> exists r', sxi_main (mkPoll None (t + d) (t + d)) r = Ok (r', []) /\ r_state r' = Idle.
Proof. exact timeout_early. Qed.
Print Assumptions C58_early_refuted.

Theorem C58_late_refuted : forall buf l r o t d, sxi_run l (sxi_init buf) = Ok (r, o) -> r_state r <> Idle ->
  last_byte 0 l = t -> 100 < d -> d <= t -> t + d < 2 ^ 32 -> sxi_main (mkPoll None (t + d) (t + d)) r = Ok (r, []).
Proof. exact timeout_late. Qed.
Print Assumptions C58_late_refuted.

Example C58_case :
  let buf := repeat 0 70 in
  let stuck t := match sxi_run [mkPoll (Some 8) t t; mkPoll (Some 0) t t] (sxi_init buf) with Ok (r, _) => Some r | UB _ => None end in
  (exists r, stuck 20 = Some r /\ r_state r = Remaining) /\ (exists r, stuck 3600000 = Some r /\ r_state r = Remaining) /\
  last_byte 0 [mkPoll (Some 8) 20 20; mkPoll (Some 0) 20 20] = 20.
Proof.
  cbv zeta. split; [|split; [|reflexivity]]; (eexists; split; [vm_compute; reflexivity|reflexivity]).
Qed.
