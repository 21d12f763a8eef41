(** C46 - C49: checksums. *)
From Coq Require Import NArith List Bool Lia.
From Verif Require Import Base Config Cfgs Codec Checksum State Core Spec Demo SpecMem SpecCks ProofsCrc ProofsCks ProofsCks2 CasesChecksum.
Import ListNotations.
Open Scope N_scope.

(** ** C46 CRC checksums equal the polynomial definition *)

(** The specification itself: the bit-wise register holds the remainder, which is
    unique, of the message (first bit the highest coefficient) times x^w, plus the
    initial value times x^length, modulo x^w + poly.  Published check values. *)
Theorem C46_definition : forall w poly init l r, poly < 2 ^ (w + 1) -> init < 2 ^ (w + 1) ->
  remainder (w + 1) (2 ^ (w + 1) + poly) (N.lxor (of_bits l * 2 ^ (w + 1)) (init * 2 ^ lenN l)) r <->
  r = crc_register (w + 1) poly init l.
Proof. exact register_iff. Qed.
Print Assumptions C46_definition.

Example C46_check_values : crc_16 digits = 0xBB3D /\ crc_16_citt digits = 0x29B1 /\ crc_32 digits = 0xCBF43926.
Proof. vm_compute. auto. Qed.

(** BUILD_CHECKSUM over a block that is computed at once. *)
Theorem C46_crc_16 : forall c m l s o e r1 r2 r3 n0 n1 n2 n3 t,
  let f := checksum_cmd r1 r2 r3 n0 n1 n2 n3 t in let n := field c [n0; n1; n2; n3] in
  reachable c m l s o -> dlc_ok c -> may_sum c e s n -> lenN f <= c_ctobuf c -> c_cks c = CRC16 ->
  within_limit c n -> at_once c n -> in_space c (s_maddr s) n ->
  answers c e f s ([0xFF; 7; 0; 0] ++ le_bytes 4 (crc_16 (mem_at (s_mem s) (s_maddr s) n))) s.
Proof. exact crc_16_ans. Qed.
Print Assumptions C46_crc_16.

Theorem C46_crc_16_citt : forall c m l s o e r1 r2 r3 n0 n1 n2 n3 t,
  let f := checksum_cmd r1 r2 r3 n0 n1 n2 n3 t in let n := field c [n0; n1; n2; n3] in
  reachable c m l s o -> dlc_ok c -> may_sum c e s n -> lenN f <= c_ctobuf c -> c_cks c = CRC16CITT ->
  within_limit c n -> at_once c n -> in_space c (s_maddr s) n ->
  answers c e f s ([0xFF; 8; 0; 0] ++ le_bytes 4 (crc_16_citt (mem_at (s_mem s) (s_maddr s) n))) s.
Proof. exact crc_16_citt_ans. Qed.
Print Assumptions C46_crc_16_citt.

(** CRC-32 is wrong for every block of one byte, wherever and whatever it is. *)
Theorem C46_crc_32_refuted : forall c m l s o e r1 r2 r3 n0 n1 n2 n3 t,
  let f := checksum_cmd r1 r2 r3 n0 n1 n2 n3 t in let n := field c [n0; n1; n2; n3] in
  reachable c m l s o -> dlc_ok c -> may_sum c e s n -> lenN f <= c_ctobuf c -> c_cks c = CRC32 ->
  n = 1 -> within_limit c n -> at_once c n -> in_space c (s_maddr s) n ->
  exists v, v < 2 ^ 32 /\ v <> crc_32 (mem_at (s_mem s) (s_maddr s) n) /\ answers c e f s (checksum_answer CRC32 v) s.
Proof. intros c m l s o e r1 r2 r3 n0 n1 n2 n3 t f n R D M L. exact (cks_crc32 c m l s o e r1 r2 r3 n0 n1 n2 n3 t R D M L). Qed.
Print Assumptions C46_crc_32_refuted.

Example C46_case : cks_case cfg_can 60 /\ cks_case (w_cks CRC16 cfg_eth) 64 /\ cks_case (w_cks CRC32 cfg_can) 1 /\
  field cfg_eth [60; 0; 0; 0] = 60.
Proof. split; [|split; [|split]]; [cks_tac wf_can|cks_tac wf_crc16|cks_tac wf_crc32|reflexivity]. Qed.

(** ** C47 ADD checksums equal the arithmetic sum *)

(** The sum, modulo the width of the result, of the bytes, or of the 2- or 4-byte
    words in the byte order of the target (a trailing incomplete word is ignored). *)
Theorem C47_sums : forall c m l s o e r1 r2 r3 n0 n1 n2 n3 t,
  let f := checksum_cmd r1 r2 r3 n0 n1 n2 n3 t in let n := field c [n0; n1; n2; n3] in
  let bs := mem_at (s_mem s) (s_maddr s) n in let be := c_host_be c in
  reachable c m l s o -> dlc_ok c -> may_sum c e s n -> lenN f <= c_ctobuf c ->
  within_limit c n -> at_once c n -> in_space c (s_maddr s) n ->
  let says code v := answers c e f s ([0xFF; code; 0; 0] ++ le_bytes 4 v) s in
  match c_cks c with
  | ADD11 => says 1 (sum bs mod 2 ^ 8)
  | ADD12 => says 2 (sum bs mod 2 ^ 16)
  | ADD14 => says 3 (sum bs mod 2 ^ 32)
  | ADD22 => says 4 (sum (words be 2 bs) mod 2 ^ 16)
  | ADD24 => says 5 (sum (words be 2 bs) mod 2 ^ 32)
  | ADD44 => says 6 (sum (words be 4 bs) mod 2 ^ 32)
  | _ => True
  end.
Proof. exact sums_ans. Qed.
Print Assumptions C47_sums.

Example C47_case : cks_case (w_cks ADD11 cfg_eth) 50 /\ cks_case (w_cks ADD22 cfg_eth) 63 /\ cks_case (w_cks ADD44 cfg_eth) 63 /\
  words false 4 [1; 2; 3; 4; 5; 6; 7; 8; 9] = [0x04030201; 0x08070605].
Proof. split; [|split; [|split]]; [cks_tac (wf_add ADD11 ltac:(cbn; auto))|cks_tac (wf_add ADD22 ltac:(cbn; auto 10))|cks_tac (wf_add ADD44 ltac:(cbn; auto 10))|reflexivity]. Qed.

(** ** C48 Background checksum equals the one-shot checksum *)

(** The command itself: no answer yet, and busy. *)
Theorem C48_start : forall c m l s o e r1 r2 r3 n0 n1 n2 n3 t,
  let f := checksum_cmd r1 r2 r3 n0 n1 n2 n3 t in let n := field c [n0; n1; n2; n3] in
  reachable c m l s o -> background c e s n -> lenN f <= c_ctobuf c ->
  exists s1, step c e (ORecv f) s = Ok (s1, []) /\ summing true s s1.
Proof. exact bg_start. Qed.
Print Assumptions C48_start.

(** For blocks of at least two chunks and the methods that compose: until the last
    of [calls] main-function calls the slave stays busy without an answer and every
    call is defined; whatever the master sends, and events, may come in between. *)
Theorem C48_progress : forall c m l s o e r1 r2 r3 n0 n1 n2 n3 t l' s1 o1,
  let f := checksum_cmd r1 r2 r3 n0 n1 n2 n3 t in let n := field c [n0; n1; n2; n3] in
  reachable c m l s o -> dlc_ok c -> background c e s n -> lenN f <= c_ctobuf c ->
  wf_run c ((e, ORecv f) :: l') -> Forall may_interleave l' -> run c ((e, ORecv f) :: l') s = Ok (s1, o1) ->
  2 * c_chunk c <= n -> in_space c (s_maddr s) n -> composes (c_cks c) (c_chunk c) -> mains l' < calls (c_chunk c) n ->
  summing true s s1 /\ filter positive o1 = [] /\
  forall e', mains l' + 1 < calls (c_chunk c) n -> exists s2, step c e' OMain s1 = Ok (s2, []) /\ summing true s s2.
Proof. intros c m l s o e r1 r2 r3 n0 n1 n2 n3 t l' s1 o1 f n R D B L. exact (bg_progress c m l s o e r1 r2 r3 n0 n1 n2 n3 t R D B L l' s1 o1). Qed.
Print Assumptions C48_progress.

(** The last call answers with the checksum of the block and ends the busy state. *)
Theorem C48_complete : forall c m l s o e r1 r2 r3 n0 n1 n2 n3 t l' s1 o1 e',
  let f := checksum_cmd r1 r2 r3 n0 n1 n2 n3 t in let n := field c [n0; n1; n2; n3] in
  reachable c m l s o -> dlc_ok c -> background c e s n -> lenN f <= c_ctobuf c ->
  wf_run c ((e, ORecv f) :: l') -> Forall may_interleave l' -> run c ((e, ORecv f) :: l') s = Ok (s1, o1) ->
  2 * c_chunk c <= n -> in_space c (s_maddr s) n -> composes (c_cks c) (c_chunk c) -> mains l' + 1 = calls (c_chunk c) n ->
  exists s2 o2, step c e' OMain s1 = Ok (s2, o2) /\
    sends o2 (checksum_answer (c_cks c) (checksum_spec (c_cks c) (c_host_be c) (mem_at (s_mem s) (s_maddr s) n))) /\
    summing false s s2 /\ no_job s2.
Proof.
  intros c m l s o e r1 r2 r3 n0 n1 n2 n3 t l' s1 o1 e' f n R D B L Wr Q H.
  exact (bg_complete c m l s o e r1 r2 r3 n0 n1 n2 n3 t R D B L l' s1 o1 Wr Q H e').
Qed.
Print Assumptions C48_complete.

(** Three chunks of 64 and 8 bytes; between the calls a refused command, an event
    and a trigger. *)
Example C48_case : bg_case cfg_eth 200 (checksum_cmd 0 0 0 200 0 0 0 []) 3 /\ calls (c_chunk cfg_eth) 200 = 4 /\ composes (c_cks cfg_eth) (c_chunk cfg_eth).
Proof. split; [bg_tac wf_eth|split; [reflexivity|exact I]]. Qed.

(** Blocks between one and two chunks: the remaining size wraps around and the slave
    stays busy, without an answer, for as many calls as [2^32] bytes more take. *)
Theorem C48_short_refuted : forall c m l s o e r1 r2 r3 n0 n1 n2 n3 t l' s1 o1,
  let f := checksum_cmd r1 r2 r3 n0 n1 n2 n3 t in let n := field c [n0; n1; n2; n3] in
  reachable c m l s o -> dlc_ok c -> background c e s n -> lenN f <= c_ctobuf c ->
  wf_run c ((e, ORecv f) :: l') -> Forall may_interleave l' -> run c ((e, ORecv f) :: l') s = Ok (s1, o1) ->
  n < 2 * c_chunk c -> mains l' < calls (c_chunk c) (n + 2 ^ 32) ->
  summing true s s1 /\ filter positive o1 = [].
Proof. intros c m l s o e r1 r2 r3 n0 n1 n2 n3 t l' s1 o1 f n R D B L. exact (bg_short c m l s o e r1 r2 r3 n0 n1 n2 n3 t R D B L l' s1 o1). Qed.
Print Assumptions C48_short_refuted.

(** ... and it reads beyond the block: at the end of the address space, out of it. *)
Theorem C48_overread_refuted : forall c m l s o e r1 r2 r3 n0 n1 n2 n3 t l' s1 o1 e',
  let f := checksum_cmd r1 r2 r3 n0 n1 n2 n3 t in let n := field c [n0; n1; n2; n3] in
  reachable c m l s o -> dlc_ok c -> background c e s n -> lenN f <= c_ctobuf c ->
  wf_run c ((e, ORecv f) :: l') -> Forall may_interleave l' -> run c ((e, ORecv f) :: l') s = Ok (s1, o1) ->
  n < 2 * c_chunk c -> in_space c (s_maddr s) n -> ~ in_space c (s_maddr s) (2 * c_chunk c) -> mains l' = 1 ->
  step c e' OMain s1 = UB WildAddr.
Proof.
  intros c m l s o e r1 r2 r3 n0 n1 n2 n3 t l' s1 o1 e' f n R D B L Wr Q H.
  exact (bg_wild c m l s o e r1 r2 r3 n0 n1 n2 n3 t R D B L l' s1 o1 Wr Q H e').
Qed.
Print Assumptions C48_overread_refuted.

Example C48_short_case : bg_case cfg_eth 100 (checksum_cmd 0 0 0 100 0 0 0 []) 20 /\ 100 < 2 * c_chunk cfg_eth /\ 20 < calls (c_chunk cfg_eth) (100 + 2 ^ 32) /\
  (let s := demo_st cfg_can env_yes ex_end in let l' := map (pair env_yes) [OMain] in let f := checksum_cmd 0 0 0 100 0 0 0 [] in
   reachable cfg_can mem0 (map (pair env_yes) ex_end) s (demo_out cfg_can env_yes ex_end) /\ background cfg_can env_yes s 100 /\ lenN f <= c_ctobuf cfg_can /\
   is_ok (run cfg_can ((env_yes, ORecv f) :: l') s) = true /\ in_space cfg_can (s_maddr s) 100 /\ ~ in_space cfg_can (s_maddr s) (2 * c_chunk cfg_can)).
Proof.
  split; [bg_tac wf_eth|]. do 2 (split; [reflexivity|]). cbv zeta.
  split; [apply can_at; vm_compute; reflexivity|].
  split; [constructor; [constructor|..]; vm_compute; try (split; reflexivity); try (left; reflexivity); congruence || reflexivity|].
  repeat split; vm_compute; congruence.
Qed.

(** CRC-16 of several chunks is wrong: each chunk is reflected at its end.  So are
    sums of words with chunks that end within a word. *)
Theorem C48_crc_16_refuted : let c := w_cks CRC16 cfg_eth in let f := checksum_cmd 0 0 0 200 0 0 0 [] in
  let s := demo_st c env_yes ex_cks in
  reachable c mem0 (map (pair env_yes) ex_cks) s (demo_out c env_yes ex_cks) /\
  background c env_yes s 200 /\ in_space c (s_maddr s) 200 /\
  exists s' p, run c (map (pair env_yes) (ORecv f :: repeat OMain 4)) s = Ok (s', [p]) /\
    firstn 4 (p_data p) = [0xFF; 7; 0; 0] /\ skipn 4 (p_data p) <> le_bytes 4 (crc_16 (mem_at (s_mem s) (s_maddr s) 200)).
Proof. exact crc16_chunks. Qed.
Print Assumptions C48_crc_16_refuted.

Theorem C48_words_refuted : let c := w_chunk 63 (w_cks ADD22 cfg_eth) in let f := checksum_cmd 0 0 0 200 0 0 0 [] in
  let s := demo_st c env_yes ex_cks in
  reachable c mem0 (map (pair env_yes) ex_cks) s (demo_out c env_yes ex_cks) /\
  background c env_yes s 200 /\ in_space c (s_maddr s) 200 /\
  exists s' p, run c (map (pair env_yes) (ORecv f :: repeat OMain 4)) s = Ok (s', [p]) /\
    firstn 4 (p_data p) = [0xFF; 4; 0; 0] /\
    skipn 4 (p_data p) <> le_bytes 4 (sum (words false 2 (mem_at (s_mem s) (s_maddr s) 200)) mod 2 ^ 16).
Proof. exact add22_chunks. Qed.
Print Assumptions C48_words_refuted.

(** ** C49 BUILD_CHECKSUM limits and MTA *)

Theorem C49_limit : forall c m l s o e r1 r2 r3 n0 n1 n2 n3 t,
  let f := checksum_cmd r1 r2 r3 n0 n1 n2 n3 t in let n := field c [n0; n1; n2; n3] in
  reachable c m l s o -> dlc_ok c -> may_sum c e s n -> lenN f <= c_ctobuf c -> ~ within_limit c n ->
  answers c e f s ([0xFE; 0x22; 0; 0] ++ le_bytes 4 (c_max_blk c)) s.
Proof. intros c m l s o e r1 r2 r3 n0 n1 n2 n3 t f n R D M L. exact (cks_oor c m l s o e r1 r2 r3 n0 n1 n2 n3 t R D M L). Qed.
Print Assumptions C49_limit.

(** The MTA is never advanced, though the protocol demands it. *)
Theorem C49_mta_refuted : forall c m l s o e r1 r2 r3 n0 n1 n2 n3 t s' o',
  let f := checksum_cmd r1 r2 r3 n0 n1 n2 n3 t in let n := field c [n0; n1; n2; n3] in
  reachable c m l s o -> may_sum c e s n -> lenN f <= c_ctobuf c -> 1 <= n < aspace c ->
  step c e (ORecv f) s = Ok (s', o') -> s_maddr s' = s_maddr s /\ s_maddr s' <> (s_maddr s + n) mod aspace c.
Proof. exact cks_mta. Qed.
Print Assumptions C49_mta_refuted.

Example C49_case : (let c := w_max_blk 1000 cfg_eth in let s := demo_st c env_yes ex_cks in
  reachable c mem0 (map (pair env_yes) ex_cks) s (demo_out c env_yes ex_cks) /\ may_sum c env_yes s 1001 /\ ~ within_limit c 1001 /\
  field c [0xE9; 3; 0; 0] = 1001) /\ cks_case cfg_eth 60 /\
  is_ok (step cfg_eth env_yes (ORecv (checksum_cmd 0 0 0 60 0 0 0 [])) (demo_st cfg_eth env_yes ex_cks)) = true.
Proof.
  assert (W : wf_cfg (w_max_blk 1000 cfg_eth)) by wf_cfg_tac.
  split; [|split; [cks_tac wf_eth|vm_compute; reflexivity]]. cbv zeta.
  split; [apply demo_at; [exact W|apply wf_yes; exact W|vm_compute; reflexivity]|].
  split; [repeat split; vm_compute; congruence|]. split; [|reflexivity].
  intros [H|H]; vm_compute in H; [discriminate|]. apply H. reflexivity.
Qed.
