(** Two threads that use the buffer of the responses. *)
From Coq Require Import NArith ZArith List Bool Lia ZifyBool ZifyNat ZifyN.
From Verif Require Import Base Config Conc Race SpecConc ProofsConc0 ProofsRace ProofsRace2.
Import ListNotations.
Open Scope N_scope.

Lemma solo_copy : forall n i a k s, exists s', solo (copy_mem i a n k) s k s' /\
  (forall j, h_data s' Cto j = if (i <=? j) && (j <? i + N.of_nat n) then h_mem s (a + (j - i)) else h_data s Cto j) /\
  h_len s' = h_len s /\ same_ch Dto s s' /\ same_blk s s' /\ same_tx s s'.
Proof.
  induction n as [|n IH]; intros i a k s; cbn [copy_mem].
  - exists s. split; [apply solo_refl|]. split; [|repeat split].
    intros j. replace ((i <=? j) && (j <? i + N.of_nat 0)) with false by lia. reflexivity.
  - destruct (IH (i + 1) (a + 1) k (set_byte Cto i (h_mem s a) s)) as (s' & H1 & H2 & H3 & H4 & H5 & H6).
    exists s'. split; [apply solo_rd, solo_wr; exact H1|]. split.
    + intros j. rewrite H2. cbn [h_data set_byte chan_eqb h_mem].
      destruct (N.eqb_spec j i) as [->|Hne].
      * replace (i + 1 <=? i) with false by lia. replace ((i <=? i) && (i <? i + N.of_nat (S n))) with true by lia.
        cbn [andb]. rewrite N.sub_diag, N.add_0_r. reflexivity.
      * destruct (N.le_gt_cases i j).
        -- replace ((i <=? j) && (j <? i + N.of_nat (S n))) with ((i + 1 <=? j) && (j <? i + 1 + N.of_nat n)) by lia.
           destruct (_ && _) eqn:Eb; auto. f_equal. lia.
        -- replace (i + 1 <=? j) with false by lia. replace (i <=? j) with false by lia. reflexivity.
    + split; [exact H3|]. split; [exact H4|]. split; [exact H5|exact H6].
Qed.

(** The bytes of a block. *)
Definition block (mem : N -> N) (a len : N) : list N := 255 :: map (fun i => mem (a + i)) (from 0 (N.to_nat len)).
Lemma block_len : forall mem a n, lenN (block mem a n) = n + 1.
Proof. intros. unfold lenN, block. cbn [length]. rewrite map_from_len. lia. Qed.
Lemma nth_from : forall (f : N -> N) n i k, (k < n)%nat -> nth k (map f (from i n)) 0 = f (i + N.of_nat k).
Proof.
  intros f n. induction n as [|n IH]; intros i [|k] Hk; cbn [from map nth]; try lia.
  - f_equal. lia.
  - rewrite IH by lia. f_equal. lia.
Qed.

Definition after (c : cfg) (k : prog sh) : prog sh :=
  send c Cto (rd h_rem (fun r => if r =? 0 then wr (set_act false) k else k)).
Definition block_len_of (c : cfg) (r : N) : N := if r <=? c_max_cto c - 1 then r else c_max_cto c - 1.

(** Up to the update of the remaining length. *)
Lemma solo_block : forall c k s, h_act s = true ->
  let len := block_len_of c (h_rem s) in len + 1 < 2 ^ 16 -> exists s',
  solo (upload_single c k) s (rd h_rem (fun r => wr (set_rem ((r + 256 - len) mod 256)) (after c k))) s' /\
  filled c Cto (block (h_mem s) (h_mta s) len) s' /\
  h_rem s' = h_rem s /\ h_act s' = true /\ h_mta s' = h_mta s + len /\ h_mem s' = h_mem s /\
  same_ch Dto s s' /\ same_tx s s'.
Proof.
  intros c k s Ha len Hlen.
  set (s1 := set_len Cto (u16 (len + 1)) (set_byte Cto (c_offset c) 255 s)).
  destruct (solo_copy (N.to_nat len) (c_offset c + 1) (h_mta s)
    (rd h_mta (fun m => wr (set_mta (m + len))
       (rd h_rem (fun r => wr (set_rem ((r + 256 - len) mod 256)) (after c k))))) s1)
    as (s2 & H1 & H2 & H3 & (H4 & H4') & (H5 & H6 & H7 & H8) & (H9 & H10 & H11)).
  exists (set_mta (h_mta s + len) s2). split.
  - unfold upload_single. apply solo_rd. rewrite Ha. cbn [negb].
    apply solo_wr, solo_rd. cbn [h_rem set_byte].
    assert (E : (h_rem s <=? c_max_cto c - 1) = true /\ len = h_rem s \/
                (h_rem s <=? c_max_cto c - 1) = false /\ len = c_max_cto c - 1).
    { unfold len, block_len_of. destruct (h_rem s <=? c_max_cto c - 1); auto. }
    destruct E as [[E1 E2]|[E1 E2]]; rewrite E1.
    + apply solo_rd. cbn [h_rem set_byte]. rewrite <- E2. apply solo_wr, solo_rd. fold s1.
      change (h_mta s1) with (h_mta s). eapply solo_trans; [exact H1|]. apply solo_rd. rewrite H7.
      change (h_mta s1) with (h_mta s). apply solo_wr. apply solo_refl.
    + rewrite <- E2. apply solo_wr, solo_rd. fold s1.
      change (h_mta s1) with (h_mta s). eapply solo_trans; [exact H1|]. apply solo_rd. rewrite H7.
      change (h_mta s1) with (h_mta s). apply solo_wr. apply solo_refl.
  - split.
    { split.
      - cbn [h_len set_mta]. rewrite H3, block_len. cbn [s1 h_len set_len chan_eqb]. unfold u16. apply N.mod_small. exact Hlen.
      - intros j Hj. rewrite block_len in Hj. cbn [h_data set_mta]. rewrite H2.
        destruct (N.eq_dec j 0) as [->|Hne].
        + replace (c_offset c + 1 <=? c_offset c + 0) with false by lia. cbn [andb s1 h_data set_len set_byte chan_eqb].
          rewrite N.add_0_r, N.eqb_refl. reflexivity.
        + replace ((c_offset c + 1 <=? c_offset c + j) && (c_offset c + j <? c_offset c + 1 + N.of_nat (N.to_nat len))) with true by lia.
          replace (N.to_nat j) with (S (N.to_nat (j - 1))) by lia. cbn [block nth]. unfold block. cbn [nth].
          rewrite nth_from by lia. cbn [s1 h_mem set_len set_byte]. f_equal. lia. }
    cbn [h_rem h_act h_mta h_mem set_mta]. unfold s1 in *. cbn [h_rem h_act h_mem set_len set_byte] in *.
    split; [exact H5|]. split; [congruence|]. split; [reflexivity|]. split; [exact H8|].
    split; [split; [exact H4|exact H4']|]. split; [exact H9|]. split; [exact H10|exact H11].
Qed.

Definition busy_answer : list N := [0xFE; 0x10].

(** An ERR_CMD_BUSY response while a block is being uploaded. *)
Theorem busy_upload : forall c s, wf_sizes c -> quiet s -> h_act s = true -> h_rem s < 256 ->
  let len := block_len_of c (h_rem s) in
  sendable c (block (h_mem s) (h_mta s) len) ->
  exists sched, let x := run sched (responses c [busy_answer]) (upload_single c Halt) s in
  finished x /\
  h_wire (shared x) = [(Cto, numbered_frame c (h_ctr s) busy_answer);
    (Cto, numbered_frame c (if c_ctr_size c =? 0 then h_ctr s else u16 (h_ctr s + 1)) busy_answer)] /\
  h_rem (shared x) = h_rem s - len /\ h_mta (shared x) = h_mta s + len.
Proof.
  intros c s Wf [Hw Hl] Ha Hr len Hs. unfold sendable in Hs. rewrite block_len in Hs.
  assert (Hlen : len <= h_rem s) by (unfold len, block_len_of; destruct (N.leb_spec (h_rem s) (c_max_cto c - 1)); lia).
  destruct (solo_block c Halt s Ha) as (s1 & A1 & A2 & A3 & A4 & A5 & A6 & A7 & (A8 & A9 & A10)); [fold len; lia|].
  fold len in A1, A2, A5.
  set (s2 := set_rem (h_rem s - len) s1).
  assert (B1 : solo (upload_single c Halt) s (after c Halt) s2).
  { eapply solo_trans; [exact A1|]. apply solo_rd, solo_wr. rewrite A3.
    replace ((h_rem s + 256 - len) mod 256) with (h_rem s - len).
    - apply solo_refl.
    - replace (h_rem s + 256 - len) with (h_rem s - len + 1 * 256) by lia. rewrite N.mod_add by lia.
      symmetry. apply N.mod_small. lia. }
  destruct (solo_response c busy_answer Halt s2) as (s3 & C1 & C2 & C3 & (C4 & C4' & C4'' & C4''') & (C5 & C6 & C7)).
  assert (Hb : sendable c busy_answer).
  { unfold sendable. change (lenN busy_answer) with 2. destruct Wf as [W1 W2]. unfold c_offset. change (2 ^ 16) with 65536. lia. }
  assert (L3 : h_lock s3 = false) by (rewrite C6; cbn; congruence).
  destruct (solo_send c Cto busy_answer Halt s3 Wf Hb C2 L3) as (s4 & D1 & D2 & D3 & D4 & D5 & D6 & (D7 & D7' & D7'' & D7''')).
  pose (chk := rd h_rem (fun r => if r =? 0 then wr (set_act false) (@Halt sh) else Halt)).
  destruct (solo_send c Cto busy_answer chk s4 Wf Hb D5 D4) as (s5 & E1 & E2 & E3 & E4 & E5 & E6 & (E7 & E7' & E7'' & E7''')).
  assert (R5 : h_rem s5 = h_rem s - len) by (rewrite E7, D7, C4; reflexivity).
  assert (M5 : h_mta s5 = h_mta s + len) by (rewrite E7'', D7'', C4''; exact A5).
  assert (W5 : h_wire s5 = [(Cto, numbered_frame c (h_ctr s) busy_answer);
    (Cto, numbered_frame c (if c_ctr_size c =? 0 then h_ctr s else u16 (h_ctr s + 1)) busy_answer)]).
  { rewrite E2, D2, D3, C7, C5. cbn [s2 h_wire h_ctr set_rem]. rewrite A10, A8, Hw. reflexivity. }
  assert (F : exists s6, solo (after c Halt) s4 Halt s6 /\ h_wire s6 = h_wire s5 /\ h_rem s6 = h_rem s5 /\ h_mta s6 = h_mta s5).
  { destruct (h_rem s5 =? 0) eqn:E0.
    - exists (set_act false s5). split; [|repeat split]. eapply solo_trans; [exact E1|].
      unfold chk. apply solo_rd. rewrite E0. apply solo_wr, solo_refl.
    - exists s5. split; [|repeat split]. eapply solo_trans; [exact E1|]. unfold chk. apply solo_rd. rewrite E0. apply solo_refl. }
  destruct F as (s6 & F1 & F2 & F3 & F4).
  destruct (relay (response c busy_answer Halt) (upload_single c Halt) s (response c busy_answer Halt) s _ s2 Halt s4 Halt s6
    (solo_refl _ _) B1 (solo_trans _ _ _ _ _ _ C1 D1) F1) as [sched Hx].
  exists sched. cbv zeta. cbn [responses]. rewrite Hx. cbn [shared snd]. split; [reflexivity|].
  rewrite F2, F3, F4. split; [exact W5|]. split; [exact R5|exact M5].
Qed.

(** UPLOAD while Xcp_MainFunction runs in another thread. *)
Theorem double_upload : forall c n s, wf_sizes c -> quiet s -> 1 <= n <= 255 -> n <= c_max_cto c - 1 ->
  n + 1 + c_offset c < 2 ^ 16 ->
  let p := block (h_mem s) (h_mta s + n) n in
  exists sched, let x := run sched (upload c n Halt) (upload_single c Halt) s in
  finished x /\
  h_wire (shared x) = [(Cto, numbered_frame c (h_ctr s) p);
    (Cto, numbered_frame c (if c_ctr_size c =? 0 then h_ctr s else u16 (h_ctr s + 1)) p)] /\
  h_act (shared x) = true /\ h_rem (shared x) = 256 - n /\ h_mta (shared x) = h_mta s + 2 * n.
Proof.
  intros c n s Wf [Hw Hl] Hn Hmax Hfit p.
  set (s0 := set_act true (set_rem n s)).
  assert (Eb : forall s, h_rem s = n -> block_len_of c (h_rem s) = n).
  { intros x ->. unfold block_len_of. destruct (N.leb_spec n (c_max_cto c - 1)); lia. }
  change (2 ^ 16) with 65536 in *.
  destruct (solo_block c Halt s0 eq_refl) as (s1 & A1 & A2 & A3 & A4 & A5 & A6 & A7 & (A8 & A9 & A10)).
  { rewrite Eb by reflexivity. change (2 ^ 16) with 65536. lia. }
  rewrite Eb in A1, A2, A5 by reflexivity.
  assert (A3' : h_rem s1 = n) by (rewrite A3; reflexivity).
  destruct (solo_block c Halt s1 A4) as (s2 & B1 & B2 & B3 & B4 & B5 & B6 & B7 & (B8 & B9 & B10)).
  { rewrite Eb by exact A3'. change (2 ^ 16) with 65536. lia. }
  rewrite Eb in B1, B2, B5 by exact A3'.
  assert (Hp : block (h_mem s1) (h_mta s1) n = p) by (rewrite A5, A6; reflexivity).
  rewrite Hp in B2.
  (* both subtract *)
  set (s3 := set_rem 0 s2). set (s4 := set_rem (256 - n) s3).
  assert (C1 : solo (rd h_rem (fun r => wr (set_rem ((r + 256 - n) mod 256)) (after c Halt))) s2 (after c Halt) s3).
  { apply solo_rd, solo_wr. rewrite B3, A3'. replace ((n + 256 - n) mod 256) with 0; [apply solo_refl|].
    replace (n + 256 - n) with 256 by lia. reflexivity. }
  assert (C2 : solo (rd h_rem (fun r => wr (set_rem ((r + 256 - n) mod 256)) (after c Halt))) s3 (after c Halt) s4).
  { apply solo_rd, solo_wr. cbn [h_rem s3 set_rem]. replace ((0 + 256 - n) mod 256) with (256 - n); [apply solo_refl|].
    rewrite N.mod_small; lia. }
  assert (Hs : sendable c p) by (unfold sendable, p; rewrite block_len; change (2 ^ 16) with 65536; lia).
  pose (chk := rd h_rem (fun r => if r =? 0 then wr (set_act false) (@Halt sh) else Halt)).
  assert (L4 : h_lock s4 = false) by (cbn; rewrite B9, A9; exact Hl).
  destruct (solo_send c Cto p chk s4 Wf Hs B2 L4) as (s5 & D1 & D2 & D3 & D4 & D5 & D6 & (D7 & D7' & D7'' & D7''')).
  destruct (solo_send c Cto p chk s5 Wf Hs D5 D4) as (s6 & E1 & E2 & E3 & E4 & E5 & E6 & (E7 & E7' & E7'' & E7''')).
  assert (R5 : h_rem s5 = 256 - n) by (rewrite D7; reflexivity).
  assert (R6 : h_rem s6 = 256 - n) by (rewrite E7; exact R5).
  assert (X1 : solo (after c Halt) s4 Halt s5).
  { eapply solo_trans; [exact D1|]. unfold chk. apply solo_rd. rewrite R5. replace (256 - n =? 0) with false by lia. apply solo_refl. }
  assert (X2 : solo (after c Halt) s5 Halt s6).
  { eapply solo_trans; [exact E1|]. unfold chk. apply solo_rd. rewrite R6. replace (256 - n =? 0) with false by lia. apply solo_refl. }
  assert (A0 : solo (upload c n Halt) s (rd h_rem (fun r => wr (set_rem ((r + 256 - n) mod 256)) (after c Halt))) s1).
  { unfold upload. apply solo_wr, solo_wr. exact A1. }
  destruct (relay _ (upload_single c Halt) s _ s1 _ s2 _ s3 _ s4 A0 B1 C1 C2) as [l1 H1].
  destruct (relay (after c Halt) (after c Halt) s4 Halt s5 Halt s6 Halt s6 Halt s6 X1 X2 (solo_refl _ _) (solo_refl _ _)) as [l2 H2].
  exists (l1 ++ l2). cbv zeta. rewrite run_app, H1, H2. cbn [shared snd]. split; [reflexivity|].
  split; [|split; [rewrite E7', D7'; exact B4|split; [exact R6|rewrite E7'', D7''; cbn [s4 s3 h_mta set_rem]; rewrite B5, A5; change (h_mta s0) with (h_mta s); lia]]].
  rewrite E2, D2, D3. cbn [s4 s3 h_wire h_ctr set_rem]. rewrite B10, A10, B8, A8.
  cbn [s0 h_wire h_ctr set_act set_rem]. rewrite Hw. reflexivity.
Qed.

(** The same with the vocabulary of SpecConc. *)
Lemma from_seq : forall n i, from (N.of_nat i) n = map N.of_nat (seq i n).
Proof.
  induction n as [|n IH]; intros i; cbn [from seq map]; [reflexivity|]. f_equal.
  replace (N.of_nat i + 1) with (N.of_nat (S i)) by lia. apply IH.
Qed.
Lemma block_eq : forall mem a n, upload_response mem a n = block mem a n.
Proof. intros. unfold upload_response, block. rewrite (from_seq _ 0%nat), map_map. reflexivity. Qed.
Lemma frame_bytes_eq : forall c r, frame_bytes c r = block_len_of c r.
Proof. intros. unfold frame_bytes, block_len_of. destruct (N.leb_spec r (c_max_cto c - 1)); lia. Qed.

Theorem busy_lost : forall c s, wf_sizes c -> quiet s -> h_act s = true -> h_rem s < 256 ->
  let len := frame_bytes c (h_rem s) in
  sendable c (upload_response (h_mem s) (h_mta s) len) ->
  exists sched, let x := run sched (responses c [busy_response]) (upload_single c Halt) s in
  finished x /\
  h_wire (shared x) = [(Cto, numbered_frame c (h_ctr s) busy_response);
    (Cto, numbered_frame c (next_counter c (h_ctr s)) busy_response)] /\
  h_rem (shared x) = h_rem s - len /\ h_mta (shared x) = h_mta s + len.
Proof. intros c s H1 H2 H3 H4. cbv zeta. rewrite frame_bytes_eq, block_eq. intros H5. exact (busy_upload c s H1 H2 H3 H4 H5). Qed.
Theorem upload_twice : forall c n s, wf_sizes c -> quiet s -> 1 <= n <= 255 -> n <= c_max_cto c - 1 ->
  n + 1 + c_offset c < 2 ^ 16 ->
  let p := upload_response (h_mem s) (h_mta s + n) n in
  exists sched, let x := run sched (upload c n Halt) (upload_single c Halt) s in
  finished x /\
  h_wire (shared x) = [(Cto, numbered_frame c (h_ctr s) p); (Cto, numbered_frame c (next_counter c (h_ctr s)) p)] /\
  h_act (shared x) = true /\ h_rem (shared x) = 256 - n /\ h_mta (shared x) = h_mta s + 2 * n.
Proof. intros c n s H1 H2 H3 H4 H5. cbv zeta. rewrite block_eq. exact (double_upload c n s H1 H2 H3 H4 H5). Qed.
