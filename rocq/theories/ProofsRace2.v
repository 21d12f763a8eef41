(** Schedules that go wrong. *)
From Coq Require Import NArith ZArith List Bool Lia ZifyBool ZifyNat ZifyN.
From Verif Require Import Base Config Conc Race SpecConc ProofsConc0 ProofsRace.
Import ListNotations.
Open Scope N_scope.

Definition same_ch (ch : chan) (a b : sh) : Prop := h_len b ch = h_len a ch /\ h_data b ch = h_data a ch.
Definition same_blk (a b : sh) : Prop :=
  h_rem b = h_rem a /\ h_act b = h_act a /\ h_mta b = h_mta a /\ h_mem b = h_mem a.
Definition same_tx (a b : sh) : Prop := h_ctr b = h_ctr a /\ h_lock b = h_lock a /\ h_wire b = h_wire a.

(** The payload [p] is in the buffer [ch]. *)
Definition filled (c : cfg) (ch : chan) (p : list N) (s : sh) : Prop :=
  h_len s ch = lenN p /\ loaded c p (h_data s ch).
(** So are the header fields, with the counter bytes [cb]. *)
Definition ready (c : cfg) (ch : chan) (p cb : list N) (s : sh) : Prop :=
  filled c ch p s /\
  map (h_data s ch) (from 0 (N.to_nat (lenN p + c_offset c))) = le_bytes (c_len_size c) (lenN p) ++ cb ++ p.

Lemma frame_exact : forall c p D, headed c p D ->
  map D (from 0 (N.to_nat (lenN p + c_offset c))) =
  le_bytes (c_len_size c) (lenN p) ++ map D (from (c_len_size c) (N.to_nat (c_ctr_size c))) ++ p.
Proof.
  intros c p D [Hl Hh].
  replace (N.to_nat (lenN p + c_offset c)) with
    (N.to_nat (c_len_size c) + (N.to_nat (c_ctr_size c) + length p))%nat by (unfold c_offset, lenN; lia).
  rewrite !from_app, !map_app, Hh. f_equal. f_equal.
  - f_equal. f_equal. lia.
  - apply map_from. intros k Hk. rewrite <- Hl by auto. f_equal. unfold c_offset. lia.
Qed.

(** ** Filling the buffers *)
Lemma solo_up : forall ch bs i k s, exists s', solo (put_up ch i bs k) s k s' /\
  (forall j, h_data s' ch j = if (i <=? j) && (j <? i + lenN bs) then nth (N.to_nat (j - i)) bs 0 else h_data s ch j) /\
  h_len s' = h_len s /\ same_ch (other ch) s s' /\ same_blk s s' /\ same_tx s s'.
Proof.
  intros ch. induction bs as [|b t IH]; intros i k s; cbn [put_up].
  - exists s. split; [apply solo_refl|]. split; [|repeat split].
    intros j. change (lenN (@nil N)) with 0. replace ((i <=? j) && (j <? i + 0)) with false by lia. reflexivity.
  - destruct (IH (i + 1) k (set_byte ch i b s)) as (s' & H1 & H2 & H3 & H4 & H5 & H6).
    exists s'. split; [apply solo_wr; exact H1|]. split.
    + intros j. rewrite H2. cbn [h_data set_byte]. rewrite chan_eqb_refl.
      assert (E : lenN (b :: t) = lenN t + 1) by (unfold lenN; cbn [length]; lia). rewrite E.
      destruct (N.eqb_spec j i) as [->|Hne].
      * replace (i + 1 <=? i) with false by lia. replace ((i <=? i) && (i <? i + (lenN t + 1))) with true by lia.
        cbn [andb]. rewrite N.sub_diag. reflexivity.
      * destruct (N.le_gt_cases i j).
        -- replace ((i <=? j) && (j <? i + (lenN t + 1))) with ((i + 1 <=? j) && (j <? i + 1 + lenN t)) by lia.
           destruct (_ && _) eqn:Eb; auto. replace (N.to_nat (j - i)) with (S (N.to_nat (j - (i + 1)))) by lia. reflexivity.
        -- replace (i + 1 <=? j) with false by lia. replace (i <=? j) with false by lia. reflexivity.
    + split; [rewrite H3; reflexivity|]. split; [|split; assumption].
      destruct H4 as [A B]. split; [rewrite A|rewrite B]; destruct ch; reflexivity.
Qed.
Lemma solo_down : forall ch bs i k s, exists s', solo (put_down ch i bs k) s k s' /\
  (forall j, h_data s' ch j = if (i <=? j) && (j <? i + lenN bs) then nth (N.to_nat (j - i)) bs 0 else h_data s ch j) /\
  h_len s' = h_len s /\ same_ch (other ch) s s' /\ same_blk s s' /\ same_tx s s'.
Proof.
  intros ch. induction bs as [|b t IH]; intros i k s; cbn [put_down].
  - exists s. split; [apply solo_refl|]. split; [|repeat split].
    intros j. change (lenN (@nil N)) with 0. replace ((i <=? j) && (j <? i + 0)) with false by lia. reflexivity.
  - destruct (IH (i + 1) (wr (set_byte ch i b) k) s) as (s' & H1 & H2 & H3 & H4 & H5 & H6).
    exists (set_byte ch i b s'). split; [eapply solo_trans; [exact H1|apply solo_wr; apply solo_refl]|]. split.
    + intros j. cbn [h_data set_byte]. rewrite chan_eqb_refl.
      assert (E : lenN (b :: t) = lenN t + 1) by (unfold lenN; cbn [length]; lia). rewrite E, H2.
      destruct (N.eqb_spec j i) as [->|Hne].
      * replace ((i <=? i) && (i <? i + (lenN t + 1))) with true by lia. rewrite N.sub_diag. reflexivity.
      * destruct (N.le_gt_cases i j).
        -- replace ((i <=? j) && (j <? i + (lenN t + 1))) with ((i + 1 <=? j) && (j <? i + 1 + lenN t)) by lia.
           destruct (_ && _) eqn:Eb; auto. replace (N.to_nat (j - i)) with (S (N.to_nat (j - (i + 1)))) by lia. reflexivity.
        -- replace (i + 1 <=? j) with false by lia. replace (i <=? j) with false by lia. reflexivity.
    + split; [exact H3|]. split; [|split; assumption].
      destruct H4 as [A B]. split; [exact A|]. rewrite <- B. destruct ch; reflexivity.
Qed.
Lemma at_loaded : forall c p (D D0 : N -> N),
  (forall j, D j = if (c_offset c <=? j) && (j <? c_offset c + lenN p) then nth (N.to_nat (j - c_offset c)) p 0 else D0 j) ->
  loaded c p D.
Proof.
  intros c p D D0 H k Hk. rewrite H.
  replace ((c_offset c <=? c_offset c + k) && (c_offset c + k <? c_offset c + lenN p)) with true by lia.
  f_equal. lia.
Qed.

Lemma solo_response : forall c p k s, exists s', solo (response c p k) s (send c Cto k) s' /\
  filled c Cto p s' /\ same_ch Dto s s' /\ same_blk s s' /\ same_tx s s'.
Proof.
  intros c p k s. unfold response.
  destruct (solo_down Cto p (c_offset c) (send c Cto k) (set_len Cto (lenN p) s)) as (s' & H1 & H2 & H3 & H4 & H5 & H6).
  exists s'. split; [apply solo_wr; exact H1|]. split.
  - split; [rewrite H3; reflexivity|]. eapply at_loaded. exact H2.
  - split; [exact H4|]. split; [exact H5|exact H6].
Qed.
Lemma solo_sample : forall c p k s, exists s', solo (sample c p k) s (send c Dto k) s' /\
  filled c Dto p s' /\ same_ch Cto s s' /\ same_blk s s' /\ same_tx s s'.
Proof.
  intros c p k s. unfold sample.
  destruct (solo_up Dto p (c_offset c) (wr (set_len Dto (lenN p)) (send c Dto k)) s) as (s' & H1 & H2 & H3 & H4 & H5 & H6).
  exists (set_len Dto (lenN p) s'). split; [eapply solo_trans; [exact H1|apply solo_wr; apply solo_refl]|]. split.
  - split; [reflexivity|]. eapply at_loaded. exact H2.
  - destruct H4 as [A B]. split; [|split; assumption]. split; [exact A|exact B].
Qed.

(** ** The header *)
Definition plen (c : cfg) (ch : chan) (len : N) (s : sh) : sh :=
  if c_len_size c =? 1 then set_byte ch 0 (lobyte len) s
  else if c_len_size c =? 2 then set_byte ch 1 (hibyte len) (set_byte ch 0 (lobyte len) s) else s.
Lemma solo_plen : forall c ch len k s, solo (put_len c ch len k) s k (plen c ch len s).
Proof.
  intros. unfold put_len, plen. destruct (c_len_size c =? 1); [apply solo_wr; apply solo_refl|].
  destruct (c_len_size c =? 2); [do 2 apply solo_wr|]; apply solo_refl.
Qed.
Lemma plen_facts : forall c ch p s, wf_sizes c -> filled c ch p s ->
  h_len (plen c ch (lenN p) s) ch = lenN p /\ headed c p (h_data (plen c ch (lenN p) s) ch) /\
  same_ch (other ch) s (plen c ch (lenN p) s) /\ same_blk s (plen c ch (lenN p) s) /\ same_tx s (plen c ch (lenN p) s).
Proof.
  intros c ch p s [Hl Hc] [H1 H2]. unfold plen.
  destruct (sizes _ Hl) as [E|[E|E]]; rewrite E; cbn [N.eqb Pos.eqb].
  - split; [exact H1|]. split; [split; [exact H2|rewrite E; reflexivity]|]. repeat split.
  - split; [exact H1|]. split; [|destruct ch; repeat split].
    cbn [h_data set_byte]. rewrite chan_eqb_refl.
    split; [apply loaded_hdr; [unfold c_offset; lia|exact H2]|]. rewrite E, le_bytes1. reflexivity.
  - split; [exact H1|]. split; [|destruct ch; repeat split].
    cbn [h_data set_byte]. rewrite chan_eqb_refl.
    split; [apply loaded_hdr; [unfold c_offset; lia|]; apply loaded_hdr; [unfold c_offset; lia|exact H2]|].
    rewrite E, le_bytes2. reflexivity.
Qed.

(** The counter field with the low byte of [n] and the high byte of [m]. *)
Definition pctr (c : cfg) (ch : chan) (n m : N) (s : sh) : sh :=
  if c_ctr_size c =? 1 then set_byte ch (c_len_size c) (lobyte n) s
  else if c_ctr_size c =? 2 then
    set_byte ch (c_len_size c + 1) (hibyte m) (set_byte ch (c_len_size c) (lobyte n) s)
  else s.
Definition cbytes (c : cfg) (n m : N) : list N :=
  if c_ctr_size c =? 1 then [lobyte n] else if c_ctr_size c =? 2 then [lobyte n; hibyte m] else [].
Lemma cbytes_le : forall c n, wf_sizes c -> cbytes c n n = le_bytes (c_ctr_size c) n.
Proof.
  intros c n [_ Hc]. unfold cbytes. destruct (sizes _ Hc) as [E|[E|E]]; rewrite E; cbn [N.eqb Pos.eqb].
  - reflexivity. - rewrite le_bytes1. reflexivity. - rewrite le_bytes2. reflexivity.
Qed.
Lemma pctr_facts : forall c ch p n m s, wf_sizes c -> h_len s ch = lenN p -> headed c p (h_data s ch) ->
  ready c ch p (cbytes c n m) (pctr c ch n m s) /\
  same_ch (other ch) s (pctr c ch n m s) /\ same_blk s (pctr c ch n m s) /\ same_tx s (pctr c ch n m s).
Proof.
  intros c ch p n m s Wf H1 H2. assert (Wf' := Wf). destruct Wf as [Hl Hc].
  assert (Hh : headed c p (h_data (pctr c ch n m s) ch) /\
    map (h_data (pctr c ch n m s) ch) (from (c_len_size c) (N.to_nat (c_ctr_size c))) = cbytes c n m).
  { unfold pctr, cbytes. destruct (sizes _ Hc) as [E|[E|E]]; rewrite E; cbn [N.eqb Pos.eqb].
    - split; [exact H2|reflexivity].
    - cbn [h_data set_byte]. rewrite chan_eqb_refl. split; [apply headed_ctr; [unfold c_offset; lia|exact H2]|].
      change (N.to_nat 1) with 1%nat. cbn [from map]. rewrite N.eqb_refl. reflexivity.
    - cbn [h_data set_byte]. rewrite chan_eqb_refl.
      split; [apply headed_ctr; [unfold c_offset; lia|]; apply headed_ctr; [unfold c_offset; lia|exact H2]|].
      change (N.to_nat 2) with 2%nat. cbn [from map]. rewrite !N.eqb_refl.
      replace (c_len_size c =? c_len_size c + 1) with false by lia. reflexivity. }
  destruct Hh as [Hh Hc']. split.
  - split; [split; [|exact (proj1 Hh)]|rewrite (frame_exact c p _ Hh), Hc'; reflexivity].
    rewrite <- H1. unfold pctr. destruct (_ =? 1); [reflexivity|]. destruct (_ =? 2); reflexivity.
  - unfold pctr. destruct (_ =? 1); [destruct ch; repeat split|]. destruct (_ =? 2); destruct ch; repeat split.
Qed.

Notation out_of c ch k := (rd (fun s => h_len s ch) (fun n => tl_send ch (u16 (n + c_offset c)) k)).

(** Up to the write of the incremented counter. *)
Lemma solo_hdr : forall c ch p k s, wf_sizes c -> c_ctr_size c <> 0 -> filled c ch p s -> exists s',
  solo (send c ch k) s (wr (set_ctr (u16 (h_ctr s + 1))) (out_of c ch k)) s' /\
  ready c ch p (le_bytes (c_ctr_size c) (h_ctr s)) s' /\
  same_ch (other ch) s s' /\ same_blk s s' /\ same_tx s s'.
Proof.
  intros c ch p k s Wf Hn Hf. destruct (plen_facts c ch p s Wf Hf) as (A1 & A2 & A3 & A4 & A5).
  destruct (pctr_facts c ch p (h_ctr s) (h_ctr s) _ Wf A1 A2) as (B2 & B3 & B4 & B5).
  exists (pctr c ch (h_ctr s) (h_ctr s) (plen c ch (lenN p) s)). split.
  - unfold send. apply solo_rd. rewrite (proj1 Hf). eapply solo_trans; [apply solo_plen|].
    assert (E : h_ctr (plen c ch (lenN p) s) = h_ctr s) by apply A5.
    unfold put_ctr, pctr. destruct (c_ctr_size c =? 1) eqn:E1.
    + apply solo_rd, solo_wr. cbn [h_ctr set_byte]. apply solo_rd. cbn [h_ctr set_byte]. rewrite E. apply solo_refl.
    + destruct (c_ctr_size c =? 2) eqn:E2.
      * apply solo_rd, solo_wr, solo_rd, solo_wr. apply solo_rd. cbn [h_ctr set_byte]. rewrite E. apply solo_refl.
      * exfalso. destruct Wf. lia.
  - rewrite cbytes_le in B2 by auto. split; [exact B2|].
    destruct A3 as [X1 X2], A4 as (X3 & X4 & X5 & X6), A5 as (X7 & X8 & X9), B3 as [Y1 Y2], B4 as (Y3 & Y4 & Y5 & Y6), B5 as (Y7 & Y8 & Y9).
    repeat split; congruence.
Qed.

Lemma solo_bytes : forall ch n i acc k s, solo (rd_bytes ch i n acc k) s (k (rev acc ++ map (h_data s ch) (from i n))) s.
Proof.
  induction n as [|n IH]; intros; cbn [rd_bytes from map].
  - rewrite app_nil_r. apply solo_refl.
  - apply solo_rd. eapply solo_trans; [apply IH|]. cbn [rev]. rewrite <- app_assoc. apply solo_refl.
Qed.

Definition done_ (ch : chan) (f : list N) (s : sh) : sh := set_lock false (add_wire ch f (set_lock true s)).
Lemma solo_out : forall c ch p cb k s, sendable c p -> ready c ch p cb s -> h_lock s = false ->
  solo (out_of c ch k) s k (done_ ch (le_bytes (c_len_size c) (lenN p) ++ cb ++ p) s).
Proof.
  intros c ch p cb k s Hs [[H1 H2] H3] Hl. apply solo_rd. rewrite H1.
  replace (u16 (lenN p + c_offset c)) with (lenN p + c_offset c)
    by (unfold u16; rewrite N.mod_small; [reflexivity|exact Hs]).
  unfold tl_send. apply solo_acquire; [exact Hl|]. eapply solo_trans; [apply solo_bytes|].
  cbn [rev app h_data set_lock]. rewrite H3. apply solo_wr, solo_wr. apply solo_refl.
Qed.

Lemma solo_send : forall c ch p k s, wf_sizes c -> sendable c p -> filled c ch p s -> h_lock s = false ->
  exists s', solo (send c ch k) s k s' /\
  h_wire s' = h_wire s ++ [(ch, numbered_frame c (h_ctr s) p)] /\
  h_ctr s' = (if c_ctr_size c =? 0 then h_ctr s else u16 (h_ctr s + 1)) /\ h_lock s' = false /\
  filled c ch p s' /\ same_ch (other ch) s s' /\ same_blk s s'.
Proof.
  intros c ch p k s Wf Hs Hf Hl. destruct (N.eqb_spec (c_ctr_size c) 0) as [E|E].
  - destruct (plen_facts c ch p s Wf Hf) as (A1 & A2 & A3 & A4 & A5).
    destruct (pctr_facts c ch p (h_ctr s) (h_ctr s) _ Wf A1 A2) as (B2 & B3 & B4 & B5).
    unfold pctr in *. rewrite E in *. cbn [N.eqb] in *.
    eexists. split.
    + unfold send. apply solo_rd. rewrite (proj1 Hf). eapply solo_trans; [apply solo_plen|].
      unfold put_ctr. rewrite E. cbn [N.eqb]. apply (solo_out c ch p _ k _ Hs B2). destruct A5 as (_ & -> & _). exact Hl.
    + destruct A5 as (X7 & X8 & X9). split; [|split; [exact X7|split; [reflexivity|split; [exact (proj1 B2)|split; [exact A3|exact A4]]]]].
      cbn [done_ h_wire add_wire set_lock]. rewrite X9. unfold numbered_frame. rewrite cbytes_le by auto. reflexivity.
  - destruct (solo_hdr c ch p k s Wf E Hf) as (s1 & H1 & H2 & H3 & H4 & H5).
    eexists. split.
    + eapply solo_trans; [exact H1|]. apply solo_wr. eapply (solo_out c ch p).
      * exact Hs. * exact H2. * destruct H5 as (_ & E5 & _). cbn. rewrite E5. exact Hl.
    + destruct H5 as (X7 & X8 & X9). split; [|split; [reflexivity|split; [reflexivity|split; [exact (proj1 H2)|split; [exact H3|exact H4]]]]].
      cbn [done_ h_wire add_wire set_lock set_ctr]. rewrite X9. reflexivity.
Qed.

(** ** Responses and DAQ frames: the counter *)
Theorem same_counter : forall c p q s, wf_sizes c -> c_ctr_size c <> 0 -> sendable c p -> sendable c q -> quiet s ->
  exists sched, let x := run sched (responses c [p]) (samples c [q]) s in
  finished x /\ h_wire (shared x) = [(Cto, numbered_frame c (h_ctr s) p); (Dto, numbered_frame c (h_ctr s) q)] /\
  h_ctr (shared x) = u16 (h_ctr s + 1).
Proof.
  intros c p q s Wf Hn Hp Hq [Hw Hl]. cbn [responses samples].
  destruct (solo_sample c q Halt s) as (s1 & A1 & A2 & A3 & A4 & (A5 & A6 & A7)).
  destruct (solo_hdr c Dto q Halt s1 Wf Hn A2) as (s2 & B1 & B2 & B3 & B4 & (B5 & B6 & B7)).
  destruct (solo_response c p Halt s2) as (s3 & C1 & C2 & C3 & C4 & (C5 & C6 & C7)).
  destruct (solo_send c Cto p Halt s3 Wf Hp C2) as (s4 & D1 & D2 & D3 & D4 & D5 & D6 & D7); [congruence|].
  pose (s5 := done_ Dto (numbered_frame c (h_ctr s) q) (set_ctr (u16 (h_ctr s + 1)) s4)).
  assert (E1 : solo (wr (set_ctr (u16 (h_ctr s1 + 1))) (out_of c Dto Halt)) s4 Halt s5).
  { apply solo_wr. rewrite A5. eapply (solo_out c Dto q (le_bytes (c_ctr_size c) (h_ctr s))).
    - exact Hq.
    - destruct B2 as [[F1 F2] F3]. destruct C3 as [G1 G2], D6 as [K1 K2]. cbn [other] in *.
      rewrite A5 in F3. split; [split|]; cbn [h_len h_data set_ctr]; rewrite ?K1, ?K2, ?G1, ?G2; assumption.
    - exact D4. }
  destruct (relay (response c p Halt) (sample c q Halt) s (response c p Halt) s _ s2 Halt s4 Halt s5
    (solo_refl _ _) (solo_trans _ _ _ _ _ _ A1 B1) (solo_trans _ _ _ _ _ _ C1 D1) E1) as [sched Hs].
  exists sched. cbv zeta. rewrite Hs. split; [reflexivity|]. split; [|reflexivity].
  cbn [shared snd]. unfold s5. cbn [done_ h_wire add_wire set_lock set_ctr]. rewrite D2, C7, B7, A7, Hw, C5, B5, A5. reflexivity.
Qed.

Theorem torn_counter : forall c p q s, wf_sizes c -> c_ctr_size c = 2 -> sendable c p -> sendable c q -> quiet s ->
  h_ctr s mod 256 = 255 -> h_ctr s < 65535 ->
  exists sched, let x := run sched (responses c [p]) (samples c [q]) s in
  finished x /\ h_wire (shared x) = [(Cto, numbered_frame c (h_ctr s) p); (Dto, numbered_frame c (h_ctr s + 256) q)].
Proof.
  intros c p q s Wf Hn Hp Hq [Hw Hl] H255 Hmax. cbn [responses samples].
  destruct (solo_sample c q Halt s) as (s1 & A1 & A2 & A3 & A4 & (A5 & A6 & A7)).
  destruct (plen_facts c Dto q s1 Wf A2) as (B1 & B2 & B3 & B4 & (B5 & B6 & B7)).
  set (s2 := set_byte Dto (c_len_size c) (lobyte (h_ctr s)) (plen c Dto (lenN q) s1)).
  pose (rest := rd h_ctr (fun m => wr (set_byte Dto (c_len_size c + 1) (hibyte m))
     (rd h_ctr (fun n => wr (set_ctr (u16 (n + 1))) (out_of c Dto (@Halt sh)))))).
  assert (X1 : solo (sample c q Halt) s rest s2).
  { eapply solo_trans; [exact A1|]. unfold send. apply solo_rd. rewrite (proj1 A2).
    eapply solo_trans; [apply solo_plen|]. unfold put_ctr. rewrite Hn. cbn [N.eqb Pos.eqb].
    apply solo_rd, solo_wr. rewrite B5, A5. apply solo_refl. }
  destruct (solo_response c p Halt s2) as (s3 & C1 & C2 & C3 & C4 & (C5 & C6 & C7)).
  assert (L2 : h_lock s2 = false) by (cbn; rewrite B6, A6; exact Hl).
  destruct (solo_send c Cto p Halt s3 Wf Hp C2) as (s4 & D1 & D2 & D3 & D4 & D5 & D6 & D7); [congruence|].
  assert (Hc3 : h_ctr s3 = h_ctr s) by (rewrite C5; cbn; congruence).
  rewrite Hn in D3. cbn [N.eqb] in D3. rewrite Hc3 in D3.
  assert (E4 : h_ctr s4 = h_ctr s + 1) by (rewrite D3; unfold u16; apply N.mod_small; change (2 ^ 16) with 65536; lia).
  (* the sampling thread's buffer *)
  set (s5 := set_byte Dto (c_len_size c + 1) (hibyte (h_ctr s + 1)) s4).
  assert (R5 : ready c Dto q [lobyte (h_ctr s); hibyte (h_ctr s + 1)] s5).
  { destruct (pctr_facts c Dto q (h_ctr s) (h_ctr s + 1) _ Wf B1 B2) as (((F1 & F2) & F3) & _).
    unfold pctr, cbytes in *. rewrite Hn in *. cbn [N.eqb Pos.eqb] in *. destruct C3 as [G1 G2], D6 as [K1 K2]. cbn [other] in *.
    assert (Ed : h_data s5 Dto = h_data (set_byte Dto (c_len_size c + 1) (hibyte (h_ctr s + 1)) s2) Dto).
    { unfold s5. cbn [h_data set_byte chan_eqb]. rewrite K2, G2. reflexivity. }
    assert (El : h_len s5 Dto = h_len s2 Dto) by (unfold s5; cbn [h_len set_byte]; congruence).
    split; [split|]; rewrite ?Ed, ?El; assumption. }
  pose (s6 := done_ Dto (numbered_frame c (h_ctr s + 256) q) (set_ctr (u16 (h_ctr s + 1 + 1)) s5)).
  assert (E1 : solo rest s4 Halt s6).
  { unfold rest. apply solo_rd. rewrite E4. apply solo_wr. fold s5. apply solo_rd.
    replace (h_ctr s5) with (h_ctr s + 1) by (symmetry; exact E4). apply solo_wr.
    unfold s6, numbered_frame. rewrite Hn, le_bytes2.
    replace (lobyte (h_ctr s + 256)) with (lobyte (h_ctr s)).
    2: { unfold lobyte. replace (h_ctr s + 256) with (h_ctr s + 1 * 256) by lia. rewrite N.mod_add; lia. }
    replace (hibyte (h_ctr s + 256)) with (hibyte (h_ctr s + 1)).
    2: { unfold hibyte. f_equal. pose proof (N.div_mod (h_ctr s) 256).
         transitivity (h_ctr s / 256 + 1).
         - symmetry. apply N.div_unique with (r := 0); lia.
         - replace (h_ctr s + 256) with (h_ctr s + 1 * 256) by lia. rewrite N.div_add; lia. }
    apply (solo_out c Dto q [lobyte (h_ctr s); hibyte (h_ctr s + 1)]); [exact Hq|exact R5|exact D4]. }
  destruct (relay (response c p Halt) (sample c q Halt) s (response c p Halt) s rest s2 Halt s4 Halt s6
    (solo_refl _ _) X1 (solo_trans _ _ _ _ _ _ C1 D1) E1) as [sched Hs].
  exists sched. cbv zeta. rewrite Hs. split; [reflexivity|].
  cbn [shared snd]. unfold s6, s5. cbn [done_ h_wire add_wire set_lock set_ctr set_byte].
  rewrite D2, C7, Hc3. unfold s2. cbn [h_wire set_byte]. rewrite B7, A7, Hw. reflexivity.
Qed.
