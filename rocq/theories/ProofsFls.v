From Coq Require Import ZArith NArith List Bool Lia.
From Coq Require Import ZifyBool ZifyNat ZifyN.
From Verif Require Import Base Lists Flsemu SpecFls.
Import ListNotations.
Open Scope N_scope.

Lemma map_set_ok : forall g file off p o n, o + n <= g_mem g -> off + o + n <= lenN file ->
  exists file', map_set g (mkArray file off p) o 0xFF n = Ok (mkArray file' off p) /\ erased file file' (off + o) n /\ lenN file' = lenN file.
Proof.
  intros g file off p o n H1 H2. unfold map_set. cbn [a_file a_off a_page].
  replace (g_mem g <? o + n) with false by lia. replace (lenN file <? off + o + n) with false by lia.
  exists (splice file (off + o) (repeat 0xFF (N.to_nat n))). split; [reflexivity|].
  assert (R : lenN (repeat 0xFF (N.to_nat n)) = n) by (rewrite lenN_repeat; lia).
  split; [|apply lenN_splice; lia]. intros x. unfold splice. rewrite R.
  destruct (N.lt_ge_cases x (off + o)) as [L|L].
  - replace (off + o <=? x) with false by lia. cbn [andb]. rewrite getN_app1 by (rewrite lenN_take; lia). apply getN_take. lia.
  - replace (off + o <=? x) with true by lia. cbn [andb]. rewrite getN_app2 by (rewrite lenN_take; lia). rewrite lenN_take.
    replace (N.min (off + o) (lenN file)) with (off + o) by lia.
    destruct (x <? off + o + n) eqn:X.
    + replace (x <? lenN file) with true by lia. rewrite getN_app1 by lia. rewrite getN_repeat. replace (x - (off + o) <? N.of_nat (N.to_nat n)) with true by lia. reflexivity.
    + rewrite getN_app2 by lia. rewrite getN_drop, R. f_equal. lia.
Qed.

Lemma get_set : forall f i g, (exists h, getN (f_segs f) i = Some h) -> getN (f_segs (set_seg i g f)) i = Some g.
Proof. intros f i g [h H]. apply getN_Some_lt in H. cbn [set_seg f_segs]. apply getN_upd_same. exact H. Qed.

Lemma get_set_other : forall f i g, others_kept f (set_seg i g f) i.
Proof. intros f i g j H. cbn [set_seg f_segs]. apply getN_upd_other. congruence. Qed.

Lemma u32_small : forall x, x < 2 ^ 32 -> u32 x = x.
Proof. intros. unfold u32. apply N.mod_small. assumption. Qed.

Ltac open_it O := destruct O as [FI [FG [p FA]]]; unfold with_seg; rewrite FI; cbn [negb]; rewrite FG; unfold array_of; rewrite FA; cbn [bind].

Theorem erase_block_thm : forall f i g file b, open_at f i g file 0 -> lenN file = g_mem g -> g_mem g < 2 ^ 32 -> b < g_blocks g ->
  let size := g_mem g / g_blocks g in
  exists f' g' file', erase_block i b f = Ok f' /\ open_at f' i g' file' 0 /\ erased file file' (size * b) size /\ lenN file' = lenN file /\ others_kept f f' i.
Proof.
  intros f i g file b O L M B size. unfold erase_block. open_it O.
  replace (b <? g_blocks g) with true by lia. cbn [negb].
  assert (S : size * b + size <= g_mem g).
  { unfold size. pose proof (N.mul_div_le (g_mem g) (g_blocks g) ltac:(lia)). nia. }
  fold size. rewrite u32_small by lia.
  destruct (map_set_ok g file 0 p (size * b) size) as [file' [E [ER LF]]]; [lia|lia|]. rewrite E. cbn [bind].
  eexists _, _, file'. split; [reflexivity|]. split.
  { split; [exact FI|]. split; [apply get_set; eauto|]. exists p. reflexivity. }
  split; [exact ER|]. split; [exact LF|]. apply get_set_other.
Qed.

Theorem erase_page_gen : forall f i g file off q, open_at f i g file off -> off + g_page g * q + g_page g <= lenN file -> g_page g * q + g_page g <= g_mem g -> g_mem g < 2 ^ 32 ->
  exists f' g' file', erase_page i q f = Ok f' /\ open_at f' i g' file' off /\ erased file file' (off + g_page g * q) (g_page g) /\ lenN file' = lenN file /\ others_kept f f' i.
Proof.
  intros f i g file off q O L M M2. unfold erase_page. open_it O. rewrite u32_small by lia.
  destruct (map_set_ok g file off p (g_page g * q) (g_page g)) as [file' [E [ER LF]]]; [lia|lia|]. rewrite E. cbn [bind].
  eexists _, _, file'. split; [reflexivity|]. split.
  { split; [exact FI|]. split; [apply get_set; eauto|]. exists p. reflexivity. }
  split; [exact ER|]. split; [exact LF|]. apply get_set_other.
Qed.

Theorem erase_page_thm : forall f i g file q gran, open_at f i g file 0 -> sound gran g file -> q < g_mem g / g_page g ->
  exists f' g' file', erase_page i q f = Ok f' /\ open_at f' i g' file' 0 /\ erased file file' (g_page g * q) (g_page g) /\ lenN file' = lenN file /\ others_kept f f' i.
Proof.
  intros f i g file q gran O [S1 [S2 [S3 [S4 _]]]] Q. assert (g_page g * q + g_page g <= g_mem g) by nia.
  destruct (erase_page_gen f i g file 0 q O) as [f' [g' [file' X]]]; try lia. eauto.
Qed.

(** Sectors of a power of two. *)
Lemma mask_pow : forall k, k <= 15 -> u32 (2 ^ k + (2 ^ 32 - 1)) = N.ones k.
Proof.
  intros k K. rewrite N.ones_equiv. unfold u32. assert (2 ^ k <= 2 ^ 15) by (apply N.pow_le_mono_r; lia). assert (0 < 2 ^ k) by (apply N.neq_0_lt_0, N.pow_nonzero; lia).
  replace (2 ^ k + (2 ^ 32 - 1)) with (N.pred (2 ^ k) + 1 * 2 ^ 32) by lia. rewrite N.mod_add by lia. apply N.mod_small. lia.
Qed.

Lemma ldiff_pow : forall a k, N.ldiff a (N.ones k) = 2 ^ k * (a / 2 ^ k).
Proof. intros. rewrite N.ldiff_ones_r, N.shiftr_div_pow2, N.shiftl_mul_pow2. apply N.mul_comm. Qed.

Theorem erase_sector_thm : forall f i g file off k addr, open_at f i g file off -> k <= 15 -> g_sector g = 2 ^ k ->
  let start := 2 ^ k * (addr / 2 ^ k) in
  if (2 * start + 2 ^ k <=? g_mem g) && (off + 2 * start + 2 ^ k <=? lenN file) then
    exists f' g' file', erase_sector i addr f = Ok f' /\ open_at f' i g' file' off /\ erased file file' (off + 2 * start) (2 ^ k) /\ others_kept f f' i
  else erase_sector i addr f = UB OobBuffer.
Proof.
  intros f i g file off k addr O K G start. unfold erase_sector. open_it O. rewrite G, mask_pow by assumption. rewrite ldiff_pow. fold start.
  destruct ((2 * start + 2 ^ k <=? g_mem g) && (off + 2 * start + 2 ^ k <=? lenN file)) eqn:E.
  - destruct (map_set_ok g file off p (2 * start) (2 ^ k)) as [file' [E1 [ER LF]]]; [lia|lia|]. rewrite E1. cbn [bind].
    eexists _, _, file'. split; [reflexivity|]. split.
    { split; [exact FI|]. split; [apply get_set; eauto|]. exists p. reflexivity. }
    split; [exact ER|]. apply get_set_other.
  - unfold map_set. cbn [a_file a_off]. destruct (g_mem g <? 2 * start + 2 ^ k) eqn:X; [reflexivity|].
    replace (lenN file <? off + 2 * start + 2 ^ k) with true by lia. reflexivity.
Qed.

(** The sector of any address behind the first sector keeps its contents. *)
Theorem sector_wrong : forall f i g file k addr, open_at f i g file 0 -> k <= 15 -> g_sector g = 2 ^ k -> 2 ^ k <= addr ->
  erase_sector i addr f = UB OobBuffer \/
  exists f' g' file', erase_sector i addr f = Ok f' /\ open_at f' i g' file' 0 /\
    forall x, x / 2 ^ k = addr / 2 ^ k -> getN file' x = getN file x.
Proof.
  intros f i g file k addr O K G A. pose proof (erase_sector_thm f i g file 0 k addr O K G) as T. cbv zeta in T.
  destruct ((2 * (2 ^ k * (addr / 2 ^ k)) + 2 ^ k <=? g_mem g) && (0 + 2 * (2 ^ k * (addr / 2 ^ k)) + 2 ^ k <=? lenN file)); [|left; exact T].
  destruct T as [f' [g' [file' [E [O' [ER _]]]]]]. right. exists f', g', file'. split; [exact E|]. split; [exact O'|].
  intros x X. rewrite (ER x). assert (P : 0 < 2 ^ k) by (apply N.neq_0_lt_0, N.pow_nonzero; lia).
  assert (D : 1 <= addr / 2 ^ k) by (apply N.div_le_lower_bound; lia).
  assert (x < 2 ^ k * (addr / 2 ^ k) + 2 ^ k).
  { rewrite <- X. pose proof (N.mod_lt x (2 ^ k) ltac:(lia)). pose proof (N.div_mod x (2 ^ k) ltac:(lia)). lia. }
  replace (0 + 2 * (2 ^ k * (addr / 2 ^ k)) <=? x) with false by nia. reflexivity.
Qed.

(** ** The memory mapper *)

Section Mapper.
Variables (gran : N) (segs : list segment).
Hypothesis FR : fresh gran segs.

(** The state after any number of calls: the mappings have moved, nothing else has changed. *)
Definition moved (f : fls) (off : N -> N) : Prop :=
  f_init f = true /\ f_gran f = gran /\ lenN (f_segs f) = lenN segs /\
  forall i g, getN segs i = Some g -> exists file, g_array g = Some (open_array file) /\ sound gran g file /\
    getN (f_segs f) i = Some (with_array (mkArray file (g_page g * off i) 0) g).

Lemma fresh_at : forall i g, getN segs i = Some g -> exists file, g_array g = Some (open_array file) /\ sound gran g file.
Proof. intros i g H. unfold fresh in FR. rewrite Forall_forall in FR. apply FR. unfold getN in H. exact (nth_error_In _ _ H). Qed.

Lemma with_array_same : forall g a, g_array g = Some a -> with_array a g = g.
Proof. intros [] a H. unfold with_array. cbn in *. congruence. Qed.

Lemma moved0 : moved (mkFls true gran segs) (fun _ => 0).
Proof.
  split; [reflexivity|]. split; [reflexivity|]. split; [reflexivity|]. intros i g G. destruct (fresh_at i g G) as [file [A S]].
  exists file. split; [exact A|]. split; [exact S|]. cbn [f_segs]. rewrite N.mul_0_r. change (mkArray file 0 0) with (open_array file). rewrite with_array_same by exact A. exact G.
Qed.

Lemma select_moved : forall f off i g ext, moved f off -> getN segs i = Some g -> ext < g_mem g / g_page g ->
  exists f', select_page i ext f = Ok f' /\ moved f' (fun j => if (j =? i) && negb (ext =? 0) then ext else off j).
Proof.
  intros f off i g ext [M1 [M2 [M3 M4]]] G E. destruct (M4 i g G) as [file [A [S B]]].
  unfold select_page, with_seg. rewrite M1. cbn [negb]. rewrite B. unfold array_of. cbn [with_array g_array bind a_page g_page a_file].
  rewrite (N.eqb_sym 0 ext). destruct (ext =? 0) eqn:Z.
  - exists f. split; [reflexivity|]. split; [exact M1|]. split; [exact M2|]. split; [exact M3|].
    intros j h J. destruct (M4 j h J) as [file2 X]. exists file2. rewrite andb_false_r. exact X.
  - pose proof S as [S1 [S2 [S3 [S4 [S5 S6]]]]]. assert (L : g_page g * ext < 2 ^ 31) by nia. rewrite u32_small by lia.
    replace (2 ^ 31 <=? g_page g * ext) with false by lia. rewrite M2.
    replace ((g_page g * ext) mod gran) with 0.
    2:{ symmetry. apply N.mod_divide; [lia|]. apply N.divide_mul_l. apply N.mod_divide; [lia|exact S5]. }
    cbn [N.eqb negb orb]. eexists. split; [reflexivity|].
    split; [exact M1|]. split; [exact M2|]. split; [cbn [set_seg f_segs]; rewrite lenN_upd; exact M3|].
    intros j h J. cbn [set_seg f_segs]. destruct (j =? i) eqn:JI; cbn [andb negb].
    + assert (j = i) by lia. subst j. assert (h = g) by congruence. subst h. exists file. split; [exact A|]. split; [exact S|].
      rewrite getN_upd_same by (rewrite M3; exact (getN_Some_lt _ _ _ _ G)). reflexivity.
    + destruct (M4 j h J) as [file2 [A2 [SS2 B2]]]. exists file2. split; [exact A2|]. split; [exact SS2|]. rewrite getN_upd_other by lia. exact B2.
Qed.

(** What one call does. *)
Definition next_off (off : N -> N) (addr ext : N) (j : N) : N :=
  match hit segs 0 addr with
  | Some (i, g) => if (i =? j) && negb (ext =? 0) && (ext <? g_mem g / g_page g) then ext else off j
  | None => off j
  end.

Lemma hit_drop : forall i addr r, hit (dropN i segs) i addr = Some r -> getN segs (fst r) = Some (snd r).
Proof.
  intros i addr. remember (dropN i segs) as t eqn:E. revert i E. induction t as [|g t IH]; intros i E r H; [discriminate H|].
  cbn [hit] in H. assert (G : getN segs i = Some g).
  { replace i with (i + 0) by lia. rewrite <- getN_drop, <- E. reflexivity. }
  destruct (in_window g addr).
  - injection H as <-. exact G.
  - apply (IH (i + 1)); [|exact H]. rewrite <- drop_drop. rewrite <- E. reflexivity.
Qed.

Lemma loop_thm : forall n f off addr ext i t, moved f off -> t = dropN i segs -> n = length t -> i <= lenN segs ->
  exists f' r, map_loop n i addr ext f = Ok (f', r) /\
    match hit t i addr with
    | Some (k, g) => if ext <? g_mem g / g_page g
                     then r = MappedTo k (addr - g_base g) /\ moved f' (fun j => if (j =? k) && negb (ext =? 0) then ext else off j)
                     else r = Invalid /\ f' = f
    | None => r = NotMapped /\ f' = f
    end.
Proof.
  induction n as [|n IH]; intros f off addr ext i t M E L B.
  - destruct t; [|discriminate L]. exists f, NotMapped. split; [reflexivity|]. split; reflexivity.
  - destruct t as [|g t]; [discriminate L|]. assert (G : getN segs i = Some g).
    { replace i with (i + 0) by lia. rewrite <- getN_drop, <- E. reflexivity. }
    cbn [map_loop hit]. pose proof M as [M1 [M2 [M3 M4]]]. destruct (M4 i g G) as [file [A [S BB]]].
    unfold with_seg. rewrite M1. cbn [negb]. rewrite BB. unfold array_of. cbn [with_array g_array bind g_base g_page].
    fold (in_window g addr). destruct (in_window g addr) eqn:W.
    + pose proof S as [S1 [S2 _]]. unfold num_pages. cbn [with_array g_page g_mem]. replace (g_page g =? 0) with false by lia. cbn [bind].
      destruct (ext <? g_mem g / g_page g) eqn:X.
      * replace (g_mem g / g_page g <=? ext) with false by lia. destruct (select_moved f off i g ext M G ltac:(lia)) as [f' [E1 M']].
        rewrite E1. cbn [bind]. exists f', (MappedTo i (addr - g_base g)). split; [reflexivity|]. split; [reflexivity|exact M'].
      * replace (g_mem g / g_page g <=? ext) with true by lia. exists f, Invalid. split; [reflexivity|]. split; reflexivity.
    + apply (IH f off addr ext (i + 1) t M).
      * rewrite <- drop_drop, <- E. reflexivity.
      * injection L. auto.
      * pose proof (getN_Some_lt _ _ _ _ G). lia.
Qed.

Theorem mapper_step : forall f off addr ext, moved f off ->
  exists f' r, memory_mapper addr ext f = Ok (f', r) /\ moved f' (next_off off addr ext) /\
    match hit segs 0 addr with
    | Some (k, g) => if ext <? g_mem g / g_page g then r = MappedTo k (addr - g_base g) else r = Invalid
    | None => r = NotMapped
    end.
Proof.
  intros f off addr ext M. pose proof M as [_ [_ [M3 _]]].
  destruct (loop_thm (length (f_segs f)) f off addr ext 0 segs M) as [f' [r [E R]]]; [rewrite drop_0; reflexivity|unfold lenN in M3; lia|lia|].
  exists f', r. split; [exact E|]. unfold next_off. destruct (hit segs 0 addr) as [[k g]|].
  - destruct (ext <? g_mem g / g_page g).
    + destruct R as [R M']. split; [|exact R]. destruct M' as [X1 [X2 [X3 X4]]]. split; [exact X1|]. split; [exact X2|]. split; [exact X3|].
      intros j h J. destruct (X4 j h J) as [file [Y1 [Y2 Y3]]]. exists file. split; [exact Y1|]. split; [exact Y2|].
      rewrite Y3. rewrite (N.eqb_sym j k), andb_true_r. reflexivity.
    + destruct R as [R ->]. split; [|exact R]. destruct M as [X1 [X2 [X3 X4]]]. split; [exact X1|]. split; [exact X2|]. split; [exact X3|].
      intros j h J. destruct (X4 j h J) as [file Y]. exists file. rewrite andb_false_r. exact Y.
  - destruct R as [R ->]. split; [exact M|exact R].
Qed.

Lemma moved_ext : forall f o1 o2, (forall j, o1 j = o2 j) -> moved f o1 -> moved f o2.
Proof.
  intros f o1 o2 H [X1 [X2 [X3 X4]]]. split; [exact X1|]. split; [exact X2|]. split; [exact X3|].
  intros j h J. destruct (X4 j h J) as [file Y]. exists file. rewrite <- H. exact Y.
Qed.

Lemma mapper_run : forall calls f off, moved f off -> exists f', map_calls calls f = Ok f' /\ moved f' (fun i => last_page segs i (off i) calls).
Proof.
  induction calls as [|[addr ext] t IH]; intros f off M; cbn [map_calls last_page].
  - exists f. split; [reflexivity|exact M].
  - destruct (mapper_step f off addr ext M) as [f1 [r [E [M1 _]]]]. rewrite E. cbn [bind]. destruct (IH f1 _ M1) as [f' [E' M']].
    exists f'. split; [exact E'|]. revert M'. apply moved_ext. reflexivity.
Qed.

Lemma hit_at : forall addr k g, hit segs 0 addr = Some (k, g) -> getN segs k = Some g.
Proof. intros addr k g H. exact (hit_drop 0 addr (k, g) H). Qed.

Lemma moved_byte : forall f off i g o, moved f off -> getN segs i = Some g -> byte_at f i o = getN (file_of segs i) (g_page g * off i + o).
Proof.
  intros f off i g o [_ [_ [_ M4]]] G. destruct (M4 i g G) as [file [A [_ B]]]. unfold byte_at, file_of. rewrite B, G, A. reflexivity.
Qed.
End Mapper.

(** All calls succeed; the result is determined by the segments, and the byte pointed to by the page mapped last. *)
Theorem mapping_thm : forall gran segs calls addr ext, fresh gran segs ->
  exists f f' r, map_calls calls (mkFls true gran segs) = Ok f /\ memory_mapper addr ext f = Ok (f', r) /\
    match hit segs 0 addr with
    | None => r = NotMapped
    | Some (i, g) =>
        if ext <? g_mem g / g_page g then
          r = MappedTo i (addr - g_base g) /\
          forall o, byte_at f' i o = getN (file_of segs i) (g_page g * (if ext =? 0 then last_page segs i 0 calls else ext) + o)
        else r = Invalid
    end.
Proof.
  intros gran segs calls addr ext FR. destruct (mapper_run gran segs calls _ _ (moved0 gran segs FR)) as [f [E M]].
  destruct (mapper_step gran segs f _ addr ext M) as [f' [r [E' [M' R]]]]. exists f, f', r. split; [exact E|]. split; [exact E'|].
  destruct (hit segs 0 addr) as [[i g]|] eqn:H; [|exact R]. destruct (ext <? g_mem g / g_page g) eqn:X; [|exact R]. split; [exact R|].
  intros o. rewrite (moved_byte gran segs f' _ i g o M' (hit_at segs addr i g H)). unfold next_off. rewrite H, N.eqb_refl, X. cbn [andb].
  destruct (ext =? 0); reflexivity.
Qed.

(** ** Initialisation *)

Lemma open_all_id : forall n i f, f_init f = true -> open_all n i f = Ok f.
Proof.
  induction n as [|n IH]; intros i f F; cbn [open_all]; [reflexivity|]. unfold open_create at 1, with_seg. rewrite F. cbn [negb].
  destruct (getN (f_segs f) i); cbn [bind]; apply IH; exact F.
Qed.

Theorem init_unusable : forall gran segs, Forall (fun g => g_array g = None) segs ->
  exists f, fls_init gran segs = Ok f /\
    (forall i g addr, getN segs i = Some g -> erase_sector i addr f = UB NullPtr) /\
    (forall i g page, getN segs i = Some g -> erase_page i page f = UB NullPtr /\ select_page i page f = UB NullPtr) /\
    (forall i g block, getN segs i = Some g -> block < g_blocks g -> erase_block i block f = UB NullPtr) /\
    (forall addr ext, segs <> [] -> memory_mapper addr ext f = UB NullPtr).
Proof.
  intros gran segs NA. exists (mkFls true gran segs). split; [apply open_all_id; reflexivity|].
  assert (AT : forall i g, getN segs i = Some g -> array_of g = UB NullPtr).
  { intros i g G. unfold array_of. rewrite Forall_forall in NA. unfold getN in G. rewrite (NA g (nth_error_In _ _ G)). reflexivity. }
  split; [intros i g addr G; unfold erase_sector, with_seg; cbn [f_init f_segs negb]; rewrite G, (AT i g G); reflexivity|].
  split; [intros i g page G; unfold erase_page, select_page, with_seg; cbn [f_init f_segs negb]; rewrite G, (AT i g G); split; reflexivity|].
  split.
  - intros i g block G B. unfold erase_block, with_seg; cbn [f_init f_segs negb]; rewrite G. replace (block <? g_blocks g) with true by lia. cbn [negb]. cbv beta iota zeta. rewrite (AT i g G). reflexivity.
  - intros addr ext SS. destruct segs as [|g t]; [congruence|]. unfold memory_mapper. cbn [f_segs length map_loop]. unfold with_seg. cbn [f_init f_segs negb].
    change (getN (g :: t) 0) with (Some g). cbv beta iota zeta. rewrite (AT 0 g eq_refl). reflexivity.
Qed.

(** ** Erasing after a page has been selected *)
Theorem erase_selected : forall f i g file gran p q, open_at f i g file 0 -> g_array g = Some (open_array file) -> f_gran f = gran -> sound gran g file -> 1 <= p -> p + q < g_mem g / g_page g ->
  exists f1 f2 g2 file2, select_page i p f = Ok f1 /\ erase_page i q f1 = Ok f2 /\ open_at f2 i g2 file2 (g_page g * p) /\
    erased file file2 (g_page g * (p + q)) (g_page g).
Proof.
  intros f i g file gran p q O A FG S P Q. pose proof S as [S1 [S2 [S3 [S4 [S5 S6]]]]]. destruct O as [FI [G _]].
  assert (L : g_page g * (p + q) + g_page g <= g_mem g) by nia.
  unfold select_page, with_seg. rewrite FI. cbn [negb]. rewrite G. unfold array_of. rewrite A. cbn [bind open_array a_page a_file].
  replace (0 =? p) with false by lia. rewrite u32_small by lia. replace (2 ^ 31 <=? g_page g * p) with false by lia. rewrite FG.
  replace ((g_page g * p) mod gran) with 0.
  2:{ symmetry. apply N.mod_divide; [lia|]. apply N.divide_mul_l. apply N.mod_divide; [lia|exact S5]. }
  cbn [N.eqb negb orb].
  set (g1 := with_array (mkArray file (g_page g * p) 0) g).
  destruct (erase_page_gen (set_seg i g1 f) i g1 file (g_page g * p) q) as [f2 [g2 [file2 [E [O2 [ER _]]]]]].
  - split; [exact FI|]. split; [apply get_set; eauto|]. exists 0. reflexivity.
  - cbn [g1 with_array g_page]. lia.
  - cbn [g1 with_array g_page g_mem]. lia.
  - cbn [g1 with_array g_mem]. lia.
  - exists (set_seg i g1 f), f2, g2, file2. split; [reflexivity|]. split; [exact E|]. split; [exact O2|].
    cbn [g1 with_array g_page] in ER. replace (g_page g * (p + q)) with (g_page g * p + g_page g * q) by lia. exact ER.
Qed.

Lemma last_page_app : forall segs i a b l, last_page segs i l (a ++ b) = last_page segs i (last_page segs i l a) b.
Proof. intros segs i a b. induction a as [|[addr ext] t IH]; intros l; cbn [app last_page]; [reflexivity|apply IH]. Qed.

(** Page 0 cannot be selected any more. *)
Theorem page0_lost : forall gran segs calls a1 p a2 i g, fresh gran segs -> hit segs 0 a1 = Some (i, g) -> hit segs 0 a2 = Some (i, g) ->
  1 <= p -> p < g_mem g / g_page g ->
  exists f f', map_calls (calls ++ [(a1, p)]) (mkFls true gran segs) = Ok f /\ memory_mapper a2 0 f = Ok (f', MappedTo i (a2 - g_base g)) /\
    forall o, byte_at f' i o = getN (file_of segs i) (g_page g * p + o).
Proof.
  intros gran segs calls a1 p a2 i g FR H1 H2 P1 P2. destruct (mapping_thm gran segs (calls ++ [(a1, p)]) a2 0 FR) as [f [f' [r [E [E' R]]]]].
  rewrite H2 in R. replace (0 <? g_mem g / g_page g) with true in R by lia. destruct R as [-> R].
  exists f, f'. split; [exact E|]. split; [exact E'|]. intros o. rewrite R. cbn [N.eqb]. rewrite last_page_app. cbn [last_page]. rewrite H1, N.eqb_refl.
  replace (p =? 0) with false by lia. replace (p <? g_mem g / g_page g) with true by lia. reflexivity.
Qed.
