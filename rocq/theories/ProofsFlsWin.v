(** Proofs for C105-C108. *)
From Coq Require Import ZArith NArith List Bool Lia ZifyBool ZifyNat ZifyN.
From Verif Require Import Base Lists Flsemu SpecFls ProofsFls FlsWin SpecFlsWin.
Import ListNotations.
Open Scope N_scope.

(** ** FlsEmu_AllocatedSize *)

Theorem alloc_thm : forall gran page, 0 < gran < 2 ^ 32 -> page < 2 ^ 32 ->
  allocated_size gran page = Ok (if page =? 0 then 0 else gran).
Proof.
  intros gran page G P. unfold allocated_size. replace (gran =? 0) with false by lia. f_equal. destruct (N.eqb_spec page 0) as [->|Z].
  - rewrite N.div_0_l, N.mod_0_l by lia. cbn [N.eqb negb]. rewrite N.add_0_l. cbn [N.eqb negb]. rewrite N.mul_0_r. reflexivity.
  - assert (X : (page / gran + (if negb (page mod gran =? 0) then 1 else 0) =? 0) = false).
    { apply N.eqb_neq. destruct (N.eqb_spec (page mod gran) 0) as [M|M]; cbn [negb]; [|lia].
      pose proof (N.div_mod page gran ltac:(lia)) as D. intro E. assert (page / gran = 0) by lia. rewrite H, M in D. lia. }
    rewrite X. cbn [negb]. rewrite N.mul_1_r. apply N.mod_small. change (2 ^ 32) with 4294967296 in *. lia.
Qed.

Theorem alloc_right : forall gran page, 0 < gran < 2 ^ 32 -> 1 <= page <= gran ->
  exists n, allocated_size gran page = Ok n /\ least_multiple gran page n.
Proof.
  intros gran page G P. exists gran. split; [rewrite alloc_thm by lia; replace (page =? 0) with false by lia; reflexivity|].
  split; [apply N.divide_refl|]. split; [lia|]. intros k [q ->] K. destruct (N.eq_dec q 0); nia.
Qed.

Theorem alloc_wrong : forall gran page, 0 < gran < 2 ^ 32 -> gran < page -> page < 2 ^ 32 ->
  exists n, allocated_size gran page = Ok n /\ n < page /\ ~ least_multiple gran page n.
Proof.
  intros gran page G P Q. exists gran. split; [rewrite alloc_thm by lia; replace (page =? 0) with false by lia; reflexivity|].
  split; [lia|]. intros [_ [H _]]. lia.
Qed.

(** ** The mapper on Windows *)

Lemma with_wseg_at : forall A f i (none : A) k g, wf_init f = true -> getN (wf_segs f) i = Some g -> with_wseg f i none k = k g.
Proof. intros A f i none k g H G. unfold with_wseg. rewrite H, G. reflexivity. Qed.

Lemma whit_drop : forall segs i addr r, whit (dropN i segs) i addr = Some r -> getN segs (fst r) = Some (snd r) /\
  ws_base (snd r) <= addr < ws_base (snd r) + ws_page (snd r).
Proof.
  intros segs i addr. remember (dropN i segs) as t eqn:E. revert i E. induction t as [|g t IH]; intros i E r H; [discriminate H|].
  cbn [whit] in H. assert (G : getN segs i = Some g).
  { replace i with (i + 0) by lia. rewrite <- getN_drop, <- E. reflexivity. }
  destruct ((ws_base g <=? addr) && (addr <? ws_base g + ws_page g)) eqn:W.
  - injection H as <-. cbn [fst snd]. split; [exact G|lia].
  - apply (IH (i + 1)); [|exact H]. rewrite <- drop_drop. rewrite <- E. reflexivity.
Qed.
Lemma whit_at : forall segs addr k g, whit segs 0 addr = Some (k, g) -> getN segs k = Some g /\ ws_base g <= addr < ws_base g + ws_page g.
Proof. intros segs addr k g H. exact (whit_drop segs 0 addr (k, g) H). Qed.

(** The same windows, everything else may differ. *)
Definition same_map (g h : wseg) : Prop := ws_mem g = ws_mem h /\ ws_page g = ws_page h /\ ws_base g = ws_base h.

(** What one call does on any state whose segments are all open. *)
Definition wopen (f : wfls) (segs : list wseg) : Prop :=
  wf_init f = true /\ lenN (wf_segs f) = lenN segs /\
  forall i g, getN segs i = Some g -> exists h a, getN (wf_segs f) i = Some h /\ same_map g h /\ ws_array h = Some a /\ 0 < ws_page g.

Lemma wloop_thm : forall n f segs pick addr ext i t, wopen f segs -> t = dropN i segs -> n = length t -> i <= lenN segs ->
  wmap_loop pick n i addr ext f =
    match whit t i addr with
    | Some (k, g) =>
        if ext <? ws_mem g / ws_page g then
          f1 <- wselect_page pick k ext f ;;
          Ok (f1, WMappedTo (((match getN (wf_segs f) k with Some h => view_addr h | None => 0 end) + (2 ^ 64 - ws_base g) + addr) mod 2 ^ 64))
        else Ok (f, WInvalid)
    | None => Ok (f, WNotMapped)
    end.
Proof.
  induction n as [|n IH]; intros f segs pick addr ext i t M E L B.
  - destruct t; [reflexivity|discriminate L].
  - destruct t as [|g t]; [discriminate L|]. assert (G : getN segs i = Some g).
    { replace i with (i + 0) by lia. rewrite <- getN_drop, <- E. reflexivity. }
    cbn [wmap_loop whit]. pose proof M as [M1 [M2 M3]]. destruct (M3 i g G) as [h [a [H [[S1 [S2 S3]] [A P]]]]].
    rewrite (with_wseg_at _ f i _ _ h M1 H). unfold warray_of at 1. rewrite A. cbn [bind]. rewrite <- S1, <- S2, <- S3.
    destruct ((ws_base g <=? addr) && (addr <? ws_base g + ws_page g)) eqn:W.
    + replace (ws_page g =? 0) with false by lia. destruct (ext <? ws_mem g / ws_page g) eqn:X.
      * replace (ws_mem g / ws_page g <=? ext) with false by lia. rewrite H. unfold view_addr. rewrite A. reflexivity.
      * replace (ws_mem g / ws_page g <=? ext) with true by lia. reflexivity.
    + apply (IH f segs pick addr ext (i + 1) t M).
      * rewrite <- drop_drop, <- E. reflexivity.
      * injection L. auto.
      * pose proof (getN_Some_lt _ _ _ _ G). lia.
Qed.

Lemma wmapper_thm : forall f segs pick addr ext, wopen f segs ->
  wmemory_mapper pick addr ext f =
    match whit segs 0 addr with
    | Some (k, g) =>
        if ext <? ws_mem g / ws_page g then
          f1 <- wselect_page pick k ext f ;;
          Ok (f1, WMappedTo (((match getN (wf_segs f) k with Some h => view_addr h | None => 0 end) + (2 ^ 64 - ws_base g) + addr) mod 2 ^ 64))
        else Ok (f, WInvalid)
    | None => Ok (f, WNotMapped)
    end.
Proof.
  intros f segs pick addr ext M. pose proof M as [_ [L _]]. unfold wmemory_mapper. apply (wloop_thm _ f segs); [exact M|rewrite drop_0; reflexivity|unfold lenN in L; lia|lia].
Qed.

Lemma wset_get : forall i g f, i < lenN (wf_segs f) -> getN (wf_segs (wset i g f)) i = Some g.
Proof. intros i g f H. cbn [wset wf_segs]. apply getN_upd_same. exact H. Qed.
Lemma wset_other : forall i j g f, j <> i -> getN (wf_segs (wset i g f)) j = getN (wf_segs f) j.
Proof. intros i j g f H. cbn [wset wf_segs]. apply getN_upd_other. lia. Qed.

Section Stay.
Variables (gran : N) (segs : list wseg).
Hypothesis FR : wfresh gran segs.

Lemma wfresh_at : forall i g, getN segs i = Some g -> wopened gran g (view_addr g).
Proof. intros i g H. unfold wfresh in FR. rewrite Forall_forall in FR. apply FR. unfold getN in H. exact (nth_error_In _ _ H). Qed.

(** The state after calls for which the views stay where they are. *)
Definition at_pages (f : wfls) (off : N -> N) : Prop :=
  wf_init f = true /\ wf_gran f = gran /\ lenN (wf_segs f) = lenN segs /\
  forall i g, getN segs i = Some g -> exists a v cur, getN (wf_segs f) i = Some (wwith (mkWArr (wa_file a) true (Some v) (stored_page g)) cur g) /\
    ws_array g = Some a /\ v_addr v = view_addr g /\ v_off v = ws_alloc g * off i /\ (0 < ws_mem g / ws_page g -> ws_page g <= v_len v).

Lemma at_pages0 : at_pages (mkWFls true gran segs) (fun _ => 0).
Proof.
  split; [reflexivity|]. split; [reflexivity|]. split; [reflexivity|]. intros i g G. destruct (wfresh_at i g G) as [file [q [A [_ [_ [_ [_ [F _]]]]]]]].
  exists (mkWArr file true (Some (mkView (view_addr g) 0 (lenN file))) q), (mkView (view_addr g) 0 (lenN file)), (ws_current g).
  cbn [wf_segs wa_file v_addr v_off v_len]. split; [|split; [exact A|split; [reflexivity|split; [lia|intros K; specialize (F 0 K); lia]]]].
  rewrite G. unfold stored_page. rewrite A. cbn [wa_page]. f_equal. destruct g as [a1 a2 a3 a4 a5 a6]. unfold wwith. cbn [ws_mem ws_page ws_base ws_alloc ws_array ws_current] in *. rewrite <- A. reflexivity.
Qed.

Lemma at_open : forall f off, at_pages f off -> wopen f segs.
Proof.
  intros f off [M1 [M2 [M3 M4]]]. split; [exact M1|]. split; [exact M3|]. intros i g G. destruct (M4 i g G) as [a [v [cur [E _]]]].
  destruct (wfresh_at i g G) as [file [q [_ [_ [P _]]]]].
  eexists _, _. split; [exact E|]. split; [split; [|split]; reflexivity|]. split; [reflexivity|exact P].
Qed.

Lemma wselect_stay : forall f off i g ext, at_pages f off -> getN segs i = Some g -> ext < ws_mem g / ws_page g ->
  exists f', wselect_page (Some (view_addr g)) i ext f = Ok f' /\ at_pages f' (fun j => if (j =? i) && negb (ext =? stored_page g) then ext else off j).
Proof.
  intros f off i g ext [M1 [M2 [M3 M4]]] G E. destruct (M4 i g G) as [a [v [cur [H [A [V1 [V2 V3]]]]]]].
  destruct (wfresh_at i g G) as [file [q [A' [P1 [P2 [P3 [P4 [P5 [P6 P7]]]]]]]]].
  assert (a = mkWArr file true (Some (mkView (view_addr g) 0 (lenN file))) q) by congruence. subst a. cbn [wa_file] in *.
  unfold wselect_page. rewrite (with_wseg_at _ f i _ _ _ M1 H). unfold warray_of. cbn [wwith ws_array bind wa_page ws_alloc ws_page ws_current].
  destruct (stored_page g =? ext) eqn:Z.
  - exists f. split; [reflexivity|]. split; [exact M1|]. split; [exact M2|]. split; [exact M3|].
    intros j h J. destruct (M4 j h J) as [a2 [v2 [cur2 X]]]. exists a2, v2, cur2. rewrite (N.eqb_sym ext), Z, andb_false_r. exact X.
  - specialize (P5 ext E). assert (L : u32 (ws_alloc g * ext) = ws_alloc g * ext) by (apply N.mod_small; change (2 ^ 32) with 4294967296 in *; lia).
    rewrite L. unfold map_address, map_view. cbn [wa_view wa_open wa_file wa_page andb]. rewrite M2.
    replace ((ws_alloc g * ext) mod gran) with 0.
    2:{ symmetry. apply N.mod_divide; [lia|]. apply N.divide_mul_l. apply N.mod_divide; [lia|exact P3]. }
    cbn [N.eqb]. replace (ws_alloc g * ext + ws_page g <=? lenN file) with true by lia. cbn [andb].
    eexists. split; [reflexivity|]. split; [exact M1|]. split; [exact M2|]. split; [cbn [wset wf_segs]; rewrite lenN_upd; exact M3|].
    intros j h J. destruct (j =? i) eqn:JI; cbn [andb].
    + assert (j = i) by lia. subst j. assert (h = g) by congruence. subst h. rewrite (N.eqb_sym ext), Z. cbn [negb].
      exists (mkWArr file true (Some (mkView (view_addr g) 0 (lenN file))) q), (mkView (view_addr g) (ws_alloc g * ext) (ws_page g)), ext. cbn [wa_file v_addr v_off v_len].
      split; [|split; [exact A'|split; [reflexivity|split; [reflexivity|intros _; lia]]]].
      rewrite wset_get by (rewrite M3; exact (getN_Some_lt _ _ _ _ G)). reflexivity.
    + rewrite wset_other by lia. apply M4. exact J.
Qed.

Lemma at_shows : forall f off i g o, at_pages f off -> getN segs i = Some g -> o < ws_page g -> 0 < ws_mem g / ws_page g -> shows f (view_addr g + o) i (ws_alloc g * off i + o).
Proof.
  intros f off i g o [_ [_ [_ M4]]] G O P. destruct (M4 i g G) as [a [v [cur [H [A [V1 [V2 V3]]]]]]]. specialize (V3 P).
  eexists _, _, v. split; [exact H|]. split; [reflexivity|]. split; [reflexivity|]. rewrite V1, V2. split; [lia|]. f_equal. lia.
Qed.

Definition wnext (off : N -> N) (addr ext j : N) : N :=
  match whit segs 0 addr with
  | Some (i, g) => if (i =? j) && negb (ext =? stored_page g) && (ext <? ws_mem g / ws_page g) then ext else off j
  | None => off j
  end.

Lemma at_ext : forall f o1 o2, (forall j, o1 j = o2 j) -> at_pages f o1 -> at_pages f o2.
Proof.
  intros f o1 o2 H [X1 [X2 [X3 X4]]]. split; [exact X1|]. split; [exact X2|]. split; [exact X3|].
  intros j h J. destruct (X4 j h J) as [a [v [cur Y]]]. exists a, v, cur. rewrite <- H. exact Y.
Qed.

Lemma wstep_stay : forall f off pick addr ext, at_pages f off -> stays segs (pick, addr, ext) ->
  exists f' r, wmemory_mapper pick addr ext f = Ok (f', r) /\ at_pages f' (wnext off addr ext) /\
    match whit segs 0 addr with
    | Some (i, g) => if ext <? ws_mem g / ws_page g then r = WMappedTo (view_addr g + (addr - ws_base g)) else r = WInvalid
    | None => r = WNotMapped
    end.
Proof.
  intros f off pick addr ext M ST. rewrite (wmapper_thm f segs pick addr ext (at_open f off M)). unfold stays in ST. cbn [fst snd] in ST.
  unfold wnext. destruct (whit segs 0 addr) as [[i g]|] eqn:H.
  - destruct (whit_at _ _ _ _ H) as [G W]. rewrite (ST i g eq_refl). destruct (ext <? ws_mem g / ws_page g) eqn:X.
    + destruct (wselect_stay f off i g ext M G ltac:(lia)) as [f' [E M']]. rewrite E. cbn [bind].
      eexists f', _. split; [reflexivity|]. split.
      * revert M'. apply at_ext. intros j. rewrite (N.eqb_sym j i), andb_true_r. reflexivity.
      * destruct M as [_ [_ [_ M4]]]. destruct (M4 i g G) as [a [v [cur [HH [A [V1 _]]]]]]. rewrite HH. unfold view_addr at 1. cbn [wwith ws_array]. unfold wbase at 1. cbn [wa_view]. rewrite V1.
        destruct (wfresh_at i g G) as [file [q [_ [_ [P2 [_ [P4 [P5 [P6 P7]]]]]]]]]. specialize (P5 0 ltac:(lia)).
        f_equal. replace (view_addr g + (2 ^ 64 - ws_base g) + addr) with ((view_addr g + (addr - ws_base g)) + 1 * 2 ^ 64) by lia.
        rewrite N.mod_add by (apply N.pow_nonzero; lia). apply N.mod_small. lia.
    + eexists f, _. split; [reflexivity|]. split; [|reflexivity]. revert M. apply at_ext. intros j. rewrite andb_false_r. reflexivity.
  - eexists f, _. split; [reflexivity|]. split; [exact M|reflexivity].
Qed.

Lemma wrun_stay : forall calls f off, at_pages f off -> Forall (stays segs) calls ->
  exists f', wmap_calls calls f = Ok f' /\ at_pages f' (fun i => wlast segs i (off i) calls).
Proof.
  induction calls as [|[[pick addr] ext] t IH]; intros f off M ST; cbn [wmap_calls wlast].
  - exists f. split; [reflexivity|exact M].
  - inversion ST as [|x y S1 S2]; subst. destruct (wstep_stay f off pick addr ext M S1) as [f1 [r [E [M1 _]]]]. rewrite E. cbn [bind].
    destruct (IH f1 _ M1 S2) as [f' [E' M']]. exists f'. split; [exact E'|]. revert M'. apply at_ext. reflexivity.
Qed.
End Stay.

Theorem wmapping_thm : forall gran segs calls pick addr ext, wfresh gran segs -> Forall (stays segs) (calls ++ [(pick, addr, ext)]) ->
  exists f f' r, wmap_calls calls (mkWFls true gran segs) = Ok f /\ wmemory_mapper pick addr ext f = Ok (f', r) /\
    match whit segs 0 addr with
    | None => r = WNotMapped
    | Some (i, g) =>
        if ext <? ws_mem g / ws_page g then
          exists a, r = WMappedTo a /\ shows f' a i (ws_alloc g * (if ext =? stored_page g then wlast segs i 0 calls else ext) + (addr - ws_base g))
        else r = WInvalid
    end.
Proof.
  intros gran segs calls pick addr ext FR ST. apply Forall_app in ST. destruct ST as [ST1 ST2]. inversion ST2 as [|x y S1 _]; subst.
  destruct (wrun_stay gran segs FR calls _ _ (at_pages0 gran segs FR) ST1) as [f [E M]].
  destruct (wstep_stay gran segs FR f _ pick addr ext M S1) as [f' [r [E' [M' R]]]]. exists f, f', r. split; [exact E|]. split; [exact E'|].
  destruct (whit segs 0 addr) as [[i g]|] eqn:H; [|exact R]. destruct (ext <? ws_mem g / ws_page g) eqn:X; [|exact R].
  destruct (whit_at _ _ _ _ H) as [G W]. eexists. split; [exact R|].
  pose proof (at_shows gran segs f' _ i g (addr - ws_base g) M' G ltac:(lia) ltac:(lia)) as SH. unfold wnext in SH. rewrite H, N.eqb_refl, X in SH. cbn [andb] in SH.
  destruct (ext =? stored_page g); exact SH.
Qed.

(** The system puts the new view elsewhere. *)
Theorem wmoved_thm : forall gran segs calls va addr ext i g, wfresh gran segs -> Forall (stays segs) calls ->
  whit segs 0 addr = Some (i, g) -> ext < ws_mem g / ws_page g -> ext <> stored_page g ->
  va + ws_page g <= view_addr g \/ view_addr g + ws_page g <= va ->
  exists f f', wmap_calls calls (mkWFls true gran segs) = Ok f /\
    wmemory_mapper (Some va) addr ext f = Ok (f', WMappedTo (view_addr g + (addr - ws_base g))) /\
    (forall x, ~ shows f' (view_addr g + (addr - ws_base g)) i x) /\
    shows f' (va + (addr - ws_base g)) i (ws_alloc g * ext + (addr - ws_base g)).
Proof.
  intros gran segs calls va addr ext i g FR ST H E NS D.
  destruct (wrun_stay gran segs FR calls _ _ (at_pages0 gran segs FR) ST) as [f [RUN M]]. exists f. destruct (whit_at _ _ _ _ H) as [G W].
  rewrite (wmapper_thm f segs (Some va) addr ext (at_open gran segs FR f _ M)), H. replace (ext <? ws_mem g / ws_page g) with true by lia.
  destruct M as [M1 [M2 [M3 M4]]]. destruct (M4 i g G) as [a [v [cur [HH [A [V1 [V2 V3]]]]]]]. rewrite HH.
  unfold view_addr at 1. cbn [wwith ws_array]. unfold wbase at 1. cbn [wa_view]. rewrite V1.
  destruct (wfresh_at gran segs FR i g G) as [file [q [A' [P1 [P2 [P3 [P4 [P5 [P6 P7]]]]]]]]].
  assert (a = mkWArr file true (Some (mkView (view_addr g) 0 (lenN file))) q) by congruence. subst a. cbn [wa_file] in *. specialize (P5 ext E).
  unfold wselect_page. rewrite (with_wseg_at _ f i _ _ _ M1 HH). unfold warray_of. cbn [wwith ws_array bind wa_page ws_alloc ws_page ws_current].
  replace (stored_page g =? ext) with false by lia.
  assert (L : u32 (ws_alloc g * ext) = ws_alloc g * ext) by (apply N.mod_small; change (2 ^ 32) with 4294967296 in *; lia).
  rewrite L. unfold map_address, map_view. cbn [wa_view wa_open wa_file wa_page andb]. rewrite M2.
  replace ((ws_alloc g * ext) mod gran) with 0.
  2:{ symmetry. apply N.mod_divide; [lia|]. apply N.divide_mul_l. apply N.mod_divide; [lia|exact P3]. }
  cbn [N.eqb]. replace (ws_alloc g * ext + ws_page g <=? lenN file) with true by lia. cbn [andb bind].
  eexists. split; [exact RUN|]. split; [|split].
  - do 3 f_equal. replace (view_addr g + (2 ^ 64 - ws_base g) + addr) with ((view_addr g + (addr - ws_base g)) + 1 * 2 ^ 64) by lia.
    rewrite N.mod_add by (apply N.pow_nonzero; lia). apply N.mod_small. lia.
  - intros x [g1 [a1 [v1 [X1 [X2 [X3 [X4 X5]]]]]]]. rewrite wset_get in X1 by (rewrite M3; exact (getN_Some_lt _ _ _ _ G)). injection X1 as <-.
    cbn [wwith ws_array] in X2. injection X2 as <-. cbn [wa_view] in X3. injection X3 as <-. cbn [v_addr v_len] in X4. lia.
  - eexists _, _, _. split; [apply wset_get; rewrite M3; exact (getN_Some_lt _ _ _ _ G)|]. split; [reflexivity|]. split; [reflexivity|].
    cbn [v_addr v_len v_off]. split; [lia|]. f_equal. lia.
Qed.

(** A view that could not be created is gone for good. *)
Lemma viewless_select : forall pick i j ext f f', viewless f i -> wselect_page pick j ext f = Ok f' -> viewless f' i.
Proof.
  intros pick i j ext f f' [g [a [G [A V]]]] E. unfold wselect_page, with_wseg in E. destruct (wf_init f); [|discriminate E]. cbn [negb] in E.
  destruct (getN (wf_segs f) j) as [h|] eqn:J; [|injection E as <-; exists g, a; auto].
  unfold warray_of in E. destruct (ws_array h) as [b|] eqn:B; [|discriminate E]. cbn [bind] in E.
  destruct (wa_page b =? ext); [injection E as <-; exists g, a; auto|].
  destruct (map_address pick (wf_gran f) (u32 (ws_alloc h * ext)) (ws_page h) b) as [b1 ok] eqn:MA. injection E as <-.
  destruct (N.eq_dec j i) as [->|NE].
  - assert (h = g) by congruence. subst h. assert (b = a) by congruence. subst b. unfold map_address in MA. rewrite V in MA. injection MA as <- <-.
    eexists _, _. split; [apply wset_get; exact (getN_Some_lt _ _ _ _ G)|]. split; reflexivity.
  - exists g, a. rewrite wset_other by lia. auto.
Qed.
Lemma viewless_loop : forall pick n k addr ext f f' r i, viewless f i -> wmap_loop pick n k addr ext f = Ok (f', r) -> viewless f' i.
Proof.
  intros pick. induction n as [|n IH]; intros k addr ext f f' r i V E; cbn [wmap_loop] in E; [congruence|].
  unfold with_wseg in E. destruct (wf_init f); [|discriminate E]. cbn [negb] in E. destruct (getN (wf_segs f) k) as [g|]; [|congruence].
  unfold warray_of in E. destruct (ws_array g) as [a|]; [|discriminate E]. cbn [bind] in E.
  destruct ((ws_base g <=? addr) && (addr <? ws_base g + ws_page g)); [|exact (IH _ _ _ _ _ _ _ V E)].
  destruct (ws_page g =? 0); [discriminate E|]. destruct (ws_mem g / ws_page g <=? ext); [congruence|].
  destruct (wselect_page pick k ext f) as [f1|] eqn:S; [|discriminate E]. cbn [bind] in E. injection E as <- <-. exact (viewless_select _ _ _ _ _ _ V S).
Qed.
Lemma viewless_run : forall calls f f' i, viewless f i -> wmap_calls calls f = Ok f' -> viewless f' i.
Proof.
  induction calls as [|[[pick addr] ext] t IH]; intros f f' i V E; cbn [wmap_calls] in E; [congruence|].
  destruct (wmemory_mapper pick addr ext f) as [[f1 r]|] eqn:M; [|discriminate E]. cbn [bind] in E. exact (IH _ _ _ (viewless_loop _ _ _ _ _ _ _ _ _ V M) E).
Qed.

Theorem wlost_thm : forall gran segs calls addr ext i g later, wfresh gran segs -> Forall (stays segs) calls ->
  whit segs 0 addr = Some (i, g) -> ext < ws_mem g / ws_page g -> ext <> stored_page g ->
  exists f f1, wmap_calls calls (mkWFls true gran segs) = Ok f /\
    wmemory_mapper None addr ext f = Ok (f1, WMappedTo (view_addr g + (addr - ws_base g))) /\
    forall f2, wmap_calls later f1 = Ok f2 -> viewless f2 i.
Proof.
  intros gran segs calls addr ext i g later FR ST H E NS.
  destruct (wrun_stay gran segs FR calls _ _ (at_pages0 gran segs FR) ST) as [f [RUN M]]. exists f. destruct (whit_at _ _ _ _ H) as [G W].
  rewrite (wmapper_thm f segs None addr ext (at_open gran segs FR f _ M)), H. replace (ext <? ws_mem g / ws_page g) with true by lia.
  destruct M as [M1 [M2 [M3 M4]]]. destruct (M4 i g G) as [a [v [cur [HH [A [V1 [V2 V3]]]]]]]. rewrite HH.
  unfold view_addr at 1. cbn [wwith ws_array]. unfold wbase at 1. cbn [wa_view]. rewrite V1.
  destruct (wfresh_at gran segs FR i g G) as [file [q [A' [P1 [P2 [P3 [P4 [P5 [P6 P7]]]]]]]]]. specialize (P5 ext E).
  unfold wselect_page. rewrite (with_wseg_at _ f i _ _ _ M1 HH). unfold warray_of. cbn [wwith ws_array bind wa_page ws_alloc ws_page ws_current].
  replace (stored_page g =? ext) with false by lia. unfold map_address, map_view. cbn [wa_view wa_open wa_file wa_page bind].
  eexists. split; [exact RUN|]. split.
  - do 3 f_equal. replace (view_addr g + (2 ^ 64 - ws_base g) + addr) with ((view_addr g + (addr - ws_base g)) + 1 * 2 ^ 64) by lia.
    rewrite N.mod_add by (apply N.pow_nonzero; lia). apply N.mod_small. lia.
  - intros f2. apply viewless_run. eexists _, _. split; [apply wset_get; rewrite M3; exact (getN_Some_lt _ _ _ _ G)|]. split; reflexivity.
Qed.

(** ** Shutdown *)
Theorem deinit_null : forall gran segs, segs <> [] -> Forall (fun g => g_array g = None) segs ->
  exists f, fls_init gran segs = Ok f /\ fls_deinit f = UB NullPtr.
Proof.
  intros gran segs NE NA. exists (mkFls true gran segs). split; [apply open_all_id; reflexivity|]. destruct segs as [|g t]; [congruence|].
  unfold fls_deinit. cbn [f_segs length close_all]. unfold fls_close at 1, with_seg. cbn [f_init f_segs negb]. change (getN (g :: t) 0) with (Some g).
  cbv beta iota zeta. unfold array_of. inversion NA; subst. rewrite H1. reflexivity.
Qed.

Lemma close_all_ok : forall n i f, f_init f = true -> (forall g, In g (f_segs f) -> g_array g <> None) -> close_all n i f = Ok f.
Proof.
  induction n as [|n IH]; intros i f I A; cbn [close_all]; [reflexivity|]. unfold fls_close at 1, with_seg. rewrite I. cbn [negb].
  destruct (getN (f_segs f) i) as [g|] eqn:G; [|cbn [bind]; apply IH; assumption]. unfold array_of.
  specialize (A g (nth_error_In _ _ G)) as AG. destruct (g_array g); [|congruence]. cbn [bind]. apply IH; assumption.
Qed.
Theorem deinit_open : forall gran segs, Forall (fun g => g_array g <> None) segs ->
  exists f, fls_deinit (mkFls true gran segs) = Ok f /\ f_init f = false /\
    forall i addr, erase_sector i addr f = UB Assert.
Proof.
  intros gran segs A. rewrite Forall_forall in A. unfold fls_deinit. rewrite close_all_ok by (auto). cbn [bind].
  eexists. split; [reflexivity|]. split; [reflexivity|]. reflexivity.
Qed.

Lemma close_all_null : forall n i f j g, f_init f = true -> getN (f_segs f) j = Some g -> g_array g = None -> i <= j < i + N.of_nat n -> close_all n i f = UB NullPtr.
Proof.
  induction n as [|n IH]; intros i f j g I G A H; [lia|]. cbn [close_all]. unfold fls_close, with_seg. rewrite I. cbn [negb].
  destruct (N.eq_dec i j) as [->|NE]; [rewrite G; unfold array_of; rewrite A; reflexivity|].
  destruct (getN (f_segs f) i) as [g'|]; [|cbn [bind]; apply (IH (i + 1) f j g); auto; lia]. unfold array_of.
  destruct (g_array g'); [|reflexivity]. cbn [bind]. apply (IH (i + 1) f j g); auto; lia.
Qed.
Theorem deinit_some_null : forall gran segs, Exists (fun g => g_array g = None) segs -> fls_deinit (mkFls true gran segs) = UB NullPtr.
Proof.
  intros gran segs E. apply Exists_exists in E. destruct E as (g & H & A). apply In_nth_error in H. destruct H as (j & H).
  assert (L : (j < length segs)%nat) by (apply nth_error_Some; congruence).
  unfold fls_deinit. cbn [f_segs]. rewrite (close_all_null _ 0 _ (N.of_nat j) g); [reflexivity|reflexivity| |exact A|lia]. unfold getN. cbn [f_segs]. now rewrite Nat2N.id.
Qed.

(** ** Xcp_CopyMemory *)

Lemma hook_thm : forall gran segs f off addr ext, fresh gran segs -> moved gran segs f off ->
  exists f', moved gran segs f' (next_off segs off addr ext) /\
    hook ext addr f = Ok (f', match hit segs 0 addr with
                              | Some (i, g) => if ext <? g_mem g / g_page g then InSeg i (addr - g_base g) else Raw addr
                              | None => Raw addr
                              end).
Proof.
  intros gran segs f off addr ext FR M. destruct (mapper_step gran segs f off addr ext M) as [f' [r [E [M' R]]]].
  exists f'. split; [exact M'|]. unfold hook. rewrite E. cbn [bind]. do 2 f_equal. destruct (hit segs 0 addr) as [[i g]|]; [|rewrite R; reflexivity].
  destruct (ext <? g_mem g / g_page g); rewrite R; reflexivity.
Qed.

Lemma copy_up : forall n k i o da m f g a, getN (f_segs f) i = Some g -> g_array g = Some a ->
  o + k + N.of_nat n <= g_mem g -> a_off a + o + k + N.of_nat n <= lenN (a_file a) ->
  exists m', copy_bytes n k (Raw da) (InSeg i o) m f = Ok (m', f) /\
    forall x, Some (m' x) = if (da + k <=? x) && (x <? da + k + N.of_nat n) then getN (a_file a) (a_off a + o + (x - da)) else Some (m x).
Proof.
  induction n as [|n IH]; intros k i o da m f g a G A L1 L2; cbn [copy_bytes].
  - exists m. split; [reflexivity|]. intros x. replace ((da + k <=? x) && (x <? da + k + N.of_nat 0)) with false by lia. reflexivity.
  - unfold fetch, seg_get. rewrite G, A. replace (o + k <? g_mem g) with true by lia.
    destruct (getN_lt_Some _ (a_file a) (a_off a + (o + k)) ltac:(lia)) as [b B]. rewrite B. cbn [bind]. unfold store. cbn [bind].
    destruct (IH (k + 1) i o da (fun x => if x =? da + k then b else m x) f g a G A ltac:(lia) ltac:(lia)) as [m' [E F]].
    exists m'. split; [exact E|]. intros x. rewrite F. destruct (N.eqb_spec x (da + k)) as [->|NE].
    + replace ((da + (k + 1) <=? da + k) && (da + k <? da + (k + 1) + N.of_nat n)) with false by lia.
      replace ((da + k <=? da + k) && (da + k <? da + k + N.of_nat (S n))) with true by lia. rewrite <- B. f_equal. lia.
    + replace ((da + k <=? x) && (x <? da + k + N.of_nat (S n))) with ((da + (k + 1) <=? x) && (x <? da + (k + 1) + N.of_nat n)) by lia. reflexivity.
Qed.

Lemma mread_S : forall m a n, mread m a (N.of_nat (S n)) = m a :: mread m (a + 1) (N.of_nat n).
Proof. intros. unfold mread. rewrite !Nat2N.id. reflexivity. Qed.

Lemma copy_down : forall n k i o sa m f g a, getN (f_segs f) i = Some g -> g_array g = Some a ->
  o + k + N.of_nat n <= g_mem g -> a_off a + o + k + N.of_nat n <= lenN (a_file a) ->
  exists f' file', copy_bytes n k (InSeg i o) (Raw sa) m f = Ok (m, f') /\
    getN (f_segs f') i = Some (with_array (mkArray file' (a_off a) (a_page a)) g) /\
    replaced (a_file a) file' (a_off a + o + k) (mread m (sa + k) (N.of_nat n)) /\ others_kept f f' i.
Proof.
  induction n as [|n IH]; intros k i o sa m f g a G A L1 L2; cbn [copy_bytes].
  - exists f, (a_file a). split; [reflexivity|]. split; [rewrite with_array_same by (destruct a; exact A); exact G|]. split; [|intros j _; reflexivity].
    split; [reflexivity|]. intros x. change (lenN (mread m (sa + k) (N.of_nat 0))) with 0. replace ((a_off a + o + k <=? x) && (x <? a_off a + o + k + 0)) with false by lia. reflexivity.
  - unfold fetch. cbn [bind]. unfold store, seg_put. rewrite G, A. replace ((o + k <? g_mem g) && (a_off a + (o + k) <? lenN (a_file a))) with true by lia. cbn [bind].
    set (a1 := mkArray (updN (a_file a) (a_off a + (o + k)) (m (sa + k))) (a_off a) (a_page a)).
    pose proof (getN_Some_lt _ _ _ _ G) as LI.
    destruct (IH (k + 1) i o sa m (set_seg i (with_array a1 g) f) (with_array a1 g) a1) as [f' [file' [E [G' [[R1 R2] OK]]]]].
    + cbn [set_seg f_segs]. apply getN_upd_same. exact LI.
    + reflexivity.
    + cbn [with_array g_mem]. lia.
    + cbn [a1 a_off a_file]. rewrite lenN_upd. lia.
    + exists f', file'. split; [exact E|]. split; [exact G'|]. split.
      * split; [rewrite R1; cbn [a1 a_file]; apply lenN_upd|]. intros x. rewrite R2, mread_S. cbn [a1 a_off a_file].
        rewrite lenN_cons, !lenN_mread.
        destruct (N.eqb_spec x (a_off a + (o + k))) as [->|NE].
        -- replace ((a_off a + o + (k + 1) <=? a_off a + (o + k)) && (a_off a + (o + k) <? a_off a + o + (k + 1) + N.of_nat n)) with false by lia.
           replace ((a_off a + o + k <=? a_off a + (o + k)) && (a_off a + (o + k) <? a_off a + o + k + (N.of_nat n + 1))) with true by lia.
           rewrite getN_upd_same by lia. replace (a_off a + (o + k) - (a_off a + o + k)) with 0 by lia. reflexivity.
        -- replace ((a_off a + o + k <=? x) && (x <? a_off a + o + k + (N.of_nat n + 1))) with ((a_off a + o + (k + 1) <=? x) && (x <? a_off a + o + (k + 1) + N.of_nat n)) by lia.
           destruct ((a_off a + o + (k + 1) <=? x) && (x <? a_off a + o + (k + 1) + N.of_nat n)) eqn:X.
           ++ replace (x - (a_off a + o + k)) with (1 + (x - (a_off a + o + (k + 1)))) by lia.
              replace (sa + (k + 1)) with (sa + k + 1) by lia. unfold getN. replace (N.to_nat (1 + (x - (a_off a + o + (k + 1))))) with (S (N.to_nat (x - (a_off a + o + (k + 1))))) by lia. reflexivity.
           ++ apply getN_upd_other. lia.
      * intros j J. rewrite OK by exact J. cbn [set_seg f_segs]. apply getN_upd_other. lia.
Qed.

Lemma copy_raw : forall n k da sa m f, da + k + N.of_nat n <= sa + k \/ sa + k + N.of_nat n <= da + k ->
  exists m', copy_bytes n k (Raw da) (Raw sa) m f = Ok (m', f) /\
    forall x, m' x = if (da + k <=? x) && (x <? da + k + N.of_nat n) then m (sa + (x - da)) else m x.
Proof.
  induction n as [|n IH]; intros k da sa m f D; cbn [copy_bytes].
  - exists m. split; [reflexivity|]. intros x. replace ((da + k <=? x) && (x <? da + k + N.of_nat 0)) with false by lia. reflexivity.
  - unfold fetch, store. cbn [bind]. destruct (IH (k + 1) da sa (fun x => if x =? da + k then m (sa + k) else m x) f ltac:(lia)) as [m' [E F]].
    exists m'. split; [exact E|]. intros x. rewrite F. destruct (N.eqb_spec x (da + k)) as [->|NE].
    + replace ((da + (k + 1) <=? da + k) && (da + k <? da + (k + 1) + N.of_nat n)) with false by lia.
      replace ((da + k <=? da + k) && (da + k <? da + k + N.of_nat (S n))) with true by lia. f_equal. lia.
    + replace ((da + k <=? x) && (x <? da + k + N.of_nat (S n))) with ((da + (k + 1) <=? x) && (x <? da + (k + 1) + N.of_nat n)) by lia.
      destruct ((da + (k + 1) <=? x) && (x <? da + (k + 1) + N.of_nat n)) eqn:X; [|reflexivity]. replace (sa + (x - da) =? da + k) with false by lia. reflexivity.
Qed.

Lemma moved_files : forall gran segs f off j, moved gran segs f off -> file_of (f_segs f) j = file_of segs j.
Proof.
  intros gran segs f off j [_ [_ [L M4]]]. unfold file_of. destruct (getN segs j) as [g|] eqn:G.
  - destruct (M4 j g G) as [file [A [_ B]]]. rewrite B, A. reflexivity.
  - apply getN_None in G. replace (getN (f_segs f) j) with (@None segment); [reflexivity|]. symmetry. apply getN_None. lia.
Qed.

Theorem upload_thm : forall gran segs calls de da se sa len m i g, fresh gran segs ->
  hit segs 0 da = None -> hit segs 0 sa = Some (i, g) -> se < g_mem g / g_page g -> 1 <= len -> sa - g_base g + len <= g_page g ->
  let from := g_page g * (if se =? 0 then last_page segs i 0 calls else se) + (sa - g_base g) in
  exists f m' f', map_calls calls (mkFls true gran segs) = Ok f /\ copy_memory (de, da) (se, sa) len m f = Ok (m', f') /\
    (forall x, Some (m' x) = if (da <=? x) && (x <? da + len) then getN (file_of segs i) (from + (x - da)) else Some (m x)) /\
    forall j, file_of (f_segs f') j = file_of segs j.
Proof.
  intros gran segs calls de da se sa len m i g FR HD HS E L W. cbv zeta.
  destruct (mapper_run gran segs calls _ _ (moved0 gran segs FR)) as [f [RUN M]]. exists f.
  destruct (hook_thm gran segs f _ da de FR M) as [f1 [M1 E1]]. destruct (hook_thm gran segs f1 _ sa se FR M1) as [f2 [M2 E2]].
  unfold copy_memory. cbn [fst snd]. rewrite E1. cbn [bind]. rewrite E2. cbn [bind]. rewrite HD, HS. replace (se <? g_mem g / g_page g) with true by lia.
  replace (len =? 0) with false by lia. pose proof (hit_at segs sa i g HS) as G. pose proof M2 as [_ [_ [_ M4]]].
  destruct (M4 i g G) as [file [A [S B]]]. pose proof S as [S1 [S2 [S3 [S4 _]]]].
  set (P := if se =? 0 then last_page segs i 0 calls else se).
  assert (OFF : next_off segs (next_off segs (fun i0 => last_page segs i0 0 calls) da de) sa se i = P).
  { unfold next_off. rewrite HS, N.eqb_refl, HD. replace (se <? g_mem g / g_page g) with true by lia. subst P. destruct (se =? 0); reflexivity. }
  rewrite OFF in B. assert (PB : P < g_mem g / g_page g).
  { subst P. destruct (se =? 0); [|exact E]. clear -E HS. assert (Q : forall c l, l < g_mem g / g_page g -> last_page segs i l c < g_mem g / g_page g).
    { induction c as [|[a x] t IH]; intros l Hl; cbn [last_page]; [exact Hl|]. apply IH. destruct (hit segs 0 a) as [[j h]|] eqn:HH; [|exact Hl].
      destruct ((j =? i) && negb (x =? 0) && (x <? g_mem h / g_page h)) eqn:C; [|exact Hl]. assert (j = i) by lia. subst j.
      pose proof (hit_at segs a i h HH). pose proof (hit_at segs sa i g HS). assert (h = g) by congruence. subst h. lia. }
    apply Q. lia. }
  destruct (copy_up (N.to_nat len) 0 i (sa - g_base g) da m f2 _ _ B eq_refl) as [m' [EC F]].
  { cbn [with_array g_mem]. nia. }
  { cbn [a_off a_file]. nia. }
  exists m', f2. split; [exact RUN|]. split; [exact EC|]. split.
  - intros x. rewrite F. cbn [a_off a_file]. rewrite N.add_0_r, N2Nat.id. unfold file_of. rewrite G, A. reflexivity.
  - intros j. exact (moved_files gran segs f2 _ j M2).
Qed.

Theorem download_thm : forall gran segs calls de da se sa len m i g, fresh gran segs ->
  hit segs 0 sa = None -> hit segs 0 da = Some (i, g) -> de < g_mem g / g_page g -> 1 <= len -> da - g_base g + len <= g_page g ->
  let to := g_page g * (if de =? 0 then last_page segs i 0 calls else de) + (da - g_base g) in
  exists f f', map_calls calls (mkFls true gran segs) = Ok f /\ copy_memory (de, da) (se, sa) len m f = Ok (m, f') /\
    replaced (file_of segs i) (file_of (f_segs f') i) to (mread m sa len) /\
    forall j, j <> i -> file_of (f_segs f') j = file_of segs j.
Proof.
  intros gran segs calls de da se sa len m i g FR HS HD E L W. cbv zeta.
  destruct (mapper_run gran segs calls _ _ (moved0 gran segs FR)) as [f [RUN M]]. exists f.
  destruct (hook_thm gran segs f _ da de FR M) as [f1 [M1 E1]]. destruct (hook_thm gran segs f1 _ sa se FR M1) as [f2 [M2 E2]].
  unfold copy_memory. cbn [fst snd]. rewrite E1. cbn [bind]. rewrite E2. cbn [bind]. rewrite HD, HS. replace (de <? g_mem g / g_page g) with true by lia.
  replace (len =? 0) with false by lia. pose proof (hit_at segs da i g HD) as G. pose proof M2 as [_ [_ [_ M4]]].
  destruct (M4 i g G) as [file [A [S B]]]. pose proof S as [S1 [S2 [S3 [S4 _]]]].
  set (P := if de =? 0 then last_page segs i 0 calls else de).
  assert (OFF : next_off segs (next_off segs (fun i0 => last_page segs i0 0 calls) da de) sa se i = P).
  { unfold next_off. rewrite HS, HD, N.eqb_refl. replace (de <? g_mem g / g_page g) with true by lia. subst P. destruct (de =? 0); reflexivity. }
  rewrite OFF in B. assert (PB : P < g_mem g / g_page g).
  { subst P. destruct (de =? 0); [|exact E]. clear -E HD. assert (Q : forall c l, l < g_mem g / g_page g -> last_page segs i l c < g_mem g / g_page g).
    { induction c as [|[a x] t IH]; intros l Hl; cbn [last_page]; [exact Hl|]. apply IH. destruct (hit segs 0 a) as [[j h]|] eqn:HH; [|exact Hl].
      destruct ((j =? i) && negb (x =? 0) && (x <? g_mem h / g_page h)) eqn:C; [|exact Hl]. assert (j = i) by lia. subst j.
      pose proof (hit_at segs a i h HH). pose proof (hit_at segs da i g HD). assert (h = g) by congruence. subst h. lia. }
    apply Q. lia. }
  destruct (copy_down (N.to_nat len) 0 i (da - g_base g) sa m f2 _ _ B eq_refl) as [f' [file' [EC [G' [R OK]]]]].
  { cbn [with_array g_mem]. nia. }
  { cbn [a_off a_file]. nia. }
  exists f'. split; [exact RUN|]. split; [exact EC|]. split.
  - unfold file_of. rewrite G', G, A. cbn [with_array g_array open_array a_file]. cbn [a_off a_file] in R. rewrite !N.add_0_r, N2Nat.id in R. exact R.
  - intros j J. rewrite <- (moved_files gran segs f2 _ j M2). unfold file_of. rewrite OK by exact J. reflexivity.
Qed.

(** An address the mapper calls invalid is used as it is. *)
Theorem invalid_used : forall gran segs calls de da se sa len m i g, fresh gran segs ->
  hit segs 0 da = None -> hit segs 0 sa = Some (i, g) -> g_mem g / g_page g <= se -> 1 <= len -> da + len <= sa \/ sa + len <= da ->
  exists f f' m', map_calls calls (mkFls true gran segs) = Ok f /\ memory_mapper sa se f = Ok (f, Invalid) /\
    copy_memory (de, da) (se, sa) len m f = Ok (m', f') /\
    forall x, m' x = if (da <=? x) && (x <? da + len) then m (sa + (x - da)) else m x.
Proof.
  intros gran segs calls de da se sa len m i g FR HD HS E L D.
  destruct (mapper_run gran segs calls _ _ (moved0 gran segs FR)) as [f [RUN M]]. exists f.
  destruct (hook_thm gran segs f _ da de FR M) as [f1 [M1 E1]]. destruct (hook_thm gran segs f1 _ sa se FR M1) as [f2 [M2 E2]].
  destruct (copy_raw (N.to_nat len) 0 da sa m f2 ltac:(lia)) as [m' [EC F]]. exists f2, m'. split; [exact RUN|].
  destruct (loop_thm gran segs (length (f_segs f)) f _ sa se 0 segs M ltac:(rewrite drop_0; reflexivity)) as [f3 [r [E3 R3]]].
  { destruct M as [_ [_ [LL _]]]. unfold lenN in LL. lia. }
  { lia. }
  rewrite HS in R3. replace (se <? g_mem g / g_page g) with false in R3 by lia. destruct R3 as [-> ->].
  split; [exact E3|]. unfold copy_memory. cbn [fst snd]. rewrite E1. cbn [bind]. rewrite E2. cbn [bind]. rewrite HD, HS. replace (se <? g_mem g / g_page g) with false by lia.
  replace (len =? 0) with false by lia. split; [exact EC|]. intros x. rewrite F. rewrite N.add_0_r, N2Nat.id. reflexivity.
Qed.

(** After FlsEmu_Init as it is, every access follows a null pointer. *)
Theorem copy_null : forall gran segs, segs <> [] -> Forall (fun g => g_array g = None) segs ->
  exists f, fls_init gran segs = Ok f /\ forall dst src len m, copy_memory dst src len m f = UB NullPtr.
Proof.
  intros gran segs NE NA. destruct (init_unusable gran segs NA) as [f [E [_ [_ [_ U]]]]]. exists f. split; [exact E|].
  intros dst src len m. unfold copy_memory, hook. rewrite (U _ _ NE). reflexivity.
Qed.
