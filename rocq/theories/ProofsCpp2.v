(** Proofs of the claims about headers and configuration, continued: sequences of headers. *)
From Coq Require Import ZArith NArith List Bool Lia ZifyBool ZifyNat ZifyN.
From Verif Require Import Cpp SpecCpp ProofsCpp.
Import ListNotations.
Open Scope Z_scope.

Definition consequences (g : settings) (v : seen) (f : file) (o : list piece) : Prop :=
  (v_xcp v = true -> neutral o = true /\ absent Types o = true /\ absent Util o = true /\ absent Xcp o = true) /\
  (v_xcp v = false -> inside Types o = true /\ inside Util o = true) /\
  (v_xcp v = false -> reads_xcp f = true -> neutral o = if g_guards g then v_config v else negb (is_hw f)) /\
  (v_xcp v = false -> reads_xcp f = false -> neutral o = true /\ forall h, guarded h -> inside h o = true) /\
  (g_guards g = true -> v_early v = true -> forall h, guarded h -> inside h o = true).

Lemma wrapped_all : forall o, forallb (fun h => inside h o) wrapped = true -> forall h, guarded h -> inside h o = true.
Proof. intros o H h G. rewrite forallb_forall in H. apply H. clear - G. destruct h; cbn in *; tauto. Qed.

Lemma facts_mean : forall g t v f e o, facts g t v f e o = true -> consequences g v f o.
Proof.
  intros g t v f e o P. unfold facts in P. rewrite !andb_true_iff in P. destruct P as [[_ P] Q].
  pose proof (wrapped_all o) as W. revert P Q W. unfold consequences.
  generalize (forallb (fun h => inside h o) wrapped) (neutral o) (absent Types o) (absent Util o) (absent Xcp o)
    (inside Types o) (inside Util o).
  intros w n a1 a2 a3 i1 i2 P Q W.
  destruct (v_xcp v).
  - rewrite !andb_true_iff in P. split; [tauto|]. split; [discriminate|]. split; [discriminate|]. split; [discriminate|].
    intros G E. rewrite G, E in Q. apply W, Q.
  - destruct (reads_xcp f); rewrite !andb_true_iff in P.
    + split; [discriminate|]. split; [tauto|]. split; [intros _ _; apply eqb_prop, P|]. split; [discriminate|].
      intros G E. rewrite G, E in Q. apply W, Q.
    + split; [discriminate|]. split; [tauto|]. split; [discriminate|]. split; [intros _ _; split; [apply P|apply W, P]|].
      intros G E. rewrite G, E in Q. apply W, Q.
Qed.

Lemma fact_thm : forall g t v f, okay g v = true -> header f -> consequences g v f (emit g true t v f).
Proof.
  intros g t v f K F. destruct (always_ok true facts facts_all g t v f K F) as (e & _ & P). exact (facts_mean g t v f e _ P).
Qed.

Lemma emits_cons : forall g cpp t v f fs, emits g cpp t v (f :: fs) = emit g cpp t v f ++ emits g cpp t (next g v f) fs.
Proof. reflexivity. Qed.
Lemma okay_next : forall g (t : transport) v f, okay g v = true -> header f -> okay g (next g v f) = true.
Proof. intros g t v f K F. apply (step_thm g true t v f K F). Qed.
Lemma xcp_next : forall g v f, v_xcp (next g v f) = v_xcp v || reads_xcp f.
Proof. reflexivity. Qed.

(** After inc/xcp.h. *)
Lemma later : forall g t fs v, okay g v = true -> v_xcp v = true -> Forall header fs ->
  neutral (emits g true t v fs) = true.
Proof.
  induction fs as [|f r IH]; intros v K X F; [reflexivity|]. apply Forall_cons_iff in F. destruct F as [F Fr].
  rewrite emits_cons. destruct (fact_thm g t v f K F) as (H & _).
  rewrite neutral_cons; [apply IH; [now apply (okay_next g t)|now rewrite xcp_next, X|exact Fr]|now apply H].
Qed.

Definition verdict (g : settings) (cfg : bool) (fs : list file) : bool :=
  if g_guards g then
    cfg || match find (fun f => is_config f || reads_xcp f) fs with None | Some Config => true | Some _ => false end
  else match find reads_xcp fs with Some Hw => false | _ => true end.

Lemma config_next : forall g v f, reads_xcp f = false -> v_xcp v = false -> v_config (next g v f) = v_config v || is_config f.
Proof. intros g v f R X. unfold next. cbn [v_config]. rewrite R, X. now rewrite orb_false_r. Qed.

Lemma before : forall g t fs v, okay g v = true -> v_xcp v = false -> Forall header fs ->
  neutral (emits g true t v fs) = verdict g (v_config v) fs.
Proof.
  induction fs as [|f r IH]; intros v K X F.
  - unfold verdict. cbn. destruct (g_guards g); [now rewrite orb_true_r|reflexivity].
  - apply Forall_cons_iff in F. destruct F as [F Fr]. rewrite emits_cons.
    pose proof (okay_next g t v f K F) as K'.
    destruct (reads_xcp f) eqn:R.
    + rewrite neutral_app; [|apply later; auto; now rewrite xcp_next, R, orb_true_r].
      destruct (fact_thm g t v f K F) as (_ & _ & H & _). rewrite (H X R). unfold verdict.
      cbn [find]. rewrite R. destruct f; try discriminate R; cbn [is_config orb is_hw negb]; destruct (g_guards g); try reflexivity; now rewrite orb_false_r.
    + destruct (fact_thm g t v f K F) as (_ & _ & _ & H & _). destruct (H X R) as [N _].
      rewrite neutral_cons by exact N. rewrite IH; auto; [|now rewrite xcp_next, X, R].
      rewrite (config_next g v f R X). unfold verdict. cbn [find]. rewrite R.
      destruct f; try discriminate R; cbn [is_config orb]; rewrite ?orb_false_r; try reflexivity.
      destruct (g_guards g); [now rewrite !orb_true_r|reflexivity].
Qed.

Lemma order_thm : forall g t fs, Forall header fs -> exists e o,
  preprocess g true (built_for t) fs = Done e o /\
  (balanced o <-> if g_guards g then first (fun f => is_config f || reads_xcp f) fs = None \/ first (fun f => is_config f || reads_xcp f) fs = Some Config
                  else first reads_xcp fs <> Some Hw).
Proof.
  intros g t fs F. destruct (start_thm g true t fs F) as (_ & e & R & _). exists e, (emits g true t nothing fs).
  split; [exact R|]. unfold balanced. rewrite <- neutral_ok, (before g t fs nothing) by (auto; reflexivity).
  unfold verdict, first. destruct (g_guards g); cbn [nothing v_config orb].
  - destruct (find (fun f => is_config f || reads_xcp f) fs) as [[]|]; intuition congruence.
  - destruct (find reads_xcp fs) as [[]|]; intuition congruence.
Qed.

Lemma xcp_first : forall g t fs, Forall header fs -> g_guards g = true -> exists e o,
  preprocess g true (built_for t) (Xcp :: fs) = Done e o /\ ~ balanced o.
Proof.
  intros g t fs F G. destruct (order_thm g t (Xcp :: fs)) as (e & o & R & B); [now constructor|].
  exists e, o. split; [exact R|]. rewrite B, G. cbn. intros [H|H]; discriminate H.
Qed.
Lemma hw_first : forall g t fs, Forall header fs -> exists e o,
  preprocess g true (built_for t) (Hw :: fs) = Done e o /\ ~ balanced o.
Proof.
  intros g t fs F. destruct (order_thm g t (Hw :: fs)) as (e & o & R & B); [now constructor|].
  exists e, o. split; [exact R|]. rewrite B. destruct (g_guards g); cbn; [intros [H|H]; discriminate H|now intros H].
Qed.

Definition texts (o : list piece) : Prop := forall p, In p o -> exists f, p = PText f.
Lemma facts_c_mean : forall g t v f e o, facts_c g t v f e o = true -> texts o.
Proof.
  intros g t v f e o P p I. unfold facts_c in P. rewrite !andb_true_iff in P. destruct P as [_ P].
  rewrite forallb_forall in P. specialize (P p I). destruct p; try discriminate P. now eexists.
Qed.
Lemma emit_texts : forall g t v f, okay g v = true -> header f -> texts (emit g false t v f).
Proof.
  intros g t v f K F. destruct (always_ok false facts_c facts_c_all g t v f K F) as (e & _ & P). exact (facts_c_mean g t v f e _ P).
Qed.
Lemma emits_texts : forall g t fs v, okay g v = true -> Forall header fs -> texts (emits g false t v fs).
Proof.
  induction fs as [|f r IH]; intros v K F p I; [destruct I|]. apply Forall_cons_iff in F. destruct F as [F Fr].
  rewrite emits_cons in I. apply in_app_or in I. destruct I as [I|I].
  - exact (emit_texts g t v f K F p I).
  - exact (IH (next g v f) (okay_next g t v f K F) Fr p I).
Qed.
Lemma texts_balanced : forall o, texts o -> balanced o.
Proof.
  unfold balanced. induction o as [|p o IH]; intros T; [reflexivity|]. destruct (T p) as [f ->]; [now left|]. cbn [walk]. apply IH.
  intros p I. apply T. now right.
Qed.

Lemma c_thm : forall g t fs, Forall header fs -> exists e o,
  preprocess g false (built_for t) fs = Done e o /\ (forall p, In p o -> exists f, p = PText f) /\ balanced o.
Proof.
  intros g t fs F. destruct (start_thm g false t fs F) as (_ & e & R & _). exists e, (emits g false t nothing fs).
  pose proof (emits_texts g t fs nothing eq_refl F) as T.
  split; [exact R|]. split; [exact T|exact (texts_balanced _ T)].
Qed.

(** ** Linkage *)

Lemma absent_nil : forall f o, absent f o = true -> depths 0 f o = [].
Proof. intros f o H. unfold absent in H. destruct (depths 0 f o); [reflexivity|discriminate]. Qed.
Lemma inside_all : forall f o, inside f o = true -> Forall (fun d => 0 < d) (depths 0 f o).
Proof. intros f o H. unfold inside in H. rewrite forallb_forall in H. apply Forall_forall. intros d I. specialize (H d I). lia. Qed.

(** [f] is not declared any more. *)
Lemma depths_none : forall f o d, absent f o = true -> depths d f o = [].
Proof.
  intros f o d H. apply absent_nil in H. revert H. generalize 0 as x.
  revert d. induction o as [|[| |h] o IH]; intros d x H; cbn [depths] in *; eauto.
  destruct (N.eqb (file_no h) (file_no f)); [discriminate H|]. cbn in *. eauto.
Qed.

Lemma later_none : forall g t f fs v d, f = Types \/ f = Util \/ f = Xcp -> okay g v = true -> v_xcp v = true -> Forall header fs ->
  depths d f (emits g true t v fs) = [].
Proof.
  intros g t f fs v d C. revert v d. induction fs as [|h r IH]; intros v d K X F; [reflexivity|].
  apply Forall_cons_iff in F. destruct F as [F Fr]. rewrite emits_cons.
  destruct (fact_thm g t v h K F) as (H & _). destruct (H X) as (N & T & U & Y).
  rewrite depths_app by now apply neutral_ok.
  rewrite IH; [|now apply (okay_next g t)|now rewrite xcp_next, X|exact Fr]. rewrite app_nil_r.
  apply depths_none. destruct C as [ ->|[ ->| ->]]; assumption.
Qed.

Lemma depths_none_app : forall f a b d, (forall d, depths d f b = []) -> depths d f (a ++ b) = depths d f a.
Proof.
  intros f. induction a as [|[| |h] a IH]; intros b d H; cbn [depths app]; auto.
  now rewrite IH.
Qed.

Lemma early_types : forall g t f fs v, f = Types \/ f = Util -> okay g v = true -> v_xcp v = false -> Forall header fs ->
  Forall (fun d => 0 < d) (depths 0 f (emits g true t v fs)).
Proof.
  intros g t f fs v C. revert v. induction fs as [|h r IH]; intros v K X F; [constructor|].
  apply Forall_cons_iff in F. destruct F as [F Fr]. rewrite emits_cons.
  destruct (fact_thm g t v h K F) as (_ & I & _ & N & _). destruct (I X) as [T U].
  assert (Y : Forall (fun d => 0 < d) (depths 0 f (emit g true t v h))).
  { apply inside_all. destruct C as [ ->| ->]; assumption. }
  destruct (reads_xcp h) eqn:R.
  - rewrite depths_none_app; [exact Y|]. intros d. apply later_none; auto; [tauto|now apply (okay_next g t)|now rewrite xcp_next, R, orb_true_r].
  - destruct (N X eq_refl) as [N' _]. rewrite depths_app by now apply neutral_ok. apply Forall_app. split; [exact Y|].
    apply IH; auto; [now apply (okay_next g t)|now rewrite xcp_next, X, R].
Qed.

Lemma util_linkage : forall g t fs, Forall header fs -> exists e o,
  preprocess g true (built_for t) fs = Done e o /\
  Forall (fun d => 0 < d) (depths 0 Util o) /\ Forall (fun d => 0 < d) (depths 0 Types o).
Proof.
  intros g t fs F. destruct (start_thm g true t fs F) as (_ & e & R & _). exists e, (emits g true t nothing fs).
  split; [exact R|]. split; apply early_types; auto; reflexivity.
Qed.

Lemma xcp_linkage : forall g t fs, Forall header fs -> exists e o,
  preprocess g true (built_for t) (Xcp :: fs) = Done e o /\ depths 0 Xcp o = [0] /\ depths 0 Util o = [1].
Proof.
  intros g t fs F. assert (F' : Forall header (Xcp :: fs)) by now constructor.
  destruct (start_thm g true t _ F') as (_ & e & R & _). exists e, (emits g true t nothing (Xcp :: fs)).
  split; [exact R|]. rewrite emits_cons. split.
  - rewrite depths_none_app; [destruct g as [[] [] []], t; vm_compute; reflexivity|].
    intros d. apply later_none; auto; destruct g as [[] [] []]; reflexivity.
  - rewrite depths_none_app; [destruct g as [[] [] []], t; vm_compute; reflexivity|].
    intros d. apply later_none; auto; destruct g as [[] [] []]; reflexivity.
Qed.

Lemma early_next : forall g v f, v_early v = true -> v_early (next g v f) = true.
Proof. intros g v f H. unfold next. cbn [v_early]. now rewrite H. Qed.

Lemma early_inside : forall g t h fs v, g_guards g = true -> guarded h -> okay g v = true -> v_early v = true -> Forall header fs ->
  neutral (emits g true t v fs) = true -> Forall (fun d => 0 < d) (depths 0 h (emits g true t v fs)).
Proof.
  intros g t h fs v G Hh. revert v. induction fs as [|f r IH]; intros v K E F B; [constructor|].
  apply Forall_cons_iff in F. destruct F as [F Fr]. rewrite emits_cons in *.
  destruct (fact_thm g t v f K F) as (X1 & _ & X2 & X3 & I).
  assert (N : neutral (emit g true t v f) = true).
  { destruct (v_xcp v) eqn:X; [now apply X1|]. destruct (reads_xcp f) eqn:R; [|now apply X3].
    rewrite (X2 eq_refl eq_refl), G. unfold okay in K. rewrite !andb_true_iff in K.
    destruct K as [[[_ K] _] _]. unfold implb' in K. rewrite E in K. exact K. }
  rewrite depths_app by now apply neutral_ok. apply Forall_app. split; [apply inside_all; auto|].
  rewrite neutral_cons in B by exact N. apply IH; auto; [now apply (okay_next g t)|now apply early_next].
Qed.

Lemma balanced_inside : forall g t h fs v, g_guards g = true -> guarded h -> okay g v = true -> v_xcp v = false -> Forall header fs ->
  neutral (emits g true t v fs) = true -> Forall (fun d => 0 < d) (depths 0 h (emits g true t v fs)).
Proof.
  intros g t h fs v G Hh. revert v. induction fs as [|f r IH]; intros v K X F B; [constructor|].
  destruct (v_early v) eqn:E; [now apply early_inside|].
  pose proof F as F0. apply Forall_cons_iff in F. destruct F as [F Fr]. rewrite emits_cons in *.
  destruct (fact_thm g t v f K F) as (_ & _ & X2 & X3 & I).
  destruct (reads_xcp f) eqn:R.
  - rewrite neutral_app in B; [|apply later; auto; [now apply (okay_next g t)|now rewrite xcp_next, R, orb_true_r]].
    rewrite (X2 X eq_refl), G in B. exfalso. unfold okay in K. rewrite !andb_true_iff in K.
    destruct K as [[_ K] _]. unfold implb' in K. rewrite B, X, E in K. discriminate K.
  - destruct (X3 X eq_refl) as [N J]. rewrite depths_app by now apply neutral_ok. apply Forall_app. split; [apply inside_all; auto|].
    rewrite neutral_cons in B by exact N. apply IH; auto; [now apply (okay_next g t)|now rewrite xcp_next, X, R].
Qed.

Lemma guards_linkage : forall g t fs, Forall header fs -> g_guards g = true -> exists e o,
  preprocess g true (built_for t) fs = Done e o /\
  (balanced o -> forall h, guarded h -> Forall (fun d => 0 < d) (depths 0 h o)).
Proof.
  intros g t fs F G. destruct (start_thm g true t fs F) as (_ & e & R & _). exists e, (emits g true t nothing fs).
  split; [exact R|]. intros B h Hh. apply neutral_ok in B. apply balanced_inside; auto; reflexivity.
Qed.

(** ** Debug builds *)

Lemma prints_fold : forall g fs v, v_macros v = true -> v_macros (fold_left (next g) fs v) = true /\ v_prints (fold_left (next g) fs v) = v_prints v.
Proof.
  induction fs as [|f r IH]; intros v M; [now split|]. cbn [fold_left].
  assert (M' : v_macros (next g v f) = true) by (unfold next; cbn [v_macros]; now rewrite M).
  destruct (IH _ M') as [A B]. split; [exact A|]. rewrite B. unfold next. cbn [v_prints]. now rewrite M.
Qed.

Lemma prints_thm : forall g (t : transport) v fs, okay g v = true -> Forall header fs -> v_macros v = false -> v_prints v = false ->
  v_prints (fold_left (next g) fs v) =
  g_debug g && existsb reads_macros fs &&
  (v_config v || match find (fun f => is_config f || reads_macros f) fs with Some Config => true | _ => false end).
Proof.
  intros g t v fs. revert v. induction fs as [|f r IH]; intros v K F M P.
  - cbn. rewrite P. now rewrite andb_false_r.
  - apply Forall_cons_iff in F. destruct F as [F Fr]. cbn [fold_left existsb find].
    assert (X : v_xcp v = false).
    { unfold okay in K. rewrite !andb_true_iff in K. destruct K as [[[[[[[[K _] _] _] _] _] _] _] _].
      unfold implb' in K. rewrite M in K. destruct (v_xcp v); [discriminate K|reflexivity]. }
    destruct (reads_macros f) eqn:R.
    + assert (M' : v_macros (next g v f) = true) by (unfold next; cbn [v_macros]; now rewrite M, R).
      destruct (prints_fold g r _ M') as [_ ->]. unfold next. cbn [v_prints]. rewrite M, R.
      destruct f; try discriminate R; cbn [is_config orb andb]; rewrite ?orb_false_r, ?andb_true_r; apply andb_comm.
    + assert (R' : reads_xcp f = false) by (destruct f; try reflexivity; discriminate R).
      assert (M' : v_macros (next g v f) = false) by (unfold next; cbn [v_macros]; now rewrite M, R).
      assert (P' : v_prints (next g v f) = false) by (unfold next; cbn [v_prints]; now rewrite M, R).
      rewrite (IH _ (okay_next g t v f K F) Fr M' P'). rewrite (config_next g v f R' X). cbn [orb].
      destruct f; try discriminate R; cbn [is_config orb]; rewrite ?orb_false_r; try reflexivity.
      now rewrite !orb_true_r.
Qed.

Lemma value_prints : forall g cpp t e v, agree e (canon g cpp t v) -> okay g v = true ->
  value e Prints = (if v_prints v then 1 else 0) /\ (v_macros v = true -> value e Static = if v_prints v then 0 else 1).
Proof.
  intros g cpp t e v A K. unfold value. rewrite !(value_at_ext 4 _ _ _ A). cbn [value_at canon].
  unfold okay in K. rewrite !andb_true_iff in K. destruct K as [_ K]. unfold implb' in K.
  split.
  - destruct (v_macros v); cbn [flag]; [reflexivity|]. destruct (v_prints v); [discriminate K|reflexivity].
  - intros ->. reflexivity.
Qed.

Lemma debug_thm : forall g cpp t fs, Forall header fs -> exists e o,
  preprocess g cpp (built_for t) fs = Done e o /\
  (value e Prints = 1 <-> g_debug g = true /\ existsb reads_macros fs = true /\
                          first (fun f => is_config f || reads_macros f) fs = Some Config).
Proof.
  intros g cpp t fs F. destruct (start_thm g cpp t fs F) as (K & e & R & A). exists e, (emits g cpp t nothing fs).
  split; [exact R|]. destruct (value_prints _ _ _ _ _ A K) as [-> _].
  rewrite (prints_thm g t nothing fs) by (auto; reflexivity). cbn [nothing v_config orb].
  unfold first. destruct (g_debug g), (existsb reads_macros fs), (find (fun f => is_config f || reads_macros f) fs) as [[]|];
    cbn; intuition congruence.
Qed.

Lemma seen_macros : forall g fs v, existsb reads_macros fs = true -> v_macros (fold_left (next g) fs v) = true.
Proof.
  induction fs as [|f r IH]; intros v H; [discriminate H|]. cbn [existsb fold_left] in *.
  destruct (reads_macros f) eqn:R.
  - apply (prints_fold g r). unfold next. cbn [v_macros]. rewrite R. apply orb_true_r.
  - apply IH. exact H.
Qed.

Lemma debug_refuted : forall g cpp t fs, Forall header fs -> existsb reads_macros fs = true ->
  first (fun f => is_config f || reads_macros f) fs <> Some Config -> exists e o,
  preprocess g cpp (built_for t) fs = Done e o /\ value e Prints = 0 /\ value e Static = 1.
Proof.
  intros g cpp t fs F M H. destruct (start_thm g cpp t fs F) as (K & e & R & A). exists e, (emits g cpp t nothing fs).
  split; [exact R|]. destruct (value_prints _ _ _ _ _ A K) as [-> S]. rewrite (S (seen_macros g fs nothing M)).
  rewrite (prints_thm g t nothing fs) by (auto; reflexivity). cbn [nothing v_config orb]. unfold first in H.
  destruct (find (fun f => is_config f || reads_macros f) fs) as [[]|]; try congruence; now rewrite andb_false_r.
Qed.

(** ** All configurations and command lines *)

Definition passes (r : result) (P : env -> list piece -> bool) : bool := match r with Done e o => P e o | Reject _ => false end.
Lemma passes_ok : forall r P, passes r P = true -> exists e o, r = Done e o /\ P e o = true.
Proof. intros [e o|w] P H; [now exists e, o|discriminate]. Qed.

Definition all_settings : list settings := map fst situations.
Definition all_options : list options :=
  flat_map (fun a => flat_map (fun b => flat_map (fun c => map (fun d => mkOptions a b c d None) both) both) both) both.
Lemma every_case : forall (P : settings -> bool -> options -> bool),
  forallb (fun g => forallb (fun cpp => forallb (P g cpp) all_options) both) all_settings = true ->
  forall g cpp o, o_layer o = None -> P g cpp o = true.
Proof.
  intros P H g cpp o L. rewrite forallb_forall in H.
  assert (G : In g all_settings) by (apply in_map_iff; exists (g, Can); split; [reflexivity|apply situations_all]).
  specialize (H g G). rewrite forallb_forall in H. specialize (H cpp (both_all cpp)). rewrite forallb_forall in H.
  apply H. destruct o as [a b c d l]. cbn in L. subst l. unfold all_options.
  do 3 (apply in_flat_map; eexists; split; [apply both_all|]). apply in_map_iff. exists d. split; [reflexivity|apply both_all].
Qed.
Lemma every_build : forall (P : settings -> bool -> transport -> bool),
  forallb (fun gt => forallb (fun cpp => P (fst gt) cpp (snd gt)) both) situations = true ->
  forall g cpp t, P g cpp t = true.
Proof.
  intros P H g cpp t. rewrite forallb_forall in H. specialize (H (g, t) (situations_all g t)).
  rewrite forallb_forall in H. exact (H cpp (both_all cpp)).
Qed.

Definition has (f : file) (o : list piece) : bool :=
  existsb (fun p => match p with PText h => N.eqb (file_no h) (file_no f) | _ => false end) o.
Lemma file_no_inj : forall f h, file_no f = file_no h -> f = h.
Proof. intros f h H. destruct f, h; (reflexivity || discriminate H). Qed.
Lemma has_ok : forall f o, has f o = true <-> compiled f o.
Proof.
  intros f o. unfold has, compiled. rewrite existsb_exists. split.
  - intros ([| |h] & I & E); try discriminate E. apply N.eqb_eq, file_no_inj in E. now subst.
  - intros I. exists (PText f). split; [exact I|apply N.eqb_refl].
Qed.
Definition picks (e : env) (t : transport) : bool := opt_eqb (e Layer) (Some (Ref (layer_name t))).
Lemma picks_ok : forall e t, picks e t = true -> selects e t.
Proof. intros e t H. apply opt_eqb_eq, H. Qed.

(** ** src/xcp_util.c *)

Lemma util_c_alone : forall g cpp o, o_layer o = None ->
  exists e out, preprocess g cpp o [UtilC] = Done e out /\ ~ compiled UtilC out.
Proof.
  intros g cpp o L.
  pose proof (every_case (fun g cpp o => passes (preprocess g cpp o [UtilC]) (fun _ out => negb (has UtilC out)))
                ltac:(vm_compute; reflexivity) g cpp o L) as H.
  apply passes_ok in H. destruct H as (e & out & R & H). exists e, out. split; [exact R|].
  rewrite <- has_ok. apply negb_true_iff in H. now rewrite H.
Qed.
Lemma util_c_joined : forall g cpp t,
  exists e out, preprocess g cpp (built_for t) [Xcp; UtilC] = Done e out /\ (compiled UtilC out <-> g_debug g = true) /\ value e Prints = 0.
Proof.
  intros g cpp t.
  pose proof (every_build (fun g cpp t => passes (preprocess g cpp (built_for t) [Xcp; UtilC])
                             (fun e out => Bool.eqb (has UtilC out) (g_debug g) && (value e Prints =? 0)))
                ltac:(vm_compute; reflexivity) g cpp t) as H.
  apply passes_ok in H. destruct H as (e & out & R & H). apply andb_true_iff in H. destruct H as [H V].
  exists e, out. split; [exact R|]. split; [|apply Z.eqb_eq, V]. rewrite <- has_ok. apply eqb_prop in H. now rewrite H.
Qed.

(** ** Transport *)

(** The first of TP_CAN, TP_BLUETOOTH, TP_ETHER, TP_SXI on the command line. *)
Definition chosen (o : options) : transport :=
  if o_can o then Can else if o_bth o then Bth else if o_eth o then Ether else Serial.

Lemma tools_agrees : forall g cpp o, g_template g = Tools -> o_layer o = None ->
  (o_can o || o_bth o || o_eth o || o_sxi o) = true ->
  exists e1 o1 e2 o2 t, preprocess g cpp o [Xcp] = Done e1 o1 /\ preprocess g cpp o [Config; Xcp] = Done e2 o2 /\
    selects e1 t /\ selects e2 t /\ (forall u, o = built_for u -> t = u).
Proof.
  intros g cpp o T L A.
  pose proof (every_case (fun g cpp o => match g_template g with Sim => true | Tools =>
                 negb (o_can o || o_bth o || o_eth o || o_sxi o) ||
                 (passes (preprocess g cpp o [Xcp]) (fun e _ => picks e (chosen o)) &&
                  passes (preprocess g cpp o [Config; Xcp]) (fun e _ => picks e (chosen o))) end)
                ltac:(vm_compute; reflexivity) g cpp o L) as H.
  cbv beta in H. rewrite T in H. apply orb_true_iff in H. destruct H as [H|H]; [now rewrite A in H|].
  apply andb_true_iff in H. destruct H as [H1 H2].
  apply passes_ok in H1, H2. destruct H1 as (e1 & o1 & R1 & S1), H2 as (e2 & o2 & R2 & S2).
  exists e1, o1, e2, o2, (chosen o). split; [exact R1|]. split; [exact R2|]. split; [now apply picks_ok|]. split; [now apply picks_ok|].
  intros u ->. now destruct u.
Qed.

Lemma tools_silent : forall g cpp, g_template g = Tools ->
  preprocess g cpp plain [Xcp] = Reject ErrorLine /\
  exists e o, preprocess g cpp plain [Config; Xcp] = Done e o /\ selects e Serial.
Proof.
  intros g cpp T.
  pose proof (every_case (fun g cpp o => match g_template g with Sim => true | Tools =>
                 (o_can o || o_bth o || o_eth o || o_sxi o) ||
                 (match preprocess g cpp o [Xcp] with Reject ErrorLine => true | _ => false end &&
                  passes (preprocess g cpp o [Config; Xcp]) (fun e _ => picks e Serial)) end)
                ltac:(vm_compute; reflexivity) g cpp plain eq_refl) as H.
  cbv beta in H. rewrite T in H. apply orb_true_iff in H. destruct H as [H|H]; [discriminate H|].
  apply andb_true_iff in H. destruct H as [H1 H2]. split.
  - destruct (preprocess g cpp plain [Xcp]) as [|[]]; (reflexivity || discriminate H1).
  - apply passes_ok in H2. destruct H2 as (e & o & R & S). exists e, o. split; [exact R|now apply picks_ok].
Qed.

Definition is_serial (t : transport) : bool := match t with Serial => true | _ => false end.
Lemma sim_disagrees : forall g cpp t, g_template g = Sim ->
  (exists e o, preprocess g cpp (built_for t) [Config; Xcp] = Done e o /\ selects e Can) /\
  (exists e o, preprocess g cpp (built_for t) [Xcp] = Done e o /\ (t <> Serial -> selects e t) /\ (t = Serial -> e Layer = None)).
Proof.
  intros g cpp t T.
  pose proof (every_build (fun g cpp t => match g_template g with Tools => true | Sim =>
                 passes (preprocess g cpp (built_for t) [Config; Xcp]) (fun e _ => picks e Can) &&
                 passes (preprocess g cpp (built_for t) [Xcp])
                   (fun e _ => if is_serial t then opt_eqb (e Layer) None else picks e t) end)
                ltac:(vm_compute; reflexivity) g cpp t) as H.
  cbv beta in H. rewrite T in H. apply andb_true_iff in H. destruct H as [H1 H2].
  apply passes_ok in H1, H2. destruct H1 as (e1 & o1 & R1 & S1), H2 as (e2 & o2 & R2 & S2).
  split; [exists e1, o1; split; [exact R1|now apply picks_ok]|]. exists e2, o2. split; [exact R2|].
  destruct t; cbn [is_serial] in S2; (split; intros X; [|try discriminate X; now apply opt_eqb_eq]); try (now apply picks_ok); now elim X.
Qed.

(** What the two transports that choose themselves do. *)
Lemma alone_thm : forall g cpp t, exists e1 o1 e2 o2,
  preprocess g cpp (built_for t) [Sxi] = Done e1 o1 /\ compiled Sxi o1 /\
  preprocess g cpp (built_for t) [ArduinoCan] = Done e2 o2 /\ compiled ArduinoCan o2.
Proof.
  intros g cpp t.
  pose proof (every_build (fun g cpp t =>
                 passes (preprocess g cpp (built_for t) [Sxi]) (fun _ o => has Sxi o) &&
                 passes (preprocess g cpp (built_for t) [ArduinoCan]) (fun _ o => has ArduinoCan o))
                ltac:(vm_compute; reflexivity) g cpp t) as H.
  cbv beta in H. apply andb_true_iff in H. destruct H as [H1 H2].
  apply passes_ok in H1, H2. destruct H1 as (e1 & o1 & R1 & S1), H2 as (e2 & o2 & R2 & S2).
  exists e1, o1, e2, o2. apply has_ok in S1, S2. tauto.
Qed.
Lemma joined_thm : forall g cpp t, exists e o,
  preprocess g cpp (built_for t) [Xcp; Sxi; ArduinoCan] = Done e o /\
  (compiled Sxi o <-> g_template g = Tools /\ t = Serial) /\ (compiled ArduinoCan o <-> t = Can).
Proof.
  intros g cpp t.
  pose proof (every_build (fun g cpp t =>
                 passes (preprocess g cpp (built_for t) [Xcp; Sxi; ArduinoCan])
                   (fun _ o => Bool.eqb (has Sxi o) (match g_template g with Tools => is_serial t | Sim => false end) &&
                               Bool.eqb (has ArduinoCan o) (match t with Can => true | _ => false end)))
                ltac:(vm_compute; reflexivity) g cpp t) as H.
  cbv beta in H. apply passes_ok in H. destruct H as (e & o & R & H). apply andb_true_iff in H. destruct H as [H1 H2].
  apply eqb_prop in H1, H2. exists e, o. split; [exact R|]. rewrite <- !has_ok, H1, H2.
  clear. destruct g as [a b []], t; cbn; intuition congruence.
Qed.
