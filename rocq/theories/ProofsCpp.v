(** Proofs of the claims about headers and configuration. *)
From Coq Require Import ZArith NArith List Bool Lia ZifyBool ZifyNat ZifyN.
From Verif Require Import Cpp SpecCpp.
Import ListNotations.
Open Scope Z_scope.

(** ** Environments that agree *)

Definition agree (e e' : env) : Prop := forall n, e n = e' n.

Lemma value_at_ext : forall k e e' n, agree e e' -> value_at k e n = value_at k e' n.
Proof.
  induction k; intros e e' n A; simpl; rewrite (A n); destruct (e' n) as [[z|m]|]; auto.
Qed.
Lemma holds_ext : forall c e e', agree e e' -> holds e c = holds e' c.
Proof.
  induction c; intros e e' A; simpl.
  - now rewrite (A n).
  - unfold value. now rewrite (value_at_ext _ _ _ m A), (value_at_ext _ _ _ n A).
  - now rewrite (IHc _ _ A).
  - now rewrite (IHc1 _ _ A), (IHc2 _ _ A).
Qed.

Definition same (r r' : result) : Prop :=
  match r, r' with
  | Done e o, Done e' o' => agree e e' /\ o = o'
  | Reject w, Reject w' => w = w'
  | _, _ => False
  end.
Lemma same_put : forall p r r', same r r' -> same (put p r) (put p r').
Proof. intros p [e o|w] [e' o'|w']; simpl; intuition (subst; auto). Qed.
Lemma upd_ext : forall e e' n b, agree e e' -> agree (upd e n b) (upd e' n b).
Proof. intros e e' n b A m. unfold upd. now rewrite (A m). Qed.

Lemma run_ext : forall k text ds e e', agree e e' -> same (run k text ds e) (run k text ds e').
Proof.
  induction k; intros text ds e e' A; destruct ds as [|d r]; simpl; auto.
  destruct d; simpl; auto using same_put.
  - rewrite (A n). destruct (e' n); [destruct (body_eqb b0 b)|]; simpl; auto using upd_ext.
  - rewrite (holds_ext c _ _ A). auto.
Qed.

Lemma one_ext : forall text f e e', agree e e' -> same (one text f e) (one text f e').
Proof. intros text f e e' A. unfold one. apply run_ext, A. Qed.

Lemma unit_ext : forall text fs e e', agree e e' -> same (unit text fs e) (unit text fs e').
Proof.
  induction fs as [|f r IH]; intros e e' A; cbn [unit]; [now split|].
  pose proof (one_ext text f e e' A) as R.
  destruct (one text f e) as [a oa|w], (one text f e') as [b ob|w']; cbn in R; try contradiction; [|now subst].
  destruct R as [R ->]. specialize (IH a b R).
  destruct (unit text r a), (unit text r b); cbn in *; intuition congruence.
Qed.

(** ** Deciding agreement *)

Definition files : list file :=
  [Macros; Types; Util; Xcp; Hw; Tui; Timeout; Eth; Terminal; Threads; Ow; Config; Sxi; ArduinoCan; UtilC].
Definition names : list name :=
  map Seen files ++
  [On; Off; Guards; Build; DebugBuild; ReleaseBuild; Prints; Static; Layer; OnCan; OnCanFd; OnFlexray; OnUsb;
   OnEthernet; OnSxi; OnBth; TpCan; TpBluetooth; TpEther; TpSxi; Cplusplus].
Lemma names_all : forall n, In n names.
Proof. intros [[]| | | | | | | | | | | | | | | | | | | | |]; cbn; tauto. Qed.
Definition nameof (k : N) : option name := find (fun n => N.eqb (name_no n) k) names.
Lemma nameof_no : forall n, nameof (name_no n) = Some n.
Proof. intros [[]| | | | | | | | | | | | | | | | | | | | |]; reflexivity. Qed.
Lemma name_eqb_eq : forall m n, name_eqb m n = true -> m = n.
Proof.
  intros m n H. apply N.eqb_eq in H. pose proof (nameof_no m) as A. rewrite H, nameof_no in A. congruence.
Qed.
Lemma body_eqb_eq : forall a b, body_eqb a b = true -> a = b.
Proof. intros [x|x] [y|y] H; simpl in H; try discriminate; f_equal; [lia|now apply name_eqb_eq]. Qed.
Definition opt_eqb (a b : option body) : bool :=
  match a, b with Some x, Some y => body_eqb x y | None, None => true | _, _ => false end.
Lemma opt_eqb_eq : forall a b, opt_eqb a b = true -> a = b.
Proof. intros [a|] [b|] H; simpl in H; try discriminate; auto. f_equal. now apply body_eqb_eq. Qed.
Definition agreeb (e e' : env) : bool := forallb (fun n => opt_eqb (e n) (e' n)) names.
Lemma agreeb_ok : forall e e', agreeb e e' = true -> agree e e'.
Proof. intros e e' H n. unfold agreeb in H. rewrite forallb_forall in H. apply opt_eqb_eq, H, names_all. Qed.

(** ** What is known between two headers *)

(** Which headers have been read, whether the configuration was read before inc/xcp.h,
    and before inc/xcp_macros.h. *)
Record seen := mkSeen {
  v_macros : bool; v_types : bool; v_util : bool; v_xcp : bool; v_hw : bool; v_tui : bool; v_timeout : bool; v_eth : bool;
  v_terminal : bool; v_threads : bool; v_ow : bool; v_config : bool; v_early : bool; v_prints : bool }.

Definition flag (b : bool) (x : body) : option body := if b then Some x else None.
Definition canon (g : settings) (cpp : bool) (t : transport) (v : seen) : env := fun n =>
  match n with
  | Seen Macros => flag (v_macros v) (Num 1) | Seen Types => flag (v_types v) (Num 1)
  | Seen Util => flag (v_util v) (Num 1) | Seen Xcp => flag (v_xcp v) (Num 1)
  | Seen Hw => flag (v_hw v) (Num 1) | Seen Tui => flag (v_tui v) (Num 1)
  | Seen Timeout => flag (v_timeout v) (Num 1) | Seen Eth => flag (v_eth v) (Num 1)
  | Seen Terminal => flag (v_terminal v) (Num 1) | Seen Threads => flag (v_threads v) (Num 1)
  | Seen Ow => flag (v_ow v) (Num 1) | Seen Config => flag (v_config v) (Num 1)
  | Seen _ => None
  | On => flag (v_xcp v) (Num 1) | Off => flag (v_xcp v) (Num 0)
  | Guards => flag (v_config v) (Ref (if g_guards g then On else Off))
  | Build => flag (v_config v) (Ref (if g_debug g then DebugBuild else ReleaseBuild))
  | DebugBuild => flag (v_macros v) (Num 1) | ReleaseBuild => flag (v_macros v) (Num 2)
  | Prints => flag (v_macros v) (Num (if v_prints v then 1 else 0))
  | Static => flag (v_macros v) (Num (if v_prints v then 0 else 1))
  | Layer =>
      if v_config v then
        match g_template g, t with
        | Tools, _ => Some (Ref (layer_name t))
        | Sim, Serial => if v_early v then Some (Ref OnCan) else None
        | Sim, _ => Some (Ref (if v_early v then OnCan else layer_name t))
        end
      else None
  | OnCan => flag (v_xcp v) (Num 1) | OnCanFd => flag (v_xcp v) (Num 2) | OnFlexray => flag (v_xcp v) (Num 3)
  | OnUsb => flag (v_xcp v) (Num 4) | OnEthernet => flag (v_xcp v) (Num 5) | OnSxi => flag (v_xcp v) (Num 6)
  | OnBth => flag (v_xcp v) (Num 128)
  | n => start cpp (built_for t) n
  end.

Definition nothing : seen :=
  mkSeen false false false false false false false false false false false false false false.

Lemma canon_start : forall g cpp t, agree (start cpp (built_for t)) (canon g cpp t nothing).
Proof. intros [[] [] []] [] [] [[]| | | | | | | | | | | | | | | | | | | | |]; reflexivity. Qed.

Definition next (g : settings) (v : seen) (f : file) : seen :=
  let x := v_xcp v || reads_xcp f in
  let m := v_macros v || reads_macros f in
  let early := v_early v || (is_config f && negb (v_xcp v)) in
  let u := match f with Util => true | _ => v_util v || x end in
  mkSeen m
    (v_types v || x || match f with Types | Util | Timeout => true | _ => false end)
    u x
    (v_hw v || match f with Hw => true | _ => false end)
    (v_tui v || match f with Tui => true | _ => false end)
    (v_timeout v || match f with Timeout => true | _ => false end)
    (v_eth v || match f with Eth => true | _ => false end)
    (v_terminal v || match f with Terminal => true | _ => false end)
    (v_threads v || match f with Terminal | Threads => true | _ => false end)
    (v_ow v || match f with Ow => true | _ => false end)
    (v_config v || is_config f || x)
    early
    (if v_macros v then v_prints v else m && v_config v && g_debug g).

Definition implb' (a b : bool) : bool := negb a || b.
Definition okay (g : settings) (v : seen) : bool :=
  implb' (v_xcp v) (v_macros v && v_types v && v_util v && v_config v) &&
  implb' (v_hw v) (v_xcp v) && implb' (v_terminal v) (v_xcp v && v_threads v) && implb' (v_ow v) (v_xcp v) &&
  implb' (v_util v) (v_types v) && implb' (v_timeout v) (v_types v) &&
  implb' (v_early v) (v_config v) && implb' (v_config v && negb (v_xcp v)) (v_early v) &&
  implb' (v_prints v) (v_macros v && v_early v && g_debug g).

Definition headers : list file := [Macros; Types; Util; Xcp; Hw; Tui; Timeout; Eth; Terminal; Threads; Ow; Config].
Lemma header_in : forall f, header f -> In f headers.
Proof. intros [] H; cbn in *; tauto. Qed.

Definition both : list bool := [true; false].
Lemma both_all : forall b, In b both.
Proof. intros []; cbn; auto. Qed.

(** Every combination that can occur. *)
Definition combos (g : settings) : list seen :=
  filter (okay g)
    (flat_map (fun mac => flat_map (fun ty => flat_map (fun u => flat_map (fun x => flat_map (fun h =>
     flat_map (fun tu => flat_map (fun ti => flat_map (fun et => flat_map (fun te => flat_map (fun th => flat_map (fun ow =>
     flat_map (fun co => flat_map (fun ea => map (fun pr => mkSeen mac ty u x h tu ti et te th ow co ea pr)
       both) both) both) both) both) both) both) both) both) both) both) both) both) both).
Lemma combos_all : forall g v, okay g v = true -> In v (combos g).
Proof.
  intros g [a b c d e f h i j k l m n o] H. apply filter_In. split; [|exact H].
  repeat (apply in_flat_map; eexists; split; [apply both_all|]). apply in_map, both_all.
Qed.

(** Whether a property holds of every header read in every situation. *)
Definition situations : list (settings * transport) :=
  flat_map (fun a => flat_map (fun b => flat_map (fun c => map (fun t => (mkSettings a b c, t)) [Can; Bth; Ether; Serial]) [Tools; Sim]) both) both.
Lemma situations_all : forall g t, In (g, t) situations.
Proof. intros [[] [] []] []; cbn; tauto. Qed.

Definition text (g : settings) : file -> list dir := text_of g (layer_of (g_template g)).
Definition emit (g : settings) (cpp : bool) (t : transport) (v : seen) (f : file) : list piece :=
  match one (text g) f (canon g cpp t v) with Done _ o => o | Reject _ => [] end.
Definition always (cpp : bool) (P : settings -> transport -> seen -> file -> env -> list piece -> bool) : bool :=
  forallb (fun gt => forallb (fun v => forallb (fun f =>
    match one (text (fst gt)) f (canon (fst gt) cpp (snd gt) v) with
    | Done e o => P (fst gt) (snd gt) v f e o
    | Reject _ => false
    end) headers) (combos (fst gt))) situations.
Lemma always_ok : forall cpp P, always cpp P = true -> forall g t v f, okay g v = true -> header f ->
  exists e, one (text g) f (canon g cpp t v) = Done e (emit g cpp t v f) /\ P g t v f e (emit g cpp t v f) = true.
Proof.
  intros cpp P H g t v f K F. unfold always in H. rewrite forallb_forall in H.
  specialize (H (g, t) (situations_all g t)). cbn [fst snd] in H.
  rewrite forallb_forall in H. specialize (H v (combos_all g v K)).
  rewrite forallb_forall in H. specialize (H f (header_in f F)). unfold emit.
  destruct (one (text g) f (canon g cpp t v)) as [e o|w]; [|discriminate]. now exists e.
Qed.

(** ** Facts about single headers, by computation *)

Definition neutral (o : list piece) : bool := match walk 0 o with Some z => z =? 0 | None => false end.
Definition inside (f : file) (o : list piece) : bool := forallb (fun d => 0 <? d) (depths 0 f o).
Definition absent (f : file) (o : list piece) : bool := match depths 0 f o with [] => true | _ => false end.
Definition is_hw (f : file) : bool := match f with Hw => true | _ => false end.
Definition wrapped : list file := [Types; Util; Xcp; Hw; Tui; Timeout].

Definition facts (g : settings) (t : transport) (v : seen) (f : file) (e : env) (o : list piece) : bool :=
  agreeb e (canon g true t (next g v f)) && okay g (next g v f) &&
  (if v_xcp v then neutral o && absent Types o && absent Util o && absent Xcp o
   else inside Types o && inside Util o &&
        if reads_xcp f then Bool.eqb (neutral o) (if g_guards g then v_config v else negb (is_hw f))
        else neutral o && forallb (fun h => inside h o) wrapped) &&
  implb' (g_guards g && (v_early v)) (forallb (fun h => inside h o) wrapped).
Definition facts_c (g : settings) (t : transport) (v : seen) (f : file) (e : env) (o : list piece) : bool :=
  agreeb e (canon g false t (next g v f)) && okay g (next g v f) &&
  forallb (fun p => match p with PText _ => true | _ => false end) o.

Lemma facts_all : always true facts = true.
Proof. vm_compute. reflexivity. Qed.
Lemma facts_c_all : always false facts_c = true.
Proof. vm_compute. reflexivity. Qed.

(** ** Sequences of headers *)

Section Units.
  Variables (g : settings) (cpp : bool) (t : transport).

  Fixpoint emits (v : seen) (fs : list file) : list piece :=
    match fs with [] => [] | f :: r => emit g cpp t v f ++ emits (next g v f) r end.

  Lemma step_thm : forall v f, okay g v = true -> header f ->
    okay g (next g v f) = true /\
    exists e, one (text g) f (canon g cpp t v) = Done e (emit g cpp t v f) /\ agree e (canon g cpp t (next g v f)).
  Proof.
    intros v f K F. destruct cpp.
    - destruct (always_ok true facts facts_all g t v f K F) as (e & R & P). unfold facts in P.
      rewrite !andb_true_iff in P. destruct P as [[[P K'] _] _]. split; [exact K'|]. exists e. split; [exact R|apply agreeb_ok, P].
    - destruct (always_ok false facts_c facts_c_all g t v f K F) as (e & R & P). unfold facts_c in P.
      rewrite !andb_true_iff in P. destruct P as [[P K'] _]. split; [exact K'|]. exists e. split; [exact R|apply agreeb_ok, P].
  Qed.

  Lemma unit_thm : forall fs v e, okay g v = true -> Forall header fs -> agree e (canon g cpp t v) ->
    okay g (fold_left (next g) fs v) = true /\
    exists e', unit (text g) fs e = Done e' (emits v fs) /\ agree e' (canon g cpp t (fold_left (next g) fs v)).
  Proof.
    induction fs as [|f r IH]; intros v e K F A.
    - split; [exact K|]. exists e. split; [reflexivity|exact A].
    - apply Forall_cons_iff in F. destruct F as [F Fr].
      destruct (step_thm v f K F) as (K' & e1 & R & A1).
      pose proof (one_ext (text g) f e _ A) as X. rewrite R in X.
      destruct (one (text g) f e) as [e2 o2|w] eqn:O; [|contradiction]. cbn in X. destruct X as [X ->].
      destruct (IH (next g v f) e2 K' Fr) as (K2 & e3 & R3 & A3); [intros n; rewrite (X n); apply A1|].
      split; [exact K2|]. exists e3. cbn [unit emits fold_left]. rewrite O, R3. split; [reflexivity|exact A3].
  Qed.

  Lemma start_thm : forall fs, Forall header fs ->
    okay g (fold_left (next g) fs nothing) = true /\
    exists e, preprocess g cpp (built_for t) fs = Done e (emits nothing fs) /\
              agree e (canon g cpp t (fold_left (next g) fs nothing)).
  Proof.
    intros fs F. apply unit_thm; [reflexivity|exact F|apply canon_start].
  Qed.
End Units.

(** ** Braces *)

Lemma walk_app : forall a b d, walk d (a ++ b) = match walk d a with Some d' => walk d' b | None => None end.
Proof. induction a as [|[| |f] a IH]; intros b d; cbn [walk app]; auto. destruct (d <=? 0); auto. Qed.
Lemma walk_more : forall o d d' k, walk d o = Some d' -> 0 <= k -> walk (d + k) o = Some (d' + k).
Proof.
  induction o as [|[| |f] o IH]; intros d d' k H K; cbn [walk] in *.
  - congruence.
  - replace (d + k + 1) with (d + 1 + k) by lia. now apply IH.
  - destruct (Z.leb_spec d 0); [discriminate|]. destruct (Z.leb_spec (d + k) 0); [lia|].
    replace (d + k - 1) with (d - 1 + k) by lia. now apply IH.
  - now apply IH.
Qed.
Lemma walk_pos : forall o d d', 0 <= d -> walk d o = Some d' -> 0 <= d'.
Proof.
  induction o as [|[| |f] o IH]; intros d d' D H; cbn [walk] in *.
  - congruence.
  - apply (IH (d + 1)); [lia|exact H].
  - destruct (Z.leb_spec d 0); [discriminate|]. apply (IH (d - 1)); [lia|exact H].
  - now apply (IH d).
Qed.
Lemma neutral_ok : forall o, neutral o = true <-> walk 0 o = Some 0.
Proof.
  intros o. unfold neutral. destruct (walk 0 o) as [z|]; [|split; discriminate].
  rewrite Z.eqb_eq. split; [now intros ->|congruence].
Qed.
Lemma neutral_walk : forall o d, neutral o = true -> 0 <= d -> walk d o = Some d.
Proof. intros o d H D. apply neutral_ok in H. apply (walk_more o 0 0 d) in H; [|exact D]. exact H. Qed.
Lemma neutral_app : forall a b, neutral b = true -> neutral (a ++ b) = neutral a.
Proof.
  intros a b H. unfold neutral. rewrite walk_app. destruct (walk 0 a) as [z|] eqn:W; [|reflexivity].
  rewrite (neutral_walk b z H); [reflexivity|]. apply (walk_pos a 0); [lia|exact W].
Qed.
Lemma neutral_cons : forall a b, neutral a = true -> neutral (a ++ b) = neutral b.
Proof. intros a b H. unfold neutral. rewrite walk_app. apply neutral_ok in H. now rewrite H. Qed.

Lemma depths_app : forall f a b d, walk 0 a = Some 0 -> depths d f (a ++ b) = depths d f a ++ depths d f b.
Proof.
  intros f.
  assert (G : forall a b d x y, walk x a = Some y -> depths d f (a ++ b) = depths d f a ++ depths (d + y - x) f b).
  { induction a as [|[| |h] a IH]; intros b d x y H; cbn [walk depths app] in *.
    - inversion H. f_equal. lia.
    - rewrite (IH b (d + 1) (x + 1) y H). do 2 f_equal. lia.
    - destruct (Z.leb_spec x 0); [discriminate|]. rewrite (IH b (d - 1) (x - 1) y H). do 2 f_equal. lia.
    - rewrite (IH b d x y H). now rewrite app_assoc. }
  intros a b d H. rewrite (G a b d 0 0 H). do 2 f_equal. lia.
Qed.
