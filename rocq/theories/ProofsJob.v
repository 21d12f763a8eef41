(** Proofs about checksums computed while commands keep coming. *)
From Coq Require Import NArith ZArith List Bool Lia ZifyBool ZifyNat ZifyN.
From Verif Require Import Base Config Codec Checksum State Core Spec Lists SpecMem SpecCks ProofsMem ProofsBlock ProofsModify ProofsCks ProofsFrames
  ProofsConc0 Conc Job SpecJob.
Import ListNotations.
Open Scope N_scope.
Ltac Zify.zify_post_hook ::= Z.div_mod_to_equations.

(** ** Threads with a bound on their accesses *)
Section Go.
Context {S : Type}.
Variables (I : S -> Prop) (R G : S -> S -> Prop) (Q : S -> Prop).

(** Like [safe]; with [Some n] the program is never blocked and ends after [n] accesses. *)
Fixpoint go (n : option nat) (p : prog S) (s : S) {struct p} : Prop :=
  forall s', R s s' -> I s' ->
  match p with
  | Halt => Q s'
  | Do f => n <> Some O /\
      match f s' with None => n = None | Some (s2, p2) => G s' s2 /\ I s2 /\ go (option_map pred n) p2 s2 end
  end.

Hypothesis Rr : forall s, R s s.
Hypothesis Rt : forall a b c, R a b -> R b c -> R a c.

Lemma go_rely : forall n p s s', go n p s -> R s s' -> go n p s'.
Proof. destruct p; cbn; intros s s' H Hr s2 Hr2 Hi; exact (H s2 (Rt _ _ _ Hr Hr2) Hi). Qed.

Lemma go_access : forall n p s, I s -> go n p s ->
  let (p', s') := access p s in I s' /\ go (option_map pred n) p' s' /\ (s' = s \/ G s s').
Proof.
  destruct p as [|f]; cbn [access]; intros s Hi H.
  - repeat split; auto.
  - pose proof (H s (Rr s) Hi) as (Hn & H1). destruct (f s) as [[s2 p2]|]; [tauto|]. subst n. auto.
Qed.
Lemma go_end : forall p s, I s -> go (Some O) p s -> p = Halt /\ Q s.
Proof. destruct p; cbn; intros s Hi H; destruct (H s (Rr s) Hi) || pose proof (H s (Rr s) Hi); auto; congruence. Qed.
Lemma go_halt_q : forall n s, I s -> go n Halt s -> Q s.
Proof. cbn. intros n s Hi H. apply H; auto. Qed.
End Go.

Definition less (n : option nat) (k : nat) : option nat := option_map (fun n => (n - k)%nat) n.

Section Par.
Context {S : Type}.
Variables (I : S -> Prop) (R1 G1 R2 G2 : S -> S -> Prop) (Q1 Q2 : S -> Prop).
Hypothesis Rr1 : forall s, R1 s s.
Hypothesis Rt1 : forall a b c, R1 a b -> R1 b c -> R1 a c.
Hypothesis Rr2 : forall s, R2 s s.
Hypothesis Rt2 : forall a b c, R2 a b -> R2 b c -> R2 a c.
Hypothesis G12 : forall a b, G1 a b -> R2 a b.
Hypothesis G21 : forall a b, G2 a b -> R1 a b.

Lemma less_pred : forall n k, less (option_map pred n) k = less n (k + 1).
Proof. destruct n; intros; cbn; [f_equal; lia|reflexivity]. Qed.

Theorem go_par : forall sched na nb a b s, I s -> go I R1 G1 Q1 na a s -> go I R2 G2 Q2 nb b s ->
  let '(a', b', s') := run sched a b s in
  I s' /\ go I R1 G1 Q1 (less na (turns_of true sched)) a' s' /\ go I R2 G2 Q2 (less nb (turns_of false sched)) b' s'.
Proof.
  induction sched as [|[|] t IH]; intros na nb a b s Hi Ha Hb; cbn [run].
  - unfold less, turns_of; cbn [count_occ]. destruct na, nb; cbn [option_map]; rewrite ?Nat.sub_0_r; auto.
  - pose proof (go_access I R1 G1 Q1 Rr1 na a s Hi Ha) as H. destruct (access a s) as [a' s'].
    destruct H as (Hi' & Ha' & Hg).
    assert (Hb' : go I R2 G2 Q2 nb b s') by (destruct Hg as [->|Hg]; auto; eapply go_rely; eauto).
    specialize (IH _ _ _ _ _ Hi' Ha' Hb'). destruct (run t a' b s') as [[x y] z]. unfold turns_of in *. cbn [count_occ].
    destruct (bool_dec true true); [|congruence]. destruct (bool_dec true false); [congruence|].
    rewrite less_pred, Nat.add_1_r in IH. exact IH.
  - pose proof (go_access I R2 G2 Q2 Rr2 nb b s Hi Hb) as H. destruct (access b s) as [b' s'].
    destruct H as (Hi' & Hb' & Hg).
    assert (Ha' : go I R1 G1 Q1 na a s') by (destruct Hg as [->|Hg]; auto; eapply go_rely; eauto).
    specialize (IH _ _ _ _ _ Hi' Ha' Hb'). destruct (run t a b' s') as [[x y] z]. unfold turns_of in *. cbn [count_occ].
    destruct (bool_dec false false); [|congruence]. destruct (bool_dec false true); [congruence|].
    rewrite less_pred, Nat.add_1_r in IH. exact IH.
Qed.
End Par.

(** Rules, with an assertion [P] the other thread cannot break. *)
Section Rules.
Context {S : Type}.
Variables (I : S -> Prop) (R G : S -> S -> Prop) (Q : S -> Prop).
Hypothesis Gr : forall s, G s s.

Definition next (n : option nat) : Prop := n <> Some O.

Lemma go_halt : forall (P : S -> Prop) n s, (forall a b, P a -> R a b -> P b) -> P s ->
  (forall s, P s -> I s -> Q s) -> go I R G Q n Halt s.
Proof. cbn. intros P n s Hst Hp H s' Hr Hi. eauto. Qed.
Lemma go_rd : forall (P : S -> Prop) {A} (g : S -> A) k n s, next n -> (forall a b, P a -> R a b -> P b) -> P s ->
  (forall s, P s -> I s -> go I R G Q (option_map pred n) (k (g s)) s) -> go I R G Q n (rd g k) s.
Proof. cbn. intros P A g k n s Hn Hst Hp H s' Hr Hi. repeat split; eauto. Qed.
Lemma go_wr : forall (P : S -> Prop) g k n s, next n -> (forall a b, P a -> R a b -> P b) -> P s ->
  (forall s, P s -> I s -> G s (g s) /\ I (g s) /\ go I R G Q (option_map pred n) k (g s)) -> go I R G Q n (wr g k) s.
Proof. cbn. intros P g k n s Hn Hst Hp H s' Hr Hi. split; eauto. Qed.
Lemma go_do : forall (P : S -> Prop) f n s, next n -> (forall a b, P a -> R a b -> P b) -> P s ->
  (forall s, P s -> I s -> match f s with None => n = None | Some (s2, p2) => G s s2 /\ I s2 /\ go I R G Q (option_map pred n) p2 s2 end) ->
  go I R G Q n (Do f) s.
Proof. cbn. intros P f n s Hn Hst Hp H s' Hr Hi. split; eauto. apply H; eauto. Qed.
End Rules.

(** ** The checksum and the commands *)

Lemma fj_add : forall t f s, from_job (add_frame t f s) = from_job s ++ (if t then [] else [f]).
Proof. intros [] f s; unfold from_job, add_frame; cbn [y_wire]; rewrite filter_app, map_app; reflexivity. Qed.
Lemma fc_add : forall t f s, from_commands (add_frame t f s) = from_commands s ++ (if t then [f] else []).
Proof. intros [] f s; unfold from_commands, add_frame; cbn [y_wire]; rewrite filter_app, map_app; reflexivity. Qed.

Section Sum.
Variables (c : cfg) (mm : mem) (a n : N) (last : bool) (total : nat).
Let k := c_chunk c.
Hypotheses (Wk : 1 <= k < 2 ^ 32) (Wm : forall x, mm x < 256) (Cp : computable c a n).
Let answer := sum_answer c (mem_at mm a n).

Definition inv (s : jm) : Prop :=
  y_mem s = mm /\ y_wild s = false /\ (from_job s = [] \/ (last = true /\ from_job s = [answer])) /\
  (from_job s = [] -> y_state s <> JIdle) /\
  (last = false -> y_busy s = true /\ exists i, (i <= total)%nat /\ from_commands s = repeat busy_answer i).
(** What the commands may change. *)
Definition gives (s s' : jm) : Prop :=
  y_mem s' = y_mem s /\ y_wild s' = y_wild s /\ from_job s' = from_job s /\
  (from_job s = [] -> y_sum s' = y_sum s /\ y_state s' = y_state s /\
    (y_busy s = true -> y_addr s' = y_addr s /\ y_size s' = y_size s /\ y_busy s' = y_busy s /\ y_lock s' = y_lock s)).
(** What the computation may change. *)
Definition takes (s s' : jm) : Prop :=
  y_mem s' = y_mem s /\ (y_busy s = false -> y_busy s' = false) /\ (from_job s <> [] -> from_job s' <> []) /\
  from_commands s' = from_commands s.

Lemma gives_refl : forall s, gives s s. Proof. repeat split; auto. Qed.
Lemma gives_trans : forall x y z, gives x y -> gives y z -> gives x z.
Proof.
  intros x y z (A1 & A2 & A3 & A4) (B1 & B2 & B3 & B4). repeat split; try congruence; intros.
  all: destruct A4 as (C1 & C2 & C3); [congruence|]; destruct B4 as (D1 & D2 & D3); [congruence|]; try congruence.
  all: destruct C3 as (E1 & E2 & E3 & E4); [congruence|]; destruct D3 as (F1 & F2 & F3 & F4); [congruence|]; congruence.
Qed.
Lemma takes_refl : forall s, takes s s. Proof. repeat split; auto. Qed.
Lemma takes_trans : forall x y z, takes x y -> takes y z -> takes x z.
Proof. intros x y z (A1 & A2 & A3 & A4) (B1 & B2 & B3 & B4). repeat split; try congruence; auto. Qed.

(** *** The commands *)

Definition Q1 (s : jm) : Prop := last = false -> from_commands s = repeat busy_answer total.
Definition goA := go inv takes gives Q1.

Lemma repeat_snoc : forall {A} (x : A) i, repeat x i ++ [x] = repeat x (i + 1).
Proof. intros. rewrite repeat_app. reflexivity. Qed.

(** While the slave is busy, all commands are refused. *)
Lemma serve_busy : last = false -> forall qs i s, (i + length qs = total)%nat -> from_commands s = repeat busy_answer i ->
  goA (Some (2 * length qs)%nat) (serve c qs) s.
Proof.
  intros Hl. induction qs as [|q qs IH]; intros i s Hi Hs; cbn [serve length].
  - apply (go_halt _ _ _ _ (fun s => from_commands s = repeat busy_answer i)); auto.
    + intros x y Hx (_ & _ & _ & Hy). congruence.
    + intros s1 H1 _ _. rewrite H1. f_equal. cbn [length] in Hi. lia.
  - eapply (go_rd _ _ _ _ gives_refl (fun s => from_commands s = repeat busy_answer i)); auto.
    + unfold next. intro X. injection X. lia.
    + intros x y Hx (_ & _ & _ & Hy). congruence.
    + intros s1 H1 (I1 & I2 & I3 & I4 & I5). destruct (I5 Hl) as (Hb & _). rewrite Hb.
      eapply (go_wr _ _ _ _ (fun s => from_commands s = repeat busy_answer i)); auto.
      * unfold next. cbn. intro X. injection X. lia.
      * intros x y Hx (_ & _ & _ & Hy). congruence.
      * intros s2 H2 (J1 & J2 & J3 & J4 & J5). destruct (J5 Hl) as (Hb2 & _). cbn [length] in Hi. repeat split; auto.
        -- rewrite fj_add. apply app_nil_r.
        -- rewrite fj_add, app_nil_r. exact J3.
        -- rewrite fj_add, app_nil_r. exact J4.
        -- exists (i + 1)%nat. split; [lia|]. rewrite fc_add, H2. apply repeat_snoc.
        -- replace (option_map pred (option_map pred (Some (2 * S (length qs))%nat))) with (Some (2 * length qs)%nat) by (cbn; f_equal; lia).
           apply (IH (i + 1)%nat); [lia|]. rewrite fc_add, H2. apply repeat_snoc.
Qed.

(** Afterwards the commands do not disturb the response. *)
Lemma next_none : next None. Proof. discriminate. Qed.
Lemma stable_true : forall x y : jm, True -> takes x y -> True. Proof. auto. Qed.
Lemma quiet_leave : last = true -> forall p, (forall s, goA None p s) -> forall s, from_job s <> [] \/ y_busy s = false -> goA None (leave p) s.
Proof.
  intros Hl p H s Hs. eapply (go_wr _ _ _ _ (fun s => from_job s <> [] \/ y_busy s = false)); auto using next_none.
  - intros x y [Hx|Hx] (_ & Hb & Hj & _); auto.
  - intros s1 H1 (I1 & I2 & I3 & I4 & I5). split; [|split; [|apply H]].
    + repeat split; auto. all: intros; destruct H1; congruence.
    + repeat split; auto; congruence.
Qed.

Lemma started_go : last = true -> forall x m p, (forall s, goA None p s) -> forall s, y_busy s = false -> goA None (start_job c x m p) s.
Proof.
  intros Hl x m p H s Hs. unfold start_job, enter.
  eapply (go_do _ _ _ _ (fun s => y_busy s = false)); auto using next_none.
  { intros u v Hu (_ & Hb & _); auto. }
  intros s1 H1 Ii. destruct Ii as (I1 & I2 & I3 & I4 & I5).
  assert (Go : forall l, gives s1 (set_lock l s1) /\ inv (set_lock l s1) /\
    goA None (rd y_state (fun y => if negb (is_idle y) then leave p else rd y_busy (fun b => if b then leave p else
      set_busy c true true (wr (set_state JInit) (wr (set_addr x) (wr (set_size m) (leave p))))))) (set_lock l s1)).
  { intro l. split; [|split].
    - repeat split; auto; intros; congruence.
    - repeat split; auto; congruence.
    - eapply (go_rd _ _ _ _ gives_refl (fun s => y_busy s = false)); auto using next_none.
      { intros u v Hu (_ & Hb & _); auto. }
      intros s2 H2 (_ & _ & J3 & J4 & _). destruct (is_idle (y_state s2)) eqn:Ei; cbn [negb].
      2: { apply quiet_leave; auto. }
      assert (Nj : from_job s2 <> []). { intro X. apply (J4 X). destruct (y_state s2); auto; discriminate. }
      assert (St : forall u v, from_job u <> [] -> takes u v -> from_job v <> []) by (intros u v Hu (_ & _ & Hj & _); auto).
      assert (Free : forall g q, (forall s, y_mem (g s) = y_mem s /\ y_wild (g s) = y_wild s /\ y_wire (g s) = y_wire s) ->
        (forall s, from_job s <> [] -> goA None q s) -> forall s, from_job s <> [] -> goA None (wr g q) s).
      { intros g q Hg Hq s3 H3. eapply (go_wr _ _ _ _ (fun s => from_job s <> [])); auto using next_none.
        intros s4 H4 (K1 & K2 & K3 & K4 & K5). destruct (Hg s4) as (G1 & G2 & G3).
        assert (Ej : from_job (g s4) = from_job s4) by (unfold from_job; now rewrite G3).
        split; [|split].
        - repeat split; auto; intros; congruence.
        - repeat split; try congruence; rewrite ?Ej; auto; congruence.
        - apply Hq. now rewrite Ej. }
      eapply (go_rd _ _ _ _ gives_refl (fun s => from_job s <> [])); auto using next_none.
      intros s3 H3 _. destruct (y_busy s3); [apply quiet_leave; auto|].
      unfold set_busy, enter. eapply (go_do _ _ _ _ (fun s => from_job s <> [])); auto using next_none.
      intros s4 H4 (K1 & K2 & K3 & K4 & K5).
      set (q := wr (set_flag true) _).
      assert (Qq : forall s, from_job s <> [] -> goA None q s).
      { unfold q. apply Free; [repeat split; auto|]. unfold leave at 1. apply Free; [repeat split; auto|].
        do 3 (apply Free; [repeat split; auto|]). intros. apply quiet_leave; auto. }
      assert (G4 : forall l, gives s4 (set_lock l s4) /\ inv (set_lock l s4) /\ goA None q (set_lock l s4)).
      { intro l'. split; [|split]; [| |apply Qq; exact H4].
        - repeat split; auto; intros; congruence.
        - repeat split; auto; congruence. }
      destruct (y_lock s4) as [[t' d]|]; [destruct (c_lock c); [reflexivity|destruct (eqb true t'); [apply G4|reflexivity]]|apply G4]. }
  destruct (y_lock s1) as [[t' d]|]; [destruct (c_lock c); [reflexivity|destruct (eqb true t'); [apply Go|reflexivity]]|apply Go].
Qed.

Lemma reply_go : last = true -> forall f p, (forall s, goA None p s) -> forall s, goA None (reply true f p) s.
Proof.
  intros Hl f p H s. eapply (go_wr _ _ _ _ (fun _ => True)); auto using next_none.
  intros s1 _ (I1 & I2 & I3 & I4 & I5). split; [|split; [|apply H]].
  - repeat split; auto. rewrite fj_add. apply app_nil_r.
  - repeat split; auto; rewrite ?fj_add, ?app_nil_r; auto; congruence.
Qed.

Lemma serve_go : last = true -> forall qs, Forall (in_range c) qs -> forall s, goA None (serve c qs) s.
Proof.
  intros Hl qs. induction qs as [|q qs IH]; intros Hq s; cbn [serve].
  - apply (go_halt _ _ _ _ (fun _ => True)); auto. intros s1 _ _ X. congruence.
  - apply Forall_cons_iff in Hq. destruct Hq as (Hq & Hqs). specialize (IH Hqs).
    eapply (go_rd _ _ _ _ gives_refl (fun _ => True)); auto using next_none.
    intros s1 _ _. cbn [option_map]. destruct (y_busy s1) eqn:Eb; [now apply reply_go|].
    destruct q as [x m|f]; [|now apply reply_go]. unfold build. destruct (N.leb_spec m (c_chunk c)); [|now apply started_go].
    cbn [in_range] in Hq. unfold in_space in Hq. unfold look. eapply (go_do _ _ _ _ (fun _ => True)); auto using next_none.
    intros s2 _ Hi. destruct (N.ltb_spec (aspace c) (x + m)); [lia|]. split; [apply gives_refl|]. split; [exact Hi|]. now apply reply_go.
Qed.

(** *** The computation *)

Definition Q2 (s : jm) : Prop := last = true -> from_job s = [answer].
Definition goB (n : nat) := go inv gives takes Q2 (Some n).

Lemma go_mono : forall S (I : S -> Prop) R G Q p n m s, (n <= m)%nat -> go I R G Q (Some n) p s -> go I R G Q (Some m) p s.
Proof.
  intros S I R G Q. fix IH 1. intros [|f] i m s Hm H; cbn in *.
  - exact H.
  - intros s' Hr Hi. destruct (H s' Hr Hi) as (Hn & H1). split; [intro X; injection X as X; apply Hn; f_equal; lia|].
    destruct (f s') as [[s2 p2]|]; [|discriminate H1]. destruct H1 as (A & B & C). split; [exact A|]. split; [exact B|].
    eapply IH; [|exact C]. lia.
Qed.

(** The members of the job have these values. *)
Definition mid (x : jstate) (y z v : N) (s : jm) : Prop :=
  from_job s = [] /\ y_busy s = true /\ y_lock s = None /\ y_state s = x /\ y_addr s = y /\ y_size s = z /\ y_sum s = v.
Lemma mid_stable : forall x y z v s s', mid x y z v s -> gives s s' -> mid x y z v s'.
Proof.
  intros x y z v s s' (A & B & C & D & E & F & G) (H1 & H2 & H3 & H4). destruct (H4 A) as (H5 & H6 & H7). destruct (H7 B) as (H8 & H9 & H10 & H11).
  repeat split; congruence.
Qed.
Lemma b_rd : forall {A} (g : jm -> A) kk i x y z v s, mid x y z v s ->
  (forall s, mid x y z v s -> goB i (kk (g s)) s) -> goB (S i) (rd g kk) s.
Proof.
  intros A g kk i x y z v s Hs H. unfold goB. eapply (go_rd _ _ _ _ takes_refl (mid x y z v));
    [unfold next; discriminate|apply mid_stable|exact Hs|intros s1 H1 _; exact (H s1 H1)].
Qed.
Lemma b_wr : forall g p i x y z v x' y' z' v' s, mid x y z v s -> x' <> JIdle ->
  (forall s, mid x y z v s -> mid x' y' z' v' (g s) /\ y_mem (g s) = y_mem s /\ y_wild (g s) = y_wild s /\ y_wire (g s) = y_wire s) ->
  (forall s, mid x' y' z' v' s -> goB i p s) -> goB (S i) (wr g p) s.
Proof.
  intros g p i x y z v x' y' z' v' s Hs Hx Hg Hp. unfold goB. eapply (go_wr _ _ _ _ (mid x y z v)); [unfold next; discriminate|apply mid_stable|exact Hs|].
  intros s1 H1 (I1 & I2 & I3 & I4 & I5). destruct (Hg s1 H1) as (M & G1 & G2 & G3).
  assert (Ec : from_commands (g s1) = from_commands s1) by (unfold from_commands; now rewrite G3).
  destruct M as (M1 & M2 & M3 & M4 & M5 & M6 & M7). destruct H1 as (A & B & _).
  split; [|split].
  - repeat split; auto; congruence.
  - split; [congruence|]. split; [congruence|]. split; [now left|]. split; [intros _; congruence|].
    intro L. split; [exact M2|]. rewrite Ec. apply (I5 L).
  - apply Hp. repeat split; auto.
Qed.

(** Reading of memory and update of the checksum. *)
Lemma b_sum : forall p i x y z v (bb : N) (first : bool) (sz : option N) s, mid x y z v s -> x <> JIdle ->
  (sz = Some bb \/ (sz = None /\ z = bb)) -> in_space c y bb ->
  (forall s, mid x y z (calc (c_cks c) (c_host_be c) (mem_at mm y bb) (if first then 0 else v) first) s -> goB i p s) ->
  goB (5 + i) (sum_next c sz first p) s.
Proof.
  intros p i x y z v bb first sz s Hs Hx Hz Sp Hp.
  assert (Go : forall s, mid x y z v s -> goB (3 + i) (rd y_sum (fun v => look c y bb (fun bs =>
     wr (set_sum (calc (c_cks c) (c_host_be c) bs (if first then 0 else v) first)) p))) s).
  { clear s Hs. intros s Hs. cbn [Nat.add]. eapply b_rd; eauto. intros s1 H1. unfold goB, look.
    eapply (go_do _ _ _ _ (mid x y z v)); [unfold next; discriminate|apply mid_stable|exact H1|].
    intros s2 H2 Hi. unfold in_space in Sp. destruct (N.ltb_spec (aspace c) (y + bb)); [lia|].
    split; [apply takes_refl|]. split; [exact Hi|]. cbn [option_map pred].
    eapply (b_wr _ _ i x y z v x y z (calc (c_cks c) (c_host_be c) (mem_at mm y bb) (if first then 0 else v) first)); eauto.
    intros s3 (M1 & M2 & M3 & M4 & M5 & M6 & M7). repeat split; auto. cbn [set_sum y_sum].
    destruct H1 as (_ & _ & _ & _ & _ & _ & H1). destruct Hi as (Hm & _). now rewrite Hm, mem_at_read, H1. }
  unfold sum_next. cbn [Nat.add]. eapply b_rd; eauto. intros s1 H1. destruct H1 as (A & B & C & D & E & F & G). rewrite E.
  destruct Hz as [->|(-> & Ez)].
  - apply (go_mono _ _ _ _ _ _ (3 + i)%nat); [lia|]. apply Go. repeat split; auto.
  - eapply (b_rd _ _ _ x y z v); [repeat split; auto|]. intros s2 H2. assert (Es : y_size s2 = bb) by (destruct H2 as (_ & _ & _ & _ & _ & X & _); congruence).
    rewrite Es. now apply Go.
Qed.

Lemma b_advance : forall p i x y z v s, mid x y z v s -> x <> JIdle ->
  (forall s, mid x ((y + k) mod aspace c) (sub32 z k) v s -> goB i p s) -> goB (4 + i) (advance c p) s.
Proof.
  intros p i x y z v s Hs Hx Hp. unfold advance. cbn [Nat.add].
  eapply b_rd; eauto. intros s1 H1. assert (Ez : y_size s1 = z) by (now destruct H1 as (_ & _ & _ & _ & _ & X & _)). rewrite Ez.
  eapply (b_wr _ _ _ x y z v x y (sub32 z k) v); eauto.
  { intros s2 (M1 & M2 & M3 & M4 & M5 & M6 & M7). repeat split; auto. }
  intros s2 H2. eapply b_rd; eauto. intros s3 H3. assert (Ey : y_addr s3 = y) by (now destruct H3 as (_ & _ & _ & _ & X & _)). rewrite Ey.
  eapply (b_wr _ _ _ x y (sub32 z k) v x ((y + k) mod aspace c) (sub32 z k) v); eauto.
  intros s4 (M1 & M2 & M3 & M4 & M5 & M6 & M7). repeat split; auto.
Qed.

(** The job after [i] calls. *)
Definition part (i : N) : N := calc (c_cks c) (c_host_be c) (mem_at mm a (i * k)) 0 true.
Definition after (i : N) (s : jm) : Prop :=
  if i =? 0 then exists v, mid JInit a n v s
  else mid (if i + 1 =? calls k n then JFinal else JRem) ((a + i * k) mod aspace c) (n - i * k) (part i) s.

Lemma n_big : 2 * k <= n < 2 ^ 32. Proof. apply Cp. Qed.
Lemma calls_q : exists q, calls k n = N.max 3 q /\ k * q <= n + k - 1 < k * q + k.
Proof.
  exists ((n + k - 1) / k). split; [reflexivity|].
  pose proof (N.div_mod (n + k - 1) k ltac:(lia)). pose proof (N.mod_lt (n + k - 1) k ltac:(lia)).
  set (q := (n + k - 1) / k) in *. clearbody q. lia.
Qed.
Lemma done_le : forall i, i < calls k n -> i * k <= n.
Proof.
  intros i H. pose proof n_big. destruct calls_q as (q & E & Q). rewrite E in H.
  destruct (N.leb_spec i 2); [nia|]. assert (i + 1 <= q) by lia. nia.
Qed.
Lemma last_iff : forall i, 2 <= i < calls k n -> (n - i * k <=? k) = (i + 1 =? calls k n).
Proof.
  intros i H. pose proof (done_le i ltac:(lia)). pose proof n_big. destruct calls_q as (q & E & Q). rewrite E in *.
  destruct (N.eqb_spec (i + 1) (N.max 3 q)); [apply N.leb_le|apply N.leb_gt].
  - destruct (N.leb_spec q 3); [assert (i = 2) by lia; subst i; nia|]. assert (i + 1 = q) by lia. nia.
  - assert (i + 2 <= q) by lia. nia.
Qed.
Lemma sub32_sub : forall x, k <= x < 2 ^ 32 -> sub32 x k = x - k.
Proof.
  intros x H. unfold sub32. replace (x + (2 ^ 32 - k)) with (x - k + 1 * 2 ^ 32) by lia. rewrite N.mod_add by discriminate. apply N.mod_small. lia.
Qed.
Lemma composes_mul : forall mth i, composes mth k -> composes mth (i * k).
Proof. intros mth i H. destruct mth; cbn [composes] in *; auto. all: rewrite N.mul_mod, H by discriminate; rewrite N.mul_0_r; reflexivity. Qed.
Lemma part_next : forall i d, (i + 1) * k <= n \/ i * k + d <= n ->
  calc (c_cks c) (c_host_be c) (mem_at mm a (i * k + d)) 0 true =
  calc (c_cks c) (c_host_be c) (mem_at mm (a + i * k) d) (part i) false.
Proof.
  intros i d _. rewrite mem_at_app. apply calc_app. rewrite lenN_mem_at. apply composes_mul. apply Cp.
Qed.

(** Skips the tests of the state that fail. *)
Lemma main_more : forall i p j s, after i s -> i + 1 < calls k n ->
  (forall s, after (i + 1) s -> goB j p s) -> goB (15 + j) (main_job c p) s.
Proof.
  intros i p j s Hs Hi Hp. pose proof n_big as Hn. destruct Cp as (_ & Sp & Cm). unfold in_space in Sp.
  pose proof (done_le (i + 1) Hi) as Hd. assert (i * k <= n) by nia.
  pose proof (N.mod_lt (a + i * k) (aspace c) ltac:(unfold aspace; apply N.pow_nonzero; discriminate)) as Ml.
  assert (Na : aspace c <> 0) by (unfold aspace; apply N.pow_nonzero; discriminate).
  unfold after in Hs. unfold main_job. destruct (N.eqb_spec i 0) as [->|I0].
  - destruct Hs as (v & Hs). apply (go_mono _ _ _ _ _ _ (2 + (5 + (4 + (1 + j))))%nat); [lia|]. cbn [Nat.add].
    eapply b_rd; eauto. intros s1 H1. assert (E1 : y_state s1 = JInit) by apply H1. rewrite E1. cbn [is_idle].
    eapply b_rd; eauto. intros s2 H2. assert (E2 : y_state s2 = JInit) by apply H2. rewrite E2.
    eapply (b_sum _ (S (S (S (S (S j))))) JInit a n v k); eauto; [discriminate|unfold in_space; nia|]. intros s3 H3.
    eapply (b_advance _ (S j)); [exact H3|discriminate|]. intros s4 H4.
    eapply (b_wr _ _ _ _ _ _ _ JRem); [exact H4|discriminate| |].
    { intros s5 (M1 & M2 & M3 & M4 & M5 & M6 & M7). repeat split; eauto. }
    intros s5 H5. apply Hp. unfold after. destruct (N.eqb_spec (0 + 1) 0); [lia|].
    destruct calls_q as (q & Eq & _). destruct (N.eqb_spec (0 + 1 + 1) (calls k n)); [lia|].
    replace ((0 + 1) * k) with k by lia. rewrite sub32_sub in H5 by lia. unfold part. replace ((0 + 1) * k) with k by lia. exact H5.
  - destruct (N.eqb_spec (i + 1) (calls k n)); [lia|].
    assert (Hlt : a + i * k < aspace c) by nia. rewrite N.mod_small in Hs by lia.
    apply (go_mono _ _ _ _ _ _ (3 + (5 + (4 + (2 + j))))%nat); [lia|]. cbn [Nat.add].
    eapply b_rd; eauto. intros s1 H1. assert (E1 : y_state s1 = JRem) by apply H1. rewrite E1. cbn [is_idle].
    eapply b_rd; eauto. intros s2 H2. assert (E2 : y_state s2 = JRem) by apply H2. rewrite E2.
    eapply b_rd; eauto. intros s3 H3. assert (E3 : y_state s3 = JRem) by apply H3. rewrite E3.
    eapply (b_sum _ (S (S (S (S (S (S j)))))) JRem (a + i * k) (n - i * k) (part i) k); eauto; [discriminate|unfold in_space; nia|]. intros s4 H4.
    rewrite <- (part_next i k) in H4 by nia. replace (i * k + k) with ((i + 1) * k) in H4 by lia. fold (part (i + 1)) in H4.
    eapply (b_advance _ (S (S j))); [exact H4|discriminate|]. intros s5 H5.
    rewrite sub32_sub in H5 by nia. replace (n - i * k - k) with (n - (i + 1) * k) in H5 by nia.
    replace (a + i * k + k) with (a + (i + 1) * k) in H5 by nia.
    eapply b_rd; eauto. intros s6 H6. assert (E6 : y_size s6 = n - (i + 1) * k) by apply H6. rewrite E6.
    change (c_chunk c) with k. rewrite last_iff by lia.
    assert (Fin : forall s, mid (if i + 1 + 1 =? calls k n then JFinal else JRem) ((a + (i + 1) * k) mod aspace c) (n - (i + 1) * k) (part (i + 1)) s -> goB j p s).
    { intros s7 H7. apply Hp. unfold after. destruct (N.eqb_spec (i + 1) 0); [lia|]. exact H7. }
    destruct (i + 1 + 1 =? calls k n).
    + eapply (b_wr _ _ _ _ _ _ _ JFinal); [exact H6|discriminate| |exact Fin].
      intros s7 (M1 & M2 & M3 & M4 & M5 & M6 & M7). repeat split; eauto.
    + apply (go_mono _ _ _ _ _ _ j); [lia|]. apply Fin. exact H6.
Qed.

Lemma frame_is : forall bs, bytes bs -> c_cks c <> CRC32 ->
  checksum_frame c (calc (c_cks c) (c_host_be c) bs 0 true) = sum_answer c bs.
Proof.
  intros bs B H. unfold checksum_frame, sum_answer, checksum_answer. f_equal. rewrite calc_spec by auto.
  apply le32_le_bytes. now apply spec_bound.
Qed.

Lemma main_last : forall i s, after i s -> i + 1 = calls k n -> last = true -> goB 15 (main_job c Halt) s.
Proof.
  intros i s Hs Hi Hl. pose proof n_big as Hn. destruct Cp as (_ & Sp & Cm). unfold in_space in Sp.
  destruct calls_q as (q & Eq & _). pose proof (done_le i ltac:(lia)) as Hd.
  assert (Na : aspace c <> 0) by (unfold aspace; apply N.pow_nonzero; discriminate).
  assert (Nc : c_cks c <> CRC32) by (destruct (c_cks c); cbn [composes] in Cm; try contradiction; discriminate).
  unfold after in Hs. destruct (N.eqb_spec i 0); [lia|]. rewrite Hi, N.eqb_refl in Hs.
  pose proof (N.mod_lt (a + i * k) (aspace c) Na) as Ml.
  assert (Sp2 : in_space c ((a + i * k) mod aspace c) (n - i * k)).
  { unfold in_space. destruct (N.eq_dec (i * k) n) as [En|En]; [rewrite En, N.sub_diag in *; lia|]. rewrite N.mod_small by lia. lia. }
  set (V := calc (c_cks c) (c_host_be c) (mem_at mm a n) 0 true).
  unfold main_job.
  eapply b_rd; eauto. intros s1 H1. assert (E1 : y_state s1 = JFinal) by apply H1. rewrite E1. cbn [is_idle].
  eapply b_rd; eauto. intros s2 H2. assert (E2 : y_state s2 = JFinal) by apply H2. rewrite E2.
  eapply b_rd; eauto. intros s3 H3. assert (E3 : y_state s3 = JFinal) by apply H3. rewrite E3.
  eapply b_rd; eauto. intros s4 H4. assert (E4 : y_state s4 = JFinal) by apply H4. rewrite E4.
  eapply (b_sum _ 6 JFinal _ (n - i * k) (part i) (n - i * k)); eauto; [discriminate|]. intros s5 H5.
  replace (calc _ _ _ _ _) with V in H5.
  2: { unfold V. transitivity (calc (c_cks c) (c_host_be c) (mem_at mm a (i * k + (n - i * k))) 0 true); [do 2 f_equal; lia|].
       rewrite (part_next i) by lia. destruct (N.eq_dec (i * k) n) as [En|En]; [rewrite En, N.sub_diag; reflexivity|].
       now rewrite N.mod_small by lia. }
  unfold set_busy, enter, goB.
  eapply (go_do _ _ _ _ (mid JFinal _ _ V)); [unfold next; discriminate|apply mid_stable|exact H5|].
  intros s6 H6 I6. assert (L6 : y_lock s6 = None) by apply H6. rewrite L6. destruct I6 as (I1 & I2 & I3 & I4 & I5).
  destruct H6 as (M1 & M2 & M3 & M4 & M5 & M6 & M7).
  split; [repeat split; auto|]. split; [repeat split; auto; congruence|].
  eapply (go_wr _ _ _ _ (fun s => from_job s = [] /\ y_sum s = V)); [unfold next; discriminate| |split; auto|].
  { intros x y (A1 & A2) (_ & _ & B3 & B4). destruct (B4 A1) as (B5 & B6 & B7). split; congruence. }
  intros s7 (A1 & A2) (J1 & J2 & J3 & J4 & J5).
  split; [repeat split; auto|]. split; [repeat split; auto; congruence|].
  assert (St : forall x y, from_job x = [] /\ y_sum x = V -> gives x y -> from_job y = [] /\ y_sum y = V).
  { intros x y (A3 & A4) (_ & _ & B3 & B4). destruct (B4 A3) as (B5 & _). split; congruence. }
  eapply (go_wr _ _ _ _ (fun s => from_job s = [] /\ y_sum s = V)); [unfold next; discriminate|exact St|split; auto|].
  intros s8 (B1 & B2) (K1 & K2 & K3 & K4 & K5).
  split; [repeat split; auto|]. split; [repeat split; auto; congruence|].
  eapply (go_rd _ _ _ _ takes_refl (fun s => from_job s = [] /\ y_sum s = V)); [unfold next; discriminate|exact St|split; auto|].
  intros s9 (C1 & C2) _. rewrite C2.
  assert (Fr : checksum_frame c V = answer) by (unfold V, answer; apply frame_is; auto; now apply mem_at_bytes).
  rewrite Fr.
  eapply (go_wr _ _ _ _ (fun s => from_job s = [] /\ y_sum s = V)); [unfold next; discriminate|exact St|split; auto|].
  intros s10 (D1 & D2) (N1 & N2 & N3 & N4 & N5).
  assert (Fj : from_job (add_frame false answer s10) = [answer]) by (rewrite fj_add, D1; reflexivity).
  split; [|split].
  - split; [reflexivity|]. split; [auto|]. split; [intros _; rewrite Fj; discriminate|rewrite fc_add; apply app_nil_r].
  - split; [exact N1|]. split; [exact N2|]. split; [right; auto|]. split; [intro X; congruence|intro X; congruence].
  - eapply (go_wr _ _ _ _ (fun s => from_job s = [answer])); [unfold next; discriminate| |exact Fj|].
    { intros x y A3 (_ & _ & B3 & _). congruence. }
    intros s11 F1 (O1 & O2 & O3 & O4 & O5). split; [repeat split; auto|]. split.
    + split; [exact O1|]. split; [exact O2|]. split; [exact O3|]. split; [|intro X; congruence].
      intro X. assert (Y : from_job s11 = []) by exact X. congruence.
    + apply (go_halt _ _ _ _ (fun s => from_job s = [answer])); [|exact F1|intros s12 F2 _ _; exact F2].
      intros x y A3 (_ & _ & B3 & _). congruence.
Qed.

Lemma mains_go : forall j i s, after (N.of_nat i) s -> (i + j)%nat = N.to_nat (calls k n) -> last = true -> (0 < j)%nat ->
  goB (15 * j) (mains c j) s.
Proof.
  induction j as [|j IH]; intros i s Hs Hj Hl H0; [lia|]. cbn [mains]. destruct j as [|j].
  - eapply main_last; eauto. lia.
  - replace (15 * S (S j))%nat with (15 + 15 * S j)%nat by lia. eapply main_more; eauto; [lia|]. intros s1 H1. apply (IH (i + 1)%nat); auto; try lia.
    replace (N.of_nat (i + 1)) with (N.of_nat i + 1) by lia. exact H1.
Qed.
Lemma mains_less : forall j i s, after (N.of_nat i) s -> (i + j < N.to_nat (calls k n))%nat -> last = false ->
  goB (15 * j) (mains c j) s.
Proof.
  induction j as [|j IH]; intros i s Hs Hj Hl.
  - apply (go_halt _ _ _ _ (fun _ => True)); auto. intros s1 _ _ X. congruence.
  - cbn [mains]. replace (15 * S j)%nat with (15 + 15 * j)%nat by lia. eapply main_more; eauto; [lia|]. intros s1 H1. apply (IH (i + 1)%nat); auto; try lia.
    replace (N.of_nat (i + 1)) with (N.of_nat i + 1) by lia. exact H1.
Qed.
End Sum.

Lemma started_inv : forall c a n s last total, started a n s -> inv c (y_mem s) a n last total s /\ after c (y_mem s) a n 0 s.
Proof.
  intros c a n s last total (A & B & C & D & E & F & G).
  assert (J : from_job s = []) by (unfold from_job; now rewrite F). assert (X : from_commands s = []) by (unfold from_commands; now rewrite F).
  split.
  - split; [auto|]. split; [auto|]. split; [now left|]. split; [intros _; congruence|]. intros _. split; [auto|]. exists 0%nat. split; [lia|exact X].
  - exists (y_sum s). repeat split; auto.
Qed.

Theorem busy_thm : forall c a n s qs m sched, wf_job c s -> computable c a n -> started a n s -> m < calls (c_chunk c) n ->
  let s' := shared (run sched (serve c qs) (mains c (N.to_nat m)) s) in
  y_wild s' = false /\ from_job s' = [] /\
  exists i, (i <= length qs)%nat /\ from_commands s' = repeat busy_answer i /\
    ((2 * length qs <= turns_of true sched)%nat -> i = length qs).
Proof.
  intros c a n s qs m sched (Wk & Wm) Cp St Hm.
  destruct (started_inv c a n s false (length qs) St) as (Hi & Ha).
  assert (F0 : from_commands s = repeat busy_answer 0) by (unfold from_commands; destruct St as (_ & _ & _ & _ & _ & -> & _); reflexivity).
  pose proof (serve_busy c (y_mem s) a n false (length qs) Wk Wm eq_refl qs 0 s eq_refl F0) as GA.
  pose proof (mains_less c (y_mem s) a n false (length qs) Wk Wm Cp (N.to_nat m) 0 s Ha ltac:(lia) eq_refl) as GB.
  pose proof (go_par _ _ _ _ _ _ _ takes_refl takes_trans gives_refl gives_trans (fun _ _ H => H) (fun _ _ H => H) sched _ _ _ _ _ Hi GA GB) as P.
  unfold shared. destruct (run sched (serve c qs) (mains c (N.to_nat m)) s) as [[a' b'] s']. cbn [snd].
  destruct P as (Pi & PA & _). pose proof Pi as (I1 & I2 & I3 & I4 & I5). split; [exact I2|]. split; [destruct I3 as [I3|(X & _)]; [exact I3|discriminate]|].
  destruct (I5 eq_refl) as (_ & i & Hi1 & Hi2). exists i. split; [exact Hi1|]. split; [exact Hi2|]. intro T.
  cbn [less option_map] in PA. replace (2 * length qs - turns_of true sched)%nat with 0%nat in PA by lia.
  destruct (go_end _ _ _ _ takes_refl _ _ Pi PA) as (_ & HQ). specialize (HQ eq_refl). rewrite Hi2 in HQ.
  apply (f_equal (@length _)) in HQ. now rewrite !repeat_length in HQ.
Qed.

Theorem exact_thm : forall c a n s qs sched, wf_job c s -> computable c a n -> started a n s -> Forall (in_range c) qs ->
  let s' := shared (run sched (serve c qs) (mains c (N.to_nat (calls (c_chunk c) n))) s) in
  y_wild s' = false /\ (from_job s' = [] \/ from_job s' = [sum_answer c (mem_at (y_mem s) a n)]) /\
  ((accesses * N.to_nat (calls (c_chunk c) n) <= turns_of false sched)%nat -> from_job s' = [sum_answer c (mem_at (y_mem s) a n)]).
Proof.
  intros c a n s qs sched (Wk & Wm) Cp St Hq.
  destruct (started_inv c a n s true (length qs) St) as (Hi & Ha).
  pose proof (serve_go c (y_mem s) a n true (length qs) Wk Wm eq_refl qs Hq s) as GA.
  pose proof (mains_go c (y_mem s) a n true (length qs) Wk Wm Cp (N.to_nat (calls (c_chunk c) n)) 0 s Ha ltac:(lia) eq_refl ltac:(unfold calls; lia)) as GB.
  pose proof (go_par _ _ _ _ _ _ _ takes_refl takes_trans gives_refl gives_trans (fun _ _ H => H) (fun _ _ H => H) sched _ _ _ _ _ Hi GA GB) as P.
  unfold shared. destruct (run sched _ _ s) as [[a' b'] s']. cbn [snd].
  destruct P as (Pi & _ & PB). pose proof Pi as (I1 & I2 & I3 & I4 & I5). split; [exact I2|]. split; [tauto|]. intro T.
  cbn [less option_map] in PB. unfold accesses in T.
  replace (15 * N.to_nat (calls (c_chunk c) n) - turns_of false sched)%nat with 0%nat in PB by lia.
  destruct (go_end _ _ _ _ gives_refl _ _ Pi PB) as (_ & HQ). exact (HQ eq_refl).
Qed.
