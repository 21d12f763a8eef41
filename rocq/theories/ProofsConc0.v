(** Rely-guarantee reasoning for two threads; threads running alone. *)
From Coq Require Import List Bool.
From Verif Require Import Conc.
Import ListNotations.

Section Safe.
Context {S : Type}.
Variables (I : S -> Prop) (R G : S -> S -> Prop) (Q : S -> Prop).

(** Started in [s], the program changes the state only as [G] allows and keeps [I], if the
    other thread changes it as [R] allows and keeps [I]; [Q] holds at the end. *)
Fixpoint safe (p : prog S) (s : S) {struct p} : Prop :=
  forall s', R s s' -> I s' ->
  match p with
  | Halt => Q s'
  | Do f => match f s' with None => True | Some (s2, p2) => G s' s2 /\ I s2 /\ safe p2 s2 end
  end.

Hypothesis Rr : forall s, R s s.
Hypothesis Rt : forall a b c, R a b -> R b c -> R a c.

Lemma safe_rely : forall p s s', safe p s -> R s s' -> safe p s'.
Proof. destruct p; cbn; intros s s' H Hr s2 Hr2 Hi; exact (H s2 (Rt _ _ _ Hr Hr2) Hi). Qed.

Lemma safe_access : forall p s, I s -> safe p s ->
  let (p', s') := access p s in I s' /\ safe p' s' /\ (s' = s \/ G s s').
Proof.
  destruct p as [|f]; cbn [access]; intros s Hi H.
  - repeat split; auto.
  - pose proof (H s (Rr s) Hi) as H1. cbn in H1. destruct (f s) as [[s2 p2]|]; [tauto|]. auto.
Qed.
End Safe.

Section Par.
Context {S : Type}.
Variables (I : S -> Prop) (R1 G1 R2 G2 : S -> S -> Prop) (Q1 Q2 : S -> Prop).
Hypothesis Rr1 : forall s, R1 s s.
Hypothesis Rt1 : forall a b c, R1 a b -> R1 b c -> R1 a c.
Hypothesis Rr2 : forall s, R2 s s.
Hypothesis Rt2 : forall a b c, R2 a b -> R2 b c -> R2 a c.
Hypothesis G12 : forall a b, G1 a b -> R2 a b.
Hypothesis G21 : forall a b, G2 a b -> R1 a b.

Theorem par : forall sched a b s, I s -> safe I R1 G1 Q1 a s -> safe I R2 G2 Q2 b s ->
  let '(a', b', s') := run sched a b s in I s' /\ safe I R1 G1 Q1 a' s' /\ safe I R2 G2 Q2 b' s'.
Proof.
  induction sched as [|[|] t IH]; intros a b s Hi Ha Hb; cbn [run].
  - auto.
  - pose proof (safe_access I R1 G1 Q1 Rr1 a s Hi Ha) as H. destruct (access a s) as [a' s'].
    destruct H as (Hi' & Ha' & Hg). apply IH; auto.
    destruct Hg as [->|Hg]; auto. eapply safe_rely; eauto.
  - pose proof (safe_access I R2 G2 Q2 Rr2 b s Hi Hb) as H. destruct (access b s) as [b' s'].
    destruct H as (Hi' & Hb' & Hg). apply IH; auto.
    destruct Hg as [->|Hg]; auto. eapply safe_rely; eauto.
Qed.

Lemma par_end : forall sched a b s, I s -> safe I R1 G1 Q1 a s -> safe I R2 G2 Q2 b s ->
  finished (run sched a b s) -> Q1 (shared (run sched a b s)) /\ Q2 (shared (run sched a b s)).
Proof.
  intros sched a b s Hi Ha Hb Hf. pose proof (par sched a b s Hi Ha Hb) as H.
  unfold finished, shared in *. destruct (run sched a b s) as [[a' b'] s']. cbn [fst snd] in *.
  injection Hf as -> ->. destruct H as (Hi' & H1 & H2). cbn in H1, H2. split; auto.
Qed.
End Par.

(** Rules for programs, with an assertion [P] the other thread cannot break. *)
Section Rules.
Context {S : Type}.
Variables (I : S -> Prop) (R G : S -> S -> Prop) (Q : S -> Prop).
Hypothesis Gr : forall s, G s s.

Lemma safe_halt : forall (P : S -> Prop) s, (forall a b, P a -> R a b -> P b) -> P s ->
  (forall s, P s -> I s -> Q s) -> safe I R G Q Halt s.
Proof. cbn. intros P s Hst Hp H s' Hr Hi. eauto. Qed.

Lemma safe_rd : forall (P : S -> Prop) {A} (g : S -> A) k s, (forall a b, P a -> R a b -> P b) -> P s ->
  (forall s, P s -> I s -> safe I R G Q (k (g s)) s) -> safe I R G Q (rd g k) s.
Proof. cbn. intros P A g k s Hst Hp H s' Hr Hi. repeat split; eauto. Qed.

Lemma safe_wr : forall (P : S -> Prop) g k s, (forall a b, P a -> R a b -> P b) -> P s ->
  (forall s, P s -> I s -> G s (g s) /\ I (g s) /\ safe I R G Q k (g s)) -> safe I R G Q (wr g k) s.
Proof. cbn. intros P g k s Hst Hp H s' Hr Hi. eauto. Qed.

Lemma safe_acquire : forall (P : S -> Prop) h g k s, (forall a b, P a -> R a b -> P b) -> P s ->
  (forall s, P s -> I s -> G s (g s) /\ I (g s) /\ safe I R G Q k (g s)) -> safe I R G Q (acquire h g k) s.
Proof. cbn. intros P h g k s Hst Hp H s' Hr Hi. destruct (h s'); eauto. Qed.
End Rules.

(** A thread runs alone for a while. *)
Section Solo.
Context {S : Type}.
Inductive solo : prog S -> S -> prog S -> S -> Prop :=
| solo_refl : forall p s, solo p s p s
| solo_step : forall f s s1 p1 p2 s2, f s = Some (s1, p1) -> solo p1 s1 p2 s2 -> solo (Do f) s p2 s2.

Lemma solo_trans : forall p s p1 s1 p2 s2, solo p s p1 s1 -> solo p1 s1 p2 s2 -> solo p s p2 s2.
Proof. induction 1; auto. intros. econstructor; eauto. Qed.

Lemma solo_rd : forall A (g : S -> A) k s p2 s2, solo (k (g s)) s p2 s2 -> solo (rd g k) s p2 s2.
Proof. intros. econstructor; [reflexivity|]. auto. Qed.
Lemma solo_wr : forall g k s p2 s2, solo k (g s) p2 s2 -> solo (wr g k) s p2 s2.
Proof. intros. econstructor; [reflexivity|]. auto. Qed.
Lemma solo_acquire : forall h g k s p2 s2, h s = false -> solo k (g s) p2 s2 -> solo (acquire h g k) s p2 s2.
Proof. intros h g k s p2 s2 H H1. econstructor; [|exact H1]. rewrite H. reflexivity. Qed.

Lemma run_app : forall l1 l2 (a b : prog S) s,
  run (l1 ++ l2) a b s = let '(a', b', s') := run l1 a b s in run l2 a' b' s'.
Proof.
  induction l1 as [|[|] t IH]; intros; cbn [run app]; auto; destruct (access _ s); apply IH.
Qed.

Lemma solo_run1 : forall p s p2 s2 b, solo p s p2 s2 -> exists l, run l p b s = (p2, b, s2).
Proof.
  induction 1 as [p s|f s s1 p1 p2 s2 Hf Hs [l Hl]].
  - exists []. reflexivity.
  - exists (true :: l). cbn [run access]. rewrite Hf. exact Hl.
Qed.
Lemma solo_run2 : forall p s p2 s2 a, solo p s p2 s2 -> exists l, run l a p s = (a, p2, s2).
Proof.
  induction 1 as [p s|f s s1 p1 p2 s2 Hf Hs [l Hl]].
  - exists []. reflexivity.
  - exists (false :: l). cbn [run access]. rewrite Hf. exact Hl.
Qed.

(** First one thread, then the other, then the first, then the other. *)
Lemma relay : forall a b s a1 s1 b1 s2 a2 s3 b2 s4,
  solo a s a1 s1 -> solo b s1 b1 s2 -> solo a1 s2 a2 s3 -> solo b1 s3 b2 s4 ->
  exists l, run l a b s = (a2, b2, s4).
Proof.
  intros a b s a1 s1 b1 s2 a2 s3 b2 s4 H1 H2 H3 H4.
  destruct (solo_run1 _ _ _ _ b H1) as [l1 E1]. destruct (solo_run2 _ _ _ _ a1 H2) as [l2 E2].
  destruct (solo_run1 _ _ _ _ b1 H3) as [l3 E3]. destruct (solo_run2 _ _ _ _ a2 H4) as [l4 E4].
  exists (l1 ++ l2 ++ l3 ++ l4). rewrite run_app, E1, run_app, E2, run_app, E3. exact E4.
Qed.
End Solo.
